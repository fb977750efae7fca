(** Requests return: along every schedule on which the goroutines of a request get their turns. *)
From Coq Require Import ZArith List Lia Bool Arith.
From Coq Require Import Init.Byte.
From Verif Require Import Params Bytes Res Secp Dto Dss Prot ProtSpec ProtProofs ProtProofs2 ProtProofs3 ProtProofs6 DkgProt DkgProofs KMap Firewall FwSpec FwProofs FwProofs2 FwProofs3 FwProofs4
  Outputs Node NodeSpec NodeRun NodeProofs NodeProofs2 NodeProofs3 NodeProofs4 NodeProofs5 NodeProofs6 NodeProofs7 FairSpec.
Import ListNotations.
Open Scope Z_scope.

(** ** A run *)
Section Rank.
  Context {D A K E V : Type}.
  Variable p : protocol D A K E V.
  Variable c : info.
  Lemma rank_pos rcvd r (tr : list (obs D A V)) : Inv p c rcvd r tr -> 0 <= ProtProofs2.rank p r.
  Proof.
    intros HI. pose proof (iv_range _ _ _ _ _ HI) as HR. unfold ProtProofs2.rank, final in *. destruct (r_loc r); lia.
  Qed.
  Lemma rank_tick (e : E) now rcvd r (tr : list (obs D A V)) r' t' : Inv p c rcvd r tr -> r_term r = false -> tick p c e now r = Ok (r', t') ->
    r_term r' = true \/ ProtProofs2.rank p r' < ProtProofs2.rank p r.
  Proof.
    intros HI HT E1. pose proof (iv_loc _ _ _ _ _ HI) as HL. pose proof (iv_range _ _ _ _ _ HI) as HR.
    destruct (tick_cases _ _ _ _ _ _ _ _ _ HI E1) as [(X1 & -> & ->)|[(X1 & X2 & X3 & X4)|[(X1 & X2 & -> & ->)|[(X1 & X2 & -> & ->)|(X1 & -> & ->)]]]].
    - right. unfold ProtProofs2.rank. rewrite X1. cbn [set_clock r_loc]. lia.
    - right. destruct (enter_inv p c _ _ _ _ _ _ _ HI X2 X4) as (_ & ST & LO & _). unfold ProtProofs2.rank. rewrite LO, ST.
      destruct X1 as [X1|X1]; rewrite X1 in *; [destruct HL as (HL & _)|]; lia.
    - right. unfold ProtProofs2.rank. rewrite X1 in *. cbn [set_clock set_stage r_loc r_state]. lia.
    - left. reflexivity.
    - rewrite X1 in HL. destruct HL as (_ & _ & HL). congruence.
  Qed.
  Lemma rank_msg (e : E) m rcvd r (tr : list (obs D A V)) r' t' : Inv p c rcvd r tr -> deliver p c e r m = Ok (r', t') ->
    r_term r' = r_term r /\ ProtProofs2.rank p r' = ProtProofs2.rank p r /\ r_wake r' = r_wake r.
  Proof.
    intros HI E1. destruct (deliver_same _ _ _ _ _ _ _ _ _ HI E1) as (ST & _ & LO & _ & WA & TE & _). unfold ProtProofs2.rank. rewrite LO, ST, TE, WA. auto.
  Qed.
End Rank.

(** ** A call of the firewall *)
Section Slot.
  Context {D : Type}.
  Notation fw := (fw D).
  Lemma slot_step (f f' : fw) ev o k c s : fstep f ev = Ok (f', o) -> nth_error (kslice (f_calls f) k) c = Some s ->
    nth_error (kslice (f_calls f') k) c = Some s \/ exists t, ev = EvWake t k c \/ ev = EvRecv t k c.
  Proof.
    intros HS HN. destruct ev as [t m|t|t k' a|t k' c'|t k' c']; cbn [fstep] in HS.
    - injection HS as <- _. left. unfold fw_process; change (@fw_key) with (@key_of). destruct (_ || _); [exact HN|]. destruct (kget _ _) as [st|]; [|exact HN].
      destruct (st =? fw_buffering); [destruct (_ <? _); exact HN|]. destruct (st =? fw_forwarding); exact HN.
    - destruct (_ && _); injection HS as <- _; left; exact HN.
    - left. unfold fw_set_allowance in HS. destruct (negb _); [discriminate|]. destruct (kget (f_allow f) k'); injection HS as <- _; cbn [set_calls set_state set_allow f_calls]; rewrite kslice_kset;
        (destruct (key_eqb_spec k' k) as [->|]; [rewrite nth_error_app1 by (apply nth_error_Some; congruence)|]; exact HN).
    - destruct (key_eqb_spec k' k) as [->|NK].
      + destruct (Nat.eq_dec c' c) as [->|NC]; [right; eauto|]. left.
        unfold fw_state_step in HS. destruct (nth_error (kslice (f_calls f) k) c') as [s'|]; [|injection HS as <- _; exact HN].
        assert (PUT : forall (f1 : fw) s1, f_calls f1 = f_calls f -> nth_error (kslice (f_calls (put_slot f1 k c' s1)) k) c = Some s).
        { intros f1 s1 E. unfold put_slot. cbn [set_calls f_calls]. rewrite kslice_kset, key_eqb_refl, put_diff by congruence. rewrite E. exact HN. }
        destruct (sl_thread s') as [[|a|a|a|]|]; try (injection HS as <- _; exact HN); try (injection HS as <- _; apply PUT; reflexivity);
          (destruct (_ <? _); [injection HS as <- _; exact HN|]); cbv zeta in HS; destruct (told _ _); cbn [rbind] in HS; try discriminate; injection HS as <- _; apply PUT; reflexivity.
      + left. unfold fw_state_step in HS. destruct (nth_error (kslice (f_calls f) k') c') as [s'|]; [|injection HS as <- _; exact HN].
        assert (PUT : forall (f1 : fw) s1, f_calls f1 = f_calls f -> nth_error (kslice (f_calls (put_slot f1 k' c' s1)) k) c = Some s).
        { intros f1 s1 E. unfold put_slot. cbn [set_calls f_calls]. rewrite kslice_kset. destruct (key_eqb_spec k' k); [contradiction|]. rewrite E. exact HN. }
        destruct (sl_thread s') as [[|a|a|a|]|]; try (injection HS as <- _; exact HN); try (injection HS as <- _; apply PUT; reflexivity);
          (destruct (_ <? _); [injection HS as <- _; exact HN|]); cbv zeta in HS; destruct (told _ _); cbn [rbind] in HS; try discriminate; injection HS as <- _; apply PUT; reflexivity.
    - injection HS as <- _. unfold fw_recv. destruct (nth_error (kslice (f_calls f) k') c') as [s'|] eqn:E; [|left; exact HN].
      destruct (key_eqb_spec k' k) as [->|NK].
      + destruct (Nat.eq_dec c' c) as [->|NC]; [right; eauto|]. left. unfold put_slot. cbn [set_calls f_calls]. rewrite kslice_kset, key_eqb_refl, put_diff by congruence. exact HN.
      + left. unfold put_slot. cbn [set_calls f_calls]. rewrite kslice_kset. destruct (key_eqb_spec k' k); [contradiction|]. exact HN.
  Qed.
  (** The goroutine of the call goes on. *)
  Lemma wake_step (f f' : fw) t k c s o : fstep f (EvWake t k c) = Ok (f', o) -> nth_error (kslice (f_calls f) k) c = Some s ->
    exists s', nth_error (kslice (f_calls f') k) c = Some s' /\
      match sl_thread s with
      | Some FNew => exists a, s' = mkSlot (Some (FBuf a)) (sl_chan s)
      | Some (FBuf a) => s' = s /\ t < al_buf a \/ al_buf a <= t /\ sl_chan s' <> []
      | _ => sl_chan s <> [] -> sl_chan s' <> [] end.
  Proof.
    intros HS HN. cbn [fstep] in HS. unfold fw_state_step in HS. rewrite HN in HS.
    assert (PUT : forall (f1 : fw) s1, f_calls f1 = f_calls f -> nth_error (kslice (f_calls (put_slot f1 k c s1)) k) c = Some s1).
    { intros f1 s1 E. unfold put_slot. cbn [set_calls f_calls]. rewrite kslice_kset, key_eqb_refl, E. eapply put_same. exact HN. }
    assert (TO : forall c0 v c1, told c0 v = Ok c1 -> c1 <> []).
    { intros c0 v c1. unfold told. destruct (_ <? _)%nat; [|discriminate]. intros E. injection E as <-. destruct c0; discriminate. }
    destruct (sl_thread s) as [[|a|a|a|]|].
    - injection HS as <- _. eexists. split; [apply PUT; reflexivity|]. eauto.
    - destruct (Z.ltb_spec t (al_buf a)); [injection HS as <- _; eauto|]. cbv zeta in HS. destruct (told _ _) as [c1| |] eqn:ET; cbn [rbind] in HS; try discriminate. injection HS as <- _.
      eexists. split; [apply PUT; reflexivity|]. right. split; [lia|]. apply (TO _ _ _ ET).
    - destruct (_ <? _); [injection HS as <- _; eauto|]. cbv zeta in HS. destruct (told _ _) as [c1| |] eqn:ET; cbn [rbind] in HS; try discriminate. injection HS as <- _.
      eexists. split; [apply PUT; reflexivity|]. intros _. apply (TO _ _ _ ET).
    - destruct (_ <? _); [injection HS as <- _; eauto|]. cbv zeta in HS. destruct (told _ _) as [c1| |] eqn:ET; cbn [rbind] in HS; try discriminate. injection HS as <- _.
      eexists. split; [apply PUT; reflexivity|]. intros _. apply (TO _ _ _ ET).
    - injection HS as <- _. eauto.
    - injection HS as <- _. eauto.
  Qed.
End Slot.

Section NP.
  Context {G : Type}.
  Variable ky : kyber G.
  Variable keccak : bytes -> bytes.
  Variable pshash : Z -> Z -> bytes.
  Variable su : setup.
  Variables until now0 : Z.
  Notation message := (message payload).
  Notation nevent := (nevent (G := G)). Notation node := (node (G := G)).
  Implicit Types (evs : list nevent) (n : node) (tr : list nobs).
  Notation INV := (INV ky keccak pshash su until now0).
  Notation nstep := (nstep ky keccak pshash su).
  Notation GI := (GI su).
  Notation prot_of := (the_prot ky keccak pshash).
  Notation history := (nhistory ky keccak pshash su until now0).

  (** What a step does to request [i]. *)
  Inductive rmove n (i : nat) (r : request) n' (o : list nobs) : nevent -> request -> Prop :=
  | rm_reg now g todo : rq_phase r = RReg todo -> In g todo ->
      rmove n i r n' o (VGo now i g) (match remove g todo with [] => spawn su r | _ => with_phase r (RReg (remove g todo)) end)
  | rm_dereg now g todo : rq_phase r = RDereg todo -> In g todo ->
      rmove n i r n' o (VGo now i g) (with_phase r (match remove g todo with [] => RPop (su_guests su) | _ => RDereg (remove g todo) end))
  | rm_pop now g todo v : rq_phase r = RPop todo -> In g todo -> o = [NPop (rq_key r g) v] ->
      rmove n i r n' o (VGo now i g) (with_phase r (match remove g todo with [] => RDone | _ => RPop (remove g todo) end))
  | rm_wait now : rq_phase r = RRun -> forallb (fun x => guest_done (snd x)) (rq_locs r) = true ->
      rmove n i r n' o (VWait now i) (with_phase r (match rq_doc r with Some _ => RDereg (su_guests su) | None => RPop (su_guests su) end))
  | rm_guest now g gen l l' n1 : loc_of (rq_locs r) g = Some l -> guest_go ky keccak pshash su n now (rq_key r g) (rq_start r) l gen = Ok (n1, l', o) ->
      n_fw n' = n_fw n1 -> n_heap n' = n_heap n1 ->
      rmove n i r n' o (VGuest now i g gen) (with_locs r (set_loc (rq_locs r) g l')).
  Definition hits (i : nat) (r : request) (ev : nevent) : Prop :=
    match ev with
    | VGo _ j g => j = i /\ match rq_phase r with RReg todo | RDereg todo | RPop todo => In g todo | _ => False end
    | VWait _ j => j = i /\ rq_phase r = RRun /\ forallb (fun x => guest_done (snd x)) (rq_locs r) = true
    | VGuest _ j g _ => j = i /\ loc_of (rq_locs r) g <> None
    | _ => False end.
  Lemma req_step n ev n' o i r : nstep n ev = Ok (n', o) -> nth_error (n_reqs n) i = Some r ->
    exists r', nth_error (n_reqs n') i = Some r' /\ (r' = r /\ ~ hits i r ev \/ rmove n i r n' o ev r').
  Proof.
    intros HS EN.
    assert (SAME : n_reqs n' = n_reqs n -> ~ hits i r ev -> exists r', nth_error (n_reqs n') i = Some r' /\ (r' = r /\ ~ hits i r ev \/ rmove n i r n' o ev r')).
    { intros E H. exists r. rewrite E. auto. }
    assert (FW : forall fev, firewall ky keccak pshash su n fev = Ok (n', o) -> n_reqs n' = n_reqs n).
    { intros fev EF. destruct (fw_plain _ _ _ _ _ _ _ _ EF) as (_ & _ & B & _). exact B. }
    destruct ev as [now base start doc|now j g|now j|now j g gen|now m|now|now k c|now pc g gen|now pc g nonce ord|now j nonce ord]; cbn [Node.nstep] in HS;
      try (apply SAME; [exact (FW _ HS)|cbn; tauto]).
    - injection HS as <- <-. exists r. cbn. rewrite nth_error_app1 by (apply nth_error_Some; congruence). auto.
    - unfold request_go in HS. destruct (Nat.eq_dec i j) as [<-|N].
      + rewrite EN in HS. cbn [hits] in *.
        destruct (rq_phase r) as [todo| |todo|todo|] eqn:EP; try (injection HS as <- <-; apply SAME; [reflexivity|tauto]);
          (destruct (existsb (Z.eqb g) todo) eqn:EI; [|injection HS as <- <-; apply SAME; [reflexivity|intros [_ X]; apply in_existsb in EI || (assert (existsb (Z.eqb g) todo = true) by (apply existsb_exists; exists g; rewrite Z.eqb_refl; auto); congruence)]]);
          cbv zeta in HS; apply in_existsb in EI.
        * injection HS as <- <-. eexists. split; [cbn; destruct (rq_doc r); eapply put_same; exact EN|]. right. apply rm_reg; assumption.
        * injection HS as <- <-. eexists. split; [cbn; eapply put_same; exact EN|]. right. apply rm_dereg; assumption.
        * eexists. split; [|right; eapply rm_pop; [exact EP|exact EI|]].
          -- destruct (rq_doc r), (snd (pop_output (n_outs n) (rq_key r g))) as [[]|]; try discriminate; try (injection HS as <- _; cbn; eapply put_same; exact EN).
             destruct (_ <? _)%nat; [discriminate|]. injection HS as <- _. cbn; eapply put_same; exact EN.
          -- instantiate (1 := snd (pop_output (n_outs n) (rq_key r g))). destruct (rq_doc r), (snd (pop_output (n_outs n) (rq_key r g))) as [[]|]; try discriminate; try (injection HS as _ <-; reflexivity).
             destruct (_ <? _)%nat; [discriminate|]. injection HS as _ <-. reflexivity.
      + exists r. split; [|left; split; [reflexivity|cbn; intros [X _]; congruence]].
        destruct (nth_error (n_reqs n) j) as [r'|]; [|injection HS as <- _; exact EN].
        destruct (rq_phase r') as [todo| |todo|todo|]; try (injection HS as <- _; exact EN); (destruct (existsb (Z.eqb g) todo); [|injection HS as <- _; exact EN]); cbv zeta in HS.
        * injection HS as <- _. cbn. destruct (rq_doc r'); cbn; rewrite put_diff by exact N; exact EN.
        * injection HS as <- _. cbn. rewrite put_diff by exact N; exact EN.
        * destruct (rq_doc r'), (snd (pop_output (n_outs n) (rq_key r' g))) as [[]|]; try discriminate; try (injection HS as <- _; cbn; rewrite put_diff by exact N; exact EN).
          destruct (_ <? _)%nat; [discriminate|]. injection HS as <- _. cbn; rewrite put_diff by exact N; exact EN.
    - injection HS as <- <-. unfold request_wait. destruct (Nat.eq_dec i j) as [<-|N].
      + rewrite EN. destruct (rq_phase r) eqn:EP; try (exists r; split; [exact EN|left; split; [reflexivity|cbn; rewrite EP; intros (_ & X & _); discriminate X]]; fail).
        destruct (forallb _ _) eqn:EF; [|exists r; split; [exact EN|left; split; [reflexivity|cbn; intros (_ & _ & X); congruence]]].
        eexists. split; [cbn; eapply put_same; exact EN|]. right. apply rm_wait; assumption.
      + exists r. split; [|left; split; [reflexivity|cbn; intros [X _]; congruence]].
        destruct (nth_error (n_reqs n) j) as [r'|]; [|exact EN]. destruct (rq_phase r'); try exact EN. destruct (forallb _ _); [|exact EN]. cbn. rewrite put_diff by exact N. exact EN.
    - unfold request_guest in HS. destruct (Nat.eq_dec i j) as [<-|N].
      + rewrite EN in HS. destruct (loc_of (rq_locs r) g) as [l|] eqn:EL; [|injection HS as <- <-; apply SAME; [reflexivity|cbn; rewrite EL; tauto]].
        destruct (guest_go _ _ _ _ _ _ _ _ _ _) as [[[n1 l1] o1]| |] eqn:EG; cbn [rbind fst snd] in HS; try discriminate. injection HS as <- <-.
        eexists. split; [cbn; rewrite (guest_reqs _ _ _ _ _ _ _ _ _ _ _ _ _ EG); eapply put_same; exact EN|]. right. eapply rm_guest; [exact EL|exact EG|reflexivity|reflexivity].
      + exists r. split; [|left; split; [reflexivity|cbn; intros [X _]; congruence]].
        destruct (nth_error (n_reqs n) j) as [r'|]; [|injection HS as <- _; exact EN]. destruct (loc_of (rq_locs r') g) as [l|]; [|injection HS as <- _; exact EN].
        destruct (guest_go _ _ _ _ _ _ _ _ _ _) as [[[n1 l1] o1]| |] eqn:EG; cbn [rbind fst snd] in HS; try discriminate. injection HS as <- _. cbn. rewrite (guest_reqs _ _ _ _ _ _ _ _ _ _ _ _ _ EG), put_diff by exact N. exact EN.
    - apply SAME; [|cbn; tauto]. injection HS as HS. unfold consumer_take in HS; change (@fw_key) with (@key_of) in HS. destruct (kget (n_cons n) (qkey pc g)); [injection HS as <- _; reflexivity|].
      destruct (kslice (n_qs n) (qkey pc g)) as [|m q]; [injection HS as <- _; reflexivity|]. cbv zeta in HS. destruct (m_pc m <? 0); [injection HS as <- _; reflexivity|].
      destruct (ensure_run su _ now (key_of m) gen) as [[n2 j] o2] eqn:EE. injection HS as <- _. destruct (ensure_eff _ _ _ _ _ _ _ _ EE) as (_ & _ & _ & X2 & _). exact X2.
    - apply SAME; [|cbn; tauto]. unfold consumer_deliver in HS. destruct (kget (n_cons n) (qkey pc g)) as [[j m]|]; [|injection HS as <- _; reflexivity].
      destruct (nth_error (n_heap n) j) as [[k0 r0]|]; [|discriminate]. destruct (deliver _ _ _ _ _) as [x| |]; cbn [rbind] in HS; try discriminate. injection HS as <- _. reflexivity.
    - apply SAME; [|cbn; tauto]. unfold run_tick in HS. destruct (nth_error (n_heap n) j) as [[k0 r0]|]; [|injection HS as <- _; reflexivity].
      destruct (now <? r_wake r0); [injection HS as <- _; reflexivity|]. destruct (tick _ _ _ _ _) as [x| |]; cbn [rbind] in HS; try discriminate. injection HS as <- _. reflexivity.
  Qed.

  (** Guest [g] of request [i], for run [k] from [start] on, is at [l]. *)
  Definition at_loc (i : nat) (g : Z) (k : key) (start : Z) (l : gloc) n : Prop :=
    exists r, nth_error (n_reqs n) i = Some r /\ loc_of (rq_locs r) g = Some l /\ rq_key r g = k /\ rq_start r = start.
  Lemma loc_step n ev n' o tr i g k start l : GI tr n -> nstep n ev = Ok (n', o) -> at_loc i g k start l n ->
    at_loc i g k start l n' /\ (forall t gen, ev <> VGuest t i g gen) \/
    exists t gen n1 l', ev = VGuest t i g gen /\ guest_go ky keccak pshash su n t k start l gen = Ok (n1, l', o) /\ n_fw n' = n_fw n1 /\ n_heap n' = n_heap n1 /\ at_loc i g k start l' n'.
  Proof.
    intros HG HS (r & EN & EL & EK & ES). destruct (req_step _ _ _ _ _ _ HS EN) as (r' & EN' & [[-> NH]|RM]).
    - left. split; [exists r; auto|]. intros t gen ->. apply NH. cbn. rewrite EL. split; [reflexivity|discriminate].
    - destruct RM as [now g' todo EP|now g' todo EP|now g' todo v EP|now EP|now g' gen l0 l1 n1 EL' EG E1 E2].
      + pose proof (proj2 (g_locs _ _ _ HG _ _ EN) _ EP) as X. rewrite X in EL. discriminate.
      + left. split; [|discriminate]. eexists. split; [exact EN'|]. auto.
      + left. split; [|discriminate]. eexists. split; [exact EN'|]. auto.
      + left. split; [|discriminate]. eexists. split; [exact EN'|]. auto.
      + destruct (Z.eq_dec g g') as [<-|N].
        * right. rewrite EL in EL'. injection EL' as <-. rewrite EK, ES in EG. exists now, gen, n1, l1. split; [reflexivity|]. split; [exact EG|]. split; [exact E1|]. split; [exact E2|].
          eexists. split; [exact EN'|]. split; [cbn; eapply loc_set_same; exact EL|]. auto.
        * left. split; [|intros t gen' E; injection E; congruence]. eexists. split; [exact EN'|]. split; [cbn; rewrite loc_set_diff by exact N; exact EL|]. auto.
  Qed.

  Lemma guest_fw n now k start l gen n' l' o : guest_go ky keccak pshash su n now k start l gen = Ok (n', l', o) ->
    n_fw n' = n_fw n \/ exists fev x, fstep (n_fw n) fev = Ok (n_fw n', x) /\ (forall t k' c, fev <> EvWake t k' c) /\ (forall t k' c, fev = EvRecv t k' c -> k' = k).
  Proof.
    intros EG. assert (F : forall fev (y : gloc), (x <- firewall ky keccak pshash su n fev ;; Ok (fst x, y, snd x)) = Ok (n', l', o) -> exists x, fstep (n_fw n) fev = Ok (n_fw n', x)).
    { intros fev y. destruct (firewall _ _ _ _ _ _) as [[n1 o1]| |] eqn:EF; cbn [rbind fst snd]; try discriminate. intros E. injection E as <- _ _.
      destruct (fw_step_of _ _ _ _ _ _ _ _ EF) as (x & E & _). eauto. }
    unfold guest_go in EG. cbv zeta in EG. destruct l as [|c0|c0|c0|c0|c0| |].
    - destruct (F _ (GBuf (length (kslice (f_calls (n_fw n)) k))) EG) as [x E]. right. eexists _, x. split; [exact E|]. split; intros; discriminate.
    - destruct (chan_ready n k c0); [|injection EG as <- _ _; auto]. destruct (F _ _ EG) as [x E]. right. eexists _, x. split; [exact E|]. split; [intros; discriminate|]. intros t k' c X. injection X; auto.
    - destruct (now <? start); [injection EG as <- _ _; auto|]. destruct (ensure_run su n now k gen) as [[n1 j] o1] eqn:EE. injection EG as <- _ _.
      destruct (ensure_eff _ _ _ _ _ _ _ _ EE) as (_ & _ & X & _). left. exact X.
    - destruct (terminated_run n k); injection EG as <- _ _; auto.
    - destruct (chan_ready n k c0); [|injection EG as <- _ _; auto]. destruct (F _ _ EG) as [x E]. right. eexists _, x. split; [exact E|]. split; [intros; discriminate|]. intros t k' c X. injection X; auto.
    - destruct (chan_ready n k c0); [|injection EG as <- _ _; auto]. destruct (F _ _ EG) as [x E]. right. eexists _, x. split; [exact E|]. split; [intros; discriminate|]. intros t k' c X. injection X; auto.
    - destruct (receive _ _ _ _ _ _) as [[n1 o1]| |] eqn:ER; [|injection EG as <- _ _; auto|discriminate]. injection EG as <- _ _.
      destruct (receive_eff _ _ _ _ _ _ _ _ ER) as (_ & _ & _ & X & _). left. exact X.
    - injection EG as <- _ _; auto.
  Qed.
  Lemma fw_kinds n ev n' o : nstep n ev = Ok (n', o) -> n_fw n' = n_fw n \/
    exists fev x, fstep (n_fw n) fev = Ok (n_fw n', x) /\ (forall t k c, fev = EvWake t k c -> ev = VFw t k c) /\
      (forall t k c, fev = EvRecv t k c -> exists t i g gen r l, ev = VGuest t i g gen /\ nth_error (n_reqs n) i = Some r /\ loc_of (rq_locs r) g = Some l /\ k = rq_key r g).
  Proof.
    assert (FW : forall fev, firewall ky keccak pshash su n fev = Ok (n', o) -> (forall t k c, fev = EvWake t k c -> ev = VFw t k c) -> (forall t k c, fev <> EvRecv t k c) ->
      exists fev x, fstep (n_fw n) fev = Ok (n_fw n', x) /\ (forall t k c, fev = EvWake t k c -> ev = VFw t k c) /\
      (forall t k c, fev = EvRecv t k c -> exists t i g gen r l, ev = VGuest t i g gen /\ nth_error (n_reqs n) i = Some r /\ loc_of (rq_locs r) g = Some l /\ k = rq_key r g)).
    { intros fev EF A B. destruct (fw_step_of _ _ _ _ _ _ _ _ EF) as (x & E & _). exists fev, x. split; [exact E|]. split; [exact A|]. intros t k c X. destruct (B t k c X). }
    destruct ev as [now base start doc|now j g|now j|now j g gen|now m|now|now k c|now pc g gen|now pc g nonce ord|now j nonce ord]; cbn [Node.nstep]; intros HS;
      try (right; apply (FW _ HS); congruence).
    - injection HS as <- _. auto.
    - left. unfold request_go in HS. destruct (nth_error (n_reqs n) j) as [r'|]; [|injection HS as <- _; reflexivity].
      destruct (rq_phase r') as [todo| |todo|todo|]; try (injection HS as <- _; reflexivity); (destruct (existsb (Z.eqb g) todo); [|injection HS as <- _; reflexivity]); cbv zeta in HS.
      + injection HS as <- _. cbn. destruct (rq_doc r'); reflexivity.
      + injection HS as <- _. reflexivity.
      + destruct (rq_doc r'), (snd (pop_output (n_outs n) (rq_key r' g))) as [[]|]; try discriminate; try (injection HS as <- _; reflexivity).
        destruct (_ <? _)%nat; [discriminate|]. injection HS as <- _. reflexivity.
    - left. injection HS as <- _. unfold request_wait. destruct (nth_error (n_reqs n) j) as [r'|]; [|reflexivity]. destruct (rq_phase r'); try reflexivity. destruct (forallb _ _); reflexivity.
    - unfold request_guest in HS. destruct (nth_error (n_reqs n) j) as [r'|] eqn:EN; [|injection HS as <- _; auto]. destruct (loc_of (rq_locs r') g) as [l|] eqn:EL; [|injection HS as <- _; auto].
      destruct (guest_go _ _ _ _ _ _ _ _ _ _) as [[[n1 l1] o1]| |] eqn:EG; cbn [rbind fst snd] in HS; try discriminate. injection HS as <- _. cbn [put_req set_reqs n_fw].
      destruct (guest_fw _ _ _ _ _ _ _ _ _ EG) as [E|(fev & x & E & A & B)]; [auto|]. right. exists fev, x. split; [exact E|]. split; [intros t k c X; destruct (A _ _ _ X)|].
      intros t k c X. apply B in X. subst k. exists now, j, g, gen, r', l. auto.
    - left. injection HS as HS. unfold consumer_take in HS; change (@fw_key) with (@key_of) in HS. destruct (kget (n_cons n) (qkey pc g)); [injection HS as <- _; reflexivity|].
      destruct (kslice (n_qs n) (qkey pc g)) as [|m q]; [injection HS as <- _; reflexivity|]. cbv zeta in HS. destruct (m_pc m <? 0); [injection HS as <- _; reflexivity|].
      destruct (ensure_run su _ now (key_of m) gen) as [[n2 j] o2] eqn:EE. injection HS as <- _. destruct (ensure_eff _ _ _ _ _ _ _ _ EE) as (_ & _ & X2 & _). exact X2.
    - left. unfold consumer_deliver in HS. destruct (kget (n_cons n) (qkey pc g)) as [[j m]|]; [|injection HS as <- _; reflexivity].
      destruct (nth_error (n_heap n) j) as [[k0 r0]|]; [|discriminate]. destruct (deliver _ _ _ _ _) as [x| |]; cbn [rbind] in HS; try discriminate. injection HS as <- _. reflexivity.
    - left. unfold run_tick in HS. destruct (nth_error (n_heap n) j) as [[k0 r0]|]; [|injection HS as <- _; reflexivity].
      destruct (now <? r_wake r0); [injection HS as <- _; reflexivity|]. destruct (tick _ _ _ _ _) as [x| |]; cbn [rbind] in HS; try discriminate. injection HS as <- _. reflexivity.
  Qed.

  (** The slot of the call a guest waits for, when its run is requested once. *)
  Definition slot n (k : key) (c : nat) (s : slot) : Prop := nth_error (kslice (f_calls (n_fw n)) k) c = Some s.
  Lemma slot_kinds evs n tr ev n' o i g k start l c s : history evs n tr -> (requests_for k evs <= 1)%nat -> nstep n ev = Ok (n', o) -> at_loc i g k start l n -> slot n k c s ->
    slot n' k c s \/ (exists t x, ev = VFw t k c /\ fstep (n_fw n) (EvWake t k c) = Ok (n_fw n', x)) \/ (exists t gen, ev = VGuest t i g gen).
  Proof.
    intros HH HR HS (r & EN & EL & EK & ES) SL. destruct (fw_kinds _ _ _ _ HS) as [E|(fev & x & EF & A & B)]; [left; unfold slot; rewrite E; exact SL|].
    destruct (slot_step _ _ _ _ _ _ _ EF SL) as [X|(t & [->| ->])]; [auto| |].
    - right; left. exists t, x. split; [apply A; reflexivity|exact EF].
    - right; right. destruct (B _ _ _ eq_refl) as (t' & i' & g' & gen & r' & l' & -> & EN' & EL' & E). exists t', gen.
      assert (g' = g) by (rewrite <- EK in E; injection E; auto). subst g'.
      assert (i' = i).
      { eapply two_matches with (k := k); [exact EN'|exact EN| | |]; [rewrite E; apply matches_self|rewrite <- EK; apply matches_self|].
        rewrite matches_count, (history_sigs _ _ _ _ _ _ _ _ _ HH), <- requests_count. exact HR. }
      congruence.
  Qed.

  (** ** Along a schedule *)
  Variable sg : nat -> nevent.
  Notation upto_p := (prefix sg).
  Lemma upto_S p : upto_p (S p) = upto_p p ++ [sg p].
  Proof. unfold prefix. rewrite seq_S, map_app. reflexivity. Qed.
  Notation again := (again sg).
  Hypothesis RUN : forall p, exists n tr, history (upto_p p) n tr.
  Definition reach (P : node -> Prop) (p : nat) : Prop := exists n tr, history (upto_p p) n tr /\ P n.
  Lemma run_step p n tr : history (upto_p p) n tr -> exists n' o, nstep n (sg p) = Ok (n', o) /\ history (upto_p (S p)) n' (tr ++ o).
  Proof.
    intros HH. destruct (RUN (S p)) as (n' & tr' & H'). rewrite upto_S in H'. destruct (history_prefix _ _ _ _ _ _ _ _ _ _ H') as (n1 & t1 & t2 & A & B & C).
    destruct A as [A1 A2], HH as [HH1 HH2]. rewrite A2 in HH2. injection HH2 as -> ->. cbn [nexec] in B.
    destruct (nstep n (sg p)) as [[n2 o2]| |] eqn:E; cbn [rbind fst snd] in B; try discriminate. injection B as -> <-. rewrite app_nil_r in C. exists n', o2. split; [reflexivity|].
    rewrite upto_S, <- C. exact H'.
  Qed.
  Definition moves_on (P Q : node -> Prop) (h : nevent -> Prop) (d : Z) : Prop := forall p n tr n' o, history (upto_p p) n tr -> P n -> nstep n (sg p) = Ok (n', o) ->
    (P n' \/ Q n') /\ (h (sg p) -> d <= ntime (sg p) -> Q n').
  Lemma leads P Q h d : again h -> moves_on P Q h d -> forall p, reach P p -> exists q, (p <= q)%nat /\ reach Q q.
  Proof.
    intros HA HM p HP. destruct (HA d p) as (q & L & HH & HT).
    assert (X : forall m, (p + m <= q)%nat -> reach P (p + m) \/ exists q, (p <= q)%nat /\ reach Q q).
    { induction m as [|m IH]; intros LM; [left; rewrite Nat.add_0_r; exact HP|]. destruct IH as [(n & tr & A & B)|X]; [lia| |auto].
      destruct (run_step _ _ _ A) as (n' & o & E & H'). destruct (HM _ _ _ _ _ A B E) as [[Y|Y] _].
      - left. exists n', (tr ++ o). rewrite Nat.add_succ_r. auto.
      - right. exists (S (p + m)). split; [lia|]. exists n', (tr ++ o). auto. }
    destruct (X (q - p)%nat ltac:(lia)) as [Y|Y]; [|exact Y]. replace (p + (q - p))%nat with q in Y by lia. destruct Y as (n & tr & A & B).
    destruct (run_step _ _ _ A) as (n' & o & E & H'). destruct (HM _ _ _ _ _ A B E) as [_ Y]. exists (S q). split; [lia|]. exists n', (tr ++ o). auto.
  Qed.
  Lemma stays (P : node -> Prop) : (forall p n tr n' o, history (upto_p p) n tr -> P n -> nstep n (sg p) = Ok (n', o) -> P n') -> forall p q, (p <= q)%nat -> reach P p -> reach P q.
  Proof.
    intros HM p q L HP. induction L as [|q L IH]; [exact HP|]. destruct IH as (n & tr & A & B). destruct (run_step _ _ _ A) as (n' & o & E & H'). exists n', (tr ++ o). eauto.
  Qed.

  (** ** One guest *)
  Section Guest.
    Variables (i : nat) (g : Z) (k : key) (start : Z).
    Hypothesis ND : NoDup (su_guests su).
    Hypothesis ONCE : forall p, (requests_for k (upto_p p) <= 1)%nat.
    Hypothesis F_guest : again (fun ev => exists t gen, ev = VGuest t i g gen).
    Hypothesis F_fw : forall c, again (fun ev => exists t, ev = VFw t k c).
    Hypothesis F_tick : forall j, again (fun ev => exists t nonce ord, ev = VTick t j nonce ord).
    Notation at_loc := (at_loc i g k start).

    Lemma g_allow p : reach (at_loc GAllow) p -> exists q c, (p <= q)%nat /\ reach (fun n => at_loc (GBuf c) n /\ slot n k c (mkSlot (Some FNew) [])) q.
    Proof.
      intros HR. destruct (leads (at_loc GAllow) (fun n => exists c, at_loc (GBuf c) n /\ slot n k c (mkSlot (Some FNew) [])) _ 0 F_guest) with (p := p) as (q & L & n & tr & HH & c & X); [|exact HR|exists q, c; split; [exact L|exists n, tr; auto]].
      clear p HR. intros p n tr n' o HH HP HS. pose proof (history_gi _ _ _ _ _ _ _ _ _ HH) as HG.
      destruct (loc_step _ _ _ _ _ _ _ _ _ _ HG HS HP) as [[A B]|(t & gen & n1 & l' & EV & EG & E1 & E2 & A)].
      - split; [auto|]. intros (t & gen & E) _. destruct (B _ _ E).
      - assert (Q : exists c, at_loc (GBuf c) n' /\ slot n' k c (mkSlot (Some FNew) [])); [|auto].
        unfold guest_go in EG. cbv zeta in EG. destruct (firewall _ _ _ _ _ _) as [[n2 o2]| |] eqn:EF; cbn [rbind fst snd] in EG; try discriminate. injection EG as <- <- _.
        exists (length (kslice (f_calls (n_fw n)) k)). split; [exact A|]. unfold slot. rewrite E1. destruct (fw_step_of _ _ _ _ _ _ _ _ EF) as (x & E & _). cbn [fstep] in E.
        destruct HP as (r & EN & EL & EK & _). pose proof (one_loc keccak pshash su until k _ _ _ ND HG (history_sigs _ _ _ _ _ _ _ _ _ HH) (ONCE p)) as ONE.
        pose proof (loc_kloc _ _ _ _ _ EN EL) as KL. rewrite EK in KL. pose proof (g_calls _ _ _ HG k) as GC.
        assert (Z0 : cnt past (klocs k (n_reqs n)) = 0%nat).
        { destruct (klocs k (n_reqs n)) as [|a [|b rs]]; [destruct KL| |cbn in ONE; lia]. destruct KL as [->|[]]. reflexivity. }
        rewrite Z0 in GC. destruct (kslice (f_calls (n_fw n)) k) as [|s0 cs] eqn:EC; [|discriminate].
        destruct (history_inv _ _ _ _ _ _ _ _ _ HH) as [T [W _]]. destruct (w_sound _ _ _ _ _ _ _ _ _ _ W) as (_ & _ & _ & KI0). destruct (KI0 k) as (_ & _ & _ & [ID|(m & s & a & t0 & a1 & a2 & X & _)]).
        2:{ cbn [view_of v_calls] in X. rewrite EC in X. destruct m; discriminate. }
        destruct ID as (ID & _). cbn [view_of v_allow] in ID. unfold fw_set_allowance in E. rewrite ID in E. destruct (negb _); [discriminate|]. injection E as <- _.
        cbn [set_calls set_state set_allow f_calls]. rewrite kslice_kset, key_eqb_refl, EC. reflexivity.
    Qed.

    Lemma not_ready n c s : slot n k c s -> sl_chan s = [] -> chan_ready n k c = false.
    Proof. intros A B. unfold chan_ready. unfold slot in A. rewrite A, B. reflexivity. Qed.
    Lemma wait_step p n tr n' o c s : history (upto_p p) n tr -> at_loc (GBuf c) n -> slot n k c s -> nstep n (sg p) = Ok (n', o) ->
      at_loc (GBuf c) n' /\ slot n' k c s /\ (forall t, sg p <> VFw t k c) /\ ((exists t gen, sg p = VGuest t i g gen) -> sl_chan s = []) \/
      at_loc (GBuf c) n' /\ (exists t s', sg p = VFw t k c /\ slot n' k c s' /\ match sl_thread s with
        | Some FNew => exists a, s' = mkSlot (Some (FBuf a)) (sl_chan s)
        | Some (FBuf a) => s' = s /\ t < al_buf a \/ al_buf a <= t /\ sl_chan s' <> []
        | _ => sl_chan s <> [] -> sl_chan s' <> [] end) \/
      at_loc (GSleep c) n'.
    Proof.
      intros HH HL HSl HS. pose proof (history_gi _ _ _ _ _ _ _ _ _ HH) as HG.
      destruct (loc_step _ _ _ _ _ _ _ _ _ _ HG HS HL) as [[A B]|(t & gen & n1 & l' & EV & EG & E1 & E2 & A)].
      - assert (FWC : forall t, sg p = VFw t k c -> exists s', slot n' k c s' /\ match sl_thread s with
          | Some FNew => exists a, s' = mkSlot (Some (FBuf a)) (sl_chan s)
          | Some (FBuf a) => s' = s /\ t < al_buf a \/ al_buf a <= t /\ sl_chan s' <> []
          | _ => sl_chan s <> [] -> sl_chan s' <> [] end).
        { intros t E. rewrite E in HS. cbn [Node.nstep] in HS. destruct (fw_step_of _ _ _ _ _ _ _ _ HS) as (x & E' & _). exact (wake_step _ _ _ _ _ _ _ E' HSl). }
        destruct (slot_kinds _ _ _ _ _ _ _ _ _ _ _ _ _ HH (ONCE p) HS HL HSl) as [X|[(t & x & EV & EF)|(t & gen & EV)]]; [| |destruct (B _ _ EV)].
        + destruct (sg p) as [| | | | | |t k' c'| | |] eqn:EV; try (left; split; [exact A|]; split; [exact X|]; split; [intros; discriminate|intros (tt0 & gen0 & EE0); destruct (B _ _ EE0)]; fail).
          destruct (key_eqb_spec k' k) as [->|NK]; [|left; split; [exact A|]; split; [exact X|]; split; [intros; congruence|intros (t0 & gen & E); discriminate]].
          destruct (Nat.eq_dec c' c) as [->|NC]; [|left; split; [exact A|]; split; [exact X|]; split; [intros; congruence|intros (t0 & gen & E); discriminate]].
          right; left. split; [exact A|]. destruct (FWC _ eq_refl) as (s' & Y). exists t, s'. auto.
        + right; left. split; [exact A|]. destruct (FWC _ EV) as (s' & Y). exists t, s'. auto.
      - unfold guest_go in EG. cbv zeta in EG. destruct (chan_ready n k c) eqn:CR.
        + destruct (firewall _ _ _ _ _ _) as [[n2 o2]| |] eqn:EF; cbn [rbind fst snd] in EG; try discriminate. injection EG as <- <- _. right; right. exact A.
        + injection EG as <- <- _. left. split; [exact A|]. split; [unfold slot; rewrite E1; exact HSl|]. split; [rewrite EV; discriminate|]. intros _.
          unfold chan_ready in CR. unfold slot in HSl. rewrite HSl in CR. destruct (sl_chan s); [reflexivity|discriminate].
    Qed.
    Lemma sleep_step p n tr n' o c : history (upto_p p) n tr -> at_loc (GSleep c) n -> nstep n (sg p) = Ok (n', o) ->
      (at_loc (GSleep c) n' \/ at_loc (GTerm c) n' /\ exists j r, nth_error (n_heap n') j = Some (k, r)) /\
      ((exists t gen, sg p = VGuest t i g gen) -> start <= ntime (sg p) -> at_loc (GTerm c) n' /\ exists j r, nth_error (n_heap n') j = Some (k, r)).
    Proof.
      intros HH HL HS. pose proof (history_gi _ _ _ _ _ _ _ _ _ HH) as HG.
      destruct (loc_step _ _ _ _ _ _ _ _ _ _ HG HS HL) as [[A B]|(t & gen & n1 & l' & EV & EG & E1 & E2 & A)].
      - split; [auto|]. intros (t & gen & E). destruct (B _ _ E).
      - rewrite EV. cbn [ntime]. unfold guest_go in EG. cbv zeta in EG. destruct (Z.ltb_spec t start) as [LT|GE]; [injection EG as <- <- _; split; [auto|]; intros _ X; lia|].
        destruct (ensure_run su n t k gen) as [[n2 j] o2] eqn:EE. injection EG as <- <- _. cbn [fst] in *.
        assert (X : exists j r, nth_error (n_heap n') j = Some (k, r)); [|auto]. rewrite E2. unfold ensure_run in EE. destruct (kget (n_table n) k) as [j0|] eqn:ET.
        + injection EE as <- <- _. destruct (history_inv _ _ _ _ _ _ _ _ _ HH) as [T [_ R]]. destruct (r_tab _ _ _ _ _ _ _ _ R _ _ ET) as [r X]. eauto.
        + injection EE as <- <- _. exists (length (n_heap n)). eexists. cbn [set_table set_heap n_heap]. rewrite nth_error_app2, Nat.sub_diag by lia. reflexivity.
    Qed.
    Lemma object_step p n tr n' o j r : history (upto_p p) n tr -> nth_error (n_heap n) j = Some (k, r) -> r_term r = false -> nstep n (sg p) = Ok (n', o) ->
      exists r', nth_error (n_heap n') j = Some (k, r') /\
        ((r_term r' = false /\ ProtProofs2.rank (prot_of (k_pc k)) r' = ProtProofs2.rank (prot_of (k_pc k)) r /\ r_wake r' = r_wake r /\ ~ ((exists t nonce ord, sg p = VTick t j nonce ord) /\ r_wake r <= ntime (sg p))) \/
         r_term r' = true \/ 0 <= ProtProofs2.rank (prot_of (k_pc k)) r' < ProtProofs2.rank (prot_of (k_pc k)) r).
    Proof.
      intros HH EN HT HS. destruct (history_inv _ _ _ _ _ _ _ _ _ HH) as [T HI]. pose proof HI as [_ R].
      destruct (r_heap _ _ _ _ _ _ _ _ R _ _ _ EN) as (_ & _ & gen & pevs & rtr & EX & _). pose proof (run_inv _ _ _ _ _ _ EX) as IV.
      assert (TICK : forall e now x, tick (prot_of (k_pc k)) (run_info su k) e now r = Ok x -> r_term (fst x) = true \/ 0 <= ProtProofs2.rank (prot_of (k_pc k)) (fst x) < ProtProofs2.rank (prot_of (k_pc k)) r).
      { intros e now [r1 t1] E. destruct (rank_tick _ _ _ _ _ _ _ _ _ IV HT E) as [X|X]; [auto|]. right. split; [|exact X]. eapply rank_pos. eapply tick_inv; [exact IV|exact E]. }
      destruct (sg p) as [| | | | | | | | |t j' nonce ord] eqn:EV; [| | | | | | | | |destruct (Nat.eq_dec j' j) as [->|NJ]].
      10:{ cbn [Node.nstep] in HS. unfold run_tick in HS. rewrite EN in HS. cbn [ntime]. destruct (Z.ltb_spec t (r_wake r)) as [LT|GE].
        - injection HS as <- _. exists r. split; [exact EN|]. left. repeat (split; [auto|]). intros [_ X]. lia.
        - destruct (tick _ _ _ _ _) as [x| |] eqn:ED; cbn [rbind] in HS; try discriminate. injection HS as <- _. exists (fst x). split; [cbn; eapply put_same; exact EN|]. right. exact (TICK _ _ _ ED). }
      all: rewrite <- EV in HS |- *; assert (NT : ~ ((exists t nonce ord, sg p = VTick t j nonce ord) /\ r_wake r <= ntime (sg p))) by (rewrite EV; intros [(t1 & nonce1 & ord1 & X) _]; congruence); clear EV;
        (destruct (heap_kinds _ _ _ _ _ _ _ _ HS) as [[E _]|[(k7 & gen7 & t7 & a7 & _ & E & _)|(k7 & j0 & r7 & pev & [r1 t7] & E0 & ES & EH & _)]];
         [exists r; rewrite E; split; [exact EN|]; left; split; [exact HT|]; split; [reflexivity|]; split; [reflexivity|exact NT]
         |exists r; rewrite E, nth_error_app1 by (apply nth_error_Some; congruence); split; [exact EN|]; left; split; [exact HT|]; split; [reflexivity|]; split; [reflexivity|exact NT]|]; rewrite EH; cbn [fst] in *;
         destruct (Nat.eq_dec j j0) as [<-|N]; [|exists r; rewrite put_diff by exact N; split; [exact EN|]; left; split; [exact HT|]; split; [reflexivity|]; split; [reflexivity|exact NT]]; rewrite EN in E0; injection E0 as <- <-; exists r1; (split; [eapply put_same; exact EN|]);
         destruct pev as [e9 now9|e9 m9]; cbn [step] in ES; [right; exact (TICK _ _ _ ES)|left; destruct (rank_msg _ _ _ _ _ _ _ _ _ IV ES) as (A & B & C); rewrite A; split; [exact HT|]; split; [exact B|]; split; [exact C|exact NT]]).
    Qed.

    (** *** The locations in turn *)
    Definition gdone n : Prop := exists l, at_loc l n /\ guest_done l = true.
    Lemma gdone_step p n tr n' o : history (upto_p p) n tr -> gdone n -> nstep n (sg p) = Ok (n', o) -> gdone n'.
    Proof.
      intros HH (l & HL & HD) HS. pose proof (history_gi _ _ _ _ _ _ _ _ _ HH) as HG.
      destruct (loc_step _ _ _ _ _ _ _ _ _ _ HG HS HL) as [[A B]|(t & gen & n1 & l' & EV & EG & E1 & E2 & A)]; [exists l; auto|].
      exists l'. split; [exact A|]. unfold guest_go in EG. cbv zeta in EG. destruct l as [|c|c|c|c|c| |]; try discriminate HD.
      - destruct (chan_ready n k c); [|injection EG as _ <- _; reflexivity]. destruct (firewall _ _ _ _ _ _) as [[n2 o2]| |]; cbn [rbind fst snd] in EG; try discriminate. injection EG as _ <- _. reflexivity.
      - destruct (chan_ready n k c); [|injection EG as _ <- _; reflexivity]. destruct (firewall _ _ _ _ _ _) as [[n2 o2]| |]; cbn [rbind fst snd] in EG; try discriminate. injection EG as _ <- _. reflexivity.
      - destruct (receive _ _ _ _ _ _) as [[n2 o2]| |]; try discriminate; injection EG as _ <- _; reflexivity.
      - injection EG as _ <- _. reflexivity.
    Qed.
    Lemma reach_and (P Q : node -> Prop) p : reach P p -> reach Q p -> reach (fun n => P n /\ Q n) p.
    Proof. intros (n & tr & A & B) (n' & tr' & A' & B'). destruct A as [A1 A2], A' as [A1' A2']. rewrite A2 in A2'. injection A2' as <- <-. exists n, tr. split; [split; assumption|auto]. Qed.
    Lemma reach_imp (P Q : node -> Prop) p : (forall n, P n -> Q n) -> reach P p -> reach Q p.
    Proof. intros H (n & tr & A & B). exists n, tr. auto. Qed.

    Lemma g_fresh p c : reach (fun n => at_loc (GBuf c) n /\ slot n k c (mkSlot (Some FNew) [])) p ->
      exists q, (p <= q)%nat /\ reach (fun n => (exists a, at_loc (GBuf c) n /\ slot n k c (mkSlot (Some (FBuf a)) [])) \/ at_loc (GSleep c) n) q.
    Proof.
      apply (leads _ _ _ 0 (F_fw c)). clear p. intros p n tr n' o HH [HL HSl] HS.
      destruct (wait_step _ _ _ _ _ _ _ HH HL HSl HS) as [(A & B & C & _)|[(A & t & s' & EV & B & a & ->)|A]]; [|split; eauto 6|split; auto].
      split; [auto|]. intros (t & E). destruct (C _ E).
    Qed.
    Lemma g_buffered p c a : reach (fun n => at_loc (GBuf c) n /\ slot n k c (mkSlot (Some (FBuf a)) [])) p ->
      exists q, (p <= q)%nat /\ reach (fun n => (at_loc (GBuf c) n /\ exists s, slot n k c s /\ sl_chan s <> []) \/ at_loc (GSleep c) n) q.
    Proof.
      apply (leads _ _ _ (al_buf a) (F_fw c)). clear p. intros p n tr n' o HH [HL HSl] HS.
      destruct (wait_step _ _ _ _ _ _ _ HH HL HSl HS) as [(A & B & C & _)|[(A & t & s' & EV & B & [[-> LT]|[LE NE]])|A]].
      - split; [auto|]. intros (t & E). destruct (C _ E).
      - split; [auto|]. intros _ X. rewrite EV in X. cbn [ntime] in X. lia.
      - split; eauto 8.
      - split; auto.
    Qed.
    Lemma g_told p c : reach (fun n => at_loc (GBuf c) n /\ exists s, slot n k c s /\ sl_chan s <> []) p -> exists q, (p <= q)%nat /\ reach (at_loc (GSleep c)) q.
    Proof.
      apply (leads _ _ _ 0 F_guest). clear p. intros p n tr n' o HH (HL & s & HSl & NE) HS.
      destruct (wait_step _ _ _ _ _ _ _ HH HL HSl HS) as [(A & B & _ & C)|[(A & t & s' & EV & B & C)|A]]; [| |split; auto].
      - split; [left; eauto|]. intros X. destruct (NE (C X)).
      - split; [|intros (t' & gen & X); congruence]. left. split; [exact A|]. exists s'. split; [exact B|].
        destruct (sl_thread s) as [[|a|a|a|]|]; try exact (C NE); [destruct C as [a ->]; exact NE|]. destruct C as [[-> _]|[_ C]]; [exact NE|exact C].
    Qed.
    Lemma g_sleep p c : reach (at_loc (GSleep c)) p -> exists q, (p <= q)%nat /\ reach (fun n => at_loc (GTerm c) n /\ exists j r, nth_error (n_heap n) j = Some (k, r)) q.
    Proof.
      apply (leads _ _ _ start F_guest). clear p. intros p n tr n' o HH HL HS. exact (sleep_step _ _ _ _ _ _ HH HL HS).
    Qed.
    Lemma g_object m : forall p, reach (fun n => exists j r, nth_error (n_heap n) j = Some (k, r) /\ Z.to_nat (ProtProofs2.rank (prot_of (k_pc k)) r) = m) p ->
      exists q, (p <= q)%nat /\ reach (fun n => terminated_run n k = true) q.
    Proof.
      induction m as [m IH] using lt_wf_ind. intros p (n & tr & HH & j & r & EN & ER). destruct (r_term r) eqn:HT.
      { exists p. split; [lia|]. exists n, tr. split; [exact HH|]. apply terminated_in_heap. eauto. }
      set (P := fun n : node => exists r0, nth_error (n_heap n) j = Some (k, r0) /\ r_term r0 = false /\
        ProtProofs2.rank (prot_of (k_pc k)) r0 = ProtProofs2.rank (prot_of (k_pc k)) r /\ r_wake r0 = r_wake r).
      set (Q := fun n : node => exists r0, nth_error (n_heap n) j = Some (k, r0) /\
        (r_term r0 = true \/ 0 <= ProtProofs2.rank (prot_of (k_pc k)) r0 < ProtProofs2.rank (prot_of (k_pc k)) r)).
      destruct (leads P Q _ (r_wake r) (F_tick j)) with (p := p) as (q & L & n2 & tr2 & HH2 & r2 & EN2 & [T2|LT]).
      - intros p1 n1 tr1 n1' o1 HH1 (r1 & EN1 & HT1 & R1 & W1) HS1. destruct (object_step _ _ _ _ _ _ _ HH1 EN1 HT1 HS1) as (r1' & EN1' & [(A & B & C & NT)|X]).
        + split; [left; exists r1'; repeat split; congruence|]. intros X Y. destruct NT. rewrite W1. auto.
        + assert (Q n1') by (exists r1'; split; [exact EN1'|]; rewrite <- R1; exact X). auto.
      - exists n, tr. split; [exact HH|]. exists r. auto.
      - exists q. split; [exact L|]. exists n2, tr2. split; [exact HH2|]. apply terminated_in_heap. eauto.
      - destruct (IH (Z.to_nat (ProtProofs2.rank (prot_of (k_pc k)) r2))) with (p := q) as (q' & L' & X); [lia|exists n2, tr2; eauto|exists q'; split; [lia|exact X]].
    Qed.
    Lemma g_term p c : reach (fun n => at_loc (GTerm c) n /\ exists j r, nth_error (n_heap n) j = Some (k, r)) p -> exists q, (p <= q)%nat /\ reach gdone q.
    Proof.
      intros HR.
      assert (ST : forall p n tr n' o, history (upto_p p) n tr -> (at_loc (GTerm c) n \/ gdone n) -> nstep n (sg p) = Ok (n', o) ->
        (at_loc (GTerm c) n' \/ gdone n') /\ ((exists t gen, sg p = VGuest t i g gen) -> terminated_run n k = true -> gdone n')).
      { intros p1 n tr n' o HH [HL|HD] HS; [|pose proof (gdone_step _ _ _ _ _ HH HD HS); auto]. pose proof (history_gi _ _ _ _ _ _ _ _ _ HH) as HG.
        destruct (loc_step _ _ _ _ _ _ _ _ _ _ HG HS HL) as [[A B]|(t & gen & n1 & l' & EV & EG & E1 & E2 & A)]; [split; [auto|intros (t & gen & E); destruct (B _ _ E)]|].
        unfold guest_go in EG. cbv zeta in EG. destruct (terminated_run n k); injection EG as _ <- _; [|split; [auto|intros _ X; discriminate X]].
        assert (gdone n') by (exists (GClean2 c); auto). auto. }
      destruct HR as (n & tr & HH & HL & j & r & EN).
      destruct (g_object (Z.to_nat (ProtProofs2.rank (prot_of (k_pc k)) r)) p) as (q & L & X); [exists n, tr; split; [exact HH|]; exists j, r; split; [exact EN|reflexivity]|].
      assert (Y : reach (fun n => at_loc (GTerm c) n \/ gdone n) q).
      { apply (stays (fun n => at_loc (GTerm c) n \/ gdone n)) with (p := p); [intros; eapply ST; eassumption|exact L|exists n, tr; auto]. }
      destruct (leads (fun n => (at_loc (GTerm c) n \/ gdone n) /\ terminated_run n k = true) gdone _ 0 F_guest) with (p := q) as (q' & L' & Z).
      - clear - ST. intros p n tr n' o HH [HA HT] HS. destruct (ST _ _ _ _ _ HH HA HS) as [A B]. split; [|auto]. left. split; [exact A|].
        destruct (history_inv _ _ _ _ _ _ _ _ _ HH) as [T HI]. eapply term_stays; eassumption.
      - apply reach_and; assumption.
      - exists q'. split; [lia|exact Z].
    Qed.
    Lemma guest_returns p : reach (at_loc GAllow) p -> exists q, (p <= q)%nat /\ reach gdone q.
    Proof.
      intros H. destruct (g_allow _ H) as (q1 & c & L1 & H1).
      assert (S : forall q, (p <= q)%nat -> reach (at_loc (GSleep c)) q -> exists q', (p <= q')%nat /\ reach gdone q').
      { intros q L X. destruct (g_sleep _ _ X) as (q2 & L2 & X2). destruct (g_term _ _ X2) as (q3 & L3 & X3). exists q3. split; [lia|exact X3]. }
      assert (T : forall q, (p <= q)%nat -> reach (fun n => at_loc (GBuf c) n /\ exists s, slot n k c s /\ sl_chan s <> []) q -> exists q', (p <= q')%nat /\ reach gdone q').
      { intros q L X. destruct (g_told _ _ X) as (q2 & L2 & X2). apply (S q2); [lia|exact X2]. }
      destruct (g_fresh _ _ H1) as (q2 & L2 & n2 & tr2 & HH2 & [(a & X2)|X2]); [|apply (S q2); [lia|exists n2, tr2; auto]].
      destruct (g_buffered q2 c a) as (q3 & L3 & n3 & tr3 & HH3 & [X3|X3]); [exists n2, tr2; auto| |].
      - apply (T q3); [lia|exists n3, tr3; auto].
      - apply (S q3); [lia|exists n3, tr3; auto].
    Qed.
  End Guest.
End NP.
