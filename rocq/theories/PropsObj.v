(** Statements about the run objects of a node: what the theorems about a run say in a node. *)
From Coq Require Import ZArith List Lia Bool Permutation Sorted.
From Coq Require Import Init.Byte.
From Verif Require Import Curve Order SecpProofs SecpProofs2 DssProofs3 Params Bytes Res Secp Spec PublicKey Schnorr Dss DssSpec Dto DtoSpec Prot ProtSpec ProtProofs ProtProofs2 ProtProofs3 ProtProofs6 TimeSpec TimeProofs DkgProt DkgProofs KMap Firewall FwSpec FwProofs
  Outputs Node NodeSpec NodeRun NodeProofs NodeProofs2 NodeProofs3 NodeProofs4 NodeProofs5 NodeProofs6 NodeProofs7 ObjSpec ObjProofs ObjProofs2 ObjProofs3 PropsNode PropsNode2 SignSpec SignProofs PropsSign.
Import ListNotations.
Open Scope Z_scope.

Section Statements.
  Context {G : Type}.
  Variable ky : kyber G.
  Variable keccak : bytes -> bytes.
  Variable pshash : Z -> Z -> bytes.
  Notation nevent := (nevent (G := G)). Notation node := (node (G := G)).
  Implicit Types (evs : list nevent) (n : node) (tr : list nobs).
  Notation history := (nhistory ky keccak pshash).
  Notation lives := (lives ky keccak pshash).
  Notation prot := (dss_prot ky keccak pshash).

  Lemma hist_fair su n0 evs j k k0 h : lives su n0 evs j k k0 h -> orders_permute evs -> fair_maps (untimed h).
  Proof.
    intros (-> & _) HO e now H. unfold untimed in H. apply in_map_iff in H. destruct H as ([t ev] & E & H). cbn in E. subst ev.
    destruct (in_hist _ _ _ _ _ _ _ _ _ _ H) as (nonce & ord & k1 & n & A & ->). cbn. apply HO. right. eauto.
  Qed.

  (** ** C93.  A run object of a node goes through an execution of its protocol, in the order of the clock, waking up only
      when its sleep is over; if its run was asked for at most once, it is the only one of its run and all that the node
      shows of the run is what this execution shows. *)
  Theorem C93_every_run_object su until now0 evs n tr j k r : history su until now0 evs n tr -> nth_error (n_heap n) j = Some (k, r) ->
    exists gen h, lives su (start_node su until now0) evs j k (new_kd su k gen) h.
  Proof.
    intros [HC HE] EN. destruct (proj2 (objects _ _ _ _ _ _ _ _ _ HE) _ _ _ EN) as (k0 & os & L & (gen & ->) & _). eauto.
  Qed.
  Theorem C93_run_is_execution su until now0 evs n tr j k k0 h : history su until now0 evs n tr -> NoDup (su_guests su) ->
    lives su (start_node su until now0) evs j k k0 h ->
    let p := the_prot ky keccak pshash (k_pc k) in let c := run_info su k in
    clocked h /\ timely p c (new_run k0) (untimed h) /\
    exists r os, nth_error (n_heap n) j = Some (k, r) /\ exec p c (new_run k0) (untimed h) = Ok (r, os) /\
      ((requests_for k evs <= 1)%nat -> (forall j' r', nth_error (n_heap n) j' = Some (k, r') -> j' = j) /\ forall o, In (NRun k o) tr <-> In o os).
  Proof.
    intros [HC HE] ND HL p c. pose proof HL as (EH & _). destruct (hist_clocked ky keccak pshash su evs j _ (start_node su until now0) HC) as [CL _]. rewrite <- EH in CL.
    destruct (lives_object _ _ _ _ _ _ _ _ _ _ _ _ _ HE HL) as (r & os & A & B & C & D).
    split; [exact CL|]. split; [exact C|]. exists r, os. split; [exact A|]. split; [exact B|]. intros HR.
    destruct (history_one ky keccak pshash su until now0 evs n tr k ND (conj HC HE) HR) as [ON _]. split.
    - intros j' r' E'. eapply objs_two; eassumption.
    - intros o. rewrite <- (D ON). symmetry. apply in_run_trace.
  Qed.

  (** ** C94.  What a request returns for a guest is the last output a run of this guest and id gave, under the protocol of
      the request, that was not returned before. *)
  Theorem C94_returns_last su until now0 evs n tr a k v b : history su until now0 evs n tr -> tr = a ++ NPop k v :: b -> v = kept k a.
  Proof. intros [_ HE] ET. exact (proj2 (history_kept _ _ _ _ _ _ _ _ _ HE) _ _ _ _ ET). Qed.
  (** Each request returns one output for each guest, at most. *)
  Theorem C94_returned_once su until now0 evs n tr k : history su until now0 evs n tr -> In (k_guest k) (su_guests su) -> (pops k tr <= requests_for k evs)%nat.
  Proof. intros HH KG. eapply history_pops; eassumption. Qed.
  (** If the run was asked for once, the signature it gave is returned: the request does not return without it. *)
  Theorem C94_signature_returned su until now0 evs n tr k v w : history su until now0 evs n tr -> NoDup (su_guests su) -> In (k_guest k) (su_guests su) ->
    (requests_for k evs <= 1)%nat -> k_pc k = pc_dss -> In (NRun k (OOutput pc_dss v)) tr -> In (NPop k w) tr ->
    exists v', w = Some v' /\ In (NRun k (OOutput pc_dss v')) tr.
  Proof.
    intros HH ND KG HR KP HO HP. rewrite <- KP in HO. destruct (returned _ _ _ _ _ _ _ _ _ _ _ _ ND KG HH HR HO HP) as (v' & k' & -> & A & B & C). rewrite KP in *.
    pose proof (C75_only_requested_documents _ _ _ _ _ _ _ _ _ _ _ HH C eq_refl) as (doc & start & t & d & ord & s & (base & _ & _ & X & _) & _).
    exists v'. split; [reflexivity|]. replace k with k'; [exact C|]. destruct k, k'; cbn in *; congruence.
  Qed.

  (** ** C95.  Members [M], enough of them, each on a node that was asked once to sign the document of the session under the
      id [id], whose runs get ready, start within a window, are late by at most [d] and get the others' partial signatures
      within [lat] of their sending: then every request that returns, returns one and the same valid signature. *)
  Theorem C95_nodes_sign : forall S P M id (su : Z -> setup) (until now0 : Z -> Z) (evs : Z -> list nevent) (n : Z -> node) (tr : Z -> list nobs)
      (j : Z -> nat) (k0 : Z -> kd G) (h : Z -> list (Z * event payload env)) (s : Z -> Z) d lat,
    let k i := mkKey pc_dss i id in let c i := run_info (su i) (k i) in
    (forall b, length (keccak b) = 32%nat) -> sound S P -> NoDup M -> M <> [] -> se_T S <= Z.of_nat (length M) -> 0 <= d ->
    (forall i, In i M -> history (su i) (until i) (now0 i) (evs i) (n i) (tr i) /\ NoDup (su_guests (su i)) /\ In i (su_guests (su i)) /\ orders_permute (evs i) /\
       (requests_for (k i) (evs i) <= 1)%nat /\ (exists v, In (NPop (k i) v) (tr i)) /\
       lives (su i) (start_node (su i) (until i) (now0 i)) (evs i) (j i) (k i) (k0 i) (h i) /\
       In (NRun (k i) (OStart (s i))) (tr i) /\
       ready ky keccak pshash S i (c i) (k0 i) (untimed (h i)) /\ punctual prot (c i) d (new_run (k0 i)) (untimed (h i))) ->
    (forall i i', In i M -> In i' M -> s i - s i' + 2 * d + lat < 70 * ms) ->
    (forall i i' m t, In i M -> In i' M -> happens prot (c i') (k0 i') (h i') t (OSent m) -> m_op m = op_dss_partsig -> m_rcpt m = i ->
       exists t', t' <= t + lat /\ arrives (h i) t' m) ->
    exists sg, verify keccak (KP P) (se_msg S) sg = Ok tt /\ forall i v, In i M -> In (NPop (k i) v) (tr i) -> v = Some (VSig sg).
  Proof.
    intros S P M id su until now0 evs n tr j k0 h s d lat k c LK HS ND NM LT HD HM HW HA.
    destruct (C92_members_sign ky keccak pshash S P M c k0 h s d lat LK HS ND NM LT HD) as (sg & V & X).
    - intros i Hi. destruct (HM i Hi) as (HH & NG & IG & OP & RQ & (v & PO) & HL & ST & RD & PU).
      destruct (C93_run_is_execution _ _ _ _ _ _ _ _ _ _ HH NG HL) as (CL & TI & r & os & EN & EX & ON). destruct (ON RQ) as [ON1 ON2].
      change (the_prot ky keccak pshash (k_pc (k i))) with prot in *. change (run_info (su i) (k i)) with (c i) in *.
      split; [exact RD|]. split; [apply (hist_fair _ _ _ _ _ _ _ HL OP)|]. split; [exact CL|]. split; [exact TI|]. split; [exact PU|]. split.
      + apply ON2 in ST. destruct (in_happens prot (c i) (k0 i) (h i) [] r os _ EX ST) as [t HT]. rewrite app_nil_r in HT. rewrite <- (start_unique _ _ _ _ _ _ HT CL) in HT. exact HT.
      + exists r, os. split; [exact EX|].
        assert (TR : r_term r = true).
        { destruct (history_silent ky keccak pshash (su i) (until i) (now0 i) (evs i) (n i) (tr i) (k i) (k i) NG HH) as (_ & PIx & _ & TDx & LPx); [repeat split; exact IG|].
          pose proof (history_ph ky keccak pshash (su i) (until i) (now0 i) (evs i) (n i) (tr i) HH) as PHx.
          pose proof (popped_terminated (su i) (tr i) (n i) (k i) v (k i) PHx LPx TDx PIx PO ltac:(repeat split; exact IG)) as TT. apply terminated_in_heap in TT. destruct TT as (j1 & r1 & E1 & T1).
          rewrite (ON1 _ _ E1) in E1. rewrite EN in E1. injection E1 as ->. exact T1. }
        pose proof (run_inv prot (c i) _ _ _ _ EX) as HI. rewrite (iv_entered _ _ _ _ _ HI). apply in_upto.
        pose proof (iv_loc _ _ _ _ _ HI) as LO. rewrite TR in LO. destruct (r_loc r); destruct LO as (L1 & _ & L2); try discriminate L2. rewrite L1. cbn. lia.
    - exact HW.
    - exact HA.
    - exists sg. split; [exact V|]. intros i v Hi PO. destruct (HM i Hi) as (HH & NG & IG & OP & RQ & _ & HL & ST & RD & PU).
      destruct (C93_run_is_execution _ _ _ _ _ _ _ _ _ _ HH NG HL) as (CL & TI & r & os & EN & EX & ON). destruct (ON RQ) as [ON1 ON2].
      change (the_prot ky keccak pshash (k_pc (k i))) with prot in *. change (run_info (su i) (k i)) with (c i) in *.
      pose proof (X i r os Hi EX) as HO. apply ON2 in HO.
      destruct (C94_signature_returned _ _ _ _ _ _ (k i) _ _ HH NG IG RQ eq_refl HO PO) as (v' & -> & O2). f_equal.
      pose proof (C75_only_requested_documents _ _ _ _ _ _ _ _ _ _ _ HH O2 eq_refl) as (doc & start & t & d0 & ord & sg' & _ & _ & _ & _ & ->). f_equal.
      apply ON2 in HO. apply ON2 in O2. symmetry.
      pose proof (hist_fair _ _ _ _ _ _ _ HL OP) as FM.
      exact (proj1 (C91_same_signature ky keccak pshash S P i _ _ _ _ _ sg i _ _ _ _ _ sg' HS RD FM EX RD FM EX HO O2)).
  Qed.
End Statements.
Print Assumptions C93_every_run_object. Print Assumptions C93_run_is_execution. Print Assumptions C94_returns_last. Print Assumptions C94_returned_once.
Print Assumptions C94_signature_returned. Print Assumptions C95_nodes_sign.

(** Members 0 and 1 of C92_ex, now on two nodes. *)
Lemma push_outputs k l : forall m, push_all m k l = fold_left (fun m x => push_output m (mkKey (fst x) (k_guest k) (k_run k)) (snd x)) (outputs_of l) m.
Proof. induction l as [|x l IH]; intros m; [reflexivity|]. destruct x; cbn [push_all]; rewrite IH; reflexivity. Qed.
Lemma push_all_app k a b m : push_all (push_all m k a) k b = push_all m k (a ++ b).
Proof. rewrite !push_outputs. unfold outputs_of. rewrite flat_map_app, fold_left_app. reflexivity. Qed.
Section Lift.
  Context {G : Type}.
  Variable ky : kyber G.
  Variable keccak : bytes -> bytes.
  Variable pshash : Z -> Z -> bytes.
  Variable su : setup.
  Notation nexec := (nexec ky keccak pshash su). Notation nstep := (nstep ky keccak pshash su).
  Notation hist := (run_history ky keccak pshash su).
  Definition calm_ev (ev : nevent (G := G)) : Prop := match ev with VTick _ _ _ _ | VDeliver _ _ _ _ _ => False | _ => True end.
  Lemma hist_calm l j : Forall calm_ev l -> forall n, hist n l j = [].
  Proof.
    induction 1 as [|ev l H _ IH]; intros n; [reflexivity|]. cbn [run_history]. assert (E : event_of_run su n j ev = []) by (destruct ev; try reflexivity; destruct H). rewrite E.
    destruct (nstep n ev); [apply IH|reflexivity..].
  Qed.
  Lemma hist_app l : forall n n' tr l' j, nexec n l = Ok (n', tr) -> hist n (l ++ l') j = hist n l j ++ hist n' l' j.
  Proof.
    induction l as [|ev l IH]; intros n n' tr l' j; cbn [Node.nexec app run_history]; [intros E; injection E as <- _; reflexivity|].
    destruct (nstep n ev) as [[n1 o1]| |]; cbn [rbind fst snd]; try discriminate. destruct (nexec n1 l) as [[n2 o2]| |] eqn:E2; cbn [rbind fst snd]; try discriminate.
    intros E. injection E as <- _. rewrite (IH _ _ _ l' j E2), app_assoc. reflexivity.
  Qed.
  Lemma nexec_two a b n n1 t1 n2 t2 : nexec n a = Ok (n1, t1) -> nexec n1 b = Ok (n2, t2) -> nexec n (a ++ b) = Ok (n2, t1 ++ t2).
  Proof. intros E1 E2. rewrite nexec_app, E1. cbn [rbind fst snd]. rewrite E2. reflexivity. Qed.
  Lemma put_put {A} (l : list A) j x y : put (put l j x) j y = put l j y.
  Proof. revert j. induction l as [|z l IH]; intros [|j]; cbn; try reflexivity. f_equal. apply IH. Qed.
  Lemma put_id {A} (l : list A) j x : nth_error l j = Some x -> put l j x = l.
  Proof. revert j. induction l as [|z l IH]; intros [|j]; cbn; try discriminate; [intros E; injection E as ->; reflexivity|]. intros E. rewrite (IH _ E). reflexivity. Qed.
  Definition moved (n : node (G := G)) (j : nat) (k : key) (r : rst payload (kd G)) (tr : list (obs payload arg output)) : node (G := G) :=
    set_outs (set_heap n (put (n_heap n) j (k, r))) (push_all (n_outs n) k tr).
  Lemma ticks_lift nonce ord j k l : forall n r r' tr, let p := the_prot ky keccak pshash (k_pc k) in let c := run_info su k in let evs := map (ETick (env_for su n k nonce ord)) l in
    nth_error (n_heap n) j = Some (k, r) -> exec p c r evs = Ok (r', tr) -> timely p c r evs ->
    nexec n (map (fun t => VTick t j nonce ord) l) = Ok (moved n j k r' tr, map (NRun k) tr) /\
    hist n (map (fun t => VTick t j nonce ord) l) j = map (fun t => (t, ETick (env_for su n k nonce ord) t)) l.
  Proof.
    induction l as [|t l IH]; intros n r r' tr p c evs EN; cbn [map].
    - intros EX _. cbn in EX. injection EX as <- <-. cbn. unfold moved. cbn. rewrite put_id by exact EN. destruct n; split; reflexivity.
    - unfold evs. cbn [map exec timely]. destruct (step p c r (ETick (env_for su n k nonce ord) t)) as [[r1 t1]| |] eqn:E1; cbn [rbind fst snd]; try discriminate.
      destruct (exec p c r1 (map (ETick (env_for su n k nonce ord)) l)) as [[r2 t2]| |] eqn:E2; cbn [rbind fst snd]; try discriminate. intros EX [HT1 HT2]. injection EX as <- <-.
      assert (E1' : nstep n (VTick t j nonce ord) = Ok (run_after n j k (r1, t1))) by (apply (tick_node _ _ _ _ _ _ _ _ _ _ r); [exact EN|apply Z.ltb_ge; exact HT1|exact E1]).
      assert (EN1 : nth_error (n_heap (fst (run_after n j k (r1, t1)))) j = Some (k, r1)) by (cbn; rewrite put_nth, Nat.eqb_refl; rewrite (proj2 (Nat.ltb_lt _ _)); [reflexivity|apply nth_error_Some; congruence]).
      destruct (IH (fst (run_after n j k (r1, t1))) r1 r2 t2 EN1 E2 HT2) as [X1 X2]. split.
      + cbn [Node.nexec]. rewrite E1'. cbn [rbind fst snd]. cbn [fst] in X1. rewrite X1. cbn [rbind fst snd]. unfold moved, run_after. cbn. rewrite put_put, push_all_app, map_app. reflexivity.
      + cbn [run_history]. rewrite E1'. cbn [fst]. cbn [fst] in X2. rewrite X2. cbn [event_of_run]. rewrite EN, Nat.eqb_refl. cbn [andb]. rewrite (proj2 (Z.leb_le _ _) HT1). reflexivity.
  Qed.
End Lift.

Lemma split_msg {E P S A O} (p : protocol E P S A O) c a e m b r r' tr :
  exec p c r (a ++ EMsg e m :: b) = Ok (r', tr) -> timely p c r (a ++ EMsg e m :: b) ->
  exists r1 t1 r2 t2 t3, exec p c r a = Ok (r1, t1) /\ step p c r1 (EMsg e m) = Ok (r2, t2) /\ exec p c r2 b = Ok (r', t3) /\ tr = t1 ++ t2 ++ t3 /\
    timely p c r a /\ timely p c r2 b.
Proof.
  intros EX HT. pose proof EX as EX'. apply exec_split in EX'. destruct EX' as (r1 & t1 & t2' & X1 & X2 & ET).
  destruct (timely_app _ _ _ _ _ _ _ HT X1) as [HT1 HT2]. cbn [exec] in X2. cbn [timely] in HT2.
  destruct (step p c r1 (EMsg e m)) as [[r2 t2]| |] eqn:ES; cbn [rbind fst snd] in X2; try discriminate.
  destruct (exec p c r2 b) as [[r3 t3]| |] eqn:X3; cbn [rbind fst snd] in X2; try discriminate. injection X2 as <- <-.
  exists r1, t1, r2, t2, t3. repeat split; try assumption. exact (proj2 HT2).
Qed.
Section Nodes.
  Variable keccak : bytes -> bytes.
  Variable pshash : Z -> Z -> bytes.
  Variables nonce long : Z -> dks.
  Variables p0 p1 : point.
  Definition duo_id : bytes := run_id_for [x61] 0.
  Definition duo_su (i : Z) : setup := mkSetup [i] [p0; p1] 2 2 (fun g => 3 + 3 * g) (fun g => Some (long g)).
  Definition duo_key (i : Z) : key := mkKey pc_dss i duo_id.
  Definition oid : Z -> list (Z * Z) -> list (Z * Z) := fun _ l => l.
  Definition duo_pre (i : Z) : list (nevent (G := Z)) :=
    let k := duo_key i in let t := -10 * ms in
    [VRequest t [x61] 0 (Some 10); VGo t 0 i; VGuest t 0 i i; VFw t k 0; VFw (-5 * ms) k 0; VGuest (-5 * ms) 0 i i; VFw 0 k 0; VGuest 0 0 i i].
  Definition duo_ticks (l : list Z) : list (nevent (G := Z)) := map (fun t => VTick t 0 9 oid) (map (fun t => t * ms) l).
  Definition duo_in (i : Z) (w : wire) : list (nevent (G := Z)) := [VIn (560 * ms) (duo_msg duo_id (1 - i) w); VTake (560 * ms) pc_dss i 0].
  Definition duo_post (i : Z) : list (nevent (G := Z)) := let t := 660 * ms in [VGuest t 0 i i; VWait t 0; VGo t 0 i; VGo t 0 i].
  Definition duo_evs (i : Z) (w : wire) : list (nevent (G := Z)) :=
    duo_pre i ++ duo_ticks (duo_wakes0 ++ [530; 550; 555]) ++ (duo_in i w ++ [VDeliver (560 * ms) pc_dss i 9 oid]) ++ duo_ticks [625; 630; 650] ++ duo_post i.
  Notation ky := (duo_ky nonce).
  Notation st0 i := (start_node (G := Z) (duo_su i) (-20 * ms) (-20 * ms)).

  Lemma deliver_node n pc g nn ord j m k r x : kget (n_cons n) (qkey pc g) = Some (j, m) -> nth_error (n_heap n) j = Some (k, r) ->
    Prot.step (the_prot ky keccak pshash (k_pc k)) (run_info (duo_su g) k) r (EMsg (env_for (duo_su g) n k nn ord) m) = Ok x ->
    forall now, nstep ky keccak pshash (duo_su g) n (VDeliver now pc g nn ord) =
      Ok (set_cons (fst (run_after n j k x)) (kdel (n_cons (fst (run_after n j k x))) (qkey pc g)), snd (run_after n j k x)).
  Proof. intros E1 E2 E3 now. cbn [nstep]. unfold consumer_deliver. rewrite E1, E2. cbn [Prot.step] in E3. rewrite E3. reflexivity. Qed.

  Lemma duo_nodes i w r tr s sg : i = 0 \/ i = 1 ->
    let p := dss_prot ky keccak pshash in let c := duo_c duo_id i in let k0 := duo_k [p0; p1] i in let h := duo_hist duo_id long i w in
    exec p c (new_run k0) (untimed h) = Ok (r, tr) -> timely p c (new_run k0) (untimed h) -> r_term r = true -> outputs_of tr = [(pc_dkg, s); (pc_dss, VSig sg)] ->
    exists n tr', nhistory ky keccak pshash (duo_su i) (-20 * ms) (-20 * ms) (duo_evs i w) n tr' /\
      In (NPop (duo_key i) (Some (VSig sg))) tr' /\ lives ky keccak pshash (duo_su i) (st0 i) (duo_evs i w) 0 (duo_key i) k0 h /\ (length (queued_to pc_dss i tr') <= 3)%nat.
  Proof.
    intros Hi p c k0 h EX HT RT OU.
    set (l1 := map (fun t => t * ms) (duo_wakes0 ++ [530; 550; 555])). set (l2 := map (fun t => t * ms) [625; 630; 650]). set (m := duo_msg duo_id (1 - i) w).
    assert (EU : untimed h = map (ETick (duo_env long i)) l1 ++ EMsg (duo_env long i) m :: map (ETick (duo_env long i)) l2) by reflexivity.
    rewrite EU in EX, HT. destruct (split_msg _ _ _ _ _ _ _ _ _ EX HT) as (r1 & t1 & r2 & t2 & t3 & X1 & ES & X3 & ET & HT1 & HT2).
    assert (PRE : exists n1 o1, nexec ky keccak pshash (duo_su i) (st0 i) (duo_pre i) = Ok (n1, o1) /\ n_heap n1 = [(duo_key i, new_run k0)] /\ n_outs n1 = [] /\
       kget (n_docs n1) (dkey i duo_id) = Some 10 /\ queued_to pc_dss i o1 = [] /\
       (forall r t, exists n2 o2, nexec ky keccak pshash (duo_su i) (moved n1 0 (duo_key i) r t) (duo_in i w) = Ok (n2, o2) /\ n_heap n2 = [(duo_key i, r)] /\ n_outs n2 = push_all [] (duo_key i) t /\
          kget (n_cons n2) (qkey pc_dss i) = Some (0%nat, m) /\ kget (n_docs n2) (dkey i duo_id) = Some 10 /\ length (queued_to pc_dss i o2) = 1%nat /\
          forall r', r_term r' = true -> exists n4 o4, nexec ky keccak pshash (duo_su i)
             (set_outs (set_heap (set_cons n2 (kdel (n_cons n2) (qkey pc_dss i))) [(duo_key i, r')]) (push_output (push_output [] (mkKey pc_dkg i duo_id) s) (duo_key i) (VSig sg))) (duo_post i) = Ok (n4, o4) /\
             In (NPop (duo_key i) (Some (VSig sg))) o4 /\ (length (queued_to pc_dss i o4) <= 2)%nat)).
    { clear - Hi. destruct Hi as [->| ->].
      - eexists _, _. split; [lazy; reflexivity|]. split; [reflexivity|]. split; [reflexivity|]. split; [reflexivity|]. split; [reflexivity|]. intros r t. eexists _, _. split; [lazy; reflexivity|].
        split; [reflexivity|]. split; [reflexivity|]. split; [reflexivity|]. split; [reflexivity|]. split; [reflexivity|]. intros r' E. destruct r'; cbn in E; subst. eexists _, _. split; [lazy; reflexivity|]. split; [lazy; tauto|lazy; lia].
      - eexists _, _. split; [lazy; reflexivity|]. split; [reflexivity|]. split; [reflexivity|]. split; [reflexivity|]. split; [reflexivity|]. intros r t. eexists _, _. split; [lazy; reflexivity|].
        split; [reflexivity|]. split; [reflexivity|]. split; [reflexivity|]. split; [reflexivity|]. split; [reflexivity|]. intros r' E. destruct r'; cbn in E; subst. eexists _, _. split; [lazy; reflexivity|]. split; [lazy; tauto|lazy; lia]. }
    destruct PRE as (n1 & o1 & A1 & A2 & A3 & A4 & QU1 & A5).
    assert (EV1 : env_for (duo_su i) n1 (duo_key i) 9 oid = duo_env long i) by (unfold env_for; cbn [duo_key k_guest k_run]; rewrite A4; reflexivity).
    destruct (ticks_lift ky keccak pshash (duo_su i) 9 oid 0 (duo_key i) l1 n1 (new_run k0) r1 t1) as [B1 B2].
    { rewrite A2. reflexivity. }
    { rewrite EV1. exact X1. }
    { rewrite EV1. exact HT1. }
    rewrite EV1 in B2.
    destruct (A5 r1 t1) as (n2 & o2 & C1 & C2 & C3 & C4 & C5 & QU2 & C6).
    assert (EV2 : env_for (duo_su i) n2 (duo_key i) 9 oid = duo_env long i) by (unfold env_for; cbn [duo_key k_guest k_run]; rewrite C5; reflexivity).
    set (n3 := set_cons (fst (run_after n2 0 (duo_key i) (r2, t2))) (kdel (n_cons (fst (run_after n2 0 (duo_key i) (r2, t2)))) (qkey pc_dss i))).
    assert (D1 : nstep ky keccak pshash (duo_su i) n2 (VDeliver (560 * ms) pc_dss i 9 oid) = Ok (n3, map (NRun (duo_key i)) t2)).
    { apply (deliver_node n2 pc_dss i 9 oid 0 m (duo_key i) r1 (r2, t2)); [exact C4|rewrite C2; reflexivity|]. rewrite EV2. exact ES. }
    assert (EV3 : env_for (duo_su i) n3 (duo_key i) 9 oid = duo_env long i) by exact EV2.
    destruct (ticks_lift ky keccak pshash (duo_su i) 9 oid 0 (duo_key i) l2 n3 r2 r t3) as [F1 F2].
    { unfold n3, run_after. cbn. rewrite C2. reflexivity. }
    { rewrite EV3. exact X3. }
    { rewrite EV3. exact HT2. }
    rewrite EV3 in F2.
    destruct (C6 r RT) as (n4 & o4 & H1 & H2 & QU4).
    assert (EM : moved n3 0 (duo_key i) r t3 = set_outs (set_heap (set_cons n2 (kdel (n_cons n2) (qkey pc_dss i))) [(duo_key i, r)]) (push_output (push_output [] (mkKey pc_dkg i duo_id) s) (duo_key i) (VSig sg))).
    { unfold moved, n3, run_after. cbn [fst snd set_cons set_outs set_heap n_heap n_outs n_cons n_fw n_qs n_table n_docs n_reqs]. rewrite C3, !push_all_app, C2. cbn [put].
      rewrite <- app_assoc, <- ET, (push_outputs _ tr), OU. reflexivity. }
    rewrite <- EM in H1.
    assert (N1 : nexec ky keccak pshash (duo_su i) n1 (duo_ticks (duo_wakes0 ++ [530; 550; 555])) = Ok (moved n1 0 (duo_key i) r1 t1, map (NRun (duo_key i)) t1)) by exact B1.
    assert (N2 : nexec ky keccak pshash (duo_su i) (moved n1 0 (duo_key i) r1 t1) (duo_in i w ++ [VDeliver (560 * ms) pc_dss i 9 oid]) = Ok (n3, o2 ++ map (NRun (duo_key i)) t2)).
    { eapply nexec_two; [exact C1|]. cbn [Node.nexec]. rewrite D1. cbn [rbind fst snd]. rewrite app_nil_r. reflexivity. }
    assert (N3 : nexec ky keccak pshash (duo_su i) n3 (duo_ticks [625; 630; 650]) = Ok (moved n3 0 (duo_key i) r t3, map (NRun (duo_key i)) t3)) by exact F1.
    eexists n4, _. split; [split|].
    - unfold duo_evs, duo_ticks, duo_wakes0, duo_pre, duo_in, duo_post. cbn [map app nclock ntime]. repeat split; apply Z.leb_le; reflexivity.
    - unfold duo_evs. eapply nexec_two; [exact A1|]. eapply nexec_two; [exact N1|]. eapply nexec_two; [exact N2|]. eapply nexec_two; [exact N3|exact H1].
    - split; [apply in_or_app; right; apply in_or_app; right; apply in_or_app; right; apply in_or_app; right; exact H2|]. split; [split|].
      + unfold duo_evs. rewrite (hist_app _ _ _ _ _ _ _ _ _ _ A1), (hist_app _ _ _ _ _ _ _ _ _ _ N1), (hist_app _ _ _ _ _ _ _ _ _ _ N2), (hist_app _ _ _ _ _ _ _ _ _ _ N3), (hist_app _ _ _ _ _ _ _ _ _ _ C1).
        rewrite (hist_calm _ _ _ _ (duo_pre i) 0), (hist_calm _ _ _ _ (duo_in i w) 0), (hist_calm _ _ _ _ (duo_post i) 0) by (repeat constructor).
        unfold duo_ticks at 1 2. fold l1 l2. rewrite B2, F2. cbn [run_history event_of_run app]. rewrite C2. cbn [nth_error]. change (mkKey pc_dss i []) with (qkey pc_dss i). rewrite C4, EV2.
        rewrite D1. cbn [Nat.eqb app fst]. rewrite app_nil_r. reflexivity.
      + exists (firstn 7 (duo_pre i)), (VGuest 0 0 i i), (duo_ticks (duo_wakes0 ++ [530; 550; 555]) ++ (duo_in i w ++ [VDeliver (560 * ms) pc_dss i 9 oid]) ++ duo_ticks [625; 630; 650] ++ duo_post i).
        clear - Hi. destruct Hi as [->| ->]; (eexists _, _, _, _; split; [reflexivity|]; split; [lazy; reflexivity|]; split; [lazy; reflexivity|]; split; reflexivity).
      + assert (NQ : forall l, queued_to pc_dss i (map (NRun (duo_key i)) l) = []) by (intros l; induction l as [|x l IH]; [reflexivity|exact IH]).
        rewrite !queued_app, QU1, !NQ, !app_nil_r. cbn [app]. rewrite app_length, QU2. lia.
  Qed.
End Nodes.

(** Members 0 and 1 on two nodes: each is asked once to sign, and its request returns.  [w0], [w1]: their partial signatures. *)
Lemma demo_c95 : forall keccak pshash, (forall b, length (keccak b) = 32%nat) -> exists w0 w1 q0 q1 n tr, demo_parts = [q0; q1] /\
  let long := demo_dks [5; 6] in let ky := duo_ky (demo_dks [7; 8]) in let id := duo_id in let su := duo_su long q0 q1 in
  let evs i := duo_evs i (WPart (if i =? 0 then w1 else w0)) in let k0 := duo_k [q0; q1] in let h i := duo_hist duo_id long i (WPart (if i =? 0 then w1 else w0)) in
  let p := dss_prot ky keccak pshash in let M := [0; 1] in let k i := mkKey pc_dss i id in let c i := run_info (su i) (k i) in
  sound demo_session (of_E (smul 5 eG)) /\ NoDup M /\ se_T demo_session <= Z.of_nat (length M) /\
  (forall i, In i M -> nhistory ky keccak pshash (su i) (-20 * ms) (-20 * ms) (evs i) (n i) (tr i) /\ NoDup (su_guests (su i)) /\ In i (su_guests (su i)) /\ orders_permute (evs i) /\
     (requests_for (k i) (evs i) <= 1)%nat /\ (exists v, In (NPop (k i) (Some (VSig v))) (tr i)) /\
     lives ky keccak pshash (su i) (start_node (su i) (-20 * ms) (-20 * ms)) (evs i) 0 (k i) (k0 i) (h i) /\
     In (NRun (k i) (OStart 0)) (tr i) /\
     ready ky keccak pshash demo_session i (c i) (k0 i) (untimed (h i)) /\ punctual p (c i) 0 (new_run (k0 i)) (untimed (h i))) /\
  (forall i i' m t, In i M -> In i' M -> happens p (c i') (k0 i') (h i') t (OSent m) -> m_op m = op_dss_partsig -> m_rcpt m = i ->
     exists t', t' <= t + 30 * ms /\ arrives (h i) t' m) /\
  forall i, In i M -> (length (queued_to pc_dss i (tr i)) <= 3)%nat /\ let m := duo_msg duo_id i (WPart (if i =? 0 then w0 else w1)) in timely p (c i) (new_run (k0 i)) (untimed (h i)) /\
    (exists r tr m1, exec p (c i) (new_run (k0 i)) (untimed (map (duo_wake long i) (duo_wakes0 ++ [530; 550; 555]))) = Ok (r, tr) /\ sent tr = [m1; m] /\ m_rcpt m1 = 1 - i /\ m_op m1 <> op_dss_partsig) /\
    exists r tr, exec p (c i) (new_run (k0 i)) (untimed (h i)) = Ok (r, tr) /\ for_op op_dss_partsig (sent tr) = [m].
Proof.
  intros keccak pshash LK. destruct (demo_c92 duo_id keccak pshash LK) as (w0 & w1 & A & B & XT). cbv zeta in A, B, XT.
  assert (EP : exists q0 q1, demo_parts = [q0; q1]) by (eexists _, _; reflexivity). destruct EP as (q0 & q1 & EP). rewrite EP in A, B, XT.
  set (long := demo_dks [5; 6]) in *. set (nonce := demo_dks [7; 8]) in *.
  assert (N : forall i w r tr s sg, i = 0 \/ i = 1 -> let p := dss_prot (duo_ky nonce) keccak pshash in let c := duo_c duo_id i in let k0 := duo_k [q0; q1] i in let h := duo_hist duo_id long i w in
    In (OStart 0) tr -> exec p c (new_run k0) (untimed h) = Ok (r, tr) -> timely p c (new_run k0) (untimed h) -> r_term r = true -> outputs_of tr = [(pc_dkg, s); (pc_dss, VSig sg)] ->
    exists n tr', nhistory (duo_ky nonce) keccak pshash (duo_su long q0 q1 i) (-20 * ms) (-20 * ms) (duo_evs i w) n tr' /\
      NoDup [i] /\ In i [i] /\ orders_permute (G := Z) (duo_evs i w) /\ (requests_for (duo_key i) (duo_evs i w) <= 1)%nat /\
      (exists v, In (NPop (duo_key i) (Some (VSig v))) tr') /\ lives (duo_ky nonce) keccak pshash (duo_su long q0 q1 i) (start_node (duo_su long q0 q1 i) (-20 * ms) (-20 * ms)) (duo_evs i w) 0 (duo_key i) k0 h /\
      In (NRun (duo_key i) (OStart 0)) tr' /\ (length (queued_to pc_dss i tr') <= 3)%nat).
  { intros i w r tr s sg Hi p c k0 h HS EX HT RT OU. destruct (duo_nodes keccak pshash nonce long q0 q1 i w r tr s sg Hi EX HT RT OU) as (n & tr' & HH & PO & HL & QU).
    assert (ND : NoDup [i]) by (constructor; [intros []|constructor]). assert (RQ : (requests_for (duo_key i) (duo_evs i w) <= 1)%nat) by (clear - Hi; destruct Hi; subst i; lazy; lia).
    exists n, tr'. split; [exact HH|]. split; [exact ND|]. split; [left; reflexivity|]. split.
    { assert (FO : Forall (fun ev : nevent (G := Z) => match ev with VTick _ _ _ o | VDeliver _ _ _ _ o => o = oid | _ => True end) (duo_evs i w)) by (repeat constructor).
      rewrite Forall_forall in FO. intros ord X. assert (EO : ord = oid) by (destruct X as [(t & pc & g & nn & X)|(t & jj & nn & X)]; exact (FO _ X)). subst ord. intros ? ?. apply Permutation_refl. }
    split; [exact RQ|]. split; [eauto|]. split; [exact HL|]. split; [|exact QU].
    destruct (C93_run_is_execution _ _ _ _ _ _ _ _ _ _ _ _ _ HH ND HL) as (_ & _ & r' & os & _ & EX' & ON). destruct (ON RQ) as [_ ON2]. apply ON2.
    assert (EQ : Ok (r', os) = Ok (r, tr)) by (rewrite <- EX; symmetry; exact EX'). injection EQ as _ <-. exact HS. }
  destruct (A 0 ltac:(left; reflexivity)) as (R0 & _ & _ & T0 & P0 & S0 & r0 & t0 & X0 & _ & E0 & s0 & g0 & O0).
  destruct (A 1 ltac:(right; left; reflexivity)) as (R1 & _ & _ & T1 & P1 & S1 & r1 & t1 & X1 & _ & E1 & s1 & g1 & O1).
  assert (ST : forall i r t, happens (dss_prot (duo_ky nonce) keccak pshash) (duo_c duo_id i) (duo_k [q0; q1] i) (duo_hist duo_id long i (WPart (if i =? 0 then w1 else w0))) 0 (OStart 0) ->
    exec (dss_prot (duo_ky nonce) keccak pshash) (duo_c duo_id i) (new_run (duo_k [q0; q1] i)) (untimed (duo_hist duo_id long i (WPart (if i =? 0 then w1 else w0)))) = Ok (r, t) -> In (OStart 0) t).
  { intros i r t (a & ev & b & ra & ta & rb & os & EH & EA & ES & IN) EX. rewrite EH in EX. unfold untimed in EX. rewrite map_app in EX. apply exec_split in EX. destruct EX as (r2 & u1 & u2 & Y1 & Y2 & ->).
    unfold untimed in EA. rewrite EA in Y1. injection Y1 as <- <-. cbn [map snd exec] in Y2. rewrite ES in Y2. cbn [rbind fst snd] in Y2.
    destruct (exec _ _ rb (map snd b)) as [[r3 t3]| |]; try discriminate Y2. cbn [rbind fst snd] in Y2. injection Y2 as <- <-. apply in_or_app. right. apply in_or_app. left. exact IN. }
  destruct (N 0 (WPart w1) r0 t0 s0 g0 (or_introl eq_refl) (ST 0 _ _ S0 X0) X0 T0 E0 O0) as (n0 & tr0 & H0 & A0 & B0 & C0 & D0 & F0 & G0 & I0 & QU0).
  destruct (N 1 (WPart w0) r1 t1 s1 g1 (or_intror eq_refl) (ST 1 _ _ S1 X1) X1 T1 E1 O1) as (n1 & tr1 & H1 & A1 & B1 & C1 & D1 & F1 & G1 & I1 & QU1).
  exists w0, w1, q0, q1, (fun i => if i =? 0 then n0 else n1), (fun i => if i =? 0 then tr0 else tr1). split; [exact EP|]. cbv zeta.
  split; [exact demo_sound|]. split; [constructor; [intros [Y|[]]; discriminate Y|constructor; [intros []|constructor]]|]. split; [apply Z.le_refl|].
  split; [|split; [exact B|intros i Hi; split; [destruct Hi as [<-|[<-|[]]]; [exact QU0|exact QU1]|]; destruct (A i Hi) as (_ & _ & _ & TI & _); split; [exact TI|exact (XT i Hi)]]].
  intros i [<-|[<-|[]]].
  - split; [exact H0|]. split; [exact A0|]. split; [exact B0|]. split; [exact C0|]. split; [exact D0|]. split; [exact F0|]. split; [exact G0|]. split; [exact I0|]. split; [exact R0|exact P0].
  - split; [exact H1|]. split; [exact A1|]. split; [exact B1|]. split; [exact C1|]. split; [exact D1|]. split; [exact F1|]. split; [exact G1|]. split; [exact I1|]. split; [exact R1|exact P1].
Qed.
(** All assumptions of C95, for members 0 and 1 on two nodes: each is asked once to sign, and its request returns. *)
Example C95_ex : forall keccak pshash, (forall b, length (keccak b) = 32%nat) -> exists ky id su (evs : Z -> list (nevent (G := Z))) n tr k0 h,
  let p := dss_prot ky keccak pshash in let M := [0; 1] in let k i := mkKey pc_dss i id in let c i := run_info (su i) (k i) in
  sound demo_session (of_E (smul 5 eG)) /\ NoDup M /\ se_T demo_session <= Z.of_nat (length M) /\
  (forall i, In i M -> nhistory ky keccak pshash (su i) (-20 * ms) (-20 * ms) (evs i) (n i) (tr i) /\ NoDup (su_guests (su i)) /\ In i (su_guests (su i)) /\ orders_permute (evs i) /\
     (requests_for (k i) (evs i) <= 1)%nat /\ (exists v, In (NPop (k i) (Some (VSig v))) (tr i)) /\
     lives ky keccak pshash (su i) (start_node (su i) (-20 * ms) (-20 * ms)) (evs i) 0 (k i) (k0 i) (h i) /\
     In (NRun (k i) (OStart 0)) (tr i) /\
     ready ky keccak pshash demo_session i (c i) (k0 i) (untimed (h i)) /\ punctual p (c i) 0 (new_run (k0 i)) (untimed (h i))) /\
  (forall i i' m t, In i M -> In i' M -> happens p (c i') (k0 i') (h i') t (OSent m) -> m_op m = op_dss_partsig -> m_rcpt m = i ->
     exists t', t' <= t + 30 * ms /\ arrives (h i) t' m).
Proof.
  intros keccak pshash LK. destruct (demo_c95 keccak pshash LK) as (w0 & w1 & q0 & q1 & n & tr & _ & A1 & A2 & A3 & A4 & A5 & _).
  eexists _, _, _, _, n, tr, _, _. cbv zeta. split; [exact A1|]. split; [exact A2|]. split; [exact A3|]. split; [exact A4|exact A5].
Qed.
(** All assumptions of C93 and C94: a node with a run that is asked for once, gives a signature and has it returned. *)
Example C93_C94_ex : exists keccak pshash ky su (evs : list (nevent (G := Z))) n tr k k0 h v,
  nhistory ky keccak pshash su (-20 * ms) (-20 * ms) evs n tr /\ NoDup (su_guests su) /\ In (k_guest k) (su_guests su) /\ (requests_for k evs <= 1)%nat /\
  lives ky keccak pshash su (start_node su (-20 * ms) (-20 * ms)) evs 0 k k0 h /\ k_pc k = pc_dss /\
  In (NRun k (OOutput pc_dss (VSig v))) tr /\ In (NPop k (Some (VSig v))) tr.
Proof.
  destruct (C95_ex (fun _ => repeat x00 32) (fun _ _ => []) ltac:(reflexivity)) as (ky & id & su & evs & n & tr & k0 & h & _ & _ & _ & H & _). cbv zeta in H.
  destruct (H 0 ltac:(left; reflexivity)) as (A & B & C & D & E & (v & F) & L & S & _).
  assert (O : In (NRun (mkKey pc_dss 0 id) (OOutput pc_dss (VSig v))) (tr 0)).
  { apply in_split in F. destruct F as (a & b & F). pose proof (C94_returns_last _ _ _ _ _ _ _ _ _ _ _ _ _ A F) as K. symmetry in K. rewrite F.
    destruct (kept_from _ _ _ K) as (k' & X & Y & Z). assert (F' : In (NRun k' (OOutput pc_dss (VSig v))) (tr 0)) by (rewrite F; apply in_or_app; left; exact Z).
    pose proof (C75_only_requested_documents _ _ _ _ _ _ _ _ _ _ _ A F' eq_refl) as (doc & start & t & d & ord & s & (base & _ & _ & Q & _) & _).
    rewrite <- F. replace (mkKey pc_dss 0 id) with k'; [exact F'|]. destruct k'; cbn in *; congruence. }
  exists (fun _ => repeat x00 32), (fun _ _ => []), ky, (su 0), (evs 0), (n 0), (tr 0), (mkKey pc_dss 0 id), (k0 0), (h 0), v.
  split; [exact A|]. split; [exact B|]. split; [exact C|]. split; [exact E|]. split; [exact L|]. split; [reflexivity|]. split; [exact O|exact F].
Qed.
