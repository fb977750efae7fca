(** The firewall of a node while a run lasts. *)
From Coq Require Import ZArith List Lia Bool Sorted.
From Coq Require Import Init.Byte.
From Verif Require Import Params Bytes Res Secp Dto Dss Prot ProtSpec ProtProofs TimeSpec TimeProofs DkgProt DkgProofs KMap Firewall FwSpec FwProofs FwProofs2 FwProofs3 FwProofs4
  Outputs Node NodeSpec NodeRun NodeProofs NodeProofs2 NodeProofs3 NodeProofs4 NodeProofs5 NodeProofs6 NodeProofs7 NodeProofs8 ObjSpec ObjProofs ObjProofs2 ObjProofs3 ReachSpec ReachProofs ReachProofs2 DocsProofs PropsFw ClusterProofs3 EndProofs.
Import ListNotations.
Open Scope Z_scope.

Section Pass.
  Context {D : Type}.
  Variables (d0 : bool) (until : Z) (kn : key -> bool).
  Lemma step_pass (f f' : fw D) ev o tr T t m : sound (D := D) d0 until kn f tr T -> fstep f ev = Ok (f', o) -> In (FPass t m) o -> phase (key_of m) tr = Some 1 \/ phase (key_of m) tr = Some 2.
  Proof.
    intros (TB & _ & _ & HK) HS IN. destruct ev as [now m'|now|now k' a|now k' c|now k' c]; cbn [fstep] in HS.
    - injection HS as _ <-. destruct IN as [X|X]; [discriminate X|]. revert X. unfold fw_process. destruct (_ || _); [intros []|]. change (@fw_key) with (@key_of).
      destruct (kget (f_state f) (key_of m')) as [st|] eqn:EK; [|intros []]. destruct (Z.eqb_spec st fw_buffering); [destruct (_ <? _); intros []|]. destruct (Z.eqb_spec st fw_forwarding) as [->|]; [|intros []].
      intros [X|[]]. injection X as <- <-. destruct (HK (key_of m')) as (_ & _ & _ & [(_ & I2 & _)|(nn & s & a & t0 & a1 & a2 & _ & _ & _ & _ & _ & _ & _ & _ & _ & X10)]); cbn [view_of v_st] in *; [congruence|].
      destruct (sl_thread s) as [[|b|b|b|]|]; try contradiction; destruct X10 as (X1 & X2 & X3 & _); unfold fw_forwarding in *; try congruence. auto.
    - destruct (_ && _); injection HS as _ <-; [destruct IN as [X|[]]; discriminate X|destruct IN].
    - unfold fw_set_allowance in HS. destruct (negb _); [discriminate|]. destruct (kget _ _); injection HS as _ <-; [destruct IN|destruct IN as [X|[]]; discriminate X].
    - unfold fw_state_step in HS. destruct (nth_error (kslice (f_calls f) k') c) as [s|] eqn:EN; [|injection HS as _ <-; destruct IN].
      destruct (sl_thread s) as [th|] eqn:ET; [|injection HS as _ <-; destruct IN]. destruct th as [|b|b|b|].
      + injection HS as _ <-. destruct IN.
      + destruct (now <? _); [injection HS as _ <-; destruct IN|]. destruct (told _ _) as [w| |]; cbn [rbind] in HS; try discriminate. injection HS as _ <-. destruct IN as [X|[X|[]]]; discriminate X.
      + destruct (now <? _); [injection HS as _ <-; destruct IN|]. destruct (told _ _) as [w| |]; cbn [rbind fw_flush fst snd] in HS; try discriminate. injection HS as _ <-.
        apply in_app_or in IN. destruct IN as [IN|[X|[X|[]]]]; try discriminate X. apply in_map_iff in IN. destruct IN as (m1 & E1 & IN). injection E1 as _ ->. rewrite (TB _ _ IN).
        destruct (HK k') as (_ & _ & _ & [(_ & _ & _ & I4 & _)|(n & s0 & a & t0 & a1 & a2 & X1 & X2 & _ & _ & _ & _ & _ & _ & _ & X10)]); cbn [view_of v_calls] in *.
        * destruct (I4 c s EN) as [X|X]; congruence.
        * assert (n = c) as ->. { destruct (Nat.eq_dec c n) as [|NE]; [auto|]. exfalso. destruct (X2 c s NE EN) as [X|X]; congruence. }
          rewrite EN in X1. injection X1 as <-. rewrite ET in X10. left. apply X10.
      + destruct (now <? _); [injection HS as _ <-; destruct IN|]. destruct (told _ _) as [w| |]; cbn [rbind] in HS; try discriminate. injection HS as _ <-. destruct IN as [X|[X|[]]]; discriminate X.
      + injection HS as _ <-. destruct IN.
    - injection HS as _ <-. destruct IN.
  Qed.
End Pass.

Section NP.
  Context {G : Type}.
  Variable ky : kyber G.
  Variable keccak : bytes -> bytes.
  Variable pshash : Z -> Z -> bytes.
  Variable su : setup.
  Variables until now0 : Z.
  Notation message := (message payload).
  Notation nevent := (nevent (G := G)). Notation node := (node (G := G)).
  Implicit Types (evs : list nevent) (n : node) (tr : list nobs).
  Notation nstep := (nstep ky keccak pshash su).
  Notation history := (nhistory ky keccak pshash su until now0).

  Definition seen (k : key) (v : Z) (tr : list nobs) : Prop := exists t, In (FPhase t k v) (fw_trace tr).
  Lemma seen_app k v a b : seen k v a -> seen k v (a ++ b).
  Proof. intros (t & H). exists t. rewrite fwt_app. apply in_or_app. auto. Qed.
  Lemma phase_in k q (l : list (fobs payload)) : q <> 0 -> phase k l = Some q -> exists t, In (FPhase t k q) l.
  Proof.
    intros NZ H. pose proof (phase_reached k q l NZ [] H ltac:(discriminate)) as X. apply existsb_exists in X. destruct X as (o & IN & X).
    destruct o as [| | |t k' q'| |]; try discriminate. cbn [is_phase] in X. apply andb_true_iff in X. destruct X as [X1 X2]. destruct (key_eqb_spec k' k) as [->|]; [|discriminate]. apply Z.eqb_eq in X2. subst. eauto.
  Qed.
  Lemma node_phase evs n tr t k v : history evs n tr -> forall x y, fw_trace tr = x ++ FPhase t k v :: y -> phase_due x t k v.
  Proof.
    intros HH x y E. destruct (node_firewall _ _ _ _ _ _ _ _ _ HH) as (l & CK & FE & _). 
    exact (exec_phase _ _ _ l _ _ _ [] now0 CK (made_sound nprots (su_guests su) until now0) FE x t k v y E).
  Qed.
  (** Forwarding and stopping come after buffering. *)
  Lemma seen_one evs n tr k v : history evs n tr -> seen k v tr -> seen k 1 tr.
  Proof.
    intros HH (t & IN). apply in_split in IN. destruct IN as (x & y & E).
    destruct (node_phase _ _ _ _ _ _ HH _ _ E) as (t0 & a & a1 & a2 & _ & _ & _ & P & [(-> & _)|[(-> & _)|(-> & _)]]).
    - exists t. rewrite E. apply in_elt.
    - destruct (phase_in k 1 x ltac:(discriminate) P) as (t1 & I1). exists t1. rewrite E. apply in_or_app. auto.
    - destruct (phase_in k 2 x ltac:(discriminate) P) as (t1 & I1). apply in_split in I1. destruct I1 as (x2 & y2 & ->). rewrite <- app_assoc in E.
      destruct (node_phase _ _ _ _ _ _ HH _ _ E) as (_ & _ & _ & _ & _ & _ & _ & P2 & _). destruct (phase_in k 1 _ ltac:(discriminate) P2) as (t2 & I2). exists t2. rewrite E. apply in_or_app. auto.
  Qed.
  Lemma slot_seen evs n tr k c x : history evs n tr -> slot_at (n_fw n) k c x -> (1 <= x)%nat -> seen k 1 tr.
  Proof.
    intros HH (s & EN & L) LX. destruct (history_inv _ _ _ _ _ _ _ _ _ HH) as (T & [W _]). destruct (w_sound _ _ _ _ _ _ _ _ _ _ W) as (_ & _ & _ & HK).
    destruct (HK k) as (_ & _ & C & _). specialize (C c). cbn [view_of v_calls] in C. rewrite EN in C. destruct C as [C1 C2].
    assert (IN : In 1 (told_to k c (fw_trace tr))). { rewrite C1. destruct (done s) as [|d]; [lia|]. left. reflexivity. }
    unfold told_to in IN. apply in_flat_map in IN. destruct IN as (o & O1 & O2).
    destruct o as [| | | |t k' n' v|]; try contradiction. destruct (key_eqb_spec k' k) as [->|]; [|contradiction]. destruct (Nat.eqb_spec n' c) as [->|]; [|contradiction].
    destruct O2 as [->|[]]. exists t. exact (w_told _ _ _ _ _ _ _ _ _ _ W _ _ _ _ O1).
  Qed.
  Lemma passed_seen evs n tr t m : history evs n tr -> In (FPass t m) (fw_trace tr) -> seen (key_of m) 1 tr.
  Proof.
    revert n tr. induction evs as [|ev evs IH] using rev_ind; intros n tr HH IN.
    - destruct HH as [_ E]. cbn in E. injection E as <- <-. destruct IN.
    - destruct (history_cut _ _ _ _ _ _ _ _ _ _ HH) as (n1 & tr1 & o & H1 & HS & ->). rewrite fwt_app in IN. apply in_app_or in IN. destruct IN as [IN|IN]; [apply seen_app; eauto|].
      destruct (fa_fw _ _ _ _ (step_facts _ _ _ _ _ _ _ _ HS)) as [[_ X]|(fev & FS & _)]; [rewrite X in IN; destruct IN|].
      destruct (history_inv _ _ _ _ _ _ _ _ _ H1) as (T & [W _]). apply seen_app.
      destruct (step_pass _ _ _ _ _ _ _ _ _ _ _ (w_sound _ _ _ _ _ _ _ _ _ _ W) FS IN) as [P|P]; apply phase_in in P; try discriminate; eapply seen_one; eassumption.
  Qed.
  Lemma queued_seen evs n tr m : history evs n tr -> In (NQueued m) tr -> 0 <= m_pc m -> seen (key_of m) 1 tr.
  Proof.
    revert n tr. induction evs as [|ev evs IH] using rev_ind; intros n tr HH IN LM.
    - destruct HH as [_ E]. cbn in E. injection E as <- <-. destruct IN.
    - destruct (history_cut _ _ _ _ _ _ _ _ _ _ HH) as (n1 & tr1 & o & H1 & HS & ->). apply in_app_or in IN. destruct IN as [IN|IN]; [apply seen_app; eauto|].
      destruct (fa_q _ _ _ _ (step_facts _ _ _ _ _ _ _ _ HS) _ IN LM) as [(t & X)|(i & r & g & EN & EL & ->)].
      + eapply passed_seen; [exact HH|]. rewrite fwt_app. apply in_or_app. eauto.
      + apply seen_app. destruct (history_inv _ _ _ _ _ _ _ _ _ H1) as (T & [_ R]). destruct (r_req _ _ _ _ _ _ _ _ R _ _ EN) as (_ & _ & LO).
        assert (IL : In (g, GSignal) (rq_locs r)). { clear - EL. induction (rq_locs r) as [|[g' x] l IHl]; [discriminate|]. cbn [loc_of] in EL. destruct (Z.eqb_spec g' g) as [->|]; [injection EL as ->; left; reflexivity|right; auto]. }
        destruct (LO _ _ IL) as (_ & _ & c & SL). cbn [signal m_pc] in LM.
        assert (key_of (signal nil_dto (rq_key r g)) = rq_key r g) as ->.
        { unfold key_of, signal, rq_key in *. cbn [m_pc m_rcpt m_run k_pc k_guest k_run] in *. unfold rq_pc in *. destruct (rq_doc r); [cbv in LM; destruct LM; reflexivity|reflexivity]. }
        eapply slot_seen; [exact H1|exact SL|lia].
  Qed.
  Lemma taken_seen evs n tr m : history evs n tr -> In (NTake m) tr -> 0 <= m_pc m -> seen (key_of m) 1 tr.
  Proof.
    intros HH IN LM. eapply queued_seen; [exact HH| |exact LM]. pose proof (history_gi _ _ _ _ _ _ _ _ _ HH) as GI.
    assert (X : In m (taken_from (Z.abs (m_pc m)) (m_rcpt m) tr)).
    { unfold taken_from. apply in_flat_map. exists (NTake m). split; [exact IN|]. unfold for_queue. rewrite !Z.eqb_refl. left. reflexivity. }
    assert (Y : In m (queued_to (Z.abs (m_pc m)) (m_rcpt m) tr)) by (rewrite (g_fifo _ _ _ GI); apply in_or_app; auto).
    unfold queued_to in Y. apply in_flat_map in Y. destruct Y as (o & O1 & O2). destruct o; try contradiction. destruct (for_queue _ _ _); [|destruct O2]. destruct O2 as [->|[]]. exact O1.
  Qed.
  Lemma guest_creates n n' now i g gen o t k : nstep n (VGuest now i g gen) = Ok (n', o) -> In (NCreate t k) o ->
    exists r c, nth_error (n_reqs n) i = Some r /\ loc_of (rq_locs r) g = Some (GSleep c) /\ k = rq_key r g.
  Proof.
    cbn [Node.nstep]. intros HS IN. unfold request_guest in HS. destruct (nth_error (n_reqs n) i) as [r|] eqn:EN; [|injection HS as <- <-; destruct IN].
    destruct (loc_of (rq_locs r) g) as [l|] eqn:EL; [|injection HS as <- <-; destruct IN].
    destruct (guest_go _ _ _ _ _ _ _ _ _ _) as [[[n1 l1] o1]| |] eqn:EG; cbn [rbind fst snd] in HS; try discriminate. injection HS as <- <-.
    assert (F : forall fev (y : gloc), (x <- firewall ky keccak pshash su n fev ;; Ok (fst x, y, snd x)) = Ok (n1, l1, o1) -> False).
    { intros fev y. destruct (firewall _ _ _ _ _ _) as [[n2 o2]| |] eqn:EF; cbn [rbind fst snd]; try discriminate. intros E. injection E as <- <- <-.
      destruct (firewall_eff _ _ _ _ _ _ _ _ EF) as (CA & _). rewrite Forall_forall in CA. destruct (CA _ IN). }
    assert (NOP : forall y, Ok (n, y, []) = Ok (n1, l1, o1) -> False) by (intros y E; injection E as <- <- <-; destruct IN).
    unfold guest_go in EG. cbv zeta in EG. destruct l as [|c|c|c|c|c| |].
    - destruct (F _ _ EG).
    - destruct (chan_ready n _ c); [destruct (F _ _ EG)|destruct (NOP _ EG)].
    - destruct (now <? _); [destruct (NOP _ EG)|]. destruct (ensure_run su n now (rq_key r g) gen) as [[n2 j] o2] eqn:EE. injection EG as <- <- <-. cbn [fst snd] in IN.
      destruct (ensure_eff _ _ _ _ _ _ _ _ EE) as (_ & _ & _ & _ & _ & Y). exists r, c. split; [reflexivity|]. split; [exact EL|].
      destruct Y as [(-> & _)|(-> & _)]; [destruct IN|destruct IN as [X|[]]; congruence].
    - destruct (terminated_run n _); destruct (NOP _ EG).
    - destruct (chan_ready n _ c); [destruct (F _ _ EG)|destruct (NOP _ EG)].
    - destruct (chan_ready n _ c); [destruct (F _ _ EG)|destruct (NOP _ EG)].
    - destruct (receive _ _ _ _ _ _) as [[n2 o2]| |] eqn:ER; [|destruct (NOP _ EG)|discriminate]. injection EG as <- <- <-. cbn [fst snd] in IN.
      destruct (receive_eff _ _ _ _ _ _ _ _ ER) as (CA & _). destruct IN as [X|X]; [discriminate|]. rewrite Forall_forall in CA. destruct (CA _ X).
    - destruct (NOP _ EG).
  Qed.
  (** When a run is made, the firewall buffers its messages, at least. *)
  Lemma created_seen evs n tr t k : history evs n tr -> In (NCreate t k) tr -> seen k 1 tr.
  Proof.
    revert n tr. induction evs as [|ev evs IH] using rev_ind; intros n tr HH IN.
    - destruct HH as [_ E]. cbn in E. injection E as <- <-. destruct IN.
    - destruct (history_cut _ _ _ _ _ _ _ _ _ _ HH) as (n1 & tr1 & o & H1 & HS & ->). apply in_app_or in IN. destruct IN as [IN|IN]; [apply seen_app; eauto|].
      destruct (fa_m _ _ _ _ (step_facts _ _ _ _ _ _ _ _ HS) _ _ IN) as [(m & TK & <- & LM)|(t' & i & g & gen & r & l & -> & _)].
      + eapply taken_seen; [exact HH| |exact LM]. apply in_or_app. auto.
      + destruct (guest_creates _ _ _ _ _ _ _ _ _ HS IN) as (r' & c & EN & EL & ->). apply seen_app.
        destruct (history_inv _ _ _ _ _ _ _ _ _ H1) as (T & [_ R]). destruct (r_req _ _ _ _ _ _ _ _ R _ _ EN) as (_ & _ & LO).
        assert (IL : In (g, GSleep c) (rq_locs r')). { clear - EL. induction (rq_locs r') as [|[g' x] l' IHl]; [discriminate|]. cbn [loc_of] in EL. destruct (Z.eqb_spec g' g) as [->|]; [injection EL as ->; left; reflexivity|right; auto]. }
        destruct (LO _ _ IL) as (_ & SL). eapply slot_seen; [exact H1|exact SL|lia].
  Qed.

  (** The times of what the firewall does are those of the events. *)
  Lemma phase_time evs n tr t k v T : history evs n tr -> Forall (fun ev => ntime ev <= T) evs -> In (FPhase t k v) (fw_trace tr) -> t <= T.
  Proof.
    revert n tr. induction evs as [|ev evs IH] using rev_ind; intros n tr HH FA IN.
    - destruct HH as [_ E]. cbn in E. injection E as <- <-. destruct IN.
    - apply Forall_app in FA. destruct FA as [FA FB]. destruct (history_cut _ _ _ _ _ _ _ _ _ _ HH) as (n1 & tr1 & o & H1 & HS & ->). rewrite fwt_app in IN. apply in_app_or in IN. destruct IN as [IN|IN]; [eauto|].
      destruct (fa_fw _ _ _ _ (step_facts _ _ _ _ _ _ _ _ HS)) as [[_ X]|(fev & FS & ET & _)]; [rewrite X in IN; destruct IN|].
      destruct (history_inv _ _ _ _ _ _ _ _ _ H1) as (T' & [W _]). apply in_split in IN. destruct IN as (x & y & E).
      destruct (step_phase _ _ _ _ _ _ _ _ _ _ _ _ _ _ (w_sound _ _ _ _ _ _ _ _ _ _ W) FS E) as [-> _]. rewrite ET. inversion FB; assumption.
  Qed.
  Lemma last_phase k (a2 : list (fobs payload)) : existsb (is_set k) a2 = false -> forall x t v, In (FPhase t k v) a2 -> exists t' v', phase k (x ++ a2) = Some v' /\ In (FPhase t' k v') a2.
  Proof.
    intros NS x. induction a2 as [|o a2 IH] using rev_ind; intros t v IN; [destruct IN|]. rewrite existsb_app in NS. apply orb_false_iff in NS. destruct NS as [N1 N2].
    rewrite app_assoc, phase_snoc2. cbn [existsb] in N2. rewrite orb_false_r in N2.
    assert (IHX : In (FPhase t k v) a2 -> exists t' v', phase k (x ++ a2) = Some v' /\ In (FPhase t' k v') (a2 ++ [o])).
    { intros X. destruct (IH N1 _ _ X) as (t' & v' & A & B). exists t', v'. split; [exact A|apply in_or_app; auto]. }
    destruct o as [| |t1 k1 al|t1 k1 q1| |]; cbn [is_set] in N2; rewrite ?N2; try (apply in_app_or in IN; destruct IN as [IN|[X|[]]]; [auto|discriminate X]).
    destruct (key_eqb_spec k1 k) as [->|NK].
    - exists t1, q1. split; [reflexivity|apply in_elt].
    - apply in_app_or in IN. destruct IN as [IN|[X|[]]]; [auto|]. injection X as _ E _. contradiction.
  Qed.
  (** A run asked for once: from buffering on, and before the end of the allowance, its messages are let in. *)
  Lemma open_until evs n tr k start doc tq : history evs n tr -> NoDup (su_guests su) -> (requests_for k evs <= 1)%nat -> requested su evs k start doc tq ->
    Forall (fun ev => ntime ev < al_stop (allowance_for ky keccak pshash (k_pc k) start)) evs -> seen k 1 tr -> phase k (fw_trace tr) = Some 1 \/ phase k (fw_trace tr) = Some 2.
  Proof.
    intros HH ND RQ RE FA (t1 & IN). destruct (history_inv _ _ _ _ _ _ _ _ _ HH) as (T & [W _]).
    pose proof (one_allowance _ _ _ _ _ _ _ _ _ _ ND HH RQ) as ONE.
    (* the phase after the only allowance *)
    assert (S1 : exists t0 a a1 a2, fw_trace tr = a1 ++ FSet t0 k a :: a2 /\ existsb (is_set k) a2 = false /\ In (FPhase t1 k 1) a2).
    { apply in_split in IN. destruct IN as (x & y & E). destruct (node_phase _ _ _ _ _ _ HH _ _ E) as (t0 & a & a1 & a2 & EX & _). subst x. exists t0, a, a1, (a2 ++ FPhase t1 k 1 :: y).
      rewrite <- app_assoc in E. cbn [app] in E. split; [exact E|]. split; [|apply in_elt]. rewrite E in ONE. exact (one_set _ _ _ _ _ ONE). }
    destruct S1 as (t0 & a & a1 & a2 & E & NS & I2).
    destruct (last_phase k a2 NS (a1 ++ [FSet t0 k a]) _ _ I2) as (t' & v' & P & I3). rewrite <- app_assoc in P. cbn [app] in P. rewrite <- E in P. rewrite P.
    assert (I4 : In (FPhase t' k v') (fw_trace tr)) by (rewrite E; apply in_or_app; right; right; exact I3).
    apply in_split in I4. destruct I4 as (x & y & E4). destruct (node_phase _ _ _ _ _ _ HH _ _ E4) as (t0' & a' & x1 & x2 & EX & _ & _ & _ & [(-> & _)|[(-> & _)|(-> & LT)]]); [auto|auto|]. exfalso.
    assert (IS : In (FSet t0' k a') (fw_trace tr)) by (rewrite E4, EX; apply in_or_app; left; apply in_elt).
    destruct (w_set _ _ _ _ _ _ _ _ _ _ W _ _ _ IS) as (st & dc & tq' & R2 & _ & ->).
    destruct (requested_once _ _ _ _ _ _ _ _ _ RQ RE R2) as (<- & _).
    assert (LE : t' <= al_stop (allowance_for ky keccak pshash (k_pc k) start) - 1).
    { eapply phase_time; [exact HH| |rewrite E4; apply in_elt]. eapply Forall_impl; [|exact FA]. cbn. intros; lia. }
    lia.
  Qed.
End NP.
