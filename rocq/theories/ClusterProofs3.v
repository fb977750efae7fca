(** Proofs: a message gets from a run in one process to a run in another. *)
From Coq Require Import ZArith List Lia Bool Permutation.
From Verif Require Import Params Bytes Res Secp Dto Dss Prot ProtSpec ProtProofs TimeSpec TimeProofs DkgProt DkgProofs KMap Firewall FwSpec FwProofs FwProofs2 FwProofs3 FwProofs4 NetSpec
  Outputs Node NodeSpec NodeRun NodeProofs NodeProofs2 NodeProofs3 NodeProofs4 NodeProofs5 NodeProofs6 NodeProofs7 ObjSpec ObjProofs ObjProofs2 ObjProofs3 PropsFw ReachSpec ReachProofs ReachProofs2
  Cluster ClusterSpec ClusterProofs ClusterProofs2 DeliverSpec.
From Verif Require Net NetProofs.
Import ListNotations.
Open Scope Z_scope.

Section OneNode.
  Context {G : Type}.
  Variable ky : kyber G.
  Variable keccak : bytes -> bytes.
  Variable pshash : Z -> Z -> bytes.
  Variable su : setup.
  Variables until now0 : Z.
  Notation message := (message payload).
  Notation nevent := (nevent (G := G)). Notation node := (node (G := G)).
  Implicit Types (evs : list nevent) (n : node) (tr : list nobs).
  Notation nexec := (nexec ky keccak pshash su).
  Notation nstep := (nstep ky keccak pshash su).
  Notation history := (nhistory ky keccak pshash su until now0).
  Notation hist := (run_history ky keccak pshash su).
  Notation st0 := (start_node su until now0).
  Notation lives := (lives ky keccak pshash su).

  Lemma nclock_prefix a : forall t b, nclock (G := G) t (a ++ b) -> nclock t a.
  Proof. induction a as [|e a IH]; intros t b; cbn; [auto|]. intros [A B]. split; [exact A|eapply IH, B]. Qed.
  Lemma nclock_before a : forall t ev b, nclock (G := G) t (a ++ ev :: b) -> Forall (fun e => ntime e <= ntime ev) a.
  Proof.
    assert (LO : forall a t ev b, nclock (G := G) t (a ++ ev :: b) -> t <= ntime ev).
    { induction a0 as [|e a0 IH]; intros t ev b; cbn; [tauto|]. intros [A B]. specialize (IH _ _ _ B). lia. }
    induction a as [|e a IH]; intros t ev b; cbn; [constructor|]. intros [A B]. constructor; [eapply LO, B|eapply IH, B].
  Qed.
  Lemma history_prefix a b n tr : history (a ++ b) n tr -> exists n1 t1 t2, history a n1 t1 /\ nexec n1 b = Ok (n, t2) /\ tr = t1 ++ t2.
  Proof.
    intros [HC HE]. destruct (nexec_prefix _ _ _ _ _ _ _ _ _ HE) as (n1 & t1 & t2 & A & B & C). exists n1, t1, t2. split; [split; [eapply nclock_prefix, HC|exact A]|]. auto.
  Qed.

  Lemma hist_prefix a : forall n b j, exists h2, hist n (a ++ b) j = hist n a j ++ h2.
  Proof.
    induction a as [|ev a IH]; intros n b j; cbn [app run_history]; [eauto|].
    destruct (Node.nstep ky keccak pshash su n ev) as [[n1 o1]| |]; cbn [fst]; [|exists []; rewrite !app_nil_r; reflexivity|exists []; rewrite !app_nil_r; reflexivity].
    destruct (IH n1 b j) as [h2 ->]. exists h2. rewrite app_assoc. reflexivity.
  Qed.
  Lemma hist_time evs j : forall n t e, In (t, e) (hist n evs j) -> exists ev, In ev evs /\ ntime ev = t.
  Proof.
    induction evs as [|ev evs IH]; intros n t e; cbn [run_history]; [intros []|]. intros H. apply in_app_or in H. destruct H as [H|H].
    - pose proof (event_time su n j ev) as F. rewrite Forall_forall in F. destruct (F _ H) as [E _]. cbn in E. exists ev. split; [left; reflexivity|auto].
    - destruct (Node.nstep ky keccak pshash su n ev) as [[n1 o1]| |]; [|destruct H|destruct H]. destruct (IH _ _ _ H) as (ev' & A & B). exists ev'. split; [right; exact A|exact B].
  Qed.
  Lemma hist_split evs j : forall n n' tr A x B, nexec n evs = Ok (n', tr) -> hist n evs j = A ++ x :: B ->
    exists a ev b n1 t1, evs = a ++ ev :: b /\ nexec n a = Ok (n1, t1) /\ hist n a j = A /\ event_of_run su n1 j ev = [x].
  Proof.
    induction evs as [|ev evs IH]; intros n n' tr A x B; cbn [Node.nexec run_history]; [intros _ E; destruct A; discriminate|].
    destruct (Node.nstep ky keccak pshash su n ev) as [[n1 o1]| |] eqn:ES; cbn [rbind fst snd]; try discriminate.
    destruct (Node.nexec ky keccak pshash su n1 evs) as [[n2 o2]| |] eqn:EX; cbn [rbind fst snd]; try discriminate. intros _ E.
    pose proof (event_le1 su n j ev) as L. destruct (event_of_run su n j ev) as [|y [|]] eqn:EV; [| |cbn in L; lia].
    - cbn [app] in E. destruct (IH _ _ _ _ _ _ EX E) as (a & e & b & m & t1 & -> & A1 & A2 & A3).
      exists (ev :: a), e, b, m, (o1 ++ t1). split; [reflexivity|]. cbn [Node.nexec run_history]. rewrite ES. cbn [rbind fst snd]. rewrite A1. cbn [rbind fst snd]. rewrite EV, A2. auto.
    - cbn [app] in E. destruct A as [|y' A].
      + injection E as <- _. exists [], ev, evs, n, []. auto.
      + injection E as <- E. destruct (IH _ _ _ _ _ _ EX E) as (a & e & b & m & t1 & -> & A1 & A2 & A3).
        exists (ev :: a), e, b, m, (o1 ++ t1). split; [reflexivity|]. cbn [Node.nexec run_history]. rewrite ES. cbn [rbind fst snd]. rewrite A1. cbn [rbind fst snd]. rewrite EV, A2. auto.
  Qed.

  (** What a run object shows, the node shows, at the same moment. *)
  Lemma happens_shown evs n tr j k k0 h t o : history evs n tr -> NoDup (su_guests su) -> (requests_for k evs <= 1)%nat -> lives st0 evs j k k0 h ->
    happens (the_prot ky keccak pshash (k_pc k)) (run_info su k) k0 h t o ->
    exists a ev b n1 t1 n2 os, evs = a ++ ev :: b /\ nexec st0 a = Ok (n1, t1) /\ nstep n1 ev = Ok (n2, os) /\ ntime ev = t /\ In (NRun k o) os.
  Proof.
    intros HH ND RQ HL (A & e0 & B & r & tr0 & r' & os & EH & EX & ES & HO). pose proof HL as (EL & _). rewrite EH in EL. symmetry in EL. pose proof HH as [HC HE].
    destruct (hist_split _ _ _ _ _ _ _ _ HE EL) as (a & ev & b & n1 & t1 & E1 & E2 & E3 & E4).
    assert (EN : exists n2 o2, nstep n1 ev = Ok (n2, o2)).
    { rewrite E1 in HE. apply nexec_prefix in HE. destruct HE as (m1 & u1 & u2 & B1 & B2 & _). rewrite E2 in B1. injection B1 as <- <-. cbn [Node.nexec] in B2.
      destruct (Node.nstep ky keccak pshash su n1 ev) as [[n2 o2]| |]; cbn [rbind fst snd] in B2; try discriminate. eauto. }
    destruct EN as (n2 & o2 & EN). exists a, ev, b, n1, t1, n2, o2. split; [exact E1|]. split; [exact E2|]. split; [exact EN|]. split.
    { pose proof (event_time su n1 j ev) as F. rewrite E4 in F. inversion F as [|? ? [F1 _] _]. cbn in F1. congruence. }
    (* the object is there *)
    assert (OB : exists k1 r1, nth_error (n_heap n1) j = Some (k1, r1)).
    { destruct (nth_error (n_heap n1) j) as [[k1 r1]|] eqn:X; [eauto|]. exfalso. destruct ev; cbn [event_of_run] in E4; rewrite ?X in E4; discriminate. }
    destruct OB as (k1 & r1 & OB). destruct (proj2 (objects _ _ _ _ _ _ _ _ _ E2) _ _ _ OB) as (k2 & os2 & L2 & _ & X2 & _).
    assert (LU : lives st0 evs j k1 k2 (hist st0 evs j)).
    { destruct L2 as (_ & a' & ev' & b' & m & u & m' & o' & F1 & F2). split; [reflexivity|]. exists a', ev', (b' ++ ev :: b), m, u, m', o'. split; [|exact F2]. rewrite E1, F1, <- app_assoc. reflexivity. }
    destruct (lives_unique _ _ _ _ _ _ _ _ _ _ _ _ _ _ HL LU) as (<- & <- & _). rewrite E3, EX in X2. injection X2 as <- _.
    destruct (obj_step _ _ _ _ _ _ _ _ _ _ _ EN OB) as (r3 & os3 & O1 & O2 & _ & O3). rewrite E4 in O2. cbn [untimed map snd exec] in O2. rewrite ES in O2. cbn [rbind fst snd] in O2. injection O2 as _ O2. rewrite app_nil_r in O2.
    assert (ON : (length (objs k (n_heap n2)) <= 1)%nat).
    { replace (a ++ ev :: b) with ((a ++ [ev]) ++ b) in E1 by (rewrite <- app_assoc; reflexivity). rewrite E1 in HH. destruct (history_prefix _ _ _ _ HH) as (m1 & u1 & u2 & HP & _).
      assert (m1 = n2) as ->. { destruct HP as [_ HP]. apply nexec_prefix in HP. destruct HP as (m3 & u3 & u4 & B1 & B2 & _). rewrite E2 in B1. injection B1 as <- <-. cbn [Node.nexec] in B2. rewrite EN in B2. cbn in B2. congruence. }
      refine (proj1 (history_one _ _ _ _ _ _ _ _ _ k ND HP _)). rewrite E1 in RQ. unfold requests_for in *. rewrite filter_app, app_length in RQ. lia. }
    apply (in_run_trace k o2 o). rewrite (O3 ON), <- O2. exact HO.
  Qed.

  (** A message that the firewall forwards passes it. *)
  Lemma forwarded a n tr t m n' o : history a n tr -> nstep n (VIn t m) = Ok (n', o) -> dropping (now0 <? until) (fw_trace tr) = false -> phase (key_of m) (fw_trace tr) = Some 2 ->
    In (FPass t m) (fw_trace o).
  Proof.
    intros HH HS HD HP. destruct (node_firewall _ _ _ _ _ _ _ _ _ HH) as (l & CK & FE & _).
    destruct (history_sound nprots (su_guests su) until now0 l (n_fw n) (fw_trace tr) (conj CK FE)) as [SD _].
    cbn [Node.nstep] in HS. destruct (firewall_ref _ _ _ _ _ _ _ _ HS) as (_ & _ & FX). cbn [fexec fstep rbind fst snd] in FX. injection FX as _ FX. rewrite <- FX. clear FX HS.
    destruct SD as (_ & KN & _ & KI0). destruct (KI0 (key_of m)) as (D1 & _ & _ & E). rewrite HD in D1. cbn [view_of v_drop] in D1.
    assert (X : kget (f_state (n_fw n)) (key_of m) = Some 2 /\ known (n_fw n) (m_pc m) (m_rcpt m) = true).
    { destruct E as [(I1 & I2 & _ & _ & I5)|(x & s & al & t1 & a1 & a2 & X1 & _ & X3 & X4 & _ & _ & _ & _ & _ & X10)].
      - exfalso. destruct I5 as [(J & _)|(? & ? & ? & ? & _ & _ & J & _)]; congruence.
      - split; [|pose proof (KN (key_of m)) as KN1; cbn [key_of k_pc k_guest] in KN1; rewrite <- KN1; exact X4]. destruct (sl_thread s) as [[|a'|a'|a'|]|]; try contradiction.
        + destruct X10 as (_ & X & _). congruence.
        + destruct X10 as (_ & _ & X & _). congruence.
        + destruct X10 as (_ & _ & X & _). congruence.
        + destruct X10 as (_ & X & _). exact X. }
    destruct X as [X1 X2]. right. unfold fw_process, fw_message_valid; change (@fw_key) with (@key_of). rewrite D1, X2, X1. left. reflexivity.
  Qed.

  (** A message that comes in while the firewall buffers and has room passes once it forwards. *)
  Lemma phase_snoc2 k (x : list (fobs payload)) o : phase k (x ++ [o]) = match o with FSet _ k' _ => if key_eqb k' k then Some 0 else phase k x | FPhase _ k' q => if key_eqb k' k then Some q else phase k x | _ => phase k x end.
  Proof. unfold phase. rewrite fold_left_app. reflexivity. Qed.
  Lemma phase_reached k q (b : list (fobs payload)) : q <> 0 -> forall a, phase k (a ++ b) = Some q -> phase k a <> Some q -> existsb (is_phase k q) b = true.
  Proof.
    intros NZ a. induction b as [|o b IH] using rev_ind; [rewrite app_nil_r; contradiction|]. rewrite app_assoc, phase_snoc2, existsb_app. intros H NA.
    destruct (match o with FSet _ k' _ | FPhase _ k' _ => key_eqb k' k | _ => false end) eqn:EO.
    - destruct o as [| |t k' al|t k' q'| |]; try discriminate; rewrite EO in H; injection H as H; [congruence|]. subst q'. cbn [existsb is_phase]. rewrite EO, Z.eqb_refl. apply orb_true_r.
    - rewrite IH; [reflexivity| |exact NA]. destruct o; try exact H; rewrite EO in H; exact H.
  Qed.
  Lemma arrivals_split d k q (b : list (fobs payload)) : forall a c, arrivals d k q a (b ++ c) = arrivals d k q a b ++ arrivals d k q (a ++ b) c.
  Proof.
    induction b as [|o b IH]; intros a c; [rewrite app_nil_r; reflexivity|]. cbn [app arrivals]. rewrite IH, <- !app_assoc. reflexivity.
  Qed.
  Lemma one_set k (a b : list (fobs payload)) t al : (sets k (a ++ FSet t k al :: b) <= 1)%nat -> existsb (is_set k) b = false.
  Proof.
    rewrite sets_app. unfold sets at 2. cbn [filter is_set]. rewrite key_eqb_refl. cbn [length]. intros L.
    destruct (existsb (is_set k) b) eqn:EE; [|reflexivity]. exfalso. apply existsb_exists in EE. destruct EE as (x & Hx & Hs). assert (Y : In x (filter (is_set k) b)) by (apply filter_In; auto). destruct (filter (is_set k) b); [destruct Y|cbn in L; lia].
  Qed.
  Lemma buffered a na tra t m b1 n1 tr1 : history a na tra -> history (a ++ VIn t m :: b1) n1 tr1 -> NoDup (su_guests su) -> (requests_for (key_of m) (a ++ VIn t m :: b1) <= 1)%nat ->
    dropping (now0 <? until) (fw_trace tra) = false -> phase (key_of m) (fw_trace tra) = Some 1 -> (length (arrivals (now0 <? until)%Z (key_of m) 1 [] (fw_trace tra)) < 2048)%nat ->
    phase (key_of m) (fw_trace tr1) = Some 2 -> In m (passed (key_of m) (fw_trace tr1)).
  Proof.
    intros HA H1 ND RQ HD HP LA HF. set (k := key_of m) in *.
    (* the allowance *)
    assert (SET : exists a1 t1 al a2, fw_trace tra = a1 ++ FSet t1 k al :: a2).
    { destruct (node_firewall _ _ _ _ _ _ _ _ _ HA) as (l & CK & FE & _). destruct (history_sound nprots (su_guests su) until now0 l (n_fw na) (fw_trace tra) (conj CK FE)) as [(_ & _ & _ & KI0) _].
      destruct (KI0 k) as (_ & _ & _ & [(_ & _ & _ & _ & I5)|(x & s & al & t1 & a1 & a2 & _ & _ & _ & _ & X5 & _)]); [|eauto].
      exfalso. destruct I5 as [(J & _)|(? & ? & ? & ? & _ & _ & J & _)]; congruence. }
    destruct SET as (a1 & t1 & al & a2 & ES).
    (* the trace goes on with the message *)
    assert (TR : exists r, fw_trace tr1 = a1 ++ FSet t1 k al :: (a2 ++ FIn t m :: r)).
    { destruct H1 as [_ EX]. apply nexec_prefix in EX. destruct EX as (m1 & u1 & u2 & B1 & B2 & ->). destruct HA as [_ EA]. rewrite EA in B1. injection B1 as <- <-. cbn [Node.nexec] in B2.
      destruct (Node.nstep ky keccak pshash su na (VIn t m)) as [[n2 o2]| |] eqn:EN; cbn [rbind fst snd] in B2; try discriminate.
      destruct (Node.nexec ky keccak pshash su n2 b1) as [[n3 o3]| |]; cbn [rbind fst snd] in B2; try discriminate. injection B2 as _ <-. cbn [Node.nstep] in EN.
      destruct (firewall_ref _ _ _ _ _ _ _ _ EN) as (_ & _ & FX). cbn [fexec fstep rbind fst snd] in FX. injection FX as _ FX.
      rewrite !fwt_app, ES, <- FX. eexists. rewrite <- app_assoc. cbn [app]. rewrite <- app_assoc. reflexivity. }
    destruct TR as (r & ET).
    assert (ONE : (sets k (fw_trace tr1) <= 1)%nat) by (eapply one_allowance; eassumption).
    rewrite ET in ONE. pose proof (one_set _ _ _ _ _ ONE) as NB.
    destruct (node_firewall _ _ _ _ _ _ _ _ _ H1) as (l & CK & FE & _).
    destruct (C62_order_and_multiplicity nprots (su_guests su) until now0 l (n_fw n1) (fw_trace tr1) (conj CK FE) k) as [_ F2].
    assert (ET' : fw_trace tr1 = a1 ++ FSet t1 k al :: (a2 ++ FIn t m :: r) ++ []) by (rewrite app_nil_r; exact ET).
    specialize (F2 _ _ _ _ _ ET' NB (or_introl eq_refl)). cbv zeta in F2.
    assert (PH : existsb (is_phase k 2) (a2 ++ FIn t m :: r) = true).
    { apply (phase_reached k 2 _ ltac:(discriminate) (a1 ++ [FSet t1 k al])); [rewrite <- app_assoc; cbn [app]; rewrite <- ET; exact HF|]. rewrite phase_snoc2, key_eqb_refl. discriminate. }
    rewrite PH in F2. rewrite ET, ReachProofs.passed_app. apply in_or_app. right. change (passed k (FSet t1 k al :: a2 ++ FIn t m :: r)) with (passed k (a2 ++ FIn t m :: r)). rewrite F2. apply in_or_app. left.
    rewrite arrivals_split. cbn [arrivals]. rewrite <- app_assoc. cbn [app]. rewrite <- ES, HD. unfold phase_is. rewrite HP. fold k. rewrite key_eqb_refl. cbn [negb andb Z.eqb Pos.eqb app].
    assert (L2 : (length (arrivals (now0 <? until)%Z k 1 (a1 ++ [FSet t1 k al]) a2) < 2048)%nat).
    { rewrite ES in LA. replace (a1 ++ FSet t1 k al :: a2) with ((a1 ++ [FSet t1 k al]) ++ a2) in LA by (rewrite <- app_assoc; reflexivity). rewrite arrivals_split, app_length in LA. cbn [app] in LA. lia. }
    revert L2. generalize (arrivals (now0 <? until) k 1 (a1 ++ [FSet t1 k al]) a2) as L. generalize 2048%nat as N0. clear. intros N0 L HL. rewrite firstn_app. apply in_or_app. right.
    destruct (N0 - length L)%nat eqn:E; [lia|]. left. reflexivity.
  Qed.

  (** A message that the firewall lets in reaches the run, if the queue has room and is emptied. *)
  Lemma reaches evs n tr j k k0 h a t m b1 b2 n1 tr1 na tra lat : history evs n tr -> NoDup (su_guests su) -> (requests_for k evs <= 1)%nat -> k_pc k = pc_dss \/ (k_pc k = pc_dkg /\ m_op m <> 0) ->
    lives st0 evs j k k0 h -> evs = a ++ VIn t m :: b1 ++ b2 -> key_of m = k -> 0 <= m_op m < Z.of_nat (length (p_stages (the_prot ky keccak pshash (k_pc k)))) ->
    has_room (k_pc k) (k_guest k) tr -> nexec st0 a = Ok (na, tra) -> dropping (now0 <? until) (fw_trace tra) = false ->
    phase k (fw_trace tra) = Some 2 \/ (phase k (fw_trace tra) = Some 1 /\ (length (arrivals (now0 <? until)%Z k 1 [] (fw_trace tra)) < 2048)%nat) ->
    nexec st0 (a ++ VIn t m :: b1) = Ok (n1, tr1) -> (phase k (fw_trace tra) = Some 1 -> phase k (fw_trace tr1) = Some 2) -> held_for k n1 = [] -> waiting_for k n1 = [] -> 0 <= lat -> Forall (fun ev => ntime ev <= t + lat) b1 ->
    exists t', t' <= t + lat /\ arrives h t' m.
  Proof.
    intros HH ND RQ KP HL EE EK HO HR EA HD HPP EX HFW HLD HW LP FB.
    assert (E2 : evs = (a ++ VIn t m :: b1) ++ b2) by (rewrite EE, <- app_assoc; reflexivity).
    assert (H1 : history (a ++ VIn t m :: b1) n1 tr1).
    { split; [|exact EX]. destruct HH as [HC _]. rewrite E2 in HC. eapply nclock_prefix, HC. }
    assert (HA : history a na tra).
    { split; [|exact EA]. destruct H1 as [HC _]. eapply nclock_prefix, HC. }
    assert (TR : exists t2, tr = tr1 ++ t2).
    { rewrite E2 in HH. destruct (history_prefix _ _ _ _ HH) as (m1 & u1 & u2 & [_ B1] & _ & ->). rewrite EX in B1. injection B1 as _ <-. eauto. }
    destruct TR as [t2 ET].
    assert (RQ1 : (requests_for k (a ++ VIn t m :: b1) <= 1)%nat) by (rewrite E2 in RQ; unfold requests_for in *; rewrite filter_app, app_length in RQ; lia).
    (* it passes the firewall *)
    assert (PA : In m (passed k (fw_trace tr1))).
    { destruct HPP as [HP|[HP LA]]; [|subst k; exact (buffered _ _ _ _ _ _ _ _ HA H1 ND RQ1 HD HP LA (HFW HP))].
      pose proof EX as EX'. apply nexec_prefix in EX'. destruct EX' as (m1 & u1 & u2 & B1 & B2 & ->). rewrite EA in B1. injection B1 as <- <-. cbn [Node.nexec] in B2.
      destruct (Node.nstep ky keccak pshash su na (VIn t m)) as [[n2 o2]| |] eqn:ES; cbn [rbind fst snd] in B2; try discriminate.
      destruct (Node.nexec ky keccak pshash su n2 b1) as [[n3 o3]| |]; cbn [rbind fst snd] in B2; try discriminate. injection B2 as _ <-.
      rewrite !fwt_app, !ReachProofs.passed_app. apply in_or_app. right. apply in_or_app. left. unfold passed. apply in_flat_map. exists (FPass t m). rewrite <- EK in HP.
      split; [exact (forwarded _ _ _ _ _ _ _ HA ES HD HP)|]. rewrite EK, key_eqb_refl. left. reflexivity. }
    (* it is queued *)
    assert (US : unsignalled k (fun m' => m_op m' =? m_op m)) by (destruct KP as [E|[_ NZ]]; [left; rewrite E; reflexivity|right; intros m' _ ->; apply Z.eqb_neq; congruence]).
    assert (OF : forall m', m_op m' = m_op m -> In m' (passed k (fw_trace tr1)) <-> In m' (offered_for k tr1)).
    { intros m' EO. pose proof (offers_from _ _ _ _ _ _ _ _ _ H1 k _ US) as FE. pose proof (filter_In (fun m' => m_op m' =? m_op m) m' (passed k (fw_trace tr1))) as F1. pose proof (filter_In (fun m' => m_op m' =? m_op m) m' (offered_for k tr1)) as F2.
      rewrite FE in F2. cbn beta in F1, F2. rewrite EO, Z.eqb_refl in F1, F2. tauto. }
    apply (proj1 (OF m eq_refl)) in PA.
    assert (KP0 : 0 <= k_pc k) by (destruct KP as [E|[E _]]; rewrite E; discriminate).
    assert (QU : In m (queued_for k tr1)).
    { unfold offered_for in PA. apply in_flat_map in PA. destruct PA as (ob & OI & OM). unfold queued_for. apply in_flat_map. destruct ob; try contradiction.
      - exists (NQueued m0). auto.
      - exfalso. unfold for_run in OM. destruct (key_eqb_spec (key_of m0) k) as [_|]; [|contradiction]. destruct OM as [->|[]].
        apply in_split in OI. destruct OI as (x & y & OI). destruct (refusals _ _ _ _ _ _ _ _ _ H1 x m y OI) as [W|[W|W]].
        + apply W. unfold bad_op. replace (m_pc m) with (k_pc k) by (rewrite <- EK; reflexivity). exact HO.
        + assert (GU : In m (passed k (fw_trace tr1))).
          { apply (proj2 (OF m eq_refl)). unfold offered_for. apply in_flat_map. exists (NRefused m). split; [rewrite OI; apply in_or_app; right; left; reflexivity|]. unfold for_run. rewrite EK, key_eqb_refl. left. reflexivity. }
          unfold passed in GU. apply in_flat_map in GU. destruct GU as (w & HX & HM). destruct w as [| | | | |t' m']; try contradiction. destruct (key_eqb _ _); [|contradiction]. destruct HM as [->|[]].
          destruct (history_inv _ _ _ _ _ _ _ _ _ H1) as (T & FW & _). exact (W (proj1 (proj2 (w_pass _ _ _ _ _ _ _ _ _ _ FW _ _ HX)))).
        + unfold pending in W. replace (Z.abs (m_pc m)) with (k_pc k) in W by (rewrite Z.abs_eq; [rewrite <- EK; reflexivity|rewrite <- EK in KP0; exact KP0]). replace (m_rcpt m) with (k_guest k) in W by (rewrite <- EK; reflexivity).
          assert (R1 : tr = x ++ (NRefused m :: y) ++ t2) by (rewrite ET, OI, <- app_assoc; reflexivity). specialize (HR _ _ R1). change rcv_buf_max with 10000 in W. lia. }
    (* it was taken and delivered *)
    rewrite (fifo_run _ _ _ _ _ _ _ _ _ _ KP0 H1), HW, app_nil_r in QU.
    destruct (reach ky keccak pshash su until now0 k KP0 ND _ _ _ H1 RQ1) as [R1 R2].
    assert (OB : exists j1 r1, nth_error (n_heap n1) j1 = Some (k, r1)).
    { destruct (objs k (n_heap n1)) as [|[k1 r1] l] eqn:EO; [rewrite (R1 eq_refl) in QU; destruct QU|]. assert (HI : In (k1, r1) (objs k (n_heap n1))) by (rewrite EO; left; reflexivity).
      unfold objs in HI. apply filter_In in HI. destruct HI as [HI HK]. cbn in HK. destruct (key_eqb_spec k1 k) as [->|]; [|discriminate]. apply In_nth_error in HI. destruct HI as [j1 HI]. eauto. }
    destruct OB as (j1 & r1 & OB). rewrite (R2 _ _ OB), HLD, app_nil_r in QU.
    assert (j1 = j) as ->.
    { pose proof HH as [_ HE]. destruct (lives_object _ _ _ _ _ _ _ _ _ _ _ _ _ HE HL) as (r & os & EN & _).
      assert (P1 : exists r', nth_error (n_heap n) j1 = Some (k, r')).
      { rewrite E2 in HE. apply nexec_prefix in HE. destruct HE as (m1 & u1 & u2 & B1 & B2 & _). rewrite EX in B1. injection B1 as <- <-. eapply persist; eassumption. }
      destruct P1 as [r' P1]. destruct (history_one ky keccak pshash su until now0 evs n tr k ND HH RQ) as [ON _]. eapply objs_two; eassumption. }
    unfold received in QU. apply in_flat_map in QU. destruct QU as (e & HI & HM). unfold untimed in HI. apply in_map_iff in HI. destruct HI as ([t' e'] & EE' & HI). cbn in EE'. subst e'.
    destruct e as [e now|e m']; [destruct HM|]. destruct HM as [->|[]]. exists t'. split.
    - destruct (hist_time _ _ _ _ _ HI) as (ev & H2 & <-). apply in_app_or in H2. destruct H2 as [H2|[<-|H2]]; [|cbn; lia|rewrite Forall_forall in FB; apply FB, H2].
      destruct HH as [HC _]. rewrite EE in HC. pose proof (nclock_before _ _ _ _ HC) as F. rewrite Forall_forall in F. specialize (F _ H2). cbn in F. lia.
    - exists e. destruct HL as (-> & _). rewrite E2. destruct (hist_prefix (a ++ VIn t m :: b1) st0 b2 j) as [h2 ->]. apply in_or_app. left. exact HI.
  Qed.
End OneNode.

Section Between.
  Context {G : Type}.
  Variable ky : kyber G.
  Variable keccak : bytes -> bytes.
  Variable pshash : Z -> Z -> bytes.
  Variable places : list place.
  Variable home : Z -> option nat.
  Notation message := (message payload). Notation nevent := (nevent (G := G)). Notation node := (node (G := G)).
  Notation cobs := (cobs (G := G)). Notation cluster := (cluster (G := G)).
  Notation step_node := (step_node ky keccak pshash places).
  Notation cstep := (cstep ky keccak pshash places home).
  Notation cexec := (cexec ky keccak pshash places home).
  Notation CI := (CI ky keccak pshash places home).
  Implicit Types (tr : list cobs) (c : cluster).

  (** What [send_all] leaves in the trace. *)
  Lemma send_all_in ls : forall c now c' o, send_all c now ls = (c', o) ->
    (forall l m, In (l, m) ls -> exists os, In (XLane now l (Net.EvSend m) os) o) /\
    (forall t l ev os, In (XLane t l ev os) o -> forall m ok, ~ In (Net.NCall m ok) os) /\ forall j org ev os, ~ In (XNode j org ev os) o.
  Proof.
    induction ls as [|[l1 m1] ls IH]; intros c now c' o; cbn [send_all].
    - intros E. injection E as <- <-. split; [intros l m []|]. split; [intros t l ev os []|intros j org ev os []].
    - destruct (step_lane c now l1 (Net.EvSend m1)) as [c1 o1] eqn:E1. apply step_lane_eff in E1. destruct E1 as (_ & _ & -> & _). cbn [fst snd].
      destruct (send_all c1 now ls) as [c2 o2] eqn:E2. destruct (IH _ _ _ _ E2) as (A & B & C). cbn [fst snd]. intros E. injection E as <- <-. split; [|split].
      + intros l m [H|H]; [injection H as -> ->; eexists; left; reflexivity|]. destruct (A _ _ H) as [os HO]. exists os. right. exact HO.
      + intros t l ev os [H|H]; [|exact (B _ _ _ _ H)]. injection H as <- <- <- <-. intros m ok. cbn [Net.nstep]. unfold Net.nsend. destruct (_ <? _); cbn; intros [H|[]]; discriminate.
      + intros j org ev os [H|H]; [discriminate|exact (C _ _ _ _ H)].
  Qed.

  (** A step of a process in the trace. *)
  Lemma node_block c i org ev c' o : step_node c i org ev = Some (c', o) ->
    (forall t l e os, In (XLane t l e os) o -> forall m ok, ~ In (Net.NCall m ok) os) /\
    (org <> Own -> (exists l, org = Via l) -> exists os, In (XNode i org ev os) o) /\
    forall x j org' ev' os y, o = x ++ XNode j org' ev' os :: y ->
      x = [] /\ j = i /\ org' = org /\ ev' = ev /\
      exists p n n1, nth_error places i = Some p /\ nth_error (c_nodes c) i = Some (Some n) /\ nstep ky keccak pshash (pl_su p) n ev = Ok (n1, os) /\
        forall l m, In (l, m) (sends_of i os) -> exists os', In (XLane (ntime ev - pl_skew p) l (Net.EvSend m) os') y.
  Proof.
    unfold Cluster.step_node. destruct (nth_error places i) as [p|] eqn:EP; [|discriminate]. destruct (nth_error (c_nodes c) i) as [[n|]|] eqn:EN; try discriminate.
    destruct (_ <? _); [discriminate|]. destruct (nstep ky keccak pshash (pl_su p) n ev) as [[n1 o1]| |] eqn:ES; cbn [fst snd]; try discriminate.
    - destruct (send_all _ _ _) as [c2 o2] eqn:E2. cbn [fst snd]. intros E. injection E as <- <-. destruct (send_all_in _ _ _ _ _ E2) as (A & B & C). split; [|split].
      + intros t l e os [H|H]; [discriminate|exact (B _ _ _ _ H)].
      + intros _ _. exists o1. left. reflexivity.
      + intros x j org' ev' os y E. destruct x as [|x0 x]; cbn [app] in E.
        * injection E as <- <- <- <- <-. repeat (split; [reflexivity|]). exists p, n, n1. auto.
        * exfalso. injection E as _ E. apply (C j org' ev' os). rewrite E. apply in_or_app. right. left. reflexivity.
    - intros E. assert (EO : o = [XDown i org ev] /\ forall l, org <> Via l) by (destruct org; [injection E as _ <-|discriminate|injection E as _ <-]; split; try reflexivity; discriminate). destruct EO as [-> NV]. split; [|split].
      + intros t l e os [H|[]]. discriminate.
      + intros _ [l EL]. destruct (NV l EL).
      + intros [|x0 [|? ?]] j org' ev' os y E'; discriminate.
  Qed.

  Definition shows (tr0 tr : list cobs) : Prop := forall x j org e os y, tr = x ++ XNode j org e os :: y ->
    exists p n n1, nth_error places j = Some p /\ nexec ky keccak pshash (pl_su p) (start_node (pl_su p) (pl_until p) (pl_begin p)) (events_at j (tr0 ++ x)) = Ok (n, trace_at j (tr0 ++ x)) /\
      nstep ky keccak pshash (pl_su p) n e = Ok (n1, os) /\ forall l m, In (l, m) (sends_of j os) -> exists os', In (XLane (ntime e - pl_skew p) l (Net.EvSend m) os') y.
  Definition called_in (tr : list cobs) : Prop := forall t l ev os m, In (XLane t l ev os) tr -> In (Net.NCall m true) os ->
    exists j os', home (l_to l) = Some j /\ In (XNode j (Via l) (VIn (t + skew_of places j) m) os') tr.

  Lemma call_head (s : Net.nq message) ok m ok' : In (Net.NCall m ok') (snd (Net.ngo s ok)) -> call_in (snd (Net.ngo s ok)) = Some (m, ok').
  Proof.
    unfold Net.ngo. destruct (Net.n_loc s) as [| | | | | |[]].
    - intros [H|[]]. discriminate.
    - destruct (Net.n_conn s); cbn; intuition discriminate.
    - intros [].
    - destruct (Net.n_conn s); cbn [snd]; unfold Net.held; destruct (Net.n_msg s); cbn; intuition discriminate.
    - intros [].
    - unfold Net.held. destruct (Net.n_msg s) as [m1|]; cbn; [|intros []]. intros [H|[]]. injection H as -> ->. reflexivity.
    - intros [].
    - destruct (Net.n_q s); intros [].
  Qed.

  Lemma block T tr c ev c' o : CI [] [] T tr c -> cstep c ev = Some (c', o) -> shows tr o /\ called_in o.
  Proof.
    intros HI.
    assert (NODE : forall c1 i org e c2 o2 x0, c_nodes c1 = c_nodes c -> step_node c1 i org e = Some (c2, o2) -> (forall i, events_at i x0 = [] /\ trace_at i x0 = []) -> (forall j org e os, ~ In (XNode j org e os) x0) -> shows tr (x0 ++ o2)).
    { intros c1 i org e c2 o2 x0 EC ES E0 N0 x j org' e' os y E. destruct (node_block _ _ _ _ _ _ ES) as (_ & _ & NB).
      assert (X : exists x1, x = x0 ++ x1 /\ o2 = x1 ++ XNode j org' e' os :: y).
      { destruct (app_cut _ _ _ _ _ E) as [(b1 & EX)|(a1 & -> & EX)]; [|eauto]. exfalso. apply (N0 j org' e' os). rewrite EX. apply in_or_app. right. left. reflexivity. }
      destruct X as (x1 & -> & EX). destruct (NB _ _ _ _ _ _ EX) as (-> & -> & -> & -> & p & n & n1 & A1 & A2 & A3 & A4). rewrite app_nil_r.
      destruct (ci_node _ _ _ _ _ _ _ _ _ _ HI i p A1) as (n' & _ & B2 & _ & B4). rewrite EC in A2. destruct B4 as [B4|B4]; [congruence|]. rewrite A2 in B4. injection B4 as <-.
      exists p, n, n1. split; [exact A1|]. rewrite events_app, trace_app. destruct (E0 i) as [-> ->]. rewrite !app_nil_r. auto. }
    destruct ev as [i ev|now l ok|now l ok|now s]; cbn [Cluster.cstep].
    - intros E. destruct (node_block _ _ _ _ _ _ E) as (NC & _). split; [exact (NODE c i Own ev _ _ [] eq_refl E (fun _ => conj eq_refl eq_refl) (fun _ _ _ _ H => H))|].
      intros t l e os m H HC. destruct (NC _ _ _ _ H _ _ HC).
    - destruct (alive _ _); [|discriminate]. intros E. injection E as _ <-. split; [intros [|? [|]] j org e' os y E; discriminate|].
      intros t l' e os m [H|[]] HC. injection H as <- <- <- <-. destruct HC.
    - destruct (alive _ _); [|discriminate]. destruct (step_lane c now l (Net.EvGo ok)) as [c1 o1] eqn:E1. pose proof E1 as E1'. apply step_lane_eff in E1'. destruct E1' as (N1 & _ & -> & _). cbn [fst snd Net.nstep].
      assert (ONE : shows tr [XLane now l (Net.EvGo ok) (snd (Net.ngo (c_lanes c l) ok))]) by (intros [|? [|]] j org e' os y E; discriminate).
      destruct (call_in (snd (Net.ngo (c_lanes c l) ok))) as [[m b]|] eqn:CA; [destruct b|].
      + destruct (home (l_to l)) as [j|] eqn:EH; [|discriminate]. destruct (step_node c1 j (Via l) _) as [[c2 o2]|] eqn:E2; [|discriminate]. cbn [fst snd]. intros E. injection E as _ <-. split.
        * apply (NODE _ _ _ _ _ _ [XLane now l (Net.EvGo ok) (snd (Net.ngo (c_lanes c l) ok))] N1 E2); [intros i; split; reflexivity|]. intros j' org e os [H|[]]. discriminate.
        * destruct (node_block _ _ _ _ _ _ E2) as (NC & NV & _). intros t l' e os m' [H|H] HC; [|destruct (NC _ _ _ _ H _ _ HC)].
          injection H as <- <- <- <-. apply call_head in HC. rewrite CA in HC. injection HC as <-. destruct NV as [os HV]; [discriminate|eauto|]. exists j, os. split; [exact EH|]. right. exact HV.
      + intros E. injection E as _ <-. split; [exact ONE|]. intros t l' e os m' [H|[]] HC. injection H as <- <- <- <-. apply call_head in HC. rewrite CA in HC. discriminate.
      + intros E. injection E as _ <-. split; [exact ONE|]. intros t l' e os m' [H|[]] HC. injection H as <- <- <- <-. apply call_head in HC. rewrite CA in HC. discriminate.
    - destruct (nth_error (c_stray c) s) as [[l m]|]; [|discriminate]. destruct (home (l_to l)) as [j|]; [|discriminate]. intros E. destruct (node_block _ _ _ _ _ _ E) as (NC & _).
      split; [exact (NODE (set_stray c (remove_nth (c_stray c) s)) _ _ _ _ _ [] eq_refl E (fun _ => conj eq_refl eq_refl) (fun _ _ _ _ H => H))|]. intros t l' e os m' H HC. destruct (NC _ _ _ _ H _ _ HC).
  Qed.

  Lemma shows_join tr0 a b : shows tr0 a -> shows (tr0 ++ a) b -> shows tr0 (a ++ b).
  Proof.
    intros A B x j org e os y E. destruct (app_cut _ _ _ _ _ E) as [(b1 & ->)|(a1 & -> & EX)].
    - rewrite <- app_assoc in E. apply app_inv_head in E. injection E as <-. destruct (A _ _ _ _ _ _ eq_refl) as (p & n & n1 & X1 & X2 & X3 & X4). exists p, n, n1. split; [exact X1|]. split; [exact X2|]. split; [exact X3|].
      intros l m H. destruct (X4 l m H) as [os' HO]. exists os'. apply in_or_app. left. exact HO.
    - rewrite app_assoc. exact (B _ _ _ _ _ _ EX).
  Qed.
  Lemma cexec_block evs : forall T tr c c' o, CI [] [] T tr c -> cclock places T evs -> cexec c evs = Some (c', o) -> shows tr o /\ called_in o.
  Proof.
    induction evs as [|ev evs IH]; intros T tr c c' o HI HC; cbn [Cluster.cexec cclock] in *.
    - intros E. injection E as _ <-. split; [intros [|? ?] j org e os y E; discriminate|intros t l ev os m []].
    - destruct HC as [H1 H2]. destruct (cstep c ev) as [[c1 o1]|] eqn:E1; [|discriminate]. cbn [fst snd]. destruct (cexec c1 evs) as [[c2 o2]|] eqn:E2; [|discriminate]. cbn [fst snd]. intros E. injection E as _ <-.
      destruct (block _ _ _ _ _ _ HI E1) as [A1 A2]. destruct (IH _ _ _ _ _ (cstep_ci _ _ _ _ _ _ _ _ _ _ _ HI H1 E1) H2 E2) as [B1 B2]. split; [apply shows_join; assumption|].
      intros t l e os m H HM. apply in_app_or in H. destruct H as [H|H]; [destruct (A2 _ _ _ _ _ H HM) as (j & os' & X & Y)|destruct (B2 _ _ _ _ _ H HM) as (j & os' & X & Y)]; exists j, os'; (split; [exact X|apply in_or_app; auto]).
  Qed.
  Lemma history_block t0 evs c tr : chistory ky keccak pshash places home t0 evs c tr -> shows [] tr /\ called_in tr.
  Proof. intros [HC HE]. exact (cexec_block evs t0 [] _ _ _ (start_ci _ _ _ _ _ t0) HC HE). Qed.

  (** An event of a process is a step in the trace. *)
  Lemma event_step i tr : forall a ev b, events_at i tr = a ++ ev :: b -> exists x org os y, tr = x ++ XNode i org ev os :: y /\ events_at i x = a /\ events_at i y = b.
  Proof.
    induction tr as [|o tr IH]; intros a ev b; [destruct a; discriminate|].
    change (events_at i (o :: tr)) with ((match o with XNode i' _ e _ => if Nat.eqb i' i then [e] else [] | _ => [] end) ++ events_at i tr).
    assert (SK : (match o with XNode i' _ e _ => if Nat.eqb i' i then [e] else [] | _ => [] end) = [] -> events_at i tr = a ++ ev :: b -> exists x org os y, o :: tr = x ++ XNode i org ev os :: y /\ events_at i x = a /\ events_at i y = b).
    { intros EO E. destruct (IH _ _ _ E) as (x & org & os & y & -> & A & B). exists (o :: x), org, os, y. split; [reflexivity|]. split; [|exact B].
      change (events_at i (o :: x)) with ((match o with XNode i' _ e _ => if Nat.eqb i' i then [e] else [] | _ => [] end) ++ events_at i x). rewrite EO. exact A. }
    destruct o as [i' org e os|now l e os|i' org e]; try exact (SK eq_refl). destruct (Nat.eqb_spec i' i) as [->|NE]; [|apply SK; reflexivity]. cbn [app].
    intros E. destruct a as [|e0 a]; cbn [app] in E; injection E as -> E.
    - exists [], org, os, tr. auto.
    - destruct (IH _ _ _ E) as (x & org1 & os1 & y & -> & A & B). exists (XNode i org e0 os :: x), org1, os1, y. split; [reflexivity|]. split; [|exact B]. cbn [events_at flat_map]. rewrite Nat.eqb_refl. cbn [app]. f_equal. exact A.
  Qed.

  Variables (t0 : Z) (evs : list (cevent (G := G))) (c : cluster) (tr : list cobs).
  Hypothesis HC : chistory ky keccak pshash places home t0 evs c tr.

  Lemma happens_sends i p j k k0 h t m : nth_error places i = Some p -> NoDup (su_guests (pl_su p)) -> (requests_for k (events_at i tr) <= 1)%nat ->
    lives ky keccak pshash (pl_su p) (start_node (pl_su p) (pl_until p) (pl_begin p)) (events_at i tr) j k k0 h ->
    happens (the_prot ky keccak pshash (k_pc k)) (run_info (pl_su p) k) k0 h t (OSent m) -> sends_at i k t m tr.
  Proof.
    intros EP ND RQ HL HO. destruct (cluster_node _ _ _ _ _ _ _ _ _ HC _ _ EP) as (n & HN & _).
    destruct (happens_shown _ _ _ _ _ _ _ _ _ _ _ _ _ _ _ HN ND RQ HL HO) as (a & ev & b & n1 & t1 & n2 & os & E1 & E2 & E3 & E4 & E5).
    destruct (event_step _ _ _ _ _ E1) as (x & org & os' & y & EX & EA & EB). destruct (proj1 (history_block _ _ _ _ HC) _ _ _ _ _ _ EX) as (p' & n3 & n4 & X1 & X2 & X3 & _).
    rewrite EP in X1. injection X1 as <-. cbn [app] in X2. rewrite EA, E2 in X2. injection X2 as <- _. rewrite E3 in X3. injection X3 as <- <-.
    exists org, ev, os. split; [rewrite EX; apply in_or_app; right; left; reflexivity|]. auto.
  Qed.

  Lemma delivered pc P i j p q a b id x k0 h t m lat1 lat2 : nth_error places i = Some p -> nth_error places j = Some q -> home b = Some j ->
    NoDup (su_guests (pl_su q)) -> (requests_for (mkKey pc b id) (events_at j tr) <= 1)%nat ->
    lives ky keccak pshash (pl_su q) (start_node (pl_su q) (pl_until q) (pl_begin q)) (events_at j tr) x (mkKey pc b id) k0 h ->
    calls_within P lat1 (mkLane i pc a b) tr -> lets_in P q j (mkLane i pc a b) tr -> keeps_up ky keccak pshash P lat2 q j (mkLane i pc a b) tr -> has_room pc b (trace_at j tr) -> 0 <= lat2 ->
    sends_at i (mkKey pc a id) t m tr -> m_rcpt m = b -> P m -> pc = pc_dss \/ (pc = pc_dkg /\ m_op m <> 0) -> 0 <= m_op m < Z.of_nat (length (p_stages (the_prot ky keccak pshash pc))) ->
    exists t', t' <= t - pl_skew p + pl_skew q + lat1 + lat2 /\ arrives h t' m.
  Proof.
    intros EP EQ EH ND RQ HL CW FW KU HR L2 (org & ev & os & HI & HT & HO) RC PM PC OP. subst t.
    destruct (cluster_node _ _ _ _ _ _ _ _ _ HC _ _ EP) as (ni & HNi & _). destruct (cluster_node _ _ _ _ _ _ _ _ _ HC _ _ EQ) as (nj & HNj & _).
    assert (SI : In (NRun (mkKey pc a id) (OSent m)) (trace_at i tr)).
    { unfold trace_at. apply in_flat_map. exists (XNode i org ev os). split; [exact HI|]. rewrite Nat.eqb_refl. exact HO. }
    destruct (sent_fields _ _ _ _ _ _ _ _ _ HNi _ _ SI) as (F1 & F2 & F3 & _). cbn in F1, F2, F3.
    assert (EK : key_of m = mkKey pc b id) by (unfold key_of; rewrite F2, F3, RC; reflexivity).
    destruct (history_block _ _ _ _ HC) as [SH CAL].
    apply in_split in HI. destruct HI as (x0 & y0 & EX). destruct (SH _ _ _ _ _ _ EX) as (p' & n1 & n2 & X1 & _ & _ & X4). rewrite EP in X1. injection X1 as <-.
    destruct (X4 (mkLane i pc a b) m) as [os' HS].
    { unfold sends_of. apply in_flat_map. exists (NRun (mkKey pc a id) (OSent m)). split; [exact HO|]. cbn. rewrite RC. left. reflexivity. }
    destruct (CW (ntime ev - pl_skew p) m os' PM) as (t1 & ok & os1 & LE & HG & HM); [rewrite EX; apply in_or_app; right; right; exact HS|].
    destruct (CAL _ _ _ _ _ HG HM) as (j' & os2 & EJ & HV). cbn [l_to] in EJ. rewrite EH in EJ. injection EJ as <-.
    apply in_split in HV. destruct HV as (u & v & EV). destruct (SH _ _ _ _ _ _ EV) as (q' & n3 & n4 & Y1 & Y2 & Y3 & _). rewrite EQ in Y1. injection Y1 as <-. cbn [app] in Y2.
    destruct (FW _ _ _ _ _ PM EV) as [FD FP]. destruct (KU _ _ _ _ _ PM EV) as (v1 & v2 & n5 & tr5 & W1 & W2 & W3 & W6 & W4 & W5). cbv zeta in FD, FP. rewrite EK in FP, W4, W5, W6.
    assert (SK : skew_of places j = pl_skew q) by (unfold skew_of; rewrite EQ; reflexivity). rewrite SK in *.
    assert (EE : events_at j tr = events_at j u ++ VIn (t1 + pl_skew q) m :: events_at j v1 ++ events_at j v2).
    { rewrite EV, W1, events_app. change (XNode j (Via (mkLane i pc a b)) (VIn (t1 + pl_skew q) m) os2 :: v1 ++ v2) with ([XNode j (Via (mkLane i pc a b)) (VIn (t1 + pl_skew q) m) os2] ++ v1 ++ v2).
      rewrite !events_app. cbn [events_at flat_map]. rewrite Nat.eqb_refl. reflexivity. }
    destruct (reaches _ _ _ _ _ _ _ _ _ _ _ _ _ _ _ _ _ _ _ _ _ _ lat2 HNj ND RQ PC HL EE EK OP HR Y2 FD FP W3 W6 W4 W5 L2 W2) as (t' & T1 & T2).
    exists t'. split; [lia|exact T2].
  Qed.
End Between.
