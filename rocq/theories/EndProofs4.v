(** The firewall begins to buffer for a run once its timer has gone off. *)
From Coq Require Import ZArith List Lia Bool Permutation.
From Verif Require Import Params Bytes Res Secp Dto Dss Prot ProtSpec ProtProofs TimeSpec TimeProofs DkgProt DkgProofs KMap Firewall FwSpec FwProofs FwProofs2 FwProofs3 FwProofs4 NetSpec
  Outputs Node NodeSpec NodeRun NodeProofs NodeProofs2 NodeProofs3 NodeProofs4 NodeProofs5 NodeProofs6 NodeProofs7 NodeProofs8 ObjSpec ObjProofs ObjProofs2 ObjProofs3 PropsFw ReachSpec ReachProofs ReachProofs2
  DocsProofs PropsNode EndProofs EndProofs2 EndProofs3.
Import ListNotations.
Open Scope Z_scope.

Section NP.
  Context {G : Type}.
  Variable ky : kyber G.
  Variable keccak : bytes -> bytes.
  Variable pshash : Z -> Z -> bytes.
  Variable su : setup.
  Variables until now0 : Z.
  Notation history := (nhistory ky keccak pshash su until now0).
  Notation nstep := (nstep ky keccak pshash su).
  Notation nexec := (nexec ky keccak pshash su).

  Lemma one_call k evs n tr : NoDup (su_guests su) -> history evs n tr -> (requests_for k evs <= 1)%nat -> (length (kslice (f_calls (n_fw n)) k) <= 1)%nat.
  Proof.
    intros ND HH HR. pose proof (history_gi _ _ _ _ _ _ _ _ _ HH) as GIn. rewrite (g_calls _ _ _ GIn k).
    pose proof (history_sigs _ _ _ _ _ _ _ _ _ HH) as SG. assert (OL : (length (klocs k (n_reqs n)) <= 1)%nat) by (eapply one_loc; eassumption).
    assert (LE : (cnt past (klocs k (n_reqs n)) <= length (klocs k (n_reqs n)))%nat) by (clear; unfold cnt; induction (klocs k (n_reqs n)) as [|x y IH]; cbn [filter length]; [lia|]; destruct (past x); cbn [length]; lia). lia.
  Qed.
  Definition waits (n : node (G := G)) (k : key) (a : allowance) : Prop :=
    exists s, nth_error (kslice (f_calls (n_fw n)) k) 0 = Some s /\ kget (f_allow (n_fw n)) k = Some a /\ (sl_thread s = Some FNew \/ sl_thread s = Some (FBuf a)).
  Lemma seen_or_waits evs n tr k start doc tq t0 a0 : history evs n tr -> NoDup (su_guests su) -> (requests_for k evs <= 1)%nat -> requested su evs k start doc tq ->
    In (FSet t0 k a0) (fw_trace tr) -> seen k 1 tr \/ waits n k (allowance_for ky keccak pshash (k_pc k) start).
  Proof.
    intros HH ND RQ RE IN. destruct (history_inv _ _ _ _ _ _ _ _ _ HH) as (T & [W _]). destruct (w_sound _ _ _ _ _ _ _ _ _ _ W) as (_ & _ & _ & HK).
    assert (PS : forall v, v <> 0 -> phase k (fw_trace tr) = Some v -> seen k 1 tr) by (intros v NV H; eapply seen_one; [exact HH|exact (phase_in _ _ _ NV H)]).
    destruct (HK k) as (_ & _ & _ & [(_ & _ & _ & _ & [(_ & _ & NS)|(? & ? & ? & ? & _ & _ & P3 & _)])|(m & s & a & t1 & a1 & a2 & X1 & _ & X3 & _ & X5 & _ & _ & _ & _ & X10)]); cbn [view_of v_calls v_allow] in *.
    - exfalso. assert (X : existsb (is_set k) (fw_trace tr) = true) by (apply existsb_exists; exists (FSet t0 k a0); split; [exact IN|cbn [is_set]; destruct (key_eqb_spec k k); congruence]). congruence.
    - left. eapply PS; [|exact P3]. discriminate.
    - assert (EM : m = 0%nat). { pose proof (one_call _ _ _ _ ND HH RQ) as L. assert (m < length (kslice (f_calls (n_fw n)) k))%nat by (apply nth_error_Some; congruence). lia. } subst m.
      assert (EA : a = allowance_for ky keccak pshash (k_pc k) start).
      { destruct (w_set _ _ _ _ _ _ _ _ _ _ W t1 k a) as (st & dc & tq' & R2 & _ & ->); [rewrite X5; apply in_elt|]. destruct (requested_once _ _ _ _ _ _ _ _ _ RQ RE R2) as (<- & _). reflexivity. }
      subst a. destruct (sl_thread s) as [[|b|b|b|]|] eqn:ET; try contradiction.
      + right. exists s. auto.
      + destruct X10 as (-> & _). right. exists s. auto.
      + destruct X10 as (_ & _ & P & _). left. eapply PS; [|exact P]. discriminate.
      + destruct X10 as (_ & _ & P & _). left. eapply PS; [|exact P]. discriminate.
  Qed.
  Lemma fw_wake n t k c n' o : nstep n (VFw t k c) = Ok (n', o) -> fw_state_step (n_fw n) t k c = Ok (n_fw n', fw_trace o).
  Proof.
    cbn [Node.nstep]. intros EF. destruct (firewall_eff _ _ _ _ _ _ _ _ EF) as (_ & _ & _ & l & ES & _). unfold firewall in EF. rewrite ES in EF. cbn [rbind fst snd] in EF.
    rewrite (receive_all_trace _ _ _ _ _ _ _ _ EF). exact ES.
  Qed.
  Lemma rank_nexec a k evs2 : forall evs n tr n2 o r, history evs n tr -> history (evs ++ evs2) n2 (tr ++ o) -> nexec n evs2 = Ok (n2, o) -> at_rank a k 0 (n_fw n) r ->
    exists r', at_rank a k 0 (n_fw n2) r' /\ (r <= r')%nat.
  Proof.
    induction evs2 as [|ev evs2 IH]; intros evs n tr n2 o r HH H2 HE HR.
    - cbn in HE. injection HE as <- <-. exists r. auto.
    - cbn [Node.nexec] in HE. destruct (nstep n ev) as [[n1 o1]| |] eqn:E1; cbn [rbind fst snd] in HE; try discriminate.
      destruct (nexec n1 evs2) as [[n3 o3]| |] eqn:E2; cbn [rbind fst snd] in HE; try discriminate. injection HE as <- <-.
      assert (H1 : history (evs ++ [ev]) n1 (tr ++ o1)).
      { destruct H2 as [C2 _]. replace (evs ++ ev :: evs2) with ((evs ++ [ev]) ++ evs2) in C2 by (rewrite <- app_assoc; reflexivity). destruct HH as [_ HX]. split; [eapply nclock_app, C2|].
        rewrite nexec_app, HX. cbn [rbind fst snd Node.nexec]. rewrite E1. cbn [rbind fst snd]. rewrite app_nil_r. reflexivity. }
      assert (R1 : exists r1, at_rank a k 0 (n_fw n1) r1 /\ (r <= r1)%nat).
      { destruct (fa_fw _ _ _ _ (step_facts _ _ _ _ _ _ _ _ E1)) as [[-> _]|(fev & FS & _)]; [exists r; auto|].
        destruct (history_inv _ _ _ _ _ _ _ _ _ HH) as (T' & [W _]). destruct (rank_step _ _ _ a k 0 _ _ _ _ _ _ r (w_sound _ _ _ _ _ _ _ _ _ _ W) HR FS) as (r1 & A & B & _). eauto. }
      destruct R1 as (r1 & R1 & L1). rewrite app_assoc in H2. replace (evs ++ ev :: evs2) with ((evs ++ [ev]) ++ evs2) in H2 by (rewrite <- app_assoc; reflexivity).
      destruct (IH _ _ _ _ _ _ H1 H2 E2 R1) as (r2 & R2 & L2). exists r2. split; [exact R2|lia].
  Qed.
  Lemma requests_prefix k (a b : list (nevent (G := G))) : (requests_for k (a ++ b) <= 1)%nat -> (requests_for k a <= 1)%nat.
  Proof. unfold requests_for. rewrite filter_app, app_length. lia. Qed.
  Lemma woken u1 s u2 t u3 n tr k start doc tq n1 tr1 t0 a0 : history (u1 ++ VFw s k 0 :: u2 ++ VFw t k 0 :: u3) n tr -> NoDup (su_guests su) ->
    (requests_for k (u1 ++ VFw s k 0 :: u2 ++ VFw t k 0 :: u3) <= 1)%nat -> requested su (u1 ++ VFw s k 0 :: u2 ++ VFw t k 0 :: u3) k start doc tq ->
    nexec (start_node su until now0) u1 = Ok (n1, tr1) -> In (FSet t0 k a0) (fw_trace tr1) -> al_buf (allowance_for ky keccak pshash (k_pc k) start) <= t -> seen k 1 tr.
  Proof.
    set (a := allowance_for ky keccak pshash (k_pc k) start). intros HH ND RQ RE H1 IN LT.
    (* up to the second wake *)
    replace (u1 ++ VFw s k 0 :: u2 ++ VFw t k 0 :: u3) with (((u1 ++ [VFw s k 0]) ++ u2 ++ [VFw t k 0]) ++ u3) in HH, RQ, RE by (rewrite <- !app_assoc; reflexivity).
    destruct (history_prefix _ _ _ _ _ _ _ _ _ _ HH) as (n5 & tr5 & o5 & H5 & _ & ->). apply seen_app. pose proof (requests_prefix _ _ _ RQ) as RQ5.
    pose proof H5 as H5'. rewrite app_assoc in H5'. destruct (history_cut _ _ _ _ _ _ _ _ _ _ H5') as (n4 & tr4 & o4 & H4 & S4 & E5). clear H5'.
    destruct (history_prefix _ _ _ _ _ _ _ _ _ _ H4) as (n2 & tr2 & o2 & H2 & X2 & E4).
    destruct (history_cut _ _ _ _ _ _ _ _ _ _ H2) as (n1' & tr1' & o1 & H1' & S1 & E2).
    assert (EQ : n1' = n1 /\ tr1' = tr1) by (destruct H1' as [_ Q]; rewrite H1 in Q; injection Q as -> ->; auto). destruct EQ as [-> ->].
    pose proof RQ5 as RQ4. rewrite app_assoc in RQ4. apply requests_prefix in RQ4. pose proof (requests_prefix _ _ _ RQ4) as RQ2. pose proof (requests_prefix _ _ _ RQ2) as RQ1.
    assert (R1 : exists dc tq1, requested su u1 k start dc tq1).
    { destruct (history_inv _ _ _ _ _ _ _ _ _ H1') as (T & [W _]). destruct (w_set _ _ _ _ _ _ _ _ _ _ W _ _ _ IN) as (st & dc & tq' & R & _).
      assert (R' : requested su (((u1 ++ [VFw s k 0]) ++ u2 ++ [VFw t k 0]) ++ u3) k st dc tq') by (eapply requested_mono; [|exact R]; rewrite <- !app_assoc; apply incl_appl, incl_refl).
      destruct (requested_once _ _ _ _ _ _ _ _ _ RQ RE R') as (-> & _). eauto. }
    destruct R1 as (dc & tq1 & R1).
    assert (R4 : requested su ((u1 ++ [VFw s k 0]) ++ u2) k start dc tq1) by (eapply requested_mono; [|exact R1]; rewrite <- app_assoc; apply incl_appl, incl_refl).
    assert (I4 : In (FSet t0 k a0) (fw_trace tr4)) by (rewrite E4, E2, !fwt_app; apply in_or_app; left; apply in_or_app; left; exact IN).
    rewrite E5. destruct (seen_or_waits _ _ _ _ _ _ _ _ _ H4 ND RQ4 R4 I4) as [SE|(sl & N4 & A4 & TH)]; [apply seen_app, SE|]. fold a in A4, TH.
    assert (TB : sl_thread sl = Some (FBuf a) \/ seen k 1 tr4).
    { destruct TH as [TH|TH]; [|auto]. right. (* the first wake has been *)
      destruct (seen_or_waits _ _ _ _ _ _ _ _ _ H1' ND RQ1 R1 IN) as [SE|(s1 & N1 & A1 & T1)]; [rewrite E4, E2; apply seen_app, seen_app, SE|]. fold a in A1, T1.
      assert (FB : at_rank a k 0 (n_fw n2) 1 \/ seen k 1 (tr1 ++ o1)).
      { apply fw_wake in S1. unfold fw_state_step in S1. rewrite N1 in S1. destruct T1 as [T1|T1]; rewrite T1 in S1.
        - left. rewrite A1 in S1. injection S1 as <- _. eexists _, (FBuf a). unfold put_slot. cbn [f_calls set_calls]. rewrite kslice_kset, key_eqb_refl. split; [|split; [|split; reflexivity]].
          + destruct (kslice (f_calls (n_fw n1)) k) as [|z zs]; [discriminate N1|]. reflexivity.
          + reflexivity.
        - destruct (s <? al_buf a).
          + injection S1 as <- _. left. exists s1, (FBuf a). auto.
          + destruct (told _ _) as [w| |]; cbn [rbind] in S1; try discriminate. injection S1 as _ S1. right. exists s. rewrite fwt_app, <- S1. apply in_or_app. right. left. reflexivity. }
      destruct FB as [FB|SE]; [|rewrite E4, E2; apply seen_app, SE].
      assert (H4' : history ((u1 ++ [VFw s k 0]) ++ u2) n4 (tr2 ++ o2)) by (rewrite <- E4; exact H4).
      destruct (rank_nexec a k u2 _ _ _ _ _ _ H2 H4' X2 FB) as (r' & (s2 & t2 & Q1 & Q2 & Q3 & _) & L). rewrite N4 in Q1. injection Q1 as <-. rewrite TH in Q2. injection Q2 as <-. cbn [rank] in Q3. lia. }
    destruct TB as [TB|SE]; [|apply seen_app, SE]. apply fw_wake in S4. unfold fw_state_step in S4. rewrite N4, TB in S4. destruct (Z.ltb_spec t (al_buf a)); [lia|].
    destruct (told _ _) as [w| |]; cbn [rbind] in S4; try discriminate. injection S4 as _ S4. exists t. rewrite fwt_app, <- S4. apply in_or_app. right. left. reflexivity.
  Qed.
End NP.
