(** From runs to the flow of their stages: the nine stages of the key generation. *)
From Coq Require Import ZArith List Bool Lia Permutation.
From Coq Require Import Init.Byte.
From Verif Require Import Params Bytes Res Secp Spec Dss DssSpec Dto DtoSpec DtoProofs Prot ProtSpec ProtProofs ProtProofs2 ProtProofs3 ProtProofs6 TimeSpec TimeProofs DkgProt SignSpec ClusterSpec FlowSpec FlowProofs HonestSpec HonestProofs HonestProofs2 HonestProofs3.
Import ListNotations.
Open Scope Z_scope.

Section Cut.
  Context {D A K E V : Type}.
  Notation event := (event D E). Notation obs := (obs D A V). Notation rst := (rst D K).
  Variable p : protocol D A K E V.
  Variable c : info.
  Lemma stage_grows (x : list obs) : forall a, always (okobs p c) (a ++ x) -> fst (stage_now a) <= fst (stage_now (a ++ x)).
  Proof.
    induction x as [|o x IH]; intros a HA; [rewrite app_nil_r; lia|].
    pose proof (HA a o x eq_refl) as HO. change (o :: x) with ([o] ++ x) in *. rewrite app_assoc in *. specialize (IH (a ++ [o]) HA).
    assert (S1 : fst (stage_now a) <= fst (stage_now (a ++ [o]))).
    { unfold stage_now at 2. rewrite fold_left_app. fold (stage_now a). cbn [fold_left]. destruct o; cbn [fst]; try lia.
      - cbn in HO. lia.
      - cbn in HO. destruct HO as [HO _]. rewrite HO. cbn. lia. }
    lia.
  Qed.
  (** The last moment of a stage. *)
  Lemma last_at k k0 evs : 0 <= k -> forall (r : rst) tr, exec p c (new_run k0) evs = Ok (r, tr) -> k <= r_state r ->
    exists a b ra ta tb, evs = a ++ b /\ exec p c (new_run k0) a = Ok (ra, ta) /\ exec p c ra b = Ok (r, tb) /\ tr = ta ++ tb /\ r_state ra = k /\
      (b = [] \/ exists e now b', b = ETick e now :: b' /\ r_loc ra = LPause).
  Proof.
    intros HK. induction evs as [|ev evs IH] using rev_ind; intros r tr EX LE; [injection EX as <- _; cbn in LE; lia|].
    assert (EQ : r_state r = k \/ r_state r <> k) by lia. destruct EQ as [EQ|NE].
    { exists (evs ++ [ev]), [], r, tr, []. rewrite !app_nil_r. split; [reflexivity|]. split; [exact EX|]. split; [reflexivity|]. split; [reflexivity|]. split; [exact EQ|left; reflexivity]. }
    destruct (exec_split p c evs [ev] _ _ _ EX) as (r1 & t1 & t2 & X1 & X2 & ->).
    assert (CASES : r_state r1 = r_state r \/ (r_state r = r_state r1 + 1 /\ (r_loc r1 = LPause \/ r_loc r1 = LStart) /\ exists e now, ev = ETick e now)).
    { cbn [exec] in X2. destruct (step p c r1 ev) as [[r' o]| |] eqn:ES; cbn [rbind fst snd] in X2; try discriminate. injection X2 as <- _. pose proof (run_inv p c _ _ _ _ X1) as HI.
      destruct ev as [e now|e m]; cbn [step] in ES.
      - destruct (tick_cases p c _ _ _ _ _ _ _ HI ES) as [(Y1 & -> & ->)|[(Y1 & Y2 & Y3 & Y4)|[(Y1 & Y2 & -> & ->)|[(Y1 & Y2 & -> & ->)|(Y1 & -> & ->)]]]]; try (left; reflexivity).
        right. destruct (enter_flow p c e now r1 r' o [] (iv_keyed _ _ _ _ _ HI) Y4) as (s & y & _ & _ & _ & Q & _). split; [exact Q|]. split; [tauto|eauto].
      - left. unfold deliver in ES. destruct (_ || _); [injection ES as <- _; reflexivity|]. destruct (_ <? _); [injection ES as <- _; reflexivity|].
        pose proof ES as ES'. unfold process_msg in ES'. destruct (r_abandon r1); [injection ES' as <- _; reflexivity|]. destruct (stage_at p (m_op m)) as [s|] eqn:EK; [|discriminate]. clear ES'.
        destruct (msg_flow p c e r1 r' m o [] s EK ES) as [_ Q]. symmetry. apply Q. }
    destruct CASES as [SM|(NX & LC & e & now & ->)].
    - destruct (IH r1 t1 X1 ltac:(lia)) as (a & b & ra & ta & tb & -> & Y1 & Y2 & -> & Y3 & Y4).
      exists a, (b ++ [ev]), ra, ta, (tb ++ t2). rewrite !app_assoc. split; [reflexivity|]. split; [exact Y1|]. split; [exact (exec_app p c b [ev] ra r1 tb r t2 Y2 X2)|]. split; [reflexivity|]. split; [exact Y3|].
      destruct Y4 as [->|(e & now & b' & -> & Y4)]; [exfalso|right; exists e, now, (b' ++ [ev]); auto]. cbn [exec] in Y2. injection Y2 as <- _. lia.
    - assert (EQ : r_state r1 = k \/ r_state r1 <> k) by lia. destruct EQ as [EQ|NE1].
      + exists evs, [ETick e now], r1, t1, t2. repeat (split; [first [reflexivity|assumption]|]). right. exists e, now, []. split; [reflexivity|].
        destruct LC as [LC|LC]; [exact LC|]. pose proof (iv_loc _ _ _ _ _ (run_inv p c _ _ _ _ X1)) as HL. rewrite LC in HL. lia.
      + destruct (IH r1 t1 X1 ltac:(lia)) as (a & b & ra & ta & tb & -> & Y1 & Y2 & -> & Y3 & Y4).
        exists a, (b ++ [ETick e now]), ra, ta, (tb ++ t2). rewrite !app_assoc. split; [reflexivity|]. split; [exact Y1|]. split; [exact (exec_app p c b _ ra r1 tb r t2 Y2 X2)|]. split; [reflexivity|]. split; [exact Y3|].
        destruct Y4 as [->|(e' & now' & b' & -> & Y4)]; [exfalso|right; exists e', now', (b' ++ [ETick e now]); auto]. cbn [exec] in Y2. injection Y2 as <- _. lia.
  Qed.
  Lemma through_same p' e n k0 ms : (forall k, 0 <= k < Z.of_nat n -> stage_at p k = stage_at p' k) -> through p c e n k0 ms = through p' c e n k0 ms.
  Proof. induction n as [|n IH]; intros H; [reflexivity|]. cbn [FlowSpec.through]. rewrite IH by (intros; apply H; lia). rewrite H by lia. reflexivity. Qed.
  (** Nothing of an earlier stage is taken up later. *)
  Lemma handled_later k0 a b (ra r : rst) ta tb op : exec p c (new_run k0) a = Ok (ra, ta) -> exec p c ra b = Ok (r, tb) -> op < r_state ra -> for_op op (handled tb) = [].
  Proof.
    intros X1 X2 LT. pose proof (iv_alw _ _ _ _ _ (exec_inv p c _ _ _ _ _ _ (run_inv p c _ _ _ _ X1) X2)) as AL.
    destruct (iv_link _ _ _ _ _ (run_inv p c _ _ _ _ X1)) as [L1 _].
    destruct (for_op op (handled tb)) as [|m l] eqn:EH; [reflexivity|]. exfalso.
    assert (I : In m (for_op op (handled tb))) by (rewrite EH; left; reflexivity). apply filter_In in I. destruct I as [I EO]. apply Z.eqb_eq in EO.
    unfold handled in I. apply in_flat_map in I. destruct I as (o & I1 & I2). destruct o; cbn in I2; try contradiction. destruct I2 as [->|[]].
    apply in_split in I1. destruct I1 as (u & v & ->). pose proof (AL (ta ++ u) (OHandle m) v ltac:(rewrite <- app_assoc; reflexivity)) as HO. cbn in HO.
    assert (AU : always (okobs p c) (ta ++ u)).
    { intros x o y E0. apply (AL x o (y ++ OHandle m :: v)). rewrite app_assoc, E0, <- app_assoc. reflexivity. }
    pose proof (stage_grows u ta AU) as GR. rewrite HO, L1 in GR. cbn in GR. lia.
  Qed.
End Cut.

(** What arrives, if nothing arrives but what is sent and all that is sent arrives. *)
Lemma among_all {X} (a b : list X) : among a b -> NoDup b -> (forall x, In x b -> In x a) -> Permutation a b.
Proof.
  intros (rest & P) ND H. assert (E : rest = []).
  { destruct rest as [|x rest]; [reflexivity|exfalso]. apply (Permutation_NoDup (Permutation_sym P)) in ND. apply NoDup_remove_2 in ND. apply ND, in_or_app. left. apply H.
    apply (Permutation_in _ P). apply in_elt. }
  subst rest. rewrite app_nil_r in P. exact P.
Qed.
Lemma arrives_received {D E} (h : list (Z * event D E)) t m : arrives h t m -> In m (for_op (m_op m) (received (untimed h))).
Proof. intros (e & I). apply filter_In. split; [|apply Z.eqb_refl]. apply in_flat_map. exists (EMsg e m). split; [change (EMsg e m) with (snd (t, EMsg e m)); apply in_map; exact I|left; reflexivity]. Qed.
Lemma arrives_once {D E} (h : list (Z * event D E)) t t' m : NoDup (for_op (m_op m) (received (untimed h))) -> arrives h t m -> arrives h t' m -> t = t'.
Proof.
  induction h as [|[u ev] h IH]; intros ND (e & I) (e' & I'); [destruct I|].
  assert (TL : NoDup (for_op (m_op m) (received (untimed h)))).
  { clear - ND. unfold for_op, received, untimed in *. cbn [map flat_map snd] in ND. rewrite filter_app in ND. revert ND. generalize (filter (fun m0 => m_op m0 =? m_op m) (flat_map (fun e => match e with EMsg _ m0 => [m0] | _ => [] end) (map snd h))).
    generalize (filter (fun m0 => m_op m0 =? m_op m) (match ev with EMsg _ m0 => [m0] | _ => [] end)). intros x y N. induction x as [|z x IH]; [exact N|]. inversion_clear N. auto. }
  destruct I as [Q|I]; destruct I' as [Q'|I'].
  - congruence.
  - exfalso. injection Q as -> ->. cbn in ND. rewrite Z.eqb_refl in ND. inversion_clear ND as [|? ? NI _]. apply NI. apply (arrives_received h t' m). exists e'. exact I'.
  - exfalso. injection Q' as -> ->. cbn in ND. rewrite Z.eqb_refl in ND. inversion_clear ND as [|? ? NI _]. apply NI. apply (arrives_received h t m). exists e. exact I.
  - apply IH; [exact TL|exists e; exact I|exists e'; exact I'].
Qed.

Section Mails.
  Context {K E : Type}.
  Variable p : protocol payload arg K E output.
  Variable c : info.
  (** What a trace shows as sent to a member for a stage that has been entered. *)
  Lemma sent_mails k0 evs r tr i op : exec p c (new_run k0) evs = Ok (r, tr) -> op <= r_state r ->
    filter (fun m => m_rcpt m =? i) (for_op op (sent tr)) = map (make_msg c i op) (mails i op (doings tr)).
  Proof.
    intros EX LE. pose proof (run_inv p c _ _ _ _ EX) as HI. pose proof (iv_snd _ _ _ _ _ HI op) as X. rewrite (iv_snd_past _ _ _ _ _ HI op LE), app_nil_r in X. rewrite <- X.
    assert (HD : forall m, In (OCreate m) tr -> m_sender m = i_guest c /\ m_pc m = i_pc c /\ m_run m = i_id c).
    { intros m I. apply in_split in I. destruct I as (u & v & E0). exact (iv_alw _ _ _ _ _ HI u _ v E0). }
    clear - HD. induction tr as [|o tr IH]; [reflexivity|]. specialize (IH (fun m I => HD m (or_intror I))).
    destruct o; try exact IH.
    - cbn [created flat_map app doings]. fold (created tr). fold (doings tr). cbn [mails flat_map]. fold (mails i op (doings tr)).
      destruct (HD m (or_introl eq_refl)) as (H1 & H2 & H3). unfold for_op in *. cbn [filter]. destruct (m_op m =? op) eqn:EO; [|rewrite andb_false_r; exact IH].
      cbn [filter]. destruct (m_rcpt m =? i) eqn:ER; cbn [andb app map]; [|exact IH]. apply Z.eqb_eq in EO. apply Z.eqb_eq in ER. f_equal; [|exact IH].
      destruct m; cbn in *; subst; reflexivity.
  Qed.
End Mails.

Section Both.
  Context {G : Type}.
  Variable ky : kyber G.
  Variable keccak : bytes -> bytes.
  Variable pshash : Z -> Z -> bytes.
  Notation dkgp := (dkg_prot ky). Notation dssp := (dss_prot ky keccak pshash).
  Definition e0 : env := mkEnv None None 0 (fun _ l => l).

  Lemma both_stage p k : p = dkgp \/ p = dssp -> 0 <= k < 9 -> stage_at p k = stage_at dkgp k.
  Proof.
    intros [->| ->] H; [reflexivity|].
    assert (C9 : k = 0 \/ k = 1 \/ k = 2 \/ k = 3 \/ k = 4 \/ k = 5 \/ k = 6 \/ k = 7 \/ k = 8) by lia.
    repeat (destruct C9 as [->|C9]; [reflexivity|]). subst k. reflexivity.
  Qed.
  Lemma stage_range (p : protocol payload arg (kd G) env output) k s : stage_at p k = Some s -> 0 <= k.
  Proof. unfold stage_at. destruct (Z.ltb_spec k 0); [discriminate|lia]. Qed.
  Lemma both_closed p c : p = dkgp \/ p = dssp -> closed_upto p c 8.
  Proof.
    intros HP j s ES LE. pose proof (stage_range p j s ES) as GE. rewrite (both_stage p j HP) in ES by lia.
    assert (C9 : j = 0 \/ j = 1 \/ j = 2 \/ j = 3 \/ j = 4 \/ j = 5 \/ j = 6 \/ j = 7 \/ j = 8) by lia.
    repeat (destruct C9 as [->|C9]; [injection ES as <-; split; intros f Q; (discriminate Q || (injection Q as <-; intros; reflexivity))|]).
    subst j. injection ES as <-; split; intros f Q; (discriminate Q || (injection Q as <-; intros; reflexivity)).
  Qed.
  Lemma both_last p : p = dkgp \/ p = dssp -> no_last_proc p.
  Proof. intros [->| ->] s ES; injection ES as <-; reflexivity. Qed.
  Lemma both_final p : p = dkgp \/ p = dssp -> 8 <= final p.
  Proof. intros [->| ->]; vm_compute; discriminate. Qed.

  (** What is sent after the key generation is for later stages. *)
  Definition late_act (a : action payload output) : Prop := match a with ASend _ op _ => 8 <= op | _ => True end.
  Lemma late_mails i op acts : Forall late_act acts -> op < 8 -> mails i op acts = [].
  Proof.
    intros H LT. induction H as [|a acts HA _ IH]; [reflexivity|]. cbn. fold (mails i op acts). rewrite IH, app_nil_r. destruct a as [rc o d| |]; try reflexivity.
    cbn in HA. rewrite (proj2 (Z.eqb_neq o op)) by lia. rewrite andb_false_r. reflexivity.
  Qed.
  Lemma later_acts p c k0 a b ra r ta tb : p = dkgp \/ p = dssp -> exec p c (new_run k0) a = Ok (ra, ta) -> exec p c ra b = Ok (r, tb) -> 8 <= r_state ra -> Forall late_act (doings tb).
  Proof.
    intros HP X1 X2 GE.
    set (Q := fun (k : Z) (_ : kd G) (_ : bool) (o : list (action payload output)) => 8 <= k /\ Forall late_act o).
    assert (ST : forall k s, stage_at p k = Some s -> 9 <= k -> k = 9 /\ s = ps0 (st_init ky keccak) \/ k = 10 /\ s = ps (Some (st_partsig keccak pshash)) (pr_partsig keccak pshash) (unm KPart) partsig_v (is_kind KPart) \/ k = 11 /\ s = ps0 (dss_st_final keccak)).
    { intros k s ES G9. assert (LK : k < Z.of_nat (length (p_stages p))).
      { unfold stage_at in ES. destruct (k <? 0); [discriminate|]. assert (Z.to_nat k < length (p_stages p))%nat by (apply nth_error_Some; congruence). lia. }
      destruct HP as [->| ->]; cbn in LK; [lia|]. assert (C3 : k = 9 \/ k = 10 \/ k = 11) by lia. destruct C3 as [->|[->| ->]]; injection ES as <-; auto. }
    assert (BQ : forall ci kk w as', broadcast_qual (G := G) ci kk op_dss_partsig w = Ok as' -> Forall late_act as').
    { intros ci kk w as' EB. unfold broadcast_qual in EB. destruct w as [w'| |]; [|injection EB as <-; constructor|discriminate]. destruct (kd_qual kk); [|discriminate]. injection EB as <-.
      rewrite multicast_eq. apply Forall_forall. intros x I. apply in_map_iff in I. destruct I as (y & <- & _). cbn. unfold op_dss_partsig, op_dkg_final. lia. }
    assert (FI : ainv Q r ([] ++ acts_of tb)).
    { apply (exec_acts p c (fun _ => True) Q b) with (rcvd := received a) (r := ra) (tr := ta).
      - intros k s ES kk o [H1 H2]. destruct (ST k s ES ltac:(lia)) as [[-> ->]|[[-> ->]|[-> ->]]]; cbn [ps0 ps sg_step]; intros e kd' acts _ HF; (split; [lia|]); apply Forall_app; (split; [exact H2|]).
        + unfold st_init in HF. destruct (ky_share _ _); [|injection HF as _ <-; repeat constructor]. destruct (kd_args kk); [|discriminate].
          destruct (e_long e); destruct (new_dss _ _ _ _ _ _ _ _); try discriminate; injection HF as _ <-; repeat constructor.
        + unfold st_partsig in HF. destruct (kd_dss kk) as [[dd [|]]|]; try discriminate. destruct (partial_sig _ _ _ _) as [[[d' sg] ok]| |]; try discriminate. destruct ok; [|injection HF as _ <-; repeat constructor].
          destruct (broadcast_qual _ _ _ _) as [as'| |] eqn:EB; cbn [rbind] in HF; try discriminate. injection HF as _ <-. apply (BQ _ _ _ _ EB).
        + unfold dss_st_final in HF. destruct (kd_dss kk) as [[dd bb]|]; try discriminate. destruct (negb _); [injection HF as _ <-; repeat constructor|].
          destruct (signature _ _ _); try discriminate; injection HF as _ <-; repeat constructor.
      - intros k kk o [H1 H2]. split; [lia|exact H2].
      - intros k s f ES EF e kk o aa kd' acts _ [H1 H2] HF. split; [exact H1|]. apply Forall_app. split; [exact H2|].
        assert (EK : k = 8 \/ 9 <= k) by lia. destruct EK as [->|EK]; [rewrite (both_stage p 8 HP) in ES by lia; injection ES as <-; discriminate EF|].
        destruct (ST k s ES EK) as [[-> ->]|[[-> ->]|[-> ->]]]; cbn [ps0 ps sg_proc] in EF; try discriminate. injection EF as <-.
        unfold pr_partsig in HF. destruct aa as [[| | | | |sg]|]; try discriminate. destruct (kd_dss kk) as [[dd bb]|]; try discriminate. destruct (process _ _ _ _) as [d' [o'| |]]; try discriminate; injection HF as _ <-; constructor.
      - intros kk bb o H. exact H.
      - apply Forall_forall. intros; exact I.
      - exact (run_inv p c _ _ _ _ X1).
      - split; [exact GE|constructor].
      - exact X2. }
    apply FI.
  Qed.

  (** A run that has got to the end of the key generation. *)
  Lemma snapshot p c k0 evs r tr : p = dkgp \/ p = dssp -> exec p c (new_run k0) evs = Ok (r, tr) -> 8 <= r_state r ->
    exists a b ra ta tb x, evs = a ++ b /\ exec p c (new_run k0) a = Ok (ra, ta) /\ exec p c ra b = Ok (r, tb) /\ tr = ta ++ tb /\ r_state ra = 8 /\
      (b = [] \/ exists e now b', b = ETick e now :: b' /\ r_loc ra = LPause) /\
      through dkgp c e0 9 k0 (msgs ta) = Ok x /\ fl_ab x = r_abandon ra /\ fl_acts x = doings ta /\ r_k ra = (if r_term ra then p_cleanup p (fl_k x) else fl_k x) /\
      forall op, 1 <= op <= 7 -> msgs ta op = for_op op (handled tr) /\ forall i, filter (fun m => m_rcpt m =? i) (for_op op (sent tr)) = map (make_msg c i op) (mails i op (fl_acts x)).
  Proof.
    intros HP EX GE. destruct (last_at p c 8 k0 evs ltac:(lia) r tr EX GE) as (a & b & ra & ta & tb & E1 & X1 & X2 & E2 & S8 & LB).
    destruct (run_flow p c e0 8 (both_closed p c HP) (both_last p HP) k0 a ra ta X1 ltac:(lia)) as (x & T1 & T2 & T3 & T4).
    rewrite S8 in T1. change (Z.to_nat (8 + 1)) with 9%nat in T1. rewrite (through_same p c dkgp) in T1 by (intros k Hk; apply (both_stage p k HP); lia).
    exists a, b, ra, ta, tb, x. do 10 (split; [assumption|]). intros op Hop. split.
    - subst tr. unfold msgs. rewrite handled_app, for_op_app, (handled_later p c k0 a b ra r ta tb op X1 X2) by lia. rewrite app_nil_r. reflexivity.
    - intros i. rewrite (sent_mails p c k0 evs r tr i op EX) by lia. f_equal. subst tr. rewrite doings_app, mails_app, T3, (late_mails i op (doings tb)); [apply app_nil_r| |lia].
      apply (later_acts p c k0 a b ra r ta tb HP X1 X2). lia.
  Qed.
End Both.
