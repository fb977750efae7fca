(** From a member that gets ready to its signature. *)
From Coq Require Import ZArith Znumtheory List Lia Bool Permutation Sorted.
From Coq Require Import Init.Byte.
From Verif Require Import Params NumTh PrimeN Zmod Curve Order Bytes Res Secp Spec SecpProofs SecpProofs2 PublicKey Schnorr SchnorrProofs Dss DssSpec DssProofs DssProofs2 DssProofs3 PropsDss
  Dto DtoSpec DtoProofs Prot ProtSpec ProtProofs ProtProofs2 ProtProofs3 ProtProofs5 DkgProt DkgSpec DkgProofs TimeSpec TimeProofs TimeProofs2
  SignSpec SignProofs.
Import ListNotations.
Open Scope Z_scope.

(** ** A message once kept is taken up *)
Section Kept.
  Context {D A K E V : Type}.
  Variable p : protocol D A K E V.
  Variable c : info.
  Lemma for_op_app' k (a b : list (message D)) : for_op k (a ++ b) = for_op k a ++ for_op k b. Proof. apply filter_app. Qed.
  Lemma handled_app' (a b : list (obs D A V)) : handled (a ++ b) = handled a ++ handled b. Proof. apply flat_map_app. Qed.
  Lemma kept_handled evs : forall rcvd (r : rst D K) tr r' t' op m, Inv p c rcvd r tr -> In m (mslice (r_rcv r) op) ->
    exec p c r evs = Ok (r', t') -> op <= r_state r' -> In m (handled t').
  Proof.
    induction evs as [|ev evs IH]; intros rcvd r tr r' t' op m HI HM; cbn [exec].
    - intros H LE. injection H as <- <-. rewrite (iv_rcv_past _ _ _ _ _ HI op LE) in HM. destruct HM.
    - destruct (step p c r ev) as [[r1 t1]| |] eqn:E1; cbn [rbind fst snd]; try discriminate.
      destruct (exec p c r1 evs) as [[r2 t2]| |] eqn:E2; cbn [rbind fst snd]; try discriminate.
      intros H LE. injection H as <- <-. rewrite handled_app'. apply in_or_app.
      assert (LT : r_state r < op).
      { destruct (Z_lt_le_dec (r_state r) op) as [L|L]; [exact L|]. rewrite (iv_rcv_past _ _ _ _ _ HI op L) in HM. destruct HM. }
      destruct (iv_rcv_future _ _ _ _ _ HI op LT) as [F1 F2]. pose proof (iv_rcv _ _ _ _ _ HI op) as EB. rewrite F1, F2 in EB. cbn in EB.
      assert (HI1 : exists rc, Inv p c (rcvd ++ rc) r1 (tr ++ t1) /\ (r_state r1 = r_state r \/ (r_state r1 = r_state r + 1 /\ r_paused r1 = false))).
      { destruct ev as [e now|e x]; cbn [step] in E1.
        - exists []. rewrite app_nil_r. split; [eapply tick_inv; eassumption|].
          destruct (tick_cases p c _ _ _ _ _ _ _ HI E1) as [(X1 & -> & ->)|[(X1 & X2 & X3 & X4)|[(X1 & X2 & -> & ->)|[(X1 & X2 & -> & ->)|(X1 & -> & ->)]]]];
            try (left; reflexivity).
          right. destruct (enter_inv p c _ _ _ _ _ _ _ HI X2 X4) as (HI1 & S1 & L1 & _). split; [exact S1|].
          pose proof (iv_loc _ _ _ _ _ HI1) as HL. rewrite L1 in HL. tauto.
        - exists [x]. split; [eapply deliver_inv; eassumption|]. left. destruct (deliver_same p c _ _ _ _ _ _ _ HI E1) as (X & _). exact X. }
      destruct HI1 as (rc & HI1 & SS). pose proof (iv_rcv _ _ _ _ _ HI1 op) as EB1. rewrite for_op_app', EB in EB1.
      destruct (Z_lt_le_dec (r_state r1) op) as [L|L].
      + right. destruct (iv_rcv_future _ _ _ _ _ HI1 op L) as [G1 G2]. rewrite G1, G2 in EB1. cbn in EB1.
        eapply IH; [exact HI1| |exact E2|exact LE]. rewrite <- EB1. apply in_or_app. left. exact HM.
      + left. destruct SS as [SS|[SS PP]]; [lia|]. assert (op = r_state r1) by lia. subst op.
        rewrite (iv_rcv_past _ _ _ _ _ HI1 (r_state r1) L), (iv_rcv_now _ _ _ _ _ HI1 PP), handled_app', for_op_app', F1 in EB1. cbn in EB1. rewrite app_nil_r in EB1.
        apply (in_for_op (r_state r1) m). rewrite <- EB1. apply in_or_app. left. exact HM.
  Qed.
End Kept.

Section Sign.
  Context {G : Type}.
  Variable ky : kyber G.
  Variable keccak : bytes -> bytes.
  Variable pshash : Z -> Z -> bytes.
  Notation p := (dss_prot ky keccak pshash).
  Notation drun := (Dss.run keccak pshash).
  Notation run := (rst payload (kd G)).
  Notation ready := (ready ky keccak pshash). Notation partial_from := (partial_from ky keccak pshash).

  (** Before stage 11 no signature is put out. *)
  Lemma unsigned_before c k0 evs (r : run) tr : exec p c (new_run k0) evs = Ok (r, tr) -> r_state r < 11 -> unsigned tr.
  Proof.
    intros H. pose (QZ := fun (k : Z) (x : kd G) (b : bool) (o : list (Z * output)) => k < 11 -> forall v, ~ In (pc_dss, v) o).
    assert (X : QZ (r_state r) (r_k r) (r_abandon r) (outputs_of tr)).
    2:{ intros L v HV. exact (X L v HV). }
    revert H. apply (run_out p c QZ).
    - assert (QA : forall k k' x x' b (acts : list (action payload output)) o, QZ k x false o -> acts_out acts = [] -> (k' < 11 -> k < 11) -> QZ k' x' b (o ++ acts_out acts)).
      { intros k k' x x' b acts o HQ -> L L' v HV. rewrite app_nil_r in HV. exact (HQ (L L') v HV). }
      intros k s H x o HQ. apply dss_stage_nat in H. destruct H as (m & -> & H).
      each_stage m H; cbn [ps0 ps sg_step]; try (intros L v HV; refine (HQ _ v HV); lia);
      intros e x' acts X.
      + injection X as <- <-. eapply QA; [exact HQ|reflexivity|lia].
      + unfold step_deal in X. destruct (ky_deals ky (kd_gen x)) as [g [ds|]]; injection X as <- <-; (eapply QA; [exact HQ| |lia]); [|reflexivity].
        induction ds as [|d ds IH]; [reflexivity|].
        cbn [flat_map]. unfold acts_out in *. rewrite flat_map_app, IH, app_nil_r. destruct (deal_to_dto (snd d)); reflexivity.
      + injection X as <- <-. eapply QA; [exact HQ|reflexivity|lia].
      + unfold step_commits in X. destruct (kd_qual x); [|discriminate X]. cbv zeta in X. destruct (negb _); [injection X as <- <-; eapply QA; [exact HQ|reflexivity|lia]|].
        destruct (snd _) as [sc|]; [|injection X as <- <-; eapply QA; [exact HQ|reflexivity|lia]].
        destruct (broadcast_qual _ _ _ _) as [ac| |] eqn:B; cbn [rbind] in X; try discriminate X. injection X as <- <-.
        eapply QA; [exact HQ|eapply bq_quiet; exact B|lia].
      + unfold step_final in X. destruct (ky_finished _ _); [|injection X as <- <-; eapply QA; [exact HQ|reflexivity|lia]].
        destruct (ky_share _ _) as [s|]; [|injection X as <- <-; eapply QA; [exact HQ|reflexivity|lia]]. destruct (kd_qual x) as [q|]; [|discriminate X].
        injection X as <- <-. intros L v HV. apply in_app_or in HV. destruct HV as [HV|[HV|[]]]; [refine (HQ _ v HV); lia|discriminate HV].
      + unfold st_init in X. destruct (ky_share _ _); [|injection X as <- <-; eapply QA; [exact HQ|reflexivity|lia]]. destruct (kd_args x); [|discriminate X]. cbv zeta in X.
        destruct (e_long e); destruct (new_dss _ _ _ _ _ _ _ _); try discriminate X; injection X as <- <-; (eapply QA; [exact HQ|reflexivity|lia]).
      + unfold st_partsig in X. destruct (kd_dss x) as [[d [|]]|]; try discriminate X.
        destruct (partial_sig _ _ _ _) as [[[d' sg] [|]]| |]; try discriminate X; [|injection X as <- <-; eapply QA; [exact HQ|reflexivity|lia]].
        destruct (broadcast_qual _ _ _ _) as [ac| |] eqn:B; cbn [rbind] in X; try discriminate X. injection X as <- <-.
        eapply QA; [exact HQ|eapply bq_quiet; exact B|lia].
      + intros L. exfalso. cbn in L. lia.
    - intros k x o HQ L. apply HQ. lia.
    - intros k s f H EF e x o a x' acts HQ X. apply dss_stage_nat in H. destruct H as (m & -> & H).
      assert (AQ : acts_out acts = [] -> QZ (Z.of_nat m) x' (has_ab acts) (o ++ acts_out acts)).
      { intros -> L v HV. rewrite app_nil_r in HV. exact (HQ L v HV). }
      apply AQ. clear AQ HQ.
      each_stage m H; try discriminate EF; injection EF as <-.
      + unfold process_deal in X. destruct a as [[]|]; try discriminate X. injection X as <- <-.
        destruct (snd _) as [[?|]|]; try reflexivity. apply bc_quiet.
      + unfold process_response in X. destruct a as [|rs]; try discriminate X. injection X as <- <-.
        destruct (snd _) as [[?|]|]; try reflexivity. destruct (justification_to_dto _); try reflexivity. apply bc_quiet.
      + unfold process_justification in X. destruct a as [[]|]; try discriminate X. injection X as <- <-. reflexivity.
      + unfold process_commits in X. destruct a as [[]|]; try discriminate X. cbv zeta in X.
        destruct (snd _) as [[?|]|]; try (injection X as <- <-; reflexivity).
        destruct (broadcast_qual _ _ _ _) as [ac| |] eqn:B; cbn [rbind] in X; try discriminate X. injection X as <- <-. eapply bq_quiet; exact B.
      + unfold process_compl_commits in X. destruct a as [[]|]; try discriminate X. cbv zeta in X.
        destruct (snd _) as [[?|]|]; try (injection X as <- <-; reflexivity).
        destruct (broadcast_qual _ _ _ _) as [ac| |] eqn:B; cbn [rbind] in X; try discriminate X. injection X as <- <-. eapply bq_quiet; exact B.
      + unfold process_recons_commits in X. destruct a as [[]|]; try discriminate X. injection X as <- <-. reflexivity.
      + unfold pr_partsig in X. destruct a as [[]|]; try discriminate X. destruct (kd_dss x) as [[d b]|]; try discriminate X.
        destruct (process _ _ _ _) as [d' [| |]]; try discriminate X; injection X as <- <-; reflexivity.
    - intros x b o HQ L. exfalso. change (final p) with 11 in L. lia.
    - intros _ v [].
  Qed.

  Lemma find_index_own l : Forall curve_point l -> NoDup l -> forall Q n j, nth_error l n = Some Q -> find_index Q l j = Some (j + Z.of_nat n).
  Proof.
    intros HC HN. induction l as [|P l IH]; intros Q n j HE; [destruct n; discriminate HE|].
    inversion HC as [|? ? C1 C2]; subst. inversion HN as [|? ? N1 N2]; subst. cbn [find_index]. destruct n as [|n].
    - injection HE as ->. assert (E : pt_equal Q Q = true) by (apply pt_equal_point; [right; exact C1|right; exact C1|reflexivity]). rewrite E. f_equal. lia.
    - cbn in HE. pose proof (nth_error_In _ _ HE) as HIN.
      assert (E : pt_equal P Q = false).
      { destruct (pt_equal P Q) eqn:X; [|reflexivity]. exfalso. apply pt_equal_point in X; [|right; exact C1|right; rewrite Forall_forall in C2; apply C2, HIN].
        subst P. contradiction. }
      rewrite E, (IH C2 N2 Q n (j + 1) HE). f_equal. lia.
  Qed.
  Lemma curve_nonzero x Q : curve_point Q -> pt_mul x KP_nil = Ok Q -> ~ (N | x).
  Proof.
    intros HQ HM HD. rewrite pt_mul_base in HM by tauto. injection HM as <-.
    assert (Z0 : smul x eG = smul 0 eG) by (rewrite <- (smul_modN x), (Zdivide_mod _ _ HD); reflexivity).
    rewrite Z0 in HQ. destruct HQ as (_ & _ & HQ). vm_compute in HQ. discriminate HQ.
  Qed.

  (** What a ready member's DSS is. *)
  Definition member_dss (S : session) (i : Z) (d0 : dss) : Prop :=
    inv keccak d0 /\ d_partials d0 = [] /\ d_signed d0 = false /\ d_index d0 = i /\ d_participants d0 = se_parts S /\ shares_ok (se_f S) (se_r S) d0 /\
    ks_commits (d_long d0) = se_F S /\ ks_commits (d_random d0) = se_R S /\ (forall j, In j (d_H2 d0) <-> In j (se_qual S)) /\
    d_msg d0 = se_msg S /\ d_T d0 = se_T S /\ d_sid d0 = session_id keccak (se_F S) (se_R S) /\
    pt_mul (d_secret d0) KP_nil = Ok (d_public d0) /\ (exists Q, nth_error (se_parts S) (Z.to_nat i) = Some Q /\ pt_equal Q (d_public d0) = true) /\
    forall k, exists d1 ps w, partial_sig keccak pshash k d0 = Ok (d1, ps, true) /\ to_wire (OPart ps) = Ok w.

  Lemma ready_phase S P i c k0 evs (r : run) tr (E : env -> Prop) : sound S P -> ready S i c k0 evs -> exec p c (new_run k0) evs = Ok (r, tr) ->
    (forall e now, In (ETick e now) evs -> E e) ->
    exists d0 q, member_dss S i d0 /\ (forall j, In j q <-> In j (se_qual S)) /\ phase keccak pshash c d0 q E r tr.
  Proof.
    intros (S1 & S2 & (l & S3) & S4 & S5 & S6 & S7 & S8 & S9 & S10 & S11 & S12) (R1 & R2 & R3 & a & e & now & b & ra & ta & nonce & long & x & q & -> & EA & ST & AB &
      EN & (N1 & N2) & HQ & EQ & HQ2 & EK & (Q & Q1 & Q2) & ED & EL & (L1 & L2)) EX HE.
    apply exec_split in EX. destruct EX as (ra' & ta' & tb & EA' & EB & ->). rewrite EA in EA'. injection EA' as <- <-.
    cbn [exec] in EB. destruct (Prot.step p c ra (ETick e now)) as [[r1 t1]| |] eqn:E1; cbn [rbind fst snd] in EB; try discriminate EB.
    destruct (exec p c r1 b) as [[r2 t2]| |] eqn:E2; cbn [rbind fst snd] in EB; try discriminate EB. injection EB as <- <-.
    pose proof (run_inv p c _ _ _ _ EA) as HI. pose proof (iv_link _ _ _ _ _ HI) as (K1 & K2 & _). rewrite ST in K1. injection K1 as K1 K3. rewrite AB in K2.
    pose proof (iv_loc _ _ _ _ _ HI) as HL. cbn [Prot.step] in E1. unfold tick in E1.
    destruct (r_loc ra) eqn:LO; try (destruct HL as (_ & HL & _); congruence).
    destruct (enter_parts ky keccak pshash c e now ra ta _ (ps0 (st_init ky keccak)) (st_init ky keccak) r1 t1 HI (eq_sym K2))
      as (k & acts & r3 & tc & r4 & tz & A1 & A2 & A3 & A4 & A5 & A6 & A7 & A8 & A9 & A10 & ET);
      [rewrite <- K1; reflexivity|reflexivity|exact E1|].
    set (d0r := new_dss keccak x (se_parts S) (share_of long) (share_of nonce) (ky_qual ky (kd_gen (r_k ra))) (se_msg S) (se_T S)).
    assert (R3' : 0 <= i < Z.of_nat (length (se_parts S))) by (apply S11, R3).
    assert (EI : find_index Q (se_parts S) 0 = Some i).
    { rewrite (find_index_own _ S8 S9 Q (Z.to_nat i) 0 Q1). f_equal. lia. }
    assert (EN0 : exists d0, d0r = Ok d0 /\ d_index d0 = i).
    { unfold d0r, new_dss. rewrite Q2. cbn [rbind]. rewrite EI. eexists. split; reflexivity. }
    destruct EN0 as (d0 & EN0 & DI). pose proof EN0 as EN1. apply (new_dss_ok keccak pshash) in EN1.
    destruct EN1 as (D0 & D1 & D2 & D3 & D4 & D5 & D6 & D7 & D8 & D9 & D10 & D11 & D12 & D13).
    assert (SH : shares_ok (se_f S) (se_r S) d0).
    { unfold shares_ok. rewrite D6, D7, DI. cbn [share_of ks_commits ks_v]. rewrite L1, N1. auto. }
    assert (P0 : forall kk, exists d1 ps w, partial_sig keccak pshash kk d0 = Ok (d1, ps, true) /\ to_wire (OPart ps) = Ok w).
    { intros kk. destruct (se_R S) as [|V Vs] eqn:ER; [congruence|].
      destruct (C30_partial_available keccak pshash _ _ _ _ _ _ _ d0 [] kk V Vs P l EN0) as (d1 & ps & EP).
      - cbn. exact N1. - cbn. congruence. - exact S4.
      - refine (curve_nonzero x Q _ Q2). rewrite Forall_forall in S8. apply S8, (nth_error_In _ _ Q1).
      - cbn in EP. exists d1, ps. destruct (wire_rt (OPart ps)) as (w & W1 & _); [|eauto].
        apply partial_sig_ok in EP. destruct EP as (h & _ & _ & -> & _). exists (d_index d0), (own_value d0 h). split; [reflexivity|]. unfold own_value. apply modN_range. }
    exists d0, q. split; [|split].
    - unfold member_dss. rewrite D6, D7, D8. cbn [share_of ks_commits]. rewrite D11. cbn [share_of ks_commits]. rewrite N1, L1.
      repeat (split; [assumption || reflexivity|]). rewrite D4. split; [exact D12|]. split; [rewrite <- DI; exact D13|exact P0].
    - exact HQ2.
    - rewrite app_assoc. eapply (phase_exec ky keccak pshash c d0 q D0 P0 E b); [eapply tick_inv; [exact HI|unfold tick; rewrite LO; exact E1]| | |exact E2].
      2:{ intros e' now' X. apply (HE e' now'). apply in_or_app. right. right. exact X. }
      left. rewrite <- K1 in *. change (op_dkg_final + 1) with 9 in *.
      unfold st_init in A1. rewrite EN, EK in A1. cbn [ka_secret ka_parts ka_T] in A1. rewrite ED, EL in A1. cbv zeta in A1. fold d0r in A1. rewrite EN0 in A1.
      injection A1 as <- <-. cbn [do_actions] in A2. injection A2 as <- <-.
      assert (F3 : Forall (fun m => m_op m = 9) (mslice (r_rcv ra) 9)) by (apply (iv_keyed _ _ _ _ _ HI)).
      destruct (process_none ky keccak pshash c e 9 (ps0 (st_init ky keccak)) (mslice (r_rcv ra) 9) eq_refl eq_refl _ r4 tz F3 A7) as (-> & B2 & B2' & B3).
      rewrite A8, A9, A10. cbn [set_k set_snd set_stage r_state r_abandon r_k set_dss kd_dss kd_qual].
      split; [reflexivity|]. split; [symmetry; exact K2|]. split; [reflexivity|]. split; [exact EQ|].
      destruct (sent_made (mslice (r_snd ra) 9)) as (M1 & M2 & M3). rewrite ET.
      change (OEnter 9 now :: map OSent (mslice (r_snd ra) 9) ++ [OStep 9] ++ tz) with ([OEnter 9 now : obs payload arg output] ++ map OSent (mslice (r_snd ra) 9) ++ [OStep 9] ++ tz).
      split.
      + rewrite !created_app, M1, B2. cbn [created flat_map app]. rewrite !app_nil_r.
        destruct (for_op op_dss_partsig (created ta)) as [|m ll] eqn:EM; [reflexivity|]. exfalso.
        assert (X : In m (for_op op_dss_partsig (created ta))) by (rewrite EM; left; reflexivity). apply in_for_op in X. destruct X as [X1 X2].
        pose proof (calm_created p c _ _ _ HI (calm_run p c _ _ _ _ (dss_tidy ky keccak pshash) EA) m X2) as X3. rewrite <- K1, X1 in X3. unfold op_dss_partsig, op_dkg_final in X3. lia.
      + intros v HV. rewrite !outputs_app, M3, B2' in HV. cbn [outputs_of flat_map app] in HV. rewrite !app_nil_r in HV.
        refine (unsigned_before c k0 a ra ta EA _ v HV). rewrite <- K1. reflexivity.
  Qed.

  (** A partial from a ready member is accepted by another. *)
  Lemma partial_good S P i j ci d0 m : (forall b, length (keccak b) = 32%nat) -> sound S P -> member_dss S i d0 -> In j (se_qual S) -> i_members ci = Z.of_nat (length (se_parts S)) ->
    partial_from S j m -> goodm keccak pshash ci d0 m j.
  Proof.
    intros LK HS (I1 & I2 & I3 & I4 & I5 & I6 & I7 & I8 & I9 & I10 & I11 & I12 & I13 & I14 & I15) HJ EM (c & k0 & evs & r & tr & HR & EX & HM & EO).
    destruct (ready_phase S P j c k0 evs r tr (fun _ => True) HS HR EX) as (dj & q & HD & HQ & HP); [auto|].
    assert (HT : exists k, told keccak pshash c dj q tr k).
    { pose proof (run_inv p c _ _ _ _ EX) as HI.
      destruct HP as [(X & _ & _ & _ & X5 & _)|[(k & cs & _ & X & _)|(_ & k & cs & e & _ & X & _)]]; [|eauto|eauto]. exfalso.
      assert (Y : In m (for_op op_dss_partsig (sent tr))) by (apply filter_In; split; [exact HM|apply Z.eqb_eq, EO]).
      rewrite (iv_snd _ _ _ _ _ HI) in X5. apply app_eq_nil in X5. destruct X5 as [X5 _]. rewrite X5 in Y. destruct Y. }
    destruct HT as (k & d1 & ps & w & EP & EW & EC).
    assert (EMM : exists i', m = make_msg c i' op_dss_partsig (PWire w)).
    { pose proof (run_inv p c _ _ _ _ EX) as HI.
      assert (Y : In m (for_op op_dss_partsig (created tr))).
      { rewrite (iv_snd _ _ _ _ _ HI). apply in_or_app. left. apply filter_In; split; [exact HM|apply Z.eqb_eq, EO]. }
      rewrite EC in Y. apply in_map_iff in Y. destruct Y as (i' & <- & _). eauto. }
    destruct EMM as (i' & ->). destruct HR as (GJ & _). destruct HD as (J1 & J2 & J3 & J4 & J5 & J6 & J7 & J8 & J9 & J10 & J11 & J12 & J13 & J14 & J15).
    destruct HS as (S1 & S2 & S3 & S4 & S5 & S6 & S7 & S8 & S9 & S10 & S11 & S12).
    pose proof EP as EP'. apply partial_sig_ok in EP'. destruct EP' as (h & _ & _ & EPS & _). cbv zeta in EPS.
    assert (GO : good (OPart ps)). { rewrite EPS. exists (d_index dj), (own_value dj h). split; [reflexivity|]. unfold own_value. apply modN_range. }
    destruct (wire_rt _ GO) as (w' & W1 & W2). assert (w' = w) by congruence. subst w'.
    split; [reflexivity|]. split; [exact GJ|]. split; [rewrite EM; apply S11, HJ|].
    exists w, ps, (Some (own_value dj h)). split; [reflexivity|]. split.
    { cbn in EW. destruct (partsig_to_dto ps); try discriminate EW. cbn in EW. injection EW as <-. reflexivity. }
    split; [exact W2|]. split; [rewrite EPS; cbn; rewrite J4; reflexivity|].
    intros cs NI. pose proof (run_static keccak pshash cs d0) as ST. unfold static in ST. injection ST as B1 B2 B3 B4 B5 B6 B7 B8 B9 B10.
    destruct (honest_accepted keccak pshash (se_f S) (se_r S) dj (drun d0 cs) k d1 ps LK J1 J6) as (v & EV).
    - rewrite J5. exact S8.
    - exact J13.
    - rewrite J5, J4. exact J14.
    - exact EP.
    - congruence. - congruence. - congruence. - congruence. - congruence.
    - rewrite B8, J4. apply I9, HJ.
    - rewrite J4. exact NI.
    - rewrite EV. reflexivity.
  Qed.

  (** The signature a session gives. *)
  Lemma session_signature S P i d0 cs ord sg : (forall i l, Permutation (ord i l) l) -> sound S P -> member_dss S i d0 ->
    signature keccak ord (drun d0 cs) = Ok sg ->
    (exists V h, hd_error (se_R S) = Some V /\ h = challenge_of keccak P (address_of keccak V) (se_msg S) /\
       sg = Sig (address_of keccak V) (Some ((poly (se_r S) 0 - h * poly (se_f S) 0) mod N))) /\
    verify keccak (KP P) (se_msg S) sg = Ok tt.
  Proof.
    intros HO (S1 & S2 & (l & S3) & S4 & S5 & S6 & S7 & S8 & S9 & S10 & S11 & S12)
      (I1 & I2 & I3 & I4 & I5 & I6 & I7 & I8 & I9 & I10 & I11 & I12 & I13 & I14 & I15) HG.
    pose proof (run_static keccak pshash cs d0) as ST. pose proof ST as ST'. unfold static in ST'. injection ST' as B1 B2 B3 B4 B5 B6 B7 B8 B9 B10.
    assert (SO : shares_ok (se_f S) (se_r S) (drun d0 cs)) by (eapply shares_static; [symmetry; exact ST|exact I6]).
    assert (VO : values_ok keccak (se_f S) (se_r S) (drun d0 cs)).
    { apply values_run; [exact I6|]. intros h _. rewrite I2. constructor. }
    assert (IR : inv keccak (drun d0 cs)) by (apply inv_run, I1).
    split.
    - destruct (sig_value keccak ord _ _ _ sg HO IR ltac:(rewrite B4, I5; exact S10) SO VO ltac:(rewrite B5, I11; exact S6) ltac:(rewrite B5, I11; exact S7) HG)
        as (V & rs & P' & ls & h & E1 & E2 & _ & EH & EG).
      rewrite B7, I8 in E1. rewrite B6, I7, S3 in E2. injection E2 as <- <-. exists V, h. rewrite E1. split; [reflexivity|]. split; [|exact EG]. rewrite EH, B9, I10. reflexivity.
    - destruct (sig_verifies keccak pshash ord _ _ _ sg HO IR ltac:(rewrite B4, I5; exact S10) SO VO ltac:(rewrite B5, I11; exact S6) ltac:(rewrite B5, I11; exact S7) HG)
        as (P' & ls & E2 & EV & _). rewrite B6, I7, S3 in E2. injection E2 as <- <-. rewrite B9, I10 in EV. exact (EV S12).
  Qed.
End Sign.
