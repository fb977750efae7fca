(** Property theorems C91, C92: enough members that get ready sign. *)
From Coq Require Import ZArith List Lia Bool Permutation Sorted.
From Coq Require Import Init.Byte.
From Coq Require Import Znumtheory.
From Verif Require Import NumTh PrimeN Zmod Curve Order SecpProofs SecpProofs2 SchnorrProofs Params Bytes Res Secp Spec PublicKey Schnorr Dss DssSpec DssProofs DssProofs2 DssProofs3 Dto DtoSpec DtoProofs
  Prot ProtSpec ProtProofs ProtProofs2 ProtProofs3 DkgProt DkgSpec DkgProofs TimeSpec TimeProofs TimeProofs2 PropsTime SignSpec SignProofs SignProofs2.
Import ListNotations.
Open Scope Z_scope.

Lemma sorted_suffix {T} (R : T -> T -> Prop) (l l' : list T) : StronglySorted R (l ++ l') -> StronglySorted R l'.
Proof. induction l as [|x l IH]; cbn; [auto|]. intros H. apply StronglySorted_inv in H. apply IH, H. Qed.

Section Props.
  Context {G : Type}.
  Variable ky : kyber G.
  Variable keccak : bytes -> bytes.
  Variable pshash : Z -> Z -> bytes.
  Notation prot := (dss_prot ky keccak pshash).
  Notation ready := (ready ky keccak pshash). Notation partial_from := (partial_from ky keccak pshash).

  (** ** C91 *)
  (** A member that gets ready sends its partial signature to every other qualified member. *)
  Theorem C91_partial_sent : forall S P i c k0 evs r tr,
    sound S P -> ready S i c k0 evs -> exec prot c (new_run k0) evs = Ok (r, tr) -> In op_dss_partsig (entered tr) ->
    forall j, In j (se_qual S) -> j <> i -> exists m, In m (sent tr) /\ m_op m = op_dss_partsig /\ m_rcpt m = j /\ m_sender m = i.
  Proof.
    intros S P i c k0 evs r tr HS HR EX HE j HJ NE.
    destruct (ready_phase ky keccak pshash S P i c k0 evs r tr (fun _ => True) HS HR EX) as (d0 & q & HD & HQ & HP); [auto|].
    pose proof (run_inv prot c _ _ _ _ EX) as HI. rewrite (iv_entered _ _ _ _ _ HI) in HE. apply in_upto in HE.
    assert (HT : exists k, told keccak pshash c d0 q tr k).
    { destruct HP as [(X & _)|[(k & cs & _ & X & _)|(_ & k & cs & e & _ & X & _)]]; [|eauto|eauto]. rewrite X in HE. unfold op_dss_partsig in HE. lia. }
    destruct HT as (k & d1 & ps & w & _ & _ & EC). exists (make_msg c j op_dss_partsig (PWire w)).
    destruct HR as (GI & _). split; [|auto]. apply (in_for_op op_dss_partsig).
    assert (X : In (make_msg c j op_dss_partsig (PWire w)) (for_op op_dss_partsig (created tr))).
    { rewrite EC. apply in_map_iff. exists j. split; [reflexivity|]. apply filter_In. split; [apply HQ, HJ|]. rewrite GI. apply negb_true_iff, Z.eqb_neq, NE. }
    rewrite (iv_snd _ _ _ _ _ HI), (iv_snd_past _ _ _ _ _ HI) in X by apply HE. rewrite app_nil_r in X. exact X.
  Qed.
  (** One that reaches the last stage, having taken up the partial signatures of enough other members, whatever else
      it was sent, puts out a signature of the document for the key. *)
  Theorem C91_enough_partials : forall S P i c k0 evs r tr js,
    (forall b, length (keccak b) = 32%nat) -> sound S P -> ready S i c k0 evs -> fair_maps evs ->
    exec prot c (new_run k0) evs = Ok (r, tr) -> In 11 (entered tr) ->
    NoDup js -> se_T S <= 1 + Z.of_nat (length js) ->
    (forall j, In j js -> j <> i /\ In j (se_qual S) /\ exists m, partial_from S j m /\ In m (handled tr)) ->
    exists sg, In (OOutput pc_dss (VSig sg)) tr /\ verify keccak (KP P) (se_msg S) sg = Ok tt.
  Proof.
    intros S P i c k0 evs r tr js LK HS HR HF EX HE ND LT HJ.
    destruct (ready_phase ky keccak pshash S P i c k0 evs r tr (fun e => forall i l, Permutation (e_ord e i l) l) HS HR EX HF) as (d0 & q & HD & HQ & HP).
    pose proof (run_inv prot c _ _ _ _ EX) as HI. rewrite (iv_entered _ _ _ _ _ HI) in HE. apply in_upto in HE.
    destruct HP as [(X & _)|[(k & cs & (X & _) & _)|(_ & k & cs & e & HO & _ & HH & HV)]];
      [rewrite X in HE; unfold op_dkg_final in HE; lia|rewrite X in HE; unfold op_dss_partsig, op_dkg_final in HE; lia|].
    set (d := Dss.run keccak pshash d0 (CallPartial k :: cs)) in *.
    assert (HI1 : In i (map fst (d_partials d))).
    { pose proof HD as (I1 & _ & I3 & I4 & _ & _ & _ & _ & _ & _ & _ & _ & _ & _ & I15). unfold d.
      change (CallPartial k :: cs) with ([CallPartial k] ++ cs). apply held_app. unfold Dss.run. cbn [fold_left Dss.step].
      destruct (I15 k) as (d1 & ps & w & EP & _). rewrite EP. apply partial_sig_ok in EP. destruct EP as (h & _ & _ & _ & ->). rewrite I3. cbn.
      rewrite map_app. apply in_or_app. right. left. exact I4. }
    assert (HJ1 : forall j, In j js -> In j (map fst (d_partials d))).
    { intros j Hj. destruct (HJ j Hj) as (_ & J2 & m & J3 & J4). apply (HH m j J4).
      apply (partial_good ky keccak pshash S P i j c d0 m LK HS HD J2); [|exact J3]. apply HR. }
    assert (DS : se_T S <= Z.of_nat (ndk (d_partials d))).
    { unfold ndk. assert (X : (length (i :: js) <= length (nodup Z.eq_dec (map fst (d_partials d))))%nat).
      { apply NoDup_incl_length; [constructor; [|exact ND]|].
        - intros X. destruct (HJ i X) as [X1 _]. contradiction.
        - intros j [<-|Hj]; apply nodup_In; auto. }
      cbn [length] in X. lia. }
    pose proof HD as (I1 & I2 & I3 & I4 & I5 & I6 & I7 & I8 & I9 & I10 & I11 & I12 & I13 & I14 & I15).
    pose proof (run_static keccak pshash (CallPartial k :: cs) d0) as ST. fold d in ST. unfold static in ST. injection ST as B1 B2 B3 B4 B5 B6 B7 B8 B9 B10.
    pose proof HS as (S1 & S2 & (l & S3) & S4 & S5 & S6 & S7 & S8 & S9 & S10 & S11 & S12).
    assert (T1 : 1 <= se_T S). { rewrite S3 in S1. inversion S1; subst. rewrite <- H in S6. cbn [length] in S6. lia. }
    assert (IR : inv keccak d) by (apply inv_run, I1).
    destruct (sig_total keccak (e_ord e) d HO IR ltac:(rewrite B4, I5; exact S10) ltac:(rewrite B5, I11; exact T1)) as [_ X].
    destruct X as (ad & s & EG & _); [rewrite B5, I11; exact DS|].
    destruct (session_signature keccak pshash S P i d0 (CallPartial k :: cs) (e_ord e) _ HO HS HD EG) as [_ VV].
    exists (Sig ad (Some s)). split; [|exact VV].
    assert (OV : In (pc_dss, VSig (Sig ad (Some s))) (outputs_of tr)).
    { apply HV. exists (Sig ad (Some s)). split; [reflexivity|]. split; [|exact EG].
      unfold signature in EG. fold d in EG. destruct (enough d); [reflexivity|discriminate EG]. }
    unfold outputs_of in OV. apply in_flat_map in OV. destruct OV as (o & O1 & O2). destruct o; cbn in O2; try contradiction.
    destruct O2 as [O2|[]]. injection O2 as -> ->. exact O1.
  Qed.
  (** All members that put out a signature put out the same, and it is valid. *)
  Theorem C91_same_signature : forall S P i c k0 evs r tr sg j c' k0' evs' r' tr' sg',
    sound S P -> ready S i c k0 evs -> fair_maps evs -> exec prot c (new_run k0) evs = Ok (r, tr) ->
    ready S j c' k0' evs' -> fair_maps evs' -> exec prot c' (new_run k0') evs' = Ok (r', tr') ->
    In (OOutput pc_dss (VSig sg)) tr -> In (OOutput pc_dss (VSig sg')) tr' ->
    sg = sg' /\ verify keccak (KP P) (se_msg S) sg = Ok tt.
  Proof.
    assert (K : forall S P i c k0 evs r tr sg, sound S P -> ready S i c k0 evs -> fair_maps evs -> exec prot c (new_run k0) evs = Ok (r, tr) ->
      In (OOutput pc_dss (VSig sg)) tr ->
      (exists V h, hd_error (se_R S) = Some V /\ h = challenge_of keccak P (address_of keccak V) (se_msg S) /\
         sg = Sig (address_of keccak V) (Some ((poly (se_r S) 0 - h * poly (se_f S) 0) mod N))) /\ verify keccak (KP P) (se_msg S) sg = Ok tt).
    { intros S P i c k0 evs r tr sg HS HR HF EX HO.
      destruct (ready_phase ky keccak pshash S P i c k0 evs r tr (fun e => forall i l, Permutation (e_ord e i l) l) HS HR EX HF) as (d0 & q & HD & HQ & HP).
      assert (OV : In (pc_dss, VSig sg) (outputs_of tr)) by (unfold outputs_of; apply in_flat_map; eexists; split; [exact HO|left; reflexivity]).
      destruct HP as [(_ & _ & _ & _ & _ & X)|[(k & cs & _ & _ & X & _)|(_ & k & cs & e & HP & _ & _ & HV)]]; [destruct (X _ OV)|destruct (X _ OV)|].
      apply HV in OV. destruct OV as (sg1 & E1 & _ & EG). injection E1 as <-.
      exact (session_signature keccak pshash S P i d0 _ (e_ord e) _ HP HS HD EG). }
    intros S P i c k0 evs r tr sg j c' k0' evs' r' tr' sg' HS HR HF EX HR' HF' EX' HO HO'.
    destruct (K S P i c k0 evs r tr sg HS HR HF EX HO) as [(V & h & E1 & E2 & ->) VV].
    destruct (K S P j c' k0' evs' r' tr' sg' HS HR' HF' EX' HO') as [(V' & h' & E1' & E2' & ->) _].
    split; [|exact VV]. rewrite E1 in E1'. injection E1' as <-. rewrite E2, E2'. reflexivity.
  Qed.

  (** ** C92 *)
  (** Members [M], enough of them, all ready, started within a window, each late by at most [d]; every partial signature
      sent from one to another arrives within [lat].  Then all of them put out one and the same signature, and it is valid. *)
  Theorem C92_members_sign : forall S P M (c : Z -> info) (k : Z -> kd G) (h : Z -> list (Z * event payload env)) (s : Z -> Z) d lat,
    (forall b, length (keccak b) = 32%nat) -> sound S P -> NoDup M -> M <> [] -> se_T S <= Z.of_nat (length M) -> 0 <= d ->
    (forall i, In i M -> ready S i (c i) (k i) (untimed (h i)) /\ fair_maps (untimed (h i)) /\
       clocked (h i) /\ timely prot (c i) (new_run (k i)) (untimed (h i)) /\ punctual prot (c i) d (new_run (k i)) (untimed (h i)) /\
       happens prot (c i) (k i) (h i) (s i) (OStart (s i)) /\
       exists r tr, exec prot (c i) (new_run (k i)) (untimed (h i)) = Ok (r, tr) /\ In 11 (entered tr)) ->
    (forall i j, In i M -> In j M -> s i - s j + 2 * d + lat < 70 * ms) ->
    (forall i j m t, In i M -> In j M -> happens prot (c j) (k j) (h j) t (OSent m) -> m_op m = op_dss_partsig -> m_rcpt m = i ->
       exists t', t' <= t + lat /\ arrives (h i) t' m) ->
    exists sg, verify keccak (KP P) (se_msg S) sg = Ok tt /\
      forall i r tr, In i M -> exec prot (c i) (new_run (k i)) (untimed (h i)) = Ok (r, tr) -> In (OOutput pc_dss (VSig sg)) tr.
  Proof.
    intros S P M c k h s d lat LK HS ND NM LT HD HM HW HA.
    assert (ONE : forall i, In i M -> exists r tr sg, exec prot (c i) (new_run (k i)) (untimed (h i)) = Ok (r, tr) /\
      In (OOutput pc_dss (VSig sg)) tr /\ verify keccak (KP P) (se_msg S) sg = Ok tt).
    { intros i Hi. destruct (HM i Hi) as (R1 & R2 & R3 & R4 & R5 & R6 & r & tr & R7 & R8). exists r, tr.
      destruct (C91_enough_partials S P i (c i) (k i) (untimed (h i)) r tr (remove Z.eq_dec i M) LK HS R1 R2 R7 R8) as (sg & X).
      - clear - ND. induction ND as [|x l NI _ IH]; [constructor|]. cbn. destruct (Z.eq_dec i x); [exact IH|]. constructor; [|exact IH].
        intros X. apply in_remove in X. destruct X. contradiction.
      - assert (X : (length M <= 1 + length (remove Z.eq_dec i M))%nat).
        { clear - ND. induction ND as [|x l NI ND' IH]; [cbn; lia|]. cbn [remove length]. destruct (Z.eq_dec i x) as [->|]; [|cbn [length]; lia].
          rewrite notin_remove by exact NI. lia. }
        lia.
      - intros j Hj. apply in_remove in Hj. destruct Hj as [Hj NE]. split; [exact NE|].
        destruct (HM j Hj) as (Q1 & Q2 & Q3 & Q4 & Q5 & Q6 & rj & trj & Q7 & Q8). split; [apply Q1|].
        assert (E10 : In op_dss_partsig (entered trj)).
        { pose proof (run_inv prot (c j) _ _ _ _ Q7) as HJ. rewrite (iv_entered _ _ _ _ _ HJ) in *. apply in_upto. apply in_upto in Q8. unfold op_dss_partsig, op_dkg_final. lia. }
        destruct (C91_partial_sent S P j (c j) (k j) _ rj trj HS Q1 Q7 E10 i) as (m & M1 & M2 & M3 & M4); [apply R1|auto|].
        exists m. split; [exists (c j), (k j), (untimed (h j)), rj, trj; auto|].
        assert (HS1 : exists t, happens prot (c j) (k j) (h j) t (OSent m)).
        { unfold sent in M1. apply in_flat_map in M1. destruct M1 as (o & O1 & O2). destruct o; cbn in O2; try contradiction. destruct O2 as [->|[]].
          destruct (in_happens prot (c j) (k j) (h j) [] rj trj _ Q7 O1) as [t X]. rewrite app_nil_r in X. eauto. }
        destruct HS1 as [t HT]. destruct (HA i j m t Hi Hj HT M2 M3) as (t' & LE & e & AR).
        apply in_split in AR. destruct AR as (a & b & EH).
        assert (EU : untimed (h i) = untimed (a ++ [(t', EMsg e m)]) ++ untimed b) by (rewrite EH; unfold untimed; rewrite !map_app, <- app_assoc; reflexivity).
        pose proof R7 as R7'. rewrite EU in R7'. apply exec_split in R7'. destruct R7' as (r1 & t1 & t2 & X1 & X2 & ->).
        pose proof (run_inv prot (c i) _ _ _ _ X1) as HI1.
        assert (RC : In m (for_op op_dss_partsig (received (untimed (a ++ [(t', EMsg e m)]))))).
        { apply filter_In. split; [|apply Z.eqb_eq, M2]. unfold untimed. rewrite map_app. unfold received. rewrite flat_map_app. apply in_or_app. right. left. reflexivity. }
        rewrite (iv_rcv _ _ _ _ _ HI1) in RC. rewrite handled_app. apply in_or_app. apply in_app_or in RC. destruct RC as [RC|RC]; [left; apply in_for_op in RC; apply RC|].
        apply in_app_or in RC. destruct RC as [RC|RC].
        + exfalso. apply in_for_op in RC. destruct RC as [_ RC]. unfold dropped in RC. apply in_flat_map in RC. destruct RC as (o & O1 & O2).
          destruct o; cbn in O2; try contradiction. destruct O2 as [->|[]].
          destruct (in_happens prot (c i) (k i) (a ++ [(t', EMsg e m)]) [] r1 t1 _ X1 O1) as [t'' HX]. rewrite app_nil_r in HX.
          assert (LE2 : t'' <= t').
          { destruct R3 as [SO _]. destruct HX as (a2 & ev & b2 & _ & _ & _ & _ & E2 & _).
            rewrite EH in SO. change ((t', EMsg e m) :: b) with ([(t', EMsg e m)] ++ b) in SO. rewrite app_assoc, E2 in SO. clear - SO E2.
            destruct b2 as [|y b2] using rev_ind; [apply app_inj_tail in E2; destruct E2 as [_ E2]; injection E2 as <- _; lia|].
            clear IHb2. rewrite app_comm_cons, app_assoc in E2. apply app_inj_tail in E2. destruct E2 as [_ <-].
            rewrite <- !app_assoc in SO. apply (sorted_suffix _ a2) in SO. cbn [app] in SO. inversion SO as [|? ? _ F]; subst. rewrite Forall_forall in F.
            apply (F (t', EMsg e m)). rewrite !in_app_iff; cbn; tauto. }
          assert (HX2 : happens prot (c i) (k i) (h i) t'' (ODrop m)).
          { destruct HX as (a2 & ev & b2 & ra & ta & rb & os & E2 & Y1 & Y2 & Y3). exists a2, ev, (b2 ++ b), ra, ta, rb, os.
            split; [|auto]. rewrite EH. change ((t', EMsg e m) :: b) with ([(t', EMsg e m)] ++ b). rewrite app_assoc, E2, <- app_assoc. reflexivity. }
          assert (SI : forall s', happens prot (c i) (k i) (h i) s' (OStart s') -> s' = s i).
          { intros s' Y. exact (start_once prot (c i) _ _ _ _ _ _ R4 Y R6). }
          pose proof (C90_in_time ky keccak pshash prot (c j) (k j) (h j) (c i) (k i) (h i) d lat (s j) m t t'' ltac:(right; reflexivity) HD Q3 Q4 Q5 R3 R4 Q6) as CT.
          assert (t + lat < t''); [|lia]. apply CT; [|exact HT|exact HX2]. intros s' Y. rewrite (SI s' Y). apply HW; assumption.
        + right. apply (kept_handled prot (c i) (untimed b) _ r1 t1 r t2 op_dss_partsig m HI1 RC X2).
          pose proof (run_inv prot (c i) _ _ _ _ R7) as HI. rewrite (iv_entered _ _ _ _ _ HI) in R8. apply in_upto in R8. unfold op_dss_partsig, op_dkg_final. lia.
      - exists sg. split; [exact R7|exact X]. }
    destruct M as [|i0 M0] eqn:EM; [contradiction|]. rewrite <- EM in *. assert (H0 : In i0 M) by (rewrite EM; left; reflexivity).
    destruct (ONE i0 H0) as (r0 & tr0 & sg & E0 & O0 & V0). exists sg. split; [exact V0|]. intros i r tr Hi EX.
    destruct (ONE i Hi) as (ri & tri & sgi & Ei & Oi & _). rewrite EX in Ei. injection Ei as <- <-.
    destruct (HM i0 H0) as (R1 & R2 & _). destruct (HM i Hi) as (Q1 & Q2 & _).
    destruct (C91_same_signature S P i0 _ _ _ _ _ sg i _ _ _ _ _ sgi HS R1 R2 E0 Q1 Q2 EX O0 Oi) as [<- _]. exact Oi.
  Qed.
End Props.
Print Assumptions C91_partial_sent. Print Assumptions C91_enough_partials. Print Assumptions C91_same_signature. Print Assumptions C92_members_sign.

(** Members 0 and 1 of a session with threshold 2, both started at 0 and on time, with an instance of the generator that
    has the nonce shares at once.  Each gets the other's partial signature 5 ms after it was sent. *)
Section Duo.
  Variable did : bytes.
  Variable keccak : bytes -> bytes.
  Variable pshash : Z -> Z -> bytes.
  Variables nonce long : Z -> dks.
  Variable parts : list point.
  Definition duo_ky : kyber Z := mkKyber Z (fun g => (g, Some [])) (fun g d => (g, Some None)) (fun g r => (g, None))
    (fun g j => g) (fun g => g) (fun g => true) (fun g => [0; 1]) (fun g => (g, Some (mkCommits 0 [] [] [])))
    (fun g c => (g, Some None)) (fun g c => (g, Some None)) (fun g r => g) (fun g => true) (fun g => Some (nonce g)).
  Definition duo_c (i : Z) : info := mkInfo pc_dss did i 2 2.
  Definition duo_k (i : Z) : kd Z := mkKd i None (Some (mkArgs (3 + 3 * i) parts 2)) None.
  Definition duo_env (i : Z) : env := mkEnv (Some 10) (Some (long i)) 9 (fun _ l => l).
  Definition duo_wake (i t : Z) : Z * event payload env := (t * ms, ETick (duo_env i) (t * ms)).
  Definition duo_wakes0 : list Z := [0; 0; 25; 30; 100; 105; 175; 180; 250; 255; 275; 280; 350; 355; 425; 430; 500; 505; 525].
  Definition duo_msg (i : Z) (w : wire) : message payload := make_msg (duo_c i) (1 - i) op_dss_partsig (PWire w).
  Definition duo_hist (i : Z) (w : wire) : list (Z * event payload env) :=
    map (duo_wake i) duo_wakes0 ++ duo_wake i 530 :: map (duo_wake i) [550; 555] ++
    [(560 * ms, EMsg (duo_env i) (duo_msg (1 - i) w)); duo_wake i 625; duo_wake i 630; duo_wake i 650].
  Definition duo_p := dss_prot duo_ky keccak pshash.

  Lemma pause_tick i e now (r : rst payload (kd Z)) s f k acts r3 ta : r_loc r = LPause -> r_abandon r = false -> r_snd r = [] -> r_rcv r = [] ->
    stage_at duo_p (r_state r + 1) = Some s -> sg_step s = Some f -> f (duo_c i) e (r_k r) = Ok (k, acts) ->
    do_actions (duo_c i) (set_k (set_snd (set_stage r (r_state r + 1) false) (mdel [] (r_state r + 1))) k) acts = Ok (r3, ta) -> r_rcv r3 = [] ->
    step duo_p (duo_c i) r (ETick e now) = Ok (set_clock (set_rcv r3 []) LStage (r_t r + stage_timeout s) (r_t r + stage_timeout s),
      OEnter (r_state r + 1) now :: (OStep (r_state r + 1) :: ta) ++ []).
  Proof.
    intros L A S R ES EF EK EA ER. cbn [step]. unfold tick. rewrite L. unfold enter_stage. rewrite ES. unfold flush_snd_buf. cbn [set_stage r_snd r_state].
    rewrite S. assert (MS : forall k, mslice (@nil (Z * list (message payload))) k = []) by reflexivity. rewrite MS. cbn [try_send_all rbind fst snd app]. unfold run_step. cbn [set_snd set_stage r_abandon r_state r_k]. rewrite A, EF, EK. unfold perform. cbn [rbind fst snd].
    unfold set_snd, set_stage in *. cbn [r_k r_state r_paused r_rcv r_snd r_abandon r_term r_loc r_t r_wake] in *.
    rewrite EA. cbn [rbind fst snd]. rewrite ER, MS. cbn [process_all rbind fst snd]. rewrite ER. reflexivity.
  Qed.
  Definition walk i r evs r' tr := exec duo_p (duo_c i) r evs = Ok (r', tr) /\ timely duo_p (duo_c i) r evs /\ punctual duo_p (duo_c i) 0 r evs.
  Lemma walk_nil i r : walk i r [] r []. Proof. split; [reflexivity|]. split; exact I. Qed.
  Lemma walk_cons i r ev r1 t1 evs r2 t2 : step duo_p (duo_c i) r ev = Ok (r1, t1) ->
    match ev with ETick _ now => (r_wake r =? now) = true | _ => True end ->
    walk i r1 evs r2 t2 -> walk i r (ev :: evs) r2 (t1 ++ t2).
  Proof.
    intros ES C (W1 & W2 & W3). split; [cbn [exec]; rewrite ES; cbn [rbind fst snd]; rewrite W1; reflexivity|].
    split; (cbn [timely punctual]; rewrite ES; cbn [fst]; split; [|assumption]); destruct ev as [e now|e m]; try exact I; apply Z.eqb_eq in C; [lia|destruct (r_loc r); try exact I; lia].
  Qed.
  Ltac plain := eapply walk_cons; [lazy; reflexivity|lazy; reflexivity|].
  Ltac enters H := eapply walk_cons; [eapply pause_tick;
    [lazy; reflexivity|lazy; reflexivity|lazy; reflexivity|lazy; reflexivity|reflexivity|reflexivity|apply H; reflexivity|lazy; reflexivity|lazy; reflexivity]|lazy; reflexivity|].
  Lemma duo_walk i d0 d1 d2 pa pa' w w' v' sg : i = 0 \/ i = 1 ->
    new_dss keccak (3 + 3 * i) parts (share_of (long i)) (share_of (nonce i)) [0; 1] 10 2 = Ok d0 ->
    partial_sig keccak pshash 9 d0 = Ok (d1, pa, true) -> partsig_to_dto pa = Ok w ->
    dto_to_partsig w' = Ok pa' -> ps_partial pa' = Some (1 - i, v') ->
    process keccak pshash d1 pa' = (d2, Ok tt) -> enough d2 = true -> signature keccak (fun _ l => l) d2 = Ok sg ->
    exists r tr, walk i (new_run (duo_k i)) (untimed (duo_hist i (WPart w'))) r tr /\ In 11 (entered tr) /\
      for_op op_dss_partsig (sent tr) = [duo_msg i (WPart w)] /\ In (duo_msg (1 - i) (WPart w')) (handled tr) /\
      r_term r = true /\ exists s, outputs_of tr = [(pc_dkg, s); (pc_dss, VSig sg)].
  Proof.
    intros Hi H1 H2 H3 H4 H5 H6 H7 H8. destruct pa' as [q1 q2 q3]. cbn [ps_partial] in H5. subst q1.
    assert (F9 : forall K, kd_gen K = i -> kd_args K = Some (mkArgs (3 + 3 * i) parts 2) -> st_init duo_ky keccak (duo_c i) (duo_env i) K = Ok (set_dss K (Some (d0, true)), [])).
    { intros K E1 E2. unfold st_init. cbn [duo_ky ky_share]. rewrite E1, E2. cbn [duo_env e_long e_doc ka_secret ka_parts ka_T ky_qual duo_ky]. rewrite H1. reflexivity. }
    assert (F10 : forall K : kd Z, kd_dss K = Some (d0, true) -> kd_qual K = Some [0; 1] ->
      st_partsig keccak pshash (duo_c i) (duo_env i) K = Ok (set_dss K (Some (d1, true)), multicast [0; 1] (duo_c i) op_dss_partsig (PWire (WPart w)))).
    { intros K E1 E2. unfold st_partsig. rewrite E1. cbn [duo_env e_nonce]. rewrite H2. unfold broadcast_qual. cbn [to_wire set_dss kd_qual]. rewrite H3. cbn [rbind]. rewrite E2. reflexivity. }
    assert (F11 : forall K : kd Z, kd_dss K = Some (d2, true) -> dss_st_final keccak (duo_c i) (duo_env i) K = Ok (K, [AOutput pc_dss (VSig sg)])).
    { intros K E1. unfold dss_st_final. rewrite E1, H7. cbn [negb duo_env e_ord]. rewrite H8. reflexivity. }
    assert (FM : forall r : rst payload (kd Z), r_state r = 10 -> r_paused r = false -> r_abandon r = false -> kd_dss (r_k r) = Some (d1, true) ->
      step duo_p (duo_c i) r (EMsg (duo_env i) (duo_msg (1 - i) (WPart w'))) =
      Ok (set_k r (set_dss (r_k r) (Some (d2, true))), [OHandle (duo_msg (1 - i) (WPart w')); OProc (duo_msg (1 - i) (WPart w')) (AObj (OPart (mkPsig (Some (1 - i, v')) q2 q3)))])).
    { intros r E1 E2 E3 E4. cbn [step]. unfold deliver. cbn [duo_msg make_msg m_op]. rewrite E1, E2. change (op_dss_partsig <? 10) with false. change (10 <? op_dss_partsig) with false.
      rewrite andb_false_r. cbn [orb]. unfold process_msg. rewrite E3. change (m_op (duo_msg (1 - i) (WPart w'))) with op_dss_partsig.
      change (stage_at duo_p op_dss_partsig) with (Some (ps (Some (st_partsig keccak pshash)) (pr_partsig (G := Z) keccak pshash) (unm KPart) partsig_v (is_kind KPart))).
      cbn [ps sg_proc sg_type sg_unm sg_valid m_dto m_sender duo_msg make_msg is_kind negb unm from_wire rbind]. rewrite H4. cbn [rbind duo_c i_members i_guest].
      assert (ER : (0 <=? 1 - i) && (1 - i <? 2) = true) by (destruct Hi as [->| ->]; reflexivity). rewrite ER. cbn [partsig_v ps_partial rbind]. rewrite Z.eqb_refl.
      cbn [rbind]. unfold pr_partsig. rewrite E4, H6. reflexivity. }
    destruct Hi as [E|E]; subst i; (eexists _, _; split; [unfold untimed, duo_hist, duo_wakes0; cbn [map app duo_wake snd];
      do 19 plain; enters F9; plain; enters F10;
      (eapply walk_cons; [apply FM; reflexivity|exact I|]); plain; enters F11; plain; apply walk_nil|]; split; [lazy; tauto|]; split; [lazy; reflexivity|]; split; [lazy; tauto|]; split; [lazy; reflexivity|]; eexists; lazy; reflexivity).
  Qed.

  (** Up to 555 ms a member sends two messages to the other, the second of which is its partial signature. *)
  Lemma duo_first i d0 d1 pa w : i = 0 \/ i = 1 ->
    new_dss keccak (3 + 3 * i) parts (share_of (long i)) (share_of (nonce i)) [0; 1] 10 2 = Ok d0 ->
    partial_sig keccak pshash 9 d0 = Ok (d1, pa, true) -> partsig_to_dto pa = Ok w ->
    exists r tr m, exec duo_p (duo_c i) (new_run (duo_k i)) (untimed (map (duo_wake i) (duo_wakes0 ++ [530; 550; 555]))) = Ok (r, tr) /\
      sent tr = [m; duo_msg i (WPart w)] /\ m_rcpt m = 1 - i /\ m_op m <> op_dss_partsig.
  Proof.
    intros Hi H1 H2 H3.
    assert (F9 : forall K, kd_gen K = i -> kd_args K = Some (mkArgs (3 + 3 * i) parts 2) -> st_init duo_ky keccak (duo_c i) (duo_env i) K = Ok (set_dss K (Some (d0, true)), [])).
    { intros K E1 E2. unfold st_init. cbn [duo_ky ky_share]. rewrite E1, E2. cbn [duo_env e_long e_doc ka_secret ka_parts ka_T ky_qual duo_ky]. rewrite H1. reflexivity. }
    assert (F10 : forall K : kd Z, kd_dss K = Some (d0, true) -> kd_qual K = Some [0; 1] ->
      st_partsig keccak pshash (duo_c i) (duo_env i) K = Ok (set_dss K (Some (d1, true)), multicast [0; 1] (duo_c i) op_dss_partsig (PWire (WPart w)))).
    { intros K E1 E2. unfold st_partsig. rewrite E1. cbn [duo_env e_nonce]. rewrite H2. unfold broadcast_qual. cbn [to_wire set_dss kd_qual]. rewrite H3. cbn [rbind]. rewrite E2. reflexivity. }
    assert (W : exists r tr m, walk i (new_run (duo_k i)) (untimed (map (duo_wake i) (duo_wakes0 ++ [530; 550; 555]))) r tr /\ sent tr = [m; duo_msg i (WPart w)] /\ m_rcpt m = 1 - i /\ m_op m <> op_dss_partsig).
    { destruct Hi as [E|E]; subst i; (eexists _, _, _; split; [unfold untimed, duo_wakes0; cbn [map app duo_wake snd];
        do 19 plain; enters F9; plain; enters F10; apply walk_nil|]; split; [lazy; reflexivity|]; split; [reflexivity|discriminate]). }
    destruct W as (r & tr & m & (W & _) & W2). exists r, tr, m. split; [exact W|exact W2].
  Qed.
  Lemma duo_before i : i = 0 \/ i = 1 -> exists r tr, exec duo_p (duo_c i) (new_run (duo_k i)) (untimed (map (duo_wake i) duo_wakes0)) = Ok (r, tr) /\
    stage_now tr = (op_dkg_final, true) /\ abandoned_in tr = false /\ for_op op_dss_partsig (sent tr) = [] /\
    kd_gen (r_k r) = i /\ kd_qual (r_k r) = Some [0; 1] /\ kd_args (r_k r) = Some (mkArgs (3 + 3 * i) parts 2).
  Proof.
    intros [E|E]; subst i; (eexists _, _; split; [lazy; reflexivity|]); repeat (split; [lazy; reflexivity|]); lazy; reflexivity.
  Qed.
  Lemma duo_start i w' : i = 0 \/ i = 1 -> happens duo_p (duo_c i) (duo_k i) (duo_hist i w') 0 (OStart 0).
  Proof. intros _. exists [], (ETick (duo_env i) 0). eexists _, _, _, _, _. split; [reflexivity|]. split; [reflexivity|]. split; [reflexivity|]. left. reflexivity. Qed.
  Lemma duo_clocked i w' : clocked (duo_hist i w').
  Proof.
    split; [unfold duo_hist, duo_wakes0; cbn [map app]; repeat (apply SSorted_nil || apply SSorted_cons || apply Forall_nil || apply Forall_cons); apply Z.leb_le; reflexivity|].
    intros t e now H. unfold duo_hist in H. apply in_app_or in H. destruct H as [H|[H|H]].
    - apply in_map_iff in H. destruct H as (x & H & _). unfold duo_wake in H. congruence.
    - unfold duo_wake in H. congruence.
    - apply in_app_or in H. destruct H as [H|H].
      + apply in_map_iff in H. destruct H as (x & H & _). unfold duo_wake in H. congruence.
      + destruct H as [H|[H|[H|[H|[]]]]]; unfold duo_wake in H; congruence.
  Qed.
  Lemma duo_fair i w' : fair_maps (untimed (duo_hist i w')).
  Proof.
    intros e now H. assert (E : e = duo_env i); [|subst e; intros; apply Permutation_refl].
    unfold untimed, duo_hist in H. apply in_map_iff in H. destruct H as ([t ev] & E & H). cbn in E. subst ev.
    apply in_app_or in H. destruct H as [H|[H|H]].
    - apply in_map_iff in H. destruct H as (x & H & _). unfold duo_wake in H. congruence.
    - unfold duo_wake in H. congruence.
    - apply in_app_or in H. destruct H as [H|H].
      + apply in_map_iff in H. destruct H as (x & H & _). unfold duo_wake in H. congruence.
      + destruct H as [H|[H|[H|[H|[]]]]]; unfold duo_wake in H; congruence.
  Qed.
  (** What is sent is not sent before 530 ms. *)
  Lemma duo_late i w' t m : i = 0 \/ i = 1 -> happens duo_p (duo_c i) (duo_k i) (duo_hist i w') t (OSent m) -> m_op m = op_dss_partsig -> 530 * ms <= t.
  Proof.
    intros Hi (a & ev & b & ra & ta & rb & os & EH & EA & ES & IN) EO.
    destruct (duo_before i Hi) as (r & tr & EX & _ & _ & NS & _). unfold duo_hist in EH.
    assert (X : (exists l, map (duo_wake i) duo_wakes0 = a ++ (t, ev) :: l) \/ In (t, ev) (duo_wake i 530 :: map (duo_wake i) [550; 555] ++
        [(560 * ms, EMsg (duo_env i) (duo_msg (1 - i) w')); duo_wake i 625; duo_wake i 630; duo_wake i 650])).
    { apply app_eq_app in EH. destruct EH as (l & [(E1 & E2)|(E1 & E2)]).
      - destruct l as [|x l]; [right; cbn [app] in E2; rewrite <- E2; left; reflexivity|]. cbn [app] in E2. injection E2 as <- _. left. exists l. exact E1.
      - right. rewrite E2. apply in_or_app. right. left. reflexivity. }
    destruct X as [(l & E1)|X].
    - exfalso. rewrite E1 in EX. unfold untimed in EX. rewrite map_app in EX. apply exec_split in EX. destruct EX as (r1 & t1 & t2 & X1 & X2 & ->).
      unfold untimed in EA. rewrite EA in X1. injection X1 as <- <-. cbn [map snd exec] in X2. rewrite ES in X2. cbn [rbind fst snd] in X2.
      destruct (exec duo_p (duo_c i) rb (map snd l)) as [[r3 t3]| |]; try discriminate X2. cbn [rbind fst snd] in X2. injection X2 as <- <-.
      assert (Y : In m (for_op op_dss_partsig (sent (ta ++ os ++ t3)))).
      { apply filter_In. split; [|apply Z.eqb_eq, EO]. unfold sent. apply in_flat_map. exists (OSent m). split; [|left; reflexivity]. apply in_or_app. right. apply in_or_app. left. exact IN. }
      rewrite NS in Y. destruct Y.
    - assert (Y : forall x, In x (duo_wake i 530 :: map (duo_wake i) [550; 555] ++
        [(560 * ms, EMsg (duo_env i) (duo_msg (1 - i) w')); duo_wake i 625; duo_wake i 630; duo_wake i 650]) -> 530 * ms <= fst x); [|exact (Y _ X)].
      intros x Hx. cbn [map app In] in Hx. repeat (destruct Hx as [<-|Hx]; [cbn [duo_wake fst]; unfold ms; lia|]). destruct Hx.
  Qed.
End Duo.

Definition demo_dks (c : list Z) (i : Z) : dks := mkDks (map (fun a => of_E (smul a eG)) c) (mkPri i (poly c (i + 1))).
Definition demo_session : session :=
  mkSession [5; 6] (map (fun a => of_E (smul a eG)) [5; 6]) [7; 8] (map (fun a => of_E (smul a eG)) [7; 8]) [0; 1] demo_parts 2 10.
Lemma demo_sound : sound demo_session (of_E (smul 5 eG)).
Proof.
  split; [apply demo_commits|]. split; [apply demo_commits|]. split; [exists [of_E (smul 6 eG)]; reflexivity|].
  split; [apply curve_point_on, demo_curve, small_ndiv; split; reflexivity|]. split; [discriminate|]. split; [apply Z.le_refl|]. split; [apply Z.le_refl|].
  split; [exact demo_parts_curve|]. split.
  - constructor; [|constructor; [intros []|constructor]]. intros [E|[]].
    pose proof (demo_eqb 6 3 ltac:(split; [discriminate|reflexivity]) ltac:(split; [discriminate|reflexivity]) ltac:(discriminate)) as X. rewrite E in X. rewrite demo_refl in X. discriminate X.
  - split; [reflexivity|]. split; [|split; [discriminate|reflexivity]]. cbn [demo_session se_qual se_parts demo_parts map length In]. lia.
Qed.
Section DemoRun.
  Variable did : bytes.
  Variable keccak : bytes -> bytes.
  Variable pshash : Z -> Z -> bytes.
  Hypothesis LK : forall b, length (keccak b) = 32%nat.
  Notation nonce := (demo_dks [7; 8]). Notation long := (demo_dks [5; 6]).
  Notation dd i := (demo_dss keccak i [5; 6] [7; 8] [0; 1] 10 2).
  Notation hist := (duo_hist did long).
  Lemma demo_part i : i = 0 \/ i = 1 -> exists v pa w, partial_sig keccak pshash 9 (dd i) = Ok (add_partial (dd i) i v true, pa, true) /\ ps_partial pa = Some (i, Some v) /\
    partsig_to_dto pa = Ok w /\ dto_to_partsig w = Ok pa.
  Proof.
    intros Hi. destruct (demo_partial keccak pshash i 5 [6] 7 [8] [0; 1] 10 2 9) as (v & pa & EP & EV); [split; reflexivity|exact Hi|].
    pose proof EP as EP'. apply partial_sig_ok in EP'. destruct EP' as (h & _ & _ & EPS & _). cbv zeta in EPS.
    assert (GO : good (OPart pa)). { rewrite EPS. exists (d_index (dd i)), (own_value (dd i) h). split; [reflexivity|]. unfold own_value. apply modN_range. }
    destruct (wire_rt _ GO) as (w' & W1 & W2). cbn [to_wire] in W1. destruct (partsig_to_dto pa) as [w| |] eqn:EW; cbn [rbind] in W1; try discriminate W1.
    injection W1 as <-. cbn [obj_kind from_wire] in W2. destruct (dto_to_partsig w) as [pa'| |] eqn:EW2; cbn [rbind] in W2; try discriminate W2. injection W2 as ->.
    exists v, pa, w. auto.
  Qed.
  Lemma demo_run i v pa w v' pa' w' : i = 0 \/ i = 1 ->
    partial_sig keccak pshash 9 (dd i) = Ok (add_partial (dd i) i v true, pa, true) -> partsig_to_dto pa = Ok w ->
    partial_sig keccak pshash 9 (dd (1 - i)) = Ok (add_partial (dd (1 - i)) (1 - i) v' true, pa', true) -> ps_partial pa' = Some (1 - i, Some v') -> dto_to_partsig w' = Ok pa' ->
    exists r tr, walk did keccak pshash nonce i (new_run (duo_k demo_parts i)) (untimed (hist i (WPart w'))) r tr /\ In 11 (entered tr) /\
      for_op op_dss_partsig (sent tr) = [duo_msg did i (WPart w)] /\ In (duo_msg did (1 - i) (WPart w')) (handled tr) /\
      r_term r = true /\ exists s sg, outputs_of tr = [(pc_dkg, s); (pc_dss, VSig sg)].
  Proof.
    intros Hi EP EW EP' EV' EW'. assert (Hj : 1 - i = 0 \/ 1 - i = 1) by lia.
    set (d1 := add_partial (dd i) i v true) in *.
    assert (ER : d1 = Dss.run keccak pshash (dd i) [CallPartial 9]) by (unfold Dss.run; cbn [fold_left Dss.step]; rewrite EP; reflexivity).
    destruct (demo_accept keccak pshash i (1 - i) 5 [6] 7 [8] [0; 1] 10 2 9 _ pa' d1 LK ltac:(split; reflexivity) Hi Hj ltac:(cbn [In]; lia) EP' [CallPartial 9] ER) as (v2 & EA).
    { change (d_partialsIdx d1) with [i]. cbn [In]. lia. }
    set (d2 := add_partial d1 (1 - i) v2 (d_signed d1)) in *.
    assert (ER2 : d2 = Dss.run keccak pshash (dd i) [CallPartial 9; CallProcess pa']).
    { change [CallPartial 9; CallProcess pa'] with ([CallPartial 9] ++ [CallProcess pa']). unfold Dss.run. rewrite fold_left_app.
      change (fold_left (Dss.step keccak pshash) [CallPartial 9] (dd i)) with (Dss.run keccak pshash (dd i) [CallPartial 9]). rewrite <- ER.
      cbn [fold_left Dss.step]. rewrite EA. reflexivity. }
    assert (EM : map fst (d_partials d2) = [i; 1 - i]) by reflexivity.
    destruct (sig_total keccak (fun _ l => l) d2) as [_ SG].
    { intros. apply Permutation_refl. }
    { rewrite ER2. apply inv_run. pose proof (demo_new keccak i [5; 6] [7; 8] [0; 1] 10 2 Hi) as EN. apply (new_dss_ok keccak pshash) in EN. apply EN. }
    { reflexivity. }
    { discriminate. }
    destruct SG as (ad & s & SG & _).
    { unfold ndk. rewrite EM. change (d_T d2) with 2. destruct Hi as [->| ->]; reflexivity || apply Z.le_refl. }
    assert (EN : new_dss keccak (3 + 3 * i) demo_parts (share_of (long i)) (share_of (nonce i)) [0; 1] 10 2 = Ok (dd i)).
    { change (share_of (long i)) with (demo_share [5; 6] i). change (share_of (nonce i)) with (demo_share [7; 8] i). exact (demo_new keccak i [5; 6] [7; 8] [0; 1] 10 2 Hi). }
    assert (EE : enough d2 = true) by (unfold signature in SG; destruct (enough d2); [reflexivity|discriminate SG]).
    destruct (duo_walk did keccak pshash nonce long demo_parts i (dd i) d1 d2 pa pa' w w' (Some v') (Sig ad (Some s)) Hi EN EP EW EW' EV' EA EE SG) as (r & tr & W1 & W2 & W3 & W4 & W5 & s0 & W6).
    exists r, tr. split; [exact W1|]. split; [exact W2|]. split; [exact W3|]. split; [exact W4|]. split; [exact W5|]. eauto.
  Qed.
  Lemma demo_ready i w' : i = 0 \/ i = 1 -> ready (duo_ky nonce) keccak pshash demo_session i (duo_c did i) (duo_k demo_parts i) (untimed (hist i w')).
  Proof.
    intros Hi. destruct (duo_before did keccak pshash nonce long demo_parts i Hi) as (r & tr & EX & ST & AB & _ & K1 & K2 & K3).
    split; [reflexivity|]. split; [reflexivity|]. split; [cbn [demo_session se_qual In]; lia|].
    exists (untimed (map (duo_wake long i) duo_wakes0)), (duo_env long i), (530 * ms). eexists. exists r, tr, (nonce i), (long i), (3 + 3 * i), [0; 1].
    split; [unfold duo_hist, untimed; rewrite map_app; reflexivity|]. split; [exact EX|]. split; [exact ST|]. split; [exact AB|].
    split; [cbn [duo_ky ky_share]; rewrite K1; reflexivity|]. split; [split; reflexivity|]. split; [intros j; reflexivity|]. split; [exact K2|]. split; [intros j; reflexivity|].
    split; [exact K3|]. split; [|split; [reflexivity|]; split; [reflexivity|]; split; reflexivity].
    exists (of_E (smul (3 + 3 * i) eG)). split; [|apply pt_mul_base; tauto]. destruct Hi as [->| ->]; reflexivity.
  Qed.
End DemoRun.
Example C91_ex : forall keccak pshash, (forall b, length (keccak b) = 32%nat) ->
  exists ky c0 k0 evs0 r0 tr0 c1 k1 evs1 r1 tr1 m,
    sound demo_session (of_E (smul 5 eG)) /\ se_T demo_session = 2 /\
    @ready Z ky keccak pshash demo_session 0 c0 k0 evs0 /\ fair_maps evs0 /\ exec (dss_prot ky keccak pshash) c0 (new_run k0) evs0 = Ok (r0, tr0) /\ In 11 (entered tr0) /\
    @ready Z ky keccak pshash demo_session 1 c1 k1 evs1 /\ fair_maps evs1 /\ exec (dss_prot ky keccak pshash) c1 (new_run k1) evs1 = Ok (r1, tr1) /\ In 11 (entered tr1) /\
    In m (sent tr1) /\ m_op m = op_dss_partsig /\ partial_from ky keccak pshash demo_session 1 m /\ In m (handled tr0).
Proof.
  intros keccak pshash LK. destruct (demo_part keccak pshash 0 ltac:(lia)) as (v0 & pa0 & w0 & A1 & A2 & A3 & A4). destruct (demo_part keccak pshash 1 ltac:(lia)) as (v1 & pa1 & w1 & B1 & B2 & B3 & B4).
  destruct (demo_run [] keccak pshash LK 0 v0 pa0 w0 v1 pa1 w1 ltac:(lia) A1 A3 B1 B2 B4) as (r0 & tr0 & (W0 & _) & E0 & S0 & H0 & F0 & x0 & sg0 & O0).
  destruct (demo_run [] keccak pshash LK 1 v1 pa1 w1 v0 pa0 w0 ltac:(lia) B1 B3 A1 A2 A4) as (r1 & tr1 & (W1 & _) & E1 & S1 & H1 & F1 & x1 & sg1 & O1).
  exists (duo_ky (demo_dks [7; 8])), (duo_c [] 0), (duo_k demo_parts 0), (untimed (duo_hist [] (demo_dks [5; 6]) 0 (WPart w1))), r0, tr0.
  exists (duo_c [] 1), (duo_k demo_parts 1), (untimed (duo_hist [] (demo_dks [5; 6]) 1 (WPart w0))), r1, tr1, (duo_msg [] 1 (WPart w1)).
  assert (IS : In (duo_msg [] 1 (WPart w1)) (sent tr1)) by (apply (in_for_op op_dss_partsig); rewrite S1; left; reflexivity).
  split; [exact demo_sound|]. split; [reflexivity|]. split; [apply (demo_ready []); lia|]. split; [apply duo_fair|]. split; [exact W0|]. split; [exact E0|].
  split; [apply (demo_ready []); lia|]. split; [apply duo_fair|]. split; [exact W1|]. split; [exact E1|]. split; [exact IS|]. split; [reflexivity|]. split; [|exact H0].
  exists (duo_c [] 1), (duo_k demo_parts 1), (untimed (duo_hist [] (demo_dks [5; 6]) 1 (WPart w0))), r1, tr1.
  split; [apply (demo_ready []); lia|]. split; [exact W1|]. split; [exact IS|reflexivity].
Qed.
Lemma demo_c92 did keccak pshash : (forall b, length (keccak b) = 32%nat) -> exists w0 w1,
  let p := dss_prot (duo_ky (demo_dks [7; 8])) keccak pshash in let M := [0; 1] in let c := duo_c did in let k := duo_k demo_parts in
  let h i := duo_hist did (demo_dks [5; 6]) i (WPart (if i =? 0 then w1 else w0)) in
  (forall i, In i M -> ready (duo_ky (demo_dks [7; 8])) keccak pshash demo_session i (c i) (k i) (untimed (h i)) /\ fair_maps (untimed (h i)) /\
     clocked (h i) /\ timely p (c i) (new_run (k i)) (untimed (h i)) /\ punctual p (c i) 0 (new_run (k i)) (untimed (h i)) /\
     happens p (c i) (k i) (h i) 0 (OStart 0) /\
     exists r tr, exec p (c i) (new_run (k i)) (untimed (h i)) = Ok (r, tr) /\ In 11 (entered tr) /\ r_term r = true /\ exists s sg, outputs_of tr = [(pc_dkg, s); (pc_dss, VSig sg)]) /\
  (forall i j m t, In i M -> In j M -> happens p (c j) (k j) (h j) t (OSent m) -> m_op m = op_dss_partsig -> m_rcpt m = i ->
     exists t', t' <= t + 30 * ms /\ arrives (h i) t' m) /\
  forall i, In i M -> let m := duo_msg did i (WPart (if i =? 0 then w0 else w1)) in
    (exists r tr m1, exec p (c i) (new_run (k i)) (untimed (map (duo_wake (demo_dks [5; 6]) i) (duo_wakes0 ++ [530; 550; 555]))) = Ok (r, tr) /\ sent tr = [m1; m] /\ m_rcpt m1 = 1 - i /\ m_op m1 <> op_dss_partsig) /\
    exists r tr, exec p (c i) (new_run (k i)) (untimed (h i)) = Ok (r, tr) /\ for_op op_dss_partsig (sent tr) = [m].
Proof.
  intros LK. destruct (demo_part keccak pshash 0 ltac:(lia)) as (v0 & pa0 & w0 & A1 & A2 & A3 & A4). destruct (demo_part keccak pshash 1 ltac:(lia)) as (v1 & pa1 & w1 & B1 & B2 & B3 & B4).
  destruct (demo_run did keccak pshash LK 0 v0 pa0 w0 v1 pa1 w1 ltac:(lia) A1 A3 B1 B2 B4) as (r0 & tr0 & (W0 & W0' & W0'') & E0 & S0 & H0 & F0 & x0 & sg0 & O0).
  destruct (demo_run did keccak pshash LK 1 v1 pa1 w1 v0 pa0 w0 ltac:(lia) B1 B3 A1 A2 A4) as (r1 & tr1 & (W1 & W1' & W1'') & E1 & S1 & H1 & F1 & x1 & sg1 & O1).
  assert (F0' : exists r tr m1, exec (dss_prot (duo_ky (demo_dks [7; 8])) keccak pshash) (duo_c did 0) (new_run (duo_k demo_parts 0)) (untimed (map (duo_wake (demo_dks [5; 6]) 0) (duo_wakes0 ++ [530; 550; 555]))) = Ok (r, tr) /\
    sent tr = [m1; duo_msg did 0 (WPart w0)] /\ m_rcpt m1 = 1 - 0 /\ m_op m1 <> op_dss_partsig).
  { pose proof (demo_new keccak 0 [5; 6] [7; 8] [0; 1] 10 2 (or_introl eq_refl)) as EN. change (demo_share [5; 6] 0) with (share_of (demo_dks [5; 6] 0)) in EN. change (demo_share [7; 8] 0) with (share_of (demo_dks [7; 8] 0)) in EN.
    exact (duo_first did keccak pshash (demo_dks [7; 8]) (demo_dks [5; 6]) demo_parts 0 _ _ pa0 w0 (or_introl eq_refl) EN A1 A3). }
  assert (F1' : exists r tr m1, exec (dss_prot (duo_ky (demo_dks [7; 8])) keccak pshash) (duo_c did 1) (new_run (duo_k demo_parts 1)) (untimed (map (duo_wake (demo_dks [5; 6]) 1) (duo_wakes0 ++ [530; 550; 555]))) = Ok (r, tr) /\
    sent tr = [m1; duo_msg did 1 (WPart w1)] /\ m_rcpt m1 = 1 - 1 /\ m_op m1 <> op_dss_partsig).
  { pose proof (demo_new keccak 1 [5; 6] [7; 8] [0; 1] 10 2 (or_intror eq_refl)) as EN. change (demo_share [5; 6] 1) with (share_of (demo_dks [5; 6] 1)) in EN. change (demo_share [7; 8] 1) with (share_of (demo_dks [7; 8] 1)) in EN.
    exact (duo_first did keccak pshash (demo_dks [7; 8]) (demo_dks [5; 6]) demo_parts 1 _ _ pa1 w1 (or_intror eq_refl) EN B1 B3). }
  set (h := fun i => duo_hist did (demo_dks [5; 6]) i (WPart (if i =? 0 then w1 else w0))).
  exists w0, w1. cbv zeta. fold h.
  split; [|split].
  3: { intros i [E|[E|[]]]; subst i.
    - change (if 0 =? 0 then w0 else w1) with w0. split; [|exists r0, tr0; split; [exact W0|exact S0]]. exact F0'.
    - change (if 1 =? 0 then w0 else w1) with w1. split; [|exists r1, tr1; split; [exact W1|exact S1]]. exact F1'. }
  - intros i Hi. assert (Hi' : i = 0 \/ i = 1) by (cbn in Hi; lia). split; [apply (demo_ready did), Hi'|]. split; [apply duo_fair|]. split; [apply duo_clocked|].
    destruct Hi' as [E|E]; subst i.
    + change (h 0) with (duo_hist did (demo_dks [5; 6]) 0 (WPart w1)). split; [exact W0'|]. split; [exact W0''|]. split; [apply duo_start; lia|]. exists r0, tr0. split; [exact W0|]. split; [exact E0|]. split; [exact F0|]. eauto.
    + change (h 1) with (duo_hist did (demo_dks [5; 6]) 1 (WPart w0)). split; [exact W1'|]. split; [exact W1''|]. split; [apply duo_start; lia|]. exists r1, tr1. split; [exact W1|]. split; [exact E1|]. split; [exact F1|]. eauto.
  - intros i j m t Hi Hj HS EO ER. assert (Hj' : j = 0 \/ j = 1) by (cbn in Hj; lia).
    pose proof (duo_late did keccak pshash (demo_dks [7; 8]) (demo_dks [5; 6]) demo_parts j _ t m Hj' HS EO) as LT. exists (560 * ms). split; [lia|].
    destruct HS as (a & ev & b & ra & ta & rb & os & EH & EA & ES & IN).
    assert (IM : exists r tr, exec (dss_prot (duo_ky (demo_dks [7; 8])) keccak pshash) (duo_c did j) (new_run (duo_k demo_parts j)) (untimed (h j)) = Ok (r, tr) /\ In (OSent m) tr /\
      for_op op_dss_partsig (sent tr) = [duo_msg did j (WPart (if j =? 0 then w0 else w1))]).
    { assert (Y : forall r tr, exec (dss_prot (duo_ky (demo_dks [7; 8])) keccak pshash) (duo_c did j) (new_run (duo_k demo_parts j)) (untimed (h j)) = Ok (r, tr) -> In (OSent m) tr).
      { intros r tr EX. rewrite EH in EX. unfold untimed in EX. rewrite map_app in EX. apply exec_split in EX. destruct EX as (r2 & t1 & t2 & X1 & X2 & ->).
        unfold untimed in EA. rewrite EA in X1. injection X1 as <- <-. cbn [map snd exec] in X2. rewrite ES in X2. cbn [rbind fst snd] in X2.
        destruct (exec _ _ rb (map snd b)) as [[r3 t3]| |]; try discriminate X2. cbn [rbind fst snd] in X2. injection X2 as <- <-. apply in_or_app. right. apply in_or_app. left. exact IN. }
      destruct Hj' as [E|E]; subst j.
      - exists r0, tr0. split; [exact W0|]. split; [exact (Y r0 tr0 W0)|exact S0].
      - exists r1, tr1. split; [exact W1|]. split; [exact (Y r1 tr1 W1)|exact S1]. }
    destruct IM as (r & tr & _ & IM & ES'). assert (IM' : In m (for_op op_dss_partsig (sent tr))).
    { apply filter_In. split; [|apply Z.eqb_eq, EO]. unfold sent. apply in_flat_map. exists (OSent m). split; [exact IM|left; reflexivity]. }
    rewrite ES' in IM'. destruct IM' as [<-|[]]. cbn [duo_msg make_msg m_rcpt] in ER. subst i.
    exists (duo_env (demo_dks [5; 6]) (1 - j)). unfold h, duo_hist. apply in_or_app. right. right. apply in_or_app. right. left.
    destruct Hj' as [E|E]; subst j; reflexivity.
Qed.
(** All assumptions of C92, for members 0 and 1 and a latency of 30 ms. *)
Example C92_ex : forall keccak pshash, (forall b, length (keccak b) = 32%nat) -> exists ky c k h,
  let p := dss_prot ky keccak pshash in let M := [0; 1] in
  sound demo_session (of_E (smul 5 eG)) /\ NoDup M /\ se_T demo_session <= Z.of_nat (length M) /\
  (forall i, In i M -> @ready Z ky keccak pshash demo_session i (c i) (k i) (untimed (h i)) /\ fair_maps (untimed (h i)) /\
     clocked (h i) /\ timely p (c i) (new_run (k i)) (untimed (h i)) /\ punctual p (c i) 0 (new_run (k i)) (untimed (h i)) /\
     happens p (c i) (k i) (h i) 0 (OStart 0) /\
     exists r tr, exec p (c i) (new_run (k i)) (untimed (h i)) = Ok (r, tr) /\ In 11 (entered tr)) /\
  (forall i j m t, In i M -> In j M -> happens p (c j) (k j) (h j) t (OSent m) -> m_op m = op_dss_partsig -> m_rcpt m = i ->
     exists t', t' <= t + 30 * ms /\ arrives (h i) t' m).
Proof.
  intros keccak pshash LK. destruct (demo_c92 [] keccak pshash LK) as (w0 & w1 & A & B & _).
  exists (duo_ky (demo_dks [7; 8])), (duo_c []), (duo_k demo_parts). eexists. cbv zeta. split; [exact demo_sound|].
  split; [constructor; [intros [X|[]]; discriminate X|constructor; [intros []|constructor]]|]. split; [apply Z.le_refl|]. split; [|exact B].
  intros i Hi. destruct (A i Hi) as (A1 & A2 & A3 & A4 & A5 & A6 & r & tr & A7 & A8 & _). repeat (split; [assumption|]). exists r, tr. auto.
Qed.
