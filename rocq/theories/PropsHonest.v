(** Property theorems C99-C101: what a run computes; key generation and signing when all members take part as they should. *)
From Coq Require Import ZArith List Bool Lia Permutation.
From Coq Require Import Init.Byte.
From Verif Require Import Params Bytes Res Secp Spec PublicKey Schnorr Dss DssSpec Dto DtoSpec Prot ProtSpec ProtProofs ProtProofs2 ProtProofs3 TimeSpec TimeProofs TimeProofs2 DkgProt SignSpec
  FlowSpec FlowProofs HonestSpec HonestProofs HonestProofs2 HonestProofs3 HonestProofs4 PropsTime PropsSign HonestDemo PropsDkg NumTh Zmod Curve SecpProofs SecpProofs2 DssProofs3 SignProofs2.
Import ListNotations.
Open Scope Z_scope.

(** ** C99 *)
(** A run does what the steps of its stages and the messages of each stage, one after the other, make of its data: when the stages do not
    depend on anything else. *)
Theorem C99_run_computes : forall {D A K E V} (p : protocol D A K E V) c e k0 evs r tr,
  no_last_proc p -> exec p c (new_run k0) evs = Ok (r, tr) -> closed_upto p c (fst (stage_now tr)) ->
  exists x, through p c e (Z.to_nat (fst (stage_now tr) + 1)) k0 (fun k => for_op k (handled tr)) = Ok x /\
    fl_ab x = abandoned_in tr /\ fl_acts x = doings tr /\ r_k r = if terminated_in tr then p_cleanup p (fl_k x) else fl_k x.
Proof.
  intros D A K E V p c e k0 evs r tr NL EX CL. destruct (iv_link _ _ _ _ _ (run_inv p c _ _ _ _ EX)) as (L1 & L2 & L3). rewrite L1 in *. cbn [fst] in *.
  destruct (run_flow p c e (r_state r) CL NL k0 evs r tr EX (Z.le_refl _)) as (x & H1 & H2 & H3 & H4). exists x. rewrite L2, L3. auto.
Qed.
(** So two runs of a key generation that took up the same messages in each stage, in the same order, whenever they came and
    whatever else differs, made the same messages, gave up both or neither, put out the same, and have the same data. *)
Theorem C99_timing_irrelevant : forall {G} (ky : kyber G) c k0 evs evs' r r' tr tr',
  exec (dkg_prot ky) c (new_run k0) evs = Ok (r, tr) -> exec (dkg_prot ky) c (new_run k0) evs' = Ok (r', tr') ->
  fst (stage_now tr) = fst (stage_now tr') -> (forall k, for_op k (handled tr) = for_op k (handled tr')) ->
  created tr = created tr' /\ outputs_of tr = outputs_of tr' /\ abandoned_in tr = abandoned_in tr' /\ r_k r = r_k r'.
Proof.
  intros G ky c k0 evs evs' r r' tr tr' EX EX' ST HH.
  assert (CL : forall t : list (obs payload arg output), fst (stage_now t) <= 8 -> closed_upto (dkg_prot ky) c (fst (stage_now t))).
  { intros t LE j s ES JL. exact (both_closed ky (fun b => b) (fun _ _ => []) (dkg_prot ky) c (or_introl eq_refl) j s ES ltac:(lia)). }
  assert (B8 : forall ev r1 t, exec (dkg_prot ky) c (new_run k0) ev = Ok (r1, t) -> fst (stage_now t) <= 8).
  { intros ev r1 t X. pose proof (run_inv _ _ _ _ _ _ X) as HI. destruct (iv_link _ _ _ _ _ HI) as [-> _]. apply (iv_range _ _ _ _ _ HI). }
  assert (NL : no_last_proc (dkg_prot ky)) by exact (both_last ky (fun b => b) (fun _ _ => []) (dkg_prot ky) (or_introl eq_refl)).
  destruct (C99_run_computes _ c e0 k0 evs r tr NL EX (CL _ (B8 _ _ _ EX))) as (x & X1 & X2 & X3 & X4).
  destruct (C99_run_computes _ c e0 k0 evs' r' tr' NL EX' (CL _ (B8 _ _ _ EX'))) as (x' & X1' & X2' & X3' & X4').
  rewrite ST in X1. rewrite (through_ext (dkg_prot ky) c e0 k0 _ (fun k => for_op k (handled tr')) _ (fun k _ => HH k)) in X1. rewrite X1 in X1'. injection X1' as <-.
  rewrite X3 in X3'. rewrite X2 in X2'.
  assert (KK : forall b, (if b : bool then p_cleanup (dkg_prot ky) (fl_k x) else fl_k x) = fl_k x) by (intros []; reflexivity).
  split; [|split; [|split; [exact X2'|rewrite X4, X4', !KK; reflexivity]]].
  - assert (HC : forall ev r1 t, exec (dkg_prot ky) c (new_run k0) ev = Ok (r1, t) ->
      created t = flat_map (fun a => match a with ASend i op d => [make_msg c i op d] | _ => [] end) (doings t)).
    { intros ev r1 t X. pose proof (run_inv _ _ _ _ _ _ X) as HI.
      assert (HD : forall m, In (OCreate m) t -> m_sender m = i_guest c /\ m_pc m = i_pc c /\ m_run m = i_id c).
      { intros m I. apply in_split in I. destruct I as (u & v & E0). exact (iv_alw _ _ _ _ _ HI u _ v E0). }
      clear - HD. induction t as [|o t IH]; [reflexivity|]. specialize (IH (fun m I => HD m (or_intror I))). destruct o; try exact IH.
      cbn [created doings flat_map app]. fold (created t). fold (doings t). rewrite <- IH. destruct (HD m (or_introl eq_refl)) as (H1 & H2 & H3). destruct m; cbn in *; subst; reflexivity. }
    rewrite (HC _ _ _ EX), (HC _ _ _ EX'), X3'. reflexivity.
  - assert (HO : forall t : list (obs payload arg output), outputs_of t = flat_map (fun a => match a with AOutput pc v => [(pc, v)] | _ => [] end) (doings t)).
    { clear. induction t as [|o t IH]; [reflexivity|]. destruct o; cbn [outputs_of doings flat_map app] in *; try exact IH. f_equal. exact IH. }
    rewrite (HO tr), (HO tr'), X3'. reflexivity.
Qed.

Section Props.
  Context {G : Type}.
  Variable ky : kyber G.
  Variable keccak : bytes -> bytes.
  Variable pshash : Z -> Z -> bytes.
  Notation dkgp := (dkg_prot ky). Notation dssp := (dss_prot ky keccak pshash).

  Lemma through_procs (p : protocol payload arg (kd G) env output) c e k0 ms ms' n :
    (forall k s, 0 <= k < Z.of_nat n -> stage_at p k = Some s -> sg_proc s <> None -> ms k = ms' k) -> through p c e n k0 ms = through p c e n k0 ms'.
  Proof.
    induction n as [|n IH]; intros H; [reflexivity|]. cbn [FlowSpec.through]. rewrite IH by (intros k s Hk; apply H; lia).
    destruct (through p c e n k0 ms') as [x| |]; [|reflexivity|reflexivity]. cbn [rbind]. destruct (stage_at p (Z.of_nat n)) as [s|] eqn:ES; [|reflexivity].
    destruct (begin c e s x) as [y| |]; [|reflexivity|reflexivity]. cbn [rbind]. destruct (sg_proc s) as [f|] eqn:EP.
    - rewrite (H (Z.of_nat n) s ltac:(lia) ES); [reflexivity|congruence].
    - rewrite !take_all_noproc by exact EP. reflexivity.
  Qed.

  Lemma together p n f F g D R C c k0 h s (r : Z -> rst payload (kd G)) tr d lat : p = dkgp \/ p = dssp -> works ky n f F g D R C -> n <= 2 ^ 32 -> 0 <= d ->
    (forall i, In i (everyone n) -> takes_part p n d i (c i) (k0 i) (h i) (s i) /\ kd_gen (k0 i) = g i /\
       exec p (c i) (new_run (k0 i)) (untimed (h i)) = Ok (r i, tr i) /\ 8 <= fst (stage_now (tr i))) ->
    (forall i j, In i (everyone n) -> In j (everyone n) -> s i - s j + 2 * d + lat < 70 * ms) -> connected p n c k0 h tr lat ->
    forall i, In i (everyone n) -> exists a b ra ta tb l re m sh q A, untimed (h i) = a ++ b /\ exec p (c i) (new_run (k0 i)) a = Ok (ra, ta) /\ exec p (c i) ra b = Ok (r i, tb) /\ tr i = ta ++ tb /\
      r_state ra = 8 /\ (b = [] \/ exists e now b', b = ETick e now :: b' /\ r_loc ra = LPause) /\ r_abandon ra = false /\ doings ta = A ++ [AOutput pc_dkg (VShare sh q)] /\ Forall (only [1; 2; 5]) A /\
      (r_term ra = false -> r_k ra = mkKd (committed ky g i l re m) (Some q) (kd_args (k0 i)) (kd_dss (k0 i))) /\
      ky_share ky (committed ky g i l re m) = Some sh /\ share_for f F i sh /\ Permutation q (everyone n) /\ Permutation (ky_qual ky (committed ky g i l re m)) (everyone n).
  Proof.
    intros HP W NR HD HM HW HC i Hi.
    assert (ST : forall j, In j (everyone n) -> r_state (r j) = fst (stage_now (tr j))).
    { intros j Hj. destruct (HM j Hj) as (_ & _ & EX & _). destruct (iv_link _ _ _ _ _ (run_inv p (c j) _ _ _ _ EX)) as [-> _]. reflexivity. }
    assert (HR : forall j op, In j (everyone n) -> 1 <= op <= 7 -> NoDup (flat_map (sent_for tr j op) (everyone n)) -> Permutation (for_op op (handled (tr j))) (flat_map (sent_for tr j op) (everyone n))).
    { intros j op Hj Hop ND. destruct (HM j Hj) as ((T1 & T2 & T3 & T4 & T5 & T6) & _ & EX & S8). destruct (HC j op Hj Hop) as [AM AC].
      assert (SE : forall m, In m (flat_map (sent_for tr j op) (everyone n)) -> exists j' t, In j' (everyone n) /\ happens p (c j') (k0 j') (h j') t (OSent m) /\ m_op m = op /\ m_rcpt m = j).
      { intros m I. apply in_flat_map in I. destruct I as (j' & J1 & J2). unfold sent_for in J2. apply filter_In in J2. destruct J2 as [J2 ER]. apply filter_In in J2. destruct J2 as [J2 EO].
        apply Z.eqb_eq in ER. apply Z.eqb_eq in EO. unfold sent in J2. apply in_flat_map in J2. destruct J2 as (o & O1 & O2). destruct o; cbn in O2; try contradiction. destruct O2 as [->|[]].
        destruct (HM j' J1) as (_ & _ & EX' & _). destruct (in_happens p (c j') (k0 j') (h j') [] _ _ _ EX' O1) as (t & HT). rewrite app_nil_r in HT. exists j', t. auto. }
      assert (PM : Permutation (for_op op (received (untimed (h j)))) (flat_map (sent_for tr j op) (everyone n))).
      { apply among_all; [exact AM|exact ND|]. intros m I. destruct (SE m I) as (j' & t & J1 & HT & EO & ER). destruct (AC j' t m J1 HT EO ER) as (t' & _ & AR). rewrite <- EO. exact (arrives_received _ _ _ AR). }
      assert (EQ : for_op op (handled (tr j)) = for_op op (received (untimed (h j)))); [|rewrite EQ; exact PM].
      apply (C90_none_late p (c j) (k0 j) (h j) (r j) (tr j) op T3 T4 EX ltac:(lia)); [|lia].
      intros s' t' m HS AR EO. assert (ES : s' = s j) by exact (start_once p (c j) _ _ _ _ _ _ T4 HS T6). subst s'.
      pose proof (arrives_received _ _ _ AR) as I. rewrite EO in I. apply (Permutation_in _ PM) in I. destruct (SE m I) as (j' & t & Hj' & SN & _ & ER). destruct (AC j' t m Hj' SN EO ER) as (t2 & LE & AR2).
      assert (E2 : t' = t2). { apply (arrives_once (h j) t' t2 m); [|exact AR|exact AR2]. rewrite EO. exact (Permutation_NoDup (Permutation_sym PM) ND). } subst t2.
      destruct (HM j' Hj') as ((U1 & U2 & U3 & U4 & U5 & U6) & _). destruct (C90_sent_early ky keccak pshash p (c j') (k0 j') (h j') d (s j') t m HP HD U3 U4 U5 U6 SN) as [B1 B2].
      rewrite EO in B1, B2. specialize (HW j' j Hj' Hj). unfold pause in B1. rewrite B2. lia. }
    set (mss := fun j op => for_op op (handled (tr j))).
    set (xs := fun j => match through dkgp (c j) e0 9 (k0 j) (mss j) with Ok x => x | _ => mkFlow (k0 j) false [] end).
    assert (SN : forall j, In j (everyone n) -> through dkgp (c j) e0 9 (k0 j) (mss j) = Ok (xs j) /\
      exists a b ra ta tb, untimed (h j) = a ++ b /\ exec p (c j) (new_run (k0 j)) a = Ok (ra, ta) /\ exec p (c j) ra b = Ok (r j, tb) /\ tr j = ta ++ tb /\ r_state ra = 8 /\
        (b = [] \/ exists e now b', b = ETick e now :: b' /\ r_loc ra = LPause) /\ fl_ab (xs j) = r_abandon ra /\ fl_acts (xs j) = doings ta /\
        r_k ra = (if r_term ra then p_cleanup p (fl_k (xs j)) else fl_k (xs j)) /\
        forall op, 1 <= op <= 7 -> forall i, sent_for tr i op j = map (make_msg (c j) i op) (mails i op (fl_acts (xs j)))).
    { intros j Hj. destruct (HM j Hj) as (_ & _ & EX & S8). rewrite <- (ST j Hj) in S8.
      destruct (snapshot ky keccak pshash p (c j) (k0 j) _ (r j) (tr j) HP EX S8) as (a & b & ra & ta & tb & x & E1 & X1 & X2 & E2 & R8 & LB & T1 & T2 & T3 & T4 & T5).
      assert (TX : through dkgp (c j) e0 9 (k0 j) (mss j) = Ok x).
      { rewrite <- T1. apply through_procs. intros k st Hk ES NP. change (Z.of_nat 9) with 9 in Hk. symmetry. destruct (Z.eq_dec k 0) as [->|N0]; [injection ES as <-; contradiction NP; reflexivity|].
        destruct (Z.eq_dec k 8) as [->|N8]; [injection ES as <-; contradiction NP; reflexivity|]. exact (proj1 (T5 k ltac:(lia))). }
      assert (EXS : xs j = x) by (unfold xs; rewrite TX; reflexivity). rewrite EXS. split; [exact TX|]. exists a, b, ra, ta, tb. do 9 (split; [assumption|]).
      intros op Hop k. exact (proj2 (T5 op Hop) k). }
    destruct (completed ky n f F g D R C W NR c e0 k0 mss xs) with (i := i) as (l & re & m & sh & q & A & E1 & AD & AR & AC & FA & PQ & S1 & S2 & S3).
    - intros j Hj. destruct (HM j Hj) as ((T1 & T2 & _) & T3 & _). split; [exact T1|]. split; [exact T2|]. split; [exact T3|apply (SN j Hj)].
    - intros j op Hj Hop. unfold mss.
      assert (EQ : flat_map (sent_for tr j op) (everyone n) = flat_map (fun j0 => map (make_msg (c j0) j op) (mails j op (fl_acts (xs j0)))) (everyone n)).
      { assert (IN : forall y, In y (everyone n) -> sent_for tr j op y = map (make_msg (c y) j op) (mails j op (fl_acts (xs y)))).
        { intros y Hy. destruct (SN y Hy) as (_ & a & b & ra & ta & tb & _ & _ & _ & _ & _ & _ & _ & _ & _ & T5). exact (T5 op Hop j). }
        revert IN. generalize (everyone n). clear. intros u IN. induction u as [|y u IH]; [reflexivity|]. cbn [flat_map]. rewrite (IN y (or_introl eq_refl)), IH by (intros z I; apply IN; right; exact I). reflexivity. }
      rewrite <- EQ. exact (HR j op Hj Hop).
    - exact Hi.
    - destruct (SN i Hi) as (_ & a & b & ra & ta & tb & Q1 & Q2 & Q3 & Q4 & Q5 & Q6 & Q7 & Q8 & Q9 & _).
      exists a, b, ra, ta, tb, l, re, m, sh, q, A. rewrite E1 in Q7, Q8, Q9. cbn [fl_ab fl_acts fl_k] in *. do 6 (split; [assumption|]). split; [symmetry; exact Q7|]. split; [symmetry; exact Q8|]. split; [exact FA|].
      split; [intros NT; rewrite NT in Q9; exact Q9|]. auto.
  Qed.

  (** ** C100 *)
  (** Members 0, ..., n - 1 whose generators work generate a key.  They start within a window, none is late by more than [d], what
      they send to one another arrives within [lat], and nothing else arrives.  Then each of them puts out its share of the key,
      and nothing else, with all members qualified, and none gives up. *)
  Theorem C100_key_generated : forall n f F g D R C (c : Z -> info) k0 h s (r : Z -> rst payload (kd G)) tr d lat, works ky n f F g D R C -> n <= 2 ^ 32 -> 0 <= d ->
    (forall i, In i (everyone n) -> takes_part dkgp n d i (c i) (k0 i) (h i) (s i) /\ kd_gen (k0 i) = g i /\
       exec dkgp (c i) (new_run (k0 i)) (untimed (h i)) = Ok (r i, tr i) /\ In op_dkg_final (entered (tr i))) ->
    (forall i j, In i (everyone n) -> In j (everyone n) -> s i - s j + 2 * d + lat < 70 * ms) -> connected dkgp n c k0 h tr lat ->
    forall i, In i (everyone n) -> exists sh q, outputs_of (tr i) = [(pc_dkg, VShare sh q)] /\ share_for f F i sh /\ Permutation q (everyone n) /\ abandoned_in (tr i) = false.
  Proof.
    intros n f F g D R C c k0 h s r tr d lat W NR HD HM HW HC i Hi.
    assert (HM' : forall j, In j (everyone n) -> takes_part dkgp n d j (c j) (k0 j) (h j) (s j) /\ kd_gen (k0 j) = g j /\
       exec dkgp (c j) (new_run (k0 j)) (untimed (h j)) = Ok (r j, tr j) /\ 8 <= fst (stage_now (tr j))).
    { intros j Hj. destruct (HM j Hj) as (T1 & T2 & T3 & T4). split; [exact T1|]. split; [exact T2|]. split; [exact T3|]. pose proof (run_inv dkgp (c j) _ _ _ _ T3) as HI.
      rewrite (iv_entered _ _ _ _ _ HI) in T4. apply in_upto in T4. destruct (iv_link _ _ _ _ _ HI) as [-> _]. apply T4. }
    destruct (together dkgp n f F g D R C c k0 h s r tr d lat (or_introl eq_refl) W NR HD HM' HW HC i Hi) as (a & b & ra & ta & tb & l & re & m & sh & q & A & E1 & X1 & X2 & E2 & S8 & LB & NA & DO & FA & _ & _ & S2 & PQ & _).
    assert (BN : b = []).
    { destruct LB as [->|(e & now & b' & -> & LP)]; [reflexivity|exfalso]. pose proof (iv_loc _ _ _ _ _ (run_inv dkgp (c i) _ _ _ _ X1)) as HL. rewrite LP in HL. destruct HL as [[_ HL] _]. change (final dkgp) with 8 in HL. lia. }
    subst b. cbn [exec] in X2. injection X2 as _ <-. rewrite app_nil_r in E2. exists sh, q. rewrite E2.
    assert (OU : outputs_of ta = flat_map (fun a => match a with AOutput pc v => [(pc, v)] | _ => [] end) (doings ta)).
    { clear. induction ta as [|o t IH]; [reflexivity|]. destruct o; cbn [outputs_of doings flat_map app] in *; try exact IH. f_equal. exact IH. }
    split; [|split; [exact S2|split; [exact PQ|]]].
    - rewrite OU, DO, flat_map_app. assert (NO : flat_map (fun a => match a with AOutput pc v => [(pc, v)] | _ => [] end) A = []).
      { clear - FA. induction FA as [|x A HX _ IH]; [reflexivity|]. cbn. rewrite IH. destruct x; cbn in HX; try reflexivity. contradiction. }
      rewrite NO. reflexivity.
    - destruct (iv_link _ _ _ _ _ (run_inv dkgp (c i) _ _ _ _ X1)) as (_ & -> & _). exact NA.
  Qed.

  Lemma all_ready : forall S g D R C (c : Z -> info) k0 h s (r : Z -> rst payload (kd G)) tr d lat,
    let n := Z.of_nat (length (se_parts S)) in
    n <= 2 ^ 32 -> (forall j, In j (se_qual S) <-> In j (everyone n)) ->
    works ky n (se_r S) (se_R S) g D R C -> 0 <= d ->
    (forall i, In i (everyone n) -> takes_part dssp n d i (c i) (k0 i) (h i) (s i) /\ kd_gen (k0 i) = g i /\
       exec dssp (c i) (new_run (k0 i)) (untimed (h i)) = Ok (r i, tr i) /\ In 11 (entered (tr i)) /\
       (exists x Q, kd_args (k0 i) = Some (mkArgs x (se_parts S) (se_T S)) /\ nth_error (se_parts S) (Z.to_nat i) = Some Q /\ pt_mul x KP_nil = Ok Q) /\
       (exists long, share_for (se_f S) (se_F S) i long /\ finds dssp (c i) (k0 i) (h i) (se_msg S) long)) ->
    (forall i j, In i (everyone n) -> In j (everyone n) -> s i - s j + 2 * d + lat < 70 * ms) -> connected dssp n c k0 h tr lat ->
    forall i, In i (everyone n) -> ready ky keccak pshash S i (c i) (k0 i) (untimed (h i)).
  Proof.
    intros S g D R C c k0 h s r tr d lat n HN HQ W HD HM HW HC.
    assert (HM' : forall j, In j (everyone n) -> takes_part dssp n d j (c j) (k0 j) (h j) (s j) /\ kd_gen (k0 j) = g j /\
       exec dssp (c j) (new_run (k0 j)) (untimed (h j)) = Ok (r j, tr j) /\ 8 <= fst (stage_now (tr j))).
    { intros j Hj. destruct (HM j Hj) as (T1 & T2 & T3 & T4 & _). split; [exact T1|]. split; [exact T2|]. split; [exact T3|]. pose proof (run_inv dssp (c j) _ _ _ _ T3) as HI.
      rewrite (iv_entered _ _ _ _ _ HI) in T4. apply in_upto in T4. destruct (iv_link _ _ _ _ _ HI) as [-> _]. cbn [fst]. lia. }
    intros i Hi. destruct (together dssp n _ _ g D R C c k0 h s r tr d lat (or_intror eq_refl) W HN HD HM' HW HC i Hi)
        as (a & b & ra & ta & tb & l & re & m & sh & q & A & E1 & X1 & X2 & E2 & S8 & LB & NA & DO & FA & RK & S1 & S2 & PQ & QU).
      destruct (HM i Hi) as ((T1 & T2 & _) & _ & EX & E11 & (x & Q & A1 & A2 & A3) & long & L1 & L2).
      pose proof (run_inv dssp (c i) _ _ _ _ X1) as HI1. destruct (iv_link _ _ _ _ _ HI1) as (K1 & K2 & K3).
      destruct LB as [->|(e & now & b' & -> & LP)].
      { exfalso. cbn [exec] in X2. injection X2 as -> _. pose proof (run_inv dssp (c i) _ _ _ _ EX) as HI. rewrite (iv_entered _ _ _ _ _ HI), S8 in E11. apply in_upto in E11. lia. }
      pose proof (iv_loc _ _ _ _ _ HI1) as HL. rewrite LP in HL. destruct HL as (_ & HL1 & HL2). specialize (RK HL2).
      split; [exact T1|]. split; [exact T2|]. split; [apply HQ; exact Hi|].
      destruct (L2 a e now b' ra ta E1 X1 ltac:(congruence)) as [L3 L4].
      exists a, e, now, b', ra, ta, sh, long, x, q. rewrite RK. cbn [kd_gen kd_qual kd_args].
      split; [exact E1|]. split; [exact X1|]. split; [rewrite K1, S8, HL1; reflexivity|]. split; [rewrite K2; exact NA|]. split; [exact S1|]. split; [exact S2|].
      split; [intros j; rewrite HQ; split; [apply (Permutation_in _ QU)|apply (Permutation_in _ (Permutation_sym QU))]|]. split; [reflexivity|].
      split; [intros j; rewrite HQ; split; [apply (Permutation_in _ PQ)|apply (Permutation_in _ (Permutation_sym PQ))]|]. split; [exact A1|]. split; [exists Q; auto|]. auto.
  Qed.
  (** ** C101 *)
  (** Members 0, ..., n - 1 whose generators work, with their keys, their long-term shares and the document, sign: again with all their messages arriving in time.
      Then all of them put out one and the same signature, and it is valid. *)
  Theorem C101_members_sign : forall S P g D R C (c : Z -> info) k0 h s (r : Z -> rst payload (kd G)) tr d lat,
    let n := Z.of_nat (length (se_parts S)) in
    (forall b, length (keccak b) = 32%nat) -> sound S P -> 0 < n <= 2 ^ 32 -> (forall j, In j (se_qual S) <-> In j (everyone n)) -> se_T S <= n ->
    works ky n (se_r S) (se_R S) g D R C -> 0 <= d ->
    (forall i, In i (everyone n) -> takes_part dssp n d i (c i) (k0 i) (h i) (s i) /\ kd_gen (k0 i) = g i /\
       exec dssp (c i) (new_run (k0 i)) (untimed (h i)) = Ok (r i, tr i) /\ In 11 (entered (tr i)) /\ fair_maps (untimed (h i)) /\
       (exists x Q, kd_args (k0 i) = Some (mkArgs x (se_parts S) (se_T S)) /\ nth_error (se_parts S) (Z.to_nat i) = Some Q /\ pt_mul x KP_nil = Ok Q) /\
       (exists long, share_for (se_f S) (se_F S) i long /\ finds dssp (c i) (k0 i) (h i) (se_msg S) long)) ->
    (forall i j, In i (everyone n) -> In j (everyone n) -> s i - s j + 2 * d + lat < 70 * ms) -> connected dssp n c k0 h tr lat ->
    (forall i j m t, In i (everyone n) -> In j (everyone n) -> happens dssp (c j) (k0 j) (h j) t (OSent m) -> m_op m = op_dss_partsig -> m_rcpt m = i ->
       exists t', t' <= t + lat /\ arrives (h i) t' m) ->
    exists sg, verify keccak (KP P) (se_msg S) sg = Ok tt /\ forall i, In i (everyone n) -> In (OOutput pc_dss (VSig sg)) (tr i).
  Proof.
    intros S P g D R C c k0 h s r tr d lat n LK HS HN HQ LT W HD HM HW HC HA.
    assert (RD : forall i, In i (everyone n) -> ready ky keccak pshash S i (c i) (k0 i) (untimed (h i))).
    { apply (all_ready S g D R C c k0 h s r tr d lat (proj2 HN) HQ W HD); [|exact HW|exact HC]. intros i Hi. destruct (HM i Hi) as (T1 & T2 & T3 & T4 & _ & T5 & T6). auto 8. }
    destruct (C92_members_sign ky keccak pshash S P (everyone n) c k0 h s d lat LK HS (nodup_everyone n)) as (sg & V1 & V2); try assumption.
    - intros E0. assert (I0 : In 0 (everyone n)) by (apply in_everyone; lia). rewrite E0 in I0. destruct I0.
    - replace (Z.of_nat (length (everyone n))) with n; [exact LT|]. unfold everyone, upto. rewrite map_length, seq_length. lia.
    - intros i Hi. destruct (HM i Hi) as ((T1 & T2 & T3 & T4 & T5 & T6) & _ & EX & E11 & FM & _). split; [exact (RD i Hi)|]. split; [exact FM|]. split; [exact T3|]. split; [exact T4|]. split; [exact T5|]. split; [exact T6|].
      exists (r i), (tr i). auto.
    - exists sg. split; [exact V1|]. intros i Hi. destruct (HM i Hi) as (_ & _ & EX & _). exact (V2 i (r i) (tr i) Hi EX).
  Qed.
End Props.
Print Assumptions C99_run_computes. Print Assumptions C99_timing_irrelevant. Print Assumptions C100_key_generated. Print Assumptions C101_members_sign.
(** The message of the other comes during its stage, or long before. *)
Definition early_hist : list (event payload env) :=
  untimed (map wake [0; 0; 25; 30; 100]) ++ EMsg no_env pair_msg :: untimed (map wake [105; 175; 180; 250; 255; 275; 280; 350]).
Lemma both_ok {X Y} (a b : res (X * Y)) (P : X -> Y -> X -> Y -> Prop) :
  match a, b with Ok (r, t), Ok (r', t') => P r t r' t' | _, _ => False end -> exists r t r' t', a = Ok (r, t) /\ b = Ok (r', t') /\ P r t r' t'.
Proof. destruct a as [[r t]| |]; try contradiction. destruct b as [[r' t']| |]; try contradiction. intros H. exists r, t, r', t'. auto. Qed.
Example C99_ex : exists r tr r' tr', exec pair_p (pair_c 1) (new_run toy_k0) (untimed hist1) = Ok (r, tr) /\ exec pair_p (pair_c 1) (new_run toy_k0) early_hist = Ok (r', tr') /\
  untimed hist1 <> early_hist /\ no_last_proc pair_p /\ fst (stage_now tr) = 5 /\ fst (stage_now tr') = 5 /\ handled tr = [pair_msg] /\ (forall k, for_op k (handled tr) = for_op k (handled tr')) /\
  closed_upto pair_p (pair_c 1) (fst (stage_now tr)).
Proof.
  assert (X : exists r tr r' tr', exec pair_p (pair_c 1) (new_run toy_k0) (untimed hist1) = Ok (r, tr) /\ exec pair_p (pair_c 1) (new_run toy_k0) early_hist = Ok (r', tr') /\
    fst (stage_now tr) = 5 /\ fst (stage_now tr') = 5 /\ handled tr = [pair_msg] /\ handled tr' = [pair_msg]).
  { apply (both_ok _ _ (fun _ tr _ tr' => fst (stage_now tr) = 5 /\ fst (stage_now tr') = 5 /\ handled tr = [pair_msg] /\ handled tr' = [pair_msg])). vm_compute. auto. }
  assert (X1 : untimed hist1 <> early_hist) by (intros X'; apply (f_equal (fun l => match nth_error l 5 with Some (ETick _ _) => true | _ => false end)) in X'; discriminate X').
  destruct X as (r & tr & r' & tr' & Y1 & Y2 & X2 & X3 & X4 & X5). exists r, tr, r', tr'. split; [exact Y1|]. split; [exact Y2|]. split; [exact X1|].
  split; [exact (both_last pair_ky (fun b => b) (fun _ _ => []) (dkg_prot pair_ky) (or_introl eq_refl))|]. split; [exact X2|]. split; [exact X3|]. split; [exact X4|]. split; [intros k; rewrite X4, X5; reflexivity|].
  intros j s ES JL. rewrite X2 in JL. exact (both_closed pair_ky (fun b => b) (fun _ _ => []) (dkg_prot pair_ky) (pair_c 1) (or_introl eq_refl) j s ES ltac:(lia)).
Qed.

(** ** Concrete cases *)
Lemma demo_share_for i : In i (everyone 2) -> share_for [7; 8] (map (fun a => of_E (smul a eG)) [7; 8]) i (demo_dks [7; 8] i).
Proof. intros _. split; reflexivity. Qed.
(** Two members, both of whose messages take 10 ms. *)
Example C100_ex : exists ky f F g D R C c k0 h s (r : Z -> rst payload (kd acct)) tr, works ky 2 f F g D R C /\ f = [7; 8] /\
  (forall i, In i (everyone 2) -> takes_part (dkg_prot ky) 2 0 i (c i) (k0 i) (h i) (s i) /\ kd_gen (k0 i) = g i /\
     exec (dkg_prot ky) (c i) (new_run (k0 i)) (untimed (h i)) = Ok (r i, tr i) /\ In op_dkg_final (entered (tr i))) /\
  (forall i j, In i (everyone 2) -> In j (everyone 2) -> s i - s j + 2 * 0 + 10 * ms < 70 * ms) /\ connected (dkg_prot ky) 2 c k0 h tr (10 * ms) /\
  forall i, In i (everyone 2) -> length (received (untimed (h i))) = 3%nat.
Proof.
  destruct on_wire_ex as (W & HW). set (sh := demo_dks [7; 8]). set (k0 := fun i => mkKd (acct_new i) None None None). set (ev := fun _ : Z => no_env).
  assert (D0 : 0 = 0 \/ 0 = 1) by lia. assert (D1 : 1 = 0 \/ 1 = 1) by lia.
  destruct (two_dkg sh [] ev W (k0 0) 0 HW D0 eq_refl) as (r0 & L0 & A1 & A2 & A3 & A4 & _). destruct (two_dkg sh [] ev W (k0 1) 1 HW D1 eq_refl) as (r1 & L1 & B1 & B2 & B3 & B4 & _).
  set (L := fun i => if i =? 0 then L0 else L1). set (r := fun i => if i =? 0 then r0 else r1).
  assert (ALL : forall i, In i (everyone 2) -> logged (dkg_prot (acct_ky sh)) (two_c pc_dkg [] i) (new_run (k0 i)) (two_hist pc_dkg [] ev W i) (r i) (L i) /\ sends_of (L i) = two_sends pc_dkg [] W i /\ In (0, OStart 0) (L i) /\ In op_dkg_final (entered (map snd (L i)))).
  { intros i Hi. apply in_everyone in Hi. assert (C : i = 0 \/ i = 1) by lia. clear Hi. destruct C as [E|E]; subst i; (split; [assumption|]); (split; [assumption|]); split; assumption. }
  clear A1 A2 A3 A4 B1 B2 B3 B4.
  exists (acct_ky sh), [7; 8], (map (fun a => of_E (smul a eG)) [7; 8]), acct_new. eexists _, _, _. exists (two_c pc_dkg []), k0, (two_hist pc_dkg [] ev W), (fun _ => 0), r, (fun i => map snd (L i)).
  split; [exact (acct_works sh [7; 8] _ demo_share_for)|]. split; [reflexivity|]. split; [|split; [intros i j _ _; reflexivity|split]].
  - intros i Hi. destruct (ALL i Hi) as (W1 & W2 & W3 & W4). pose proof W1 as (X1 & X2 & X3 & _). split; [|split; [reflexivity|split; [exact X1|exact W4]]].
    split; [reflexivity|]. split; [reflexivity|]. split; [apply two_clocked; apply in_everyone in Hi; lia|]. split; [exact X2|]. split; [exact X3|]. apply (logged_happens _ _ _ _ _ _ _ _ W1). exact W3.
  - apply (two_connected (dkg_prot (acct_ky sh)) pc_dkg [] W k0 _ r L (fun _ => []) (fun _ => [])). intros i Hi. destruct (ALL i Hi) as (W1 & W2 & _). rewrite !app_nil_r. split; [exact W1|]. split; [exact W2|]. split; [constructor|]. split; [reflexivity|constructor].
  - intros i _. reflexivity.
Qed.
(** The same two members sign. *)
Example C101_ex : forall keccak pshash, (forall b, length (keccak b) = 32%nat) -> exists ky g D R C c k0 h s (r : Z -> rst payload (kd acct)) tr,
  let S := demo_session in let P := of_E (smul 5 eG) in let n := Z.of_nat (length (se_parts S)) in let dssp := dss_prot ky keccak pshash in
  sound S P /\ n = 2 /\ (forall j, In j (se_qual S) <-> In j (everyone n)) /\ se_T S = 2 /\ works ky n (se_r S) (se_R S) g D R C /\
  (forall i, In i (everyone n) -> takes_part dssp n 0 i (c i) (k0 i) (h i) (s i) /\ kd_gen (k0 i) = g i /\
     exec dssp (c i) (new_run (k0 i)) (untimed (h i)) = Ok (r i, tr i) /\ In 11 (entered (tr i)) /\ fair_maps (untimed (h i)) /\
     (exists x Q, kd_args (k0 i) = Some (mkArgs x (se_parts S) (se_T S)) /\ nth_error (se_parts S) (Z.to_nat i) = Some Q /\ pt_mul x KP_nil = Ok Q) /\
     (exists long, share_for (se_f S) (se_F S) i long /\ finds dssp (c i) (k0 i) (h i) (se_msg S) long)) /\
  (forall i j, In i (everyone n) -> In j (everyone n) -> s i - s j + 2 * 0 + 10 * ms < 70 * ms) /\ connected dssp n c k0 h tr (10 * ms) /\
  (forall i j m t, In i (everyone n) -> In j (everyone n) -> happens dssp (c j) (k0 j) (h j) t (OSent m) -> m_op m = op_dss_partsig -> m_rcpt m = i ->
     exists t', t' <= t + 10 * ms /\ arrives (h i) t' m).
Proof.
  intros keccak pshash LK. destruct on_wire_ex as (W & HW). set (sh := demo_dks [7; 8]). set (lg := demo_dks [5; 6]). set (k0 := sig_k demo_parts).
  destruct (demo_part keccak pshash 0 ltac:(lia)) as (v0 & pa0 & w0 & A1 & A2 & A3 & A4). destruct (demo_part keccak pshash 1 ltac:(lia)) as (v1 & pa1 & w1 & B1 & B2 & B3 & B4).
  set (w := fun i => if i =? 0 then w0 else w1).
  assert (ALL : forall i, In i (everyone 2) -> exists r L, logged (dss_prot (acct_ky sh) keccak pshash) (two_c pc_dss [] i) (new_run (k0 i)) (sig_hist [] lg W i (w (1 - i))) r L /\
      sends_of L = two_sends pc_dss [] W i ++ [(555 * ms, sig_msg [] i (w i))] /\ In (0, OStart 0) L /\ In 11 (entered (map snd L)) /\ r_term r = true /\ exists s sg, outputs_of (map snd L) = [(pc_dkg, s); (pc_dss, VSig sg)]).
  { intros i Hi. apply in_everyone in Hi. assert (C : i = 0 \/ i = 1) by lia. clear Hi. destruct C as [E|E]; subst i.
    - apply (two_sign [] keccak pshash LK W 0 v0 pa0 w0 v1 pa1 w1 HW ltac:(lia) A1 A3 B1 B2 B4).
    - apply (two_sign [] keccak pshash LK W 1 v1 pa1 w1 v0 pa0 w0 HW ltac:(lia) B1 B3 A1 A2 A4). }
  destruct (ALL 0) as (r0 & L0 & C0); [apply in_everyone; lia|]. destruct (ALL 1) as (r1 & L1 & C1); [apply in_everyone; lia|]. clear ALL.
  set (L := fun i => if i =? 0 then L0 else L1). set (r := fun i => if i =? 0 then r0 else r1).
  assert (ALL : forall i, In i (everyone 2) -> logged (dss_prot (acct_ky sh) keccak pshash) (two_c pc_dss [] i) (new_run (k0 i)) (sig_hist [] lg W i (w (1 - i))) (r i) (L i) /\
      sends_of (L i) = two_sends pc_dss [] W i ++ [(555 * ms, sig_msg [] i (w i))] /\ In (0, OStart 0) (L i) /\ In 11 (entered (map snd (L i)))).
  { intros i Hi. apply in_everyone in Hi. assert (C : i = 0 \/ i = 1) by lia. clear Hi. destruct C as [E|E]; subst i; [destruct C0 as (? & ? & ? & ? & _)|destruct C1 as (? & ? & ? & ? & _)]; auto. }
  clear C0 C1 A1 A2 A3 A4 B1 B2 B3 B4.
  exists (acct_ky sh), acct_new. eexists _, _, _. exists (two_c pc_dss []), k0, (fun i => sig_hist [] lg W i (w (1 - i))), (fun _ => 0), r, (fun i => map snd (L i)).
  cbv zeta. change (Z.of_nat (length (se_parts demo_session))) with 2.
  split; [exact demo_sound|]. split; [reflexivity|]. split; [intros j; change (everyone 2) with [0; 1]; reflexivity|]. split; [reflexivity|]. split; [exact (acct_works sh [7; 8] _ demo_share_for)|].
  split; [|split; [intros i j _ _; reflexivity|split]].
  - intros i Hi. destruct (ALL i Hi) as (W1 & W2 & W3 & W4). pose proof W1 as (X1 & X2 & X3 & _). assert (C : i = 0 \/ i = 1) by (apply in_everyone in Hi; lia).
    split; [|split; [reflexivity|split; [exact X1|split; [exact W4|split; [|split]]]]].
    + split; [reflexivity|]. split; [reflexivity|]. split; [apply sig_clocked; exact C|]. split; [exact X2|]. split; [exact X3|]. apply (logged_happens _ _ _ _ _ _ _ _ W1). exact W3.
    + intros e now H. apply sig_envs in H. subst e. intros; apply Permutation_refl.
    + exists (3 + 3 * i), (of_E (smul (3 + 3 * i) eG)). split; [reflexivity|]. split; [|apply pt_mul_base; tauto]. destruct C as [->| ->]; reflexivity.
    + exists (lg i). split; [split; reflexivity|]. intros a e now b r' tr' H _ _. assert (IN : In (ETick e now) (untimed (sig_hist [] lg W i (w (1 - i))))) by (rewrite H; apply in_elt). apply sig_envs in IN. subst e. split; reflexivity.
  - apply (two_connected (dss_prot (acct_ky sh) keccak pshash) pc_dss [] W k0 _ r L (fun i => [(555 * ms, sig_msg [] i (w i))]) (fun i => [(555 * ms + 10 * ms, sig_msg [] (1 - i) (w (1 - i)))])).
    intros i Hi. destruct (ALL i Hi) as (W1 & W2 & _). split; [exact W1|]. split; [exact W2|]. split; [constructor; [reflexivity|constructor]|]. split; [reflexivity|constructor; [reflexivity|constructor]].
  - intros i j m t Hi Hj HS EO ER. destruct (ALL j Hj) as (W1 & W2 & _). apply (logged_happens _ _ _ _ _ _ _ _ W1) in HS. apply sends_in in HS. rewrite W2 in HS. apply in_app_or in HS. destruct HS as [HS|[HS|[]]].
    + exfalso. unfold two_sends in HS. destruct HS as [HS|[HS|[HS|[]]]]; apply (f_equal snd) in HS; unfold snd in HS; subst m; discriminate EO.
    + pose proof (f_equal fst HS) as Q1. pose proof (f_equal snd HS) as Q2. unfold fst, snd in Q1, Q2. subst t m. clear HS EO. change (1 - j = i) in ER.
      assert (EJ : j = 1 - i) by lia. subst j. exists (555 * ms + 10 * ms). split; [apply Z.le_refl|]. apply arrives_in.
      change (arrivals (sig_hist [] lg W i (w (1 - i)))) with (map (fun x => (fst x + 10 * ms, snd x)) (two_sends pc_dss [] W (1 - i)) ++ [(555 * ms + 10 * ms, sig_msg [] (1 - i) (w (1 - i)))]). apply in_elt.
Qed.
