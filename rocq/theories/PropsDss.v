(** Property theorems C29-C37: threshold signatures (ethdss.go).
    [keccak] and [pshash] (the hash of a private share) are any functions;
    [ord] is any order in which Go iterates over a map. *)
From Coq Require Import ZArith Znumtheory List Lia Bool Permutation.
From Coq Require Import Init.Byte.
From Verif Require Import Params NumTh Curve Order Bytes Res Secp Spec SecpProofs SecpProofs2 PublicKey
  Schnorr SchnorrProofs Dss DssSpec DssProofs DssProofs2 DssProofs3.
Import ListNotations.
Open Scope Z_scope.

(** ** C29 *)
(** Any group elements are commitments to some polynomial. *)
Theorem C29_commitments_have_polynomials : forall C, Forall group_elt C -> exists c, commits_of c C.
Proof. exact commits_exist. Qed.
(** f, r: the polynomials behind the commitments; h: the challenge. *)
Theorem C29_accepted_iff : forall keccak pshash f r d ps P Ps V Vs,
  ks_commits (d_long d) = P :: Ps -> ks_commits (d_random d) = V :: Vs ->
  commits_of f (P :: Ps) -> commits_of r (V :: Vs) ->
  let h := challenge_of keccak P (address_of keccak V) (d_msg d) in
  (snd (process keccak pshash d ps) = Ok tt <->
   on_curve (fst P) (snd P) /\
   exists i v q, ps_partial ps = Some (i, Some v) /\ 0 <= i /\
     nth_error (d_participants d) (Z.to_nat i) = Some q /\ ps_sid ps = d_sid d /\
     verify keccak (KP q) (signed_digest keccak pshash i v (d_sid d)) (ps_sig ps) = Ok tt /\
     In i (d_H2 d) /\ ~ In i (d_partialsIdx d) /\
     eqN v (poly r (i + 1) - h * poly f (i + 1))).
Proof.
  intros keccak pshash f r d ps P Ps V Vs EL ER Hf Hr h. change (signed_digest keccak pshash) with (ps_hash keccak pshash).
  assert (HH : forall h', hash_sig keccak d = Ok h' <-> on_curve (fst P) (snd P) /\ h' = h).
  { intros h'. rewrite hash_sig_ok. split.
    - intros (V' & rs & P' & ls & E1 & E2 & O & E). rewrite ER in E1. rewrite EL in E2.
      injection E1 as <- <-. injection E2 as <- <-. tauto.
    - intros [O ->]. exists V, Vs, P, Ps. tauto. }
  rewrite <- EL in Hf. rewrite <- ER in Hr. split.
  - intros H. destruct (process keccak pshash d ps) as [d' x] eqn:E. cbn in H. subst x.
    apply (process_ok keccak pshash f r) in E; [|exact Hf|exact Hr].
    destruct E as (i & v & q & h' & A1 & A2 & A3 & A4 & A5 & A6 & A7 & A8 & A9 & _).
    apply HH in A8. destruct A8 as [O ->]. split; [exact O|]. exists i, v, q. repeat (split; [tauto|]). tauto.
  - intros [O (i & v & q & A1 & A2 & A3 & A4 & A5 & A6 & A7 & A9)].
    assert (E : process keccak pshash d ps = (add_partial d i v (d_signed d), Ok tt)).
    { apply (process_ok keccak pshash f r); [exact Hf|exact Hr|]. exists i, v, q, h.
      assert (i < Z.of_nat (length (d_participants d))).
      { assert (L : (Z.to_nat i < length (d_participants d))%nat) by (apply nth_error_Some; congruence). lia. }
      split; [exact A1|]. split; [lia|]. split; [exact A3|]. split; [exact A4|]. split; [exact A5|].
      split; [exact A6|]. split; [exact A7|]. split; [apply HH; tauto|]. split; [exact A9|reflexivity]. }
    rewrite E. reflexivity.
Qed.
(** Everything a DSS ever collects satisfies the share equation. *)
Theorem C29_collected_partials_correct : forall keccak pshash f r x parts L R H2 msg T d0 cs V Vs P Ps,
  new_dss keccak x parts L R H2 msg T = Ok d0 -> shares_ok f r d0 ->
  ks_commits R = V :: Vs -> ks_commits L = P :: Ps ->
  let h := challenge_of keccak P (address_of keccak V) msg in
  Forall (fun e => eqN (snd e) (poly r (fst e + 1) - h * poly f (fst e + 1)))
    (d_partials (run keccak pshash d0 cs)).
Proof.
  intros keccak pshash f r x parts L R H2 msg T d0 cs V Vs P Ps EN S EV EP h.
  apply (new_dss_ok keccak pshash) in EN. destruct EN as (I & D1 & D2 & D3 & D4 & D5 & D6 & D7 & D8 & D9 & _).
  assert (VO : values_ok keccak f r d0) by (intros h' _; rewrite D1; constructor).
  pose proof (values_run keccak pshash f r cs d0 S VO) as VR.
  pose proof (inv_run keccak pshash cs d0 I) as IR.
  destruct (d_partials (run keccak pshash d0 cs)) as [|e l] eqn:E; [constructor|].
  destruct (inv_hash keccak _ IR) as [h' Eh]; [congruence|].
  specialize (VR _ Eh). rewrite E in VR.
  rewrite (hash_sig_static keccak _ d0 (run_static keccak pshash cs d0)) in Eh.
  apply hash_sig_ok in Eh. destruct Eh as (V' & rs & P' & ls & E1 & E2 & _ & E3).
  rewrite D7, EV in E1. rewrite D6, EP in E2. injection E1 as <- <-. injection E2 as <- <-. rewrite D9 in E3.
  fold h in E3. subst h'. exact VR.
Qed.
(** Two participants, threshold 2: participant 1's partial is collected by participant 0. *)
Example C29_ex : forall keccak pshash, (forall b, length (keccak b) = 32%nat) ->
  exists d0 d1 d1' ps,
    new_dss keccak 3 demo_parts (demo_share [5; 6] 0) (demo_share [7; 8] 0) [0; 1] 10 2 = Ok d0 /\
    new_dss keccak 6 demo_parts (demo_share [5; 6] 1) (demo_share [7; 8] 1) [0; 1] 10 2 = Ok d1 /\
    shares_ok [5; 6] [7; 8] d0 /\ shares_ok [5; 6] [7; 8] d1 /\
    partial_sig keccak pshash 9 d1 = Ok (d1', ps, true) /\
    snd (process keccak pshash d0 ps) = Ok tt /\
    map fst (d_partials (run keccak pshash d0 [CallPartial 11; CallProcess ps])) = [0; 1].
Proof.
  intros keccak pshash LK.
  destruct (demo_partial keccak pshash 1 5 [6] 7 [8] [0; 1] 10 2 9) as (v & ps & EP & _); [split; reflexivity|tauto|].
  destruct (demo_partial keccak pshash 0 5 [6] 7 [8] [0; 1] 10 2 11) as (v0 & ps0 & EP0 & _); [split; reflexivity|tauto|].
  eexists _, _, _, ps. split; [apply (demo_new keccak 0); tauto|]. split; [apply (demo_new keccak 1); tauto|].
  split; [apply demo_shares|]. split; [apply demo_shares|]. split; [exact EP|]. split.
  - destruct (demo_accept keccak pshash 0 1 5 [6] 7 [8] [0; 1] 10 2 9 _ _ _ LK ltac:(split; reflexivity)
      ltac:(tauto) ltac:(tauto) ltac:(cbn; tauto) EP [] eq_refl) as [w E]; [cbn; tauto|].
    cbn [run fold_left] in E. rewrite E. reflexivity.
  - destruct (demo_accept keccak pshash 0 1 5 [6] 7 [8] [0; 1] 10 2 9 _ _ _ LK ltac:(split; reflexivity)
      ltac:(tauto) ltac:(tauto) ltac:(cbn; tauto) EP [CallPartial 11] eq_refl) as [w E];
      cbn [run fold_left step] in *; rewrite EP0 in *.
    + cbn. lia.
    + rewrite E. reflexivity.
Qed.
Print Assumptions C29_commitments_have_polynomials. Print Assumptions C29_accepted_iff.
Print Assumptions C29_collected_partials_correct.

(** ** C30 *)
(** dj and di: two DSS of one session, after any calls. *)
Theorem C30_honest_partial_accepted : forall keccak pshash f r parts msg H2
    xj Lj Rj Tj dj0 csj xi Li Ri Ti di0 csi k dj' ps,
  (forall b, length (keccak b) = 32%nat) -> Forall curve_point parts ->
  new_dss keccak xj parts Lj Rj H2 msg Tj = Ok dj0 -> shares_ok f r dj0 ->
  new_dss keccak xi parts Li Ri H2 msg Ti = Ok di0 ->
  ks_commits Li = ks_commits Lj -> ks_commits Ri = ks_commits Rj ->
  partial_sig keccak pshash k (run keccak pshash dj0 csj) = Ok (dj', ps, true) ->
  In (d_index dj0) H2 ->
  ~ In (d_index dj0) (d_partialsIdx (run keccak pshash di0 csi)) ->
  snd (process keccak pshash (run keccak pshash di0 csi) ps) = Ok tt.
Proof.
  intros keccak pshash f r parts msg H2 xj Lj Rj Tj dj0 csj xi Li Ri Ti di0 csi k dj' ps
    LK CP ENj S ENi EL ER EP IH NI.
  apply (new_dss_ok keccak pshash) in ENj, ENi.
  destruct ENj as (Ij & _ & _ & _ & J4 & J5 & J6 & J7 & J8 & J9 & _ & J11 & PK & Q).
  destruct ENi as (Ii & _ & _ & _ & D4 & D5 & D6 & D7 & D8 & D9 & _ & D11 & _ & _).
  pose proof (run_static keccak pshash csj dj0) as SJ. pose proof (shares_static f r _ _ (eq_sym SJ) S) as SR.
  unfold static in SJ. injection SJ as A1 A2 A3 A4 _ A5 A6 A7 A8 A9.
  pose proof (run_static keccak pshash csi di0) as SI. unfold static in SI. injection SI as _ _ _ B4 _ B5 B6 B7 B8 B9.
  destruct (honest_accepted keccak pshash f r (run keccak pshash dj0 csj) (run keccak pshash di0 csi) k dj' ps) as [v E].
  - exact LK.
  - apply inv_run, Ij.
  - exact SR.
  - rewrite A4, J5. exact CP.
  - rewrite A1, A2, J4. exact PK.
  - rewrite A2, A3, A4, J5. exact Q.
  - exact EP.
  - congruence.
  - congruence.
  - congruence.
  - congruence.
  - rewrite B9, A9, D11, J11, EL, ER. reflexivity.
  - rewrite A3, B7, D8. exact IH.
  - rewrite A3. exact NI.
  - rewrite E. reflexivity.
Qed.
(** C29_ex is an instance.  PartialSig succeeds whenever the keys are well formed: *)
Theorem C30_partial_available : forall keccak pshash x parts L R H2 msg T d0 cs k V Vs P Ps,
  new_dss keccak x parts L R H2 msg T = Ok d0 -> ks_commits R = V :: Vs -> ks_commits L = P :: Ps ->
  on_curve (fst P) (snd P) -> ~ (N | x) ->
  exists d' ps, partial_sig keccak pshash k (run keccak pshash d0 cs) = Ok (d', ps, true).
Proof.
  intros keccak pshash x parts L R H2 msg T d0 cs k V Vs P Ps EN EV EL O HX.
  apply (new_dss_ok keccak pshash) in EN. destruct EN as (I & _ & _ & _ & D4 & D5 & D6 & D7 & _).
  set (d := run keccak pshash d0 cs). pose proof (run_static keccak pshash cs d0) as ST. fold d in ST.
  assert (Eh : exists h, hash_sig keccak d = Ok h).
  { rewrite (hash_sig_static keccak _ d0 ST). eexists. apply hash_sig_ok. exists V, Vs, P, Ps.
    rewrite D6, D7. split; [exact EV|]. split; [exact EL|]. split; [exact O|reflexivity]. }
  destruct Eh as [h Eh]. assert (EX : d_secret d = x) by (unfold static in ST; injection ST as ->; exact D4).
  pose proof (sign_with_spec keccak k (d_secret d) (ps_hash keccak pshash (d_index d) (own_value d h) (d_sid d))) as SS.
  rewrite EX in SS at 1. specialize (SS HX). cbv zeta in SS.
  eexists _, _. apply partial_sig_ok. exists h. split; [exact Eh|]. cbv zeta. rewrite SS.
  split; [reflexivity|]. split; reflexivity.
Qed.
Print Assumptions C30_honest_partial_accepted. Print Assumptions C30_partial_available.

(** ** C31 *)
Theorem C31_signature_verifies : forall keccak pshash ord f r x parts L R H2 msg T d0 cs sg P Ps,
  (forall i l, Permutation (ord i l) l) -> Z.of_nat (length parts) < N ->
  new_dss keccak x parts L R H2 msg T = Ok d0 -> shares_ok f r d0 -> uint256 msg ->
  ks_commits L = P :: Ps ->
  Z.of_nat (length (ks_commits L)) <= T -> Z.of_nat (length (ks_commits R)) <= T ->
  signature keccak ord (run keccak pshash d0 cs) = Ok sg ->
  verify keccak (KP P) msg sg = Ok tt.
Proof.
  intros keccak pshash ord f r x parts L R H2 msg T d0 cs sg P Ps HO Hn EN S U EP LT RT ES.
  apply (new_dss_ok keccak pshash) in EN. destruct EN as (I & D1 & _ & _ & _ & D5 & D6 & D7 & _ & D9 & D10 & _).
  pose proof (run_static keccak pshash cs d0) as ST. pose proof ST as ST'.
  unfold static in ST'. injection ST' as _ _ _ B4 BT B5 B6 _ B8 _.
  pose proof S as (Cf & Cr & _).
  apply Forall2_length in Cf, Cr. rewrite D6 in Cf. rewrite D7 in Cr.
  destruct (sig_verifies keccak pshash ord (run keccak pshash d0 cs) f r sg HO) as (P' & ls & E1 & E2 & _).
  - apply inv_run, I.
  - rewrite B4, D5. exact Hn.
  - eapply shares_static; [symmetry; exact ST|exact S].
  - apply values_run; [exact S|]. intros h _. rewrite D1. constructor.
  - rewrite BT, D10, Cf. exact LT.
  - rewrite BT, D10, Cr. exact RT.
  - exact ES.
  - rewrite B5, D6, EP in E1. injection E1 as <- <-. rewrite B8, D9 in E2. apply E2, U.
Qed.
(** Both participants of C29_ex reach a signature: *)
Example C31_ex : forall keccak pshash ord, (forall b, length (keccak b) = 32%nat) ->
  (forall i l, Permutation (ord i l) l) ->
  exists d0 ps sg P Ps,
    new_dss keccak 3 demo_parts (demo_share [5; 6] 0) (demo_share [7; 8] 0) [0; 1] 10 2 = Ok d0 /\
    ks_commits (demo_share [5; 6] 0) = P :: Ps /\
    signature keccak ord (run keccak pshash d0 [CallPartial 11; CallProcess ps]) = Ok sg /\
    verify keccak (KP P) 10 sg = Ok tt.
Proof.
  intros keccak pshash ord LK HO. destruct (C29_ex keccak pshash LK) as (d0 & d1 & d1' & ps & E0 & E1 & S0 & S1 & EP & _ & EM).
  pose proof (new_dss_ok keccak pshash _ _ _ _ _ _ _ _ E0) as (I & D1 & _ & _ & _ & D5 & D6 & D7 & _ & D9 & D10 & _).
  exists d0, ps. remember [CallPartial 11; CallProcess ps] as cs eqn:Ecs. clear Ecs.
  pose proof (run_static keccak pshash cs d0) as ST.
  unfold static in ST. injection ST as _ _ _ B4 BT B5 B6 _ B8 _.
  destruct (sig_total keccak ord (run keccak pshash d0 cs) HO) as [_ A].
  - apply inv_run, I.
  - rewrite B4, D5. reflexivity.
  - rewrite BT, D10. lia.
  - destruct A as (a & s & A & _).
    + rewrite BT, D10. unfold ndk. rewrite EM. cbn. lia.
    + exists (Sig a (Some s)). exists (of_E (smul 5 eG)), [of_E (smul 6 eG)].
      split; [exact E0|]. split; [reflexivity|]. split; [exact A|].
      apply (C31_signature_verifies keccak pshash ord [5; 6] [7; 8] 3 demo_parts (demo_share [5; 6] 0)
        (demo_share [7; 8] 0) [0; 1] 10 2 d0 cs (Sig a (Some s)) _ [of_E (smul 6 eG)] HO).
      * reflexivity.
      * exact E0.
      * exact S0.
      * unfold uint256. split; [discriminate|reflexivity].
      * reflexivity.
      * apply Z.le_refl.
      * apply Z.le_refl.
      * exact A.
Qed.
Print Assumptions C31_signature_verifies.

(** ** C32 *)
Theorem C32_same_signature : forall keccak pshash ord ord' f r parts msg
    x L R H2 T d0 cs x' L' R' H2' T' d0' cs' sg sg',
  (forall i l, Permutation (ord i l) l) -> (forall i l, Permutation (ord' i l) l) -> Z.of_nat (length parts) < N ->
  new_dss keccak x parts L R H2 msg T = Ok d0 -> shares_ok f r d0 ->
  new_dss keccak x' parts L' R' H2' msg T' = Ok d0' -> shares_ok f r d0' ->
  Z.of_nat (length f) <= Z.min T T' -> Z.of_nat (length r) <= Z.min T T' ->
  signature keccak ord (run keccak pshash d0 cs) = Ok sg ->
  signature keccak ord' (run keccak pshash d0' cs') = Ok sg' ->
  sg = sg'.
Proof.
  intros keccak pshash ord ord' f r parts msg x L R H2 T d0 cs x' L' R' H2' T' d0' cs' sg sg'
    HO HO' Hn EN S EN' S' LF LR ES ES'.
  assert (K : forall ord x L R H2 T d0 cs sg, (forall i l, Permutation (ord i l) l) ->
    new_dss keccak x parts L R H2 msg T = Ok d0 -> shares_ok f r d0 -> Z.of_nat (length f) <= T -> Z.of_nat (length r) <= T ->
    signature keccak ord (run keccak pshash d0 cs) = Ok sg ->
    exists V rs P ls, ks_commits (d_random d0) = V :: rs /\ ks_commits (d_long d0) = P :: ls /\
      sg = Sig (address_of keccak V) (Some ((poly r 0 - challenge_of keccak P (address_of keccak V) msg * poly f 0) mod N))).
  { clear - Hn. intros ord x L R H2 T d0 cs sg HO EN S LT RT ES.
    apply (new_dss_ok keccak pshash) in EN. destruct EN as (I & D1 & _ & _ & _ & D5 & D6 & D7 & _ & D9 & D10 & _).
    pose proof (run_static keccak pshash cs d0) as ST. pose proof ST as ST'.
    unfold static in ST'. injection ST' as _ _ _ B4 BT B5 B6 _ B8 _.
    destruct (sig_value keccak ord (run keccak pshash d0 cs) f r sg HO) as (V & rs & P & ls & h & E1 & E2 & _ & E3 & E4).
    - apply inv_run, I.
    - rewrite B4, D5. exact Hn.
    - eapply shares_static; [symmetry; exact ST|exact S].
    - apply values_run; [exact S|]. intros h _. rewrite D1. constructor.
    - rewrite BT, D10. exact LT.
    - rewrite BT, D10. exact RT.
    - exact ES.
    - exists V, rs, P, ls. rewrite B6 in E1. rewrite B5 in E2. split; [exact E1|]. split; [exact E2|].
      rewrite E4, E3, B8, D9. reflexivity. }
  destruct (K ord x L R H2 T d0 cs sg HO EN S ltac:(lia) ltac:(lia) ES) as (V & rs & P & ls & A1 & A2 & ->).
  destruct (K ord' x' L' R' H2' T' d0' cs' sg' HO' EN' S' ltac:(lia) ltac:(lia) ES') as (V' & rs' & P' & ls' & A1' & A2' & ->).
  assert (U : forall c C C', commits_of c C -> commits_of c C' -> C = C').
  { clear. intros c C C' H. revert C'. induction H as [|a Q c C HQ _ IH]; intros C' H'; inversion H' as [|? ? ? ? HQ' HC]; subst; [reflexivity|].
    f_equal; [congruence|apply IH, HC]. }
  destruct S as (Sf & Sr & _). destruct S' as (Sf' & Sr' & _).
  rewrite <- (U _ _ _ Sf Sf') in A2'. rewrite <- (U _ _ _ Sr Sr') in A1'.
  assert (EV : V = V') by congruence. assert (EP : P = P') by congruence. rewrite EV, EP. reflexivity.
Qed.
(** C31_ex meets the hypotheses; so does the other participant of that session. *)
Print Assumptions C32_same_signature.

(** ** C33 *)
Theorem C33_rejected_changes_nothing : forall keccak pshash d ps,
  snd (process keccak pshash d ps) <> Ok tt -> fst (process keccak pshash d ps) = d.
Proof.
  intros keccak pshash d ps H. destruct (process_cases keccak pshash d ps) as [[_ E]|[E _]]; [exact E|contradiction].
Qed.
(** A received index is in range, qualified, and was not yet collected. *)
Theorem C33_accepted_is_new : forall keccak pshash d ps, snd (process keccak pshash d ps) = Ok tt ->
  exists i v, ps_partial ps = Some (i, Some v) /\ 0 <= i < Z.of_nat (length (d_participants d)) /\
    In i (d_H2 d) /\ ~ In i (d_partialsIdx d) /\
    d_partials (fst (process keccak pshash d ps)) = d_partials d ++ [(i, v)].
Proof.
  intros keccak pshash d ps H.
  destruct (process_cases keccak pshash d ps) as [[E _]|(_ & i & v & h & A & B & C & D & _ & E)]; [contradiction|].
  exists i, v. rewrite E. repeat (split; [tauto|]). reflexivity.
Qed.
Theorem C33_call_sequences : forall keccak pshash x parts L R H2 msg T d0 cs,
  new_dss keccak x parts L R H2 msg T = Ok d0 ->
  let d := run keccak pshash d0 cs in
  length (d_partials d) = (accepted keccak pshash d0 cs + (if d_signed d then 1 else 0))%nat /\
  (forall e, In e (d_partials d) ->
     0 <= fst e < Z.of_nat (length parts) /\ (In (fst e) H2 \/ fst e = d_index d0)) /\
  (own_after_signing (d_index d0) cs -> NoDup (map fst (d_partials d))).
Proof.
  intros keccak pshash x parts L R H2 msg T d0 cs EN d.
  apply (new_dss_ok keccak pshash) in EN. destruct EN as (I & D1 & D2 & D3 & _ & D5 & _ & _ & D8 & _).
  pose proof (run_static keccak pshash cs d0) as ST. unfold static in ST. injection ST as _ _ B3 B4 _ _ _ B7 _ _.
  pose proof (inv_run keccak pshash cs d0 I) as IR. fold d in B3, B4, B7, IR. split; [|split].
  - pose proof (count_run keccak pshash cs d0) as C. rewrite D3, D1 in C. fold d in C. cbn [b2n length] in C.
    unfold b2n in C. lia.
  - intros e He. split.
    + pose proof (inv_range keccak d IR) as F. rewrite Forall_forall in F. rewrite B4, D5 in F. apply F, He.
    + pose proof (inv_qual keccak d IR) as F. rewrite Forall_forall in F. rewrite B7, B3, D8 in F. apply F, He.
  - intros OA. apply nodup_run; [exact I|rewrite D1; constructor|]. right. rewrite D1. split; [cbn; tauto|exact OA].
Qed.
(** Without the proviso a DSS can count itself twice: a second DSS with the same
    keys sends its partial, which is accepted, and PartialSig then appends again. *)
Theorem C33_own_index_twice_refuted : forall keccak pshash, (forall b, length (keccak b) = 32%nat) ->
  exists d0 ps, new_dss keccak 3 demo_parts (demo_share [5; 6] 0) (demo_share [7; 8] 0) [0; 1] 10 2 = Ok d0 /\
    shares_ok [5; 6] [7; 8] d0 /\
    map fst (d_partials (run keccak pshash d0 [CallProcess ps; CallPartial 11])) = [0; 0].
Proof.
  intros keccak pshash LK.
  destruct (demo_partial keccak pshash 0 5 [6] 7 [8] [0; 1] 10 2 9) as (v & ps & EP & _); [split; reflexivity|tauto|].
  exists (demo_dss keccak 0 [5; 6] [7; 8] [0; 1] 10 2), ps. split; [apply (demo_new keccak 0); tauto|]. split; [apply demo_shares|].
  destruct (demo_accept keccak pshash 0 0 5 [6] 7 [8] [0; 1] 10 2 9 _ _ _ LK ltac:(split; reflexivity)
      ltac:(tauto) ltac:(tauto) ltac:(cbn; tauto) EP [] eq_refl) as [w E]; [cbn; tauto|].
  cbn [run fold_left] in E.
  destruct (demo_hash keccak 0 5 [6] 7 [8] [0; 1] 10 2) as [h Eh]; [split; reflexivity|].
  assert (EI : d_index (demo_dss keccak 0 [5; 6] [7; 8] [0; 1] 10 2) = 0) by reflexivity.
  assert (EG : d_signed (demo_dss keccak 0 [5; 6] [7; 8] [0; 1] 10 2) = false) by reflexivity.
  assert (EQ : d_partials (demo_dss keccak 0 [5; 6] [7; 8] [0; 1] 10 2) = []) by reflexivity.
  generalize dependent (demo_dss keccak 0 [5; 6] [7; 8] [0; 1] 10 2). intros d0 _ E Eh EI EG EQ.
  unfold run. cbn [fold_left].
  assert (E1 : step keccak pshash d0 (CallProcess ps) = add_partial d0 0 w (d_signed d0)) by (cbn [step]; rewrite E; reflexivity).
  rewrite E1.
  rewrite (partial_state keccak pshash 11 _ h); [|exact Eh|exact EG].
  cbn. rewrite EQ, EI. reflexivity.
Qed.
(** The run of C29_ex satisfies the proviso. *)
Example C33_ex : forall ps, own_after_signing 0 [CallPartial 11; CallProcess ps].
Proof. exact (fun _ => Logic.I). Qed.
Print Assumptions C33_rejected_changes_nothing. Print Assumptions C33_accepted_is_new.
Print Assumptions C33_call_sequences. Print Assumptions C33_own_index_twice_refuted.

(** ** C34 *)
Theorem C34_available_iff_distinct : forall keccak pshash ord x parts L R H2 msg T d0 cs,
  (forall i l, Permutation (ord i l) l) -> Z.of_nat (length parts) < N -> 1 <= T ->
  new_dss keccak x parts L R H2 msg T = Ok d0 ->
  let d := run keccak pshash d0 cs in
  (Z.of_nat (distinct_signers d) < T -> signature keccak ord d = Err) /\
  (T <= Z.of_nat (distinct_signers d) ->
     exists a s, signature keccak ord d = Ok (Sig a (Some s)) /\ 0 <= s < N).
Proof.
  intros keccak pshash ord x parts L R H2 msg T d0 cs HO Hn T1 EN d.
  apply (new_dss_ok keccak pshash) in EN. destruct EN as (I & _ & _ & _ & _ & D5 & _ & _ & _ & _ & D10 & _).
  pose proof (run_static keccak pshash cs d0) as ST. unfold static in ST. injection ST as _ _ _ B4 BT _ _ _ _ _.
  fold d in B4, BT. rewrite <- D10, <- BT. apply sig_total; [exact HO|apply inv_run, I|rewrite B4, D5; exact Hn|rewrite BT, D10; exact T1].
Qed.
Theorem C34_enough_iff_signature : forall keccak pshash ord x parts L R H2 msg T d0 cs,
  (forall i l, Permutation (ord i l) l) -> Z.of_nat (length parts) < N -> 1 <= T ->
  new_dss keccak x parts L R H2 msg T = Ok d0 -> own_after_signing (d_index d0) cs ->
  let d := run keccak pshash d0 cs in
  (enough d = true <-> T <= Z.of_nat (length (d_partials d))) /\
  (enough d = true -> exists sg, signature keccak ord d = Ok sg) /\
  (enough d = false -> signature keccak ord d = Err).
Proof.
  intros keccak pshash ord x parts L R H2 msg T d0 cs HO Hn T1 EN OA d.
  destruct (C34_available_iff_distinct keccak pshash ord x parts L R H2 msg T d0 cs HO Hn T1 EN) as [A B]. fold d in A, B.
  destruct (C33_call_sequences keccak pshash x parts L R H2 msg T d0 cs EN) as (_ & _ & ND). specialize (ND OA). fold d in ND.
  assert (DS : distinct_signers d = length (d_partials d)).
  { unfold distinct_signers. rewrite nodup_fixed_point by exact ND. apply map_length. }
  assert (ET : d_T d = T).
  { apply (new_dss_ok keccak pshash) in EN. destruct EN as (_ & _ & _ & _ & _ & _ & _ & _ & _ & _ & D10 & _).
    pose proof (run_static keccak pshash cs d0) as ST. unfold static in ST. injection ST as _ _ _ _ BT _ _ _ _ _.
    unfold d. rewrite BT. exact D10. }
  unfold enough. rewrite ET, Z.leb_le, Z.leb_gt. rewrite DS in A, B. split; [tauto|]. split.
  - intros H. destruct (B H) as (a & s & E & _). eauto.
  - exact A.
Qed.
(** In general EnoughPartialSig does not imply that Signature succeeds. *)
Theorem C34_enough_but_no_signature_refuted : forall keccak pshash ord,
  (forall b, length (keccak b) = 32%nat) -> (forall i l, Permutation (ord i l) l) ->
  exists d0 cs, new_dss keccak 3 demo_parts (demo_share [5; 6] 0) (demo_share [7; 8] 0) [0; 1] 10 2 = Ok d0 /\
    enough (run keccak pshash d0 cs) = true /\ signature keccak ord (run keccak pshash d0 cs) = Err.
Proof.
  intros keccak pshash ord LK HO.
  destruct (C33_own_index_twice_refuted keccak pshash LK) as (d0 & ps & EN & _ & E).
  exists d0, [CallProcess ps; CallPartial 11]. split; [exact EN|].
  remember [CallProcess ps; CallPartial 11] as cs eqn:Ecs. clear Ecs. split.
  - unfold enough. apply Z.leb_le. pose proof EN as EN'. apply (new_dss_ok keccak pshash) in EN'.
    destruct EN' as (_ & _ & _ & _ & _ & _ & _ & _ & _ & _ & D10 & _).
    pose proof (run_static keccak pshash cs d0) as ST. unfold static in ST. injection ST as _ _ _ _ BT _ _ _ _ _.
    rewrite BT, D10. rewrite <- (map_length fst), E. cbn. lia.
  - refine (proj1 (C34_available_iff_distinct keccak pshash ord _ _ _ _ _ _ _ _ _ HO _ _ EN) _).
    + reflexivity.
    + lia.
    + unfold distinct_signers. rewrite E. reflexivity.
Qed.
Print Assumptions C34_available_iff_distinct. Print Assumptions C34_enough_iff_signature.
Print Assumptions C34_enough_but_no_signature_refuted.

(** ** C35 *)
Theorem C35_partial_idempotent : forall keccak pshash d k1 d1 ps1 b1 cs k2 d2 ps2 b2,
  partial_sig keccak pshash k1 d = Ok (d1, ps1, b1) ->
  partial_sig keccak pshash k2 (run keccak pshash d1 cs) = Ok (d2, ps2, b2) ->
  d2 = run keccak pshash d1 cs /\ ps_partial ps2 = ps_partial ps1 /\ ps_sid ps2 = ps_sid ps1 /\ b2 = b1.
Proof.
  intros keccak pshash d k1 d1 ps1 b1 cs k2 d2 ps2 b2 E1 E2.
  apply partial_sig_ok in E1, E2. cbv zeta in E1, E2. destruct E1 as (h & Eh & B1 & P1 & X1). destruct E2 as (h' & Eh' & B2 & P2 & X2).
  assert (ST : static (run keccak pshash d1 cs) = static d).
  { rewrite run_static, X1. destruct (d_signed d); reflexivity. }
  rewrite (hash_sig_static keccak _ d ST) in Eh'. assert (h' = h) by congruence. subst h'.
  assert (SG : d_signed (run keccak pshash d1 cs) = true).
  { assert (SG1 : d_signed d1 = true) by (rewrite X1; destruct (d_signed d) eqn:Q; [exact Q|reflexivity]).
    clear - SG1. revert d1 SG1. unfold run. induction cs as [|c cs IH]; intros d SG; [exact SG|]. cbn [fold_left]. apply IH.
    destruct (step_cases keccak pshash d c) as [->|[(k & h & _ & _ & X & _)|(ps & i & v & h & _ & _ & _ & _ & _ & _ & _ & ->)]];
      [exact SG|congruence|exact SG]. }
  rewrite SG in X2. unfold static in ST. injection ST as A1 A2 A3 A4 A5 A6 A7 A8 A9 A10.
  assert (OV : own_value (run keccak pshash d1 cs) h = own_value d h) by (unfold own_value; rewrite A6, A7; reflexivity).
  split; [exact X2|]. subst ps1 ps2. cbn [ps_partial ps_sid]. rewrite OV, A3, A10. split; [reflexivity|]. split; [reflexivity|].
  rewrite B1, B2, A1, A3, A10, OV. clear.
  set (m := ps_hash _ _ _ _ _). destruct (Zdivide_dec N (d_secret d)) as [DV|ND].
  - rewrite !sign_with_zero by exact DV. reflexivity.
  - rewrite !sign_with_spec by exact ND. reflexivity.
Qed.
(** C29_ex, then a second PartialSig. *)
Example C35_ex : forall keccak pshash cs, exists d1 ps1 d2 ps2,
  let d := demo_dss keccak 0 [5; 6] [7; 8] [0; 1] 10 2 in
  partial_sig keccak pshash 9 d = Ok (d1, ps1, true) /\
  partial_sig keccak pshash 10 (run keccak pshash d1 cs) = Ok (d2, ps2, true).
Proof.
  intros keccak pshash cs.
  destruct (demo_partial keccak pshash 0 5 [6] 7 [8] [0; 1] 10 2 9) as (v & ps & EP & _); [split; reflexivity|tauto|].
  destruct (C30_partial_available keccak pshash 3 demo_parts (demo_share [5; 6] 0) (demo_share [7; 8] 0) [0; 1] 10 2
    (demo_dss keccak 0 [5; 6] [7; 8] [0; 1] 10 2) (CallPartial 9 :: cs) 10
    (of_E (smul 7 eG)) [of_E (smul 8 eG)] (of_E (smul 5 eG)) [of_E (smul 6 eG)]) as (d2 & ps2 & E2).
  - apply (demo_new keccak 0). tauto.
  - reflexivity.
  - reflexivity.
  - apply curve_point_on, demo_curve, small_ndiv. split; reflexivity.
  - apply small_ndiv. split; reflexivity.
  - eexists _, ps, d2, ps2. cbv zeta. split; [exact EP|].
    unfold run in E2. cbn [fold_left step] in E2. rewrite EP in E2. exact E2.
Qed.
Print Assumptions C35_partial_idempotent.

(** ** C36 *)
Theorem C36_negative_index_panics_refuted : forall keccak pshash, exists d ps,
  new_dss keccak 3 demo_parts (demo_share [5; 6] 0) (demo_share [7; 8] 0) [0; 1] 10 2 = Ok d /\
  ps_partial ps = Some (-1, Some 0) /\ snd (process keccak pshash d ps) = Panic.
Proof.
  intros keccak pshash. eexists _, (mkPsig (Some (-1, Some 0)) [] (Sig [] (Some 0))).
  split; [apply (demo_new keccak 0); tauto|]. split; reflexivity.
Qed.
(** Exactly these partials panic. *)
Theorem C36_panics_iff : forall keccak pshash d ps, snd (process keccak pshash d ps) = Panic <->
  ps_partial ps = None \/
  exists i v, ps_partial ps = Some (i, v) /\
    (i < 0 \/
     0 <= i < Z.of_nat (length (d_participants d)) /\ ps_sid ps = d_sid d /\
     (v = None \/ ps_sig ps = SigNil \/ (exists a, ps_sig ps = Sig a None) \/
      exists q w, v = Some w /\ nth_error (d_participants d) (Z.to_nat i) = Some q /\
        verify keccak (KP q) (signed_digest keccak pshash i w (d_sid d)) (ps_sig ps) = Ok tt /\
        In i (d_H2 d) /\ ~ In i (d_partialsIdx d) /\
        (ks_commits (d_random d) = [] \/ ks_commits (d_long d) = [] \/
         exists P ls, ks_commits (d_long d) = P :: ls /\ ~ on_curve (fst P) (snd P)))).
Proof.
  intros keccak pshash d ps. change (signed_digest keccak pshash) with (ps_hash keccak pshash). rewrite process_panic.
  split; (intros [X|(i & v & E & [X|(A & B & [X|[X|[X|(q & w & C)]]])])];
    [left; exact X|right; exists i, v; tauto|right; exists i, v; tauto|right; exists i, v; tauto|right; exists i, v; tauto|]);
    right; exists i, v; (split; [exact E|]); right; (split; [exact A|]); (split; [exact B|]); right; right; right; exists q, w;
    pose proof (hash_sig_panic keccak pshash d); tauto.
Qed.
Print Assumptions C36_negative_index_panics_refuted. Print Assumptions C36_panics_iff.

(** ** C37 *)
(** A negative or oversized message is signed all the same, *)
Theorem C37_out_of_range_signed_refuted : forall keccak pshash ord msg,
  (forall b, length (keccak b) = 32%nat) -> (forall i l, Permutation (ord i l) l) -> ~ uint256 msg ->
  exists d0 d1 d1' ps sg,
    new_dss keccak 3 demo_parts (demo_share [5; 6] 0) (demo_share [7; 8] 0) [0; 1] msg 2 = Ok d0 /\
    new_dss keccak 6 demo_parts (demo_share [5; 6] 1) (demo_share [7; 8] 1) [0; 1] msg 2 = Ok d1 /\
    partial_sig keccak pshash 9 d1 = Ok (d1', ps, true) /\
    signature keccak ord (run keccak pshash d0 [CallPartial 11; CallProcess ps]) = Ok sg.
Proof.
  intros keccak pshash ord msg LK HO _.
  destruct (demo_partial keccak pshash 1 5 [6] 7 [8] [0; 1] msg 2 9) as (v & ps & EP & _); [split; reflexivity|tauto|].
  destruct (demo_partial keccak pshash 0 5 [6] 7 [8] [0; 1] msg 2 11) as (v0 & ps0 & EP0 & _); [split; reflexivity|tauto|].
  pose proof (demo_new keccak 0 [5; 6] [7; 8] [0; 1] msg 2 ltac:(tauto)) as EN. change (3 + 3 * 0) with 3 in EN.
  assert (EM : map fst (d_partials (run keccak pshash (demo_dss keccak 0 [5; 6] [7; 8] [0; 1] msg 2) [CallPartial 11; CallProcess ps])) = [0; 1]).
  { destruct (demo_accept keccak pshash 0 1 5 [6] 7 [8] [0; 1] msg 2 9 _ _ _ LK ltac:(split; reflexivity)
      ltac:(tauto) ltac:(tauto) ltac:(cbn; tauto) EP [CallPartial 11] eq_refl) as [w E];
      cbn [run fold_left step] in *; rewrite EP0 in *.
    + cbn. lia.
    + rewrite E. reflexivity. }
  destruct (proj2 (C34_available_iff_distinct keccak pshash ord 3 demo_parts _ _ _ _ 2 _ [CallPartial 11; CallProcess ps] HO eq_refl ltac:(lia) EN)) as (a & s & ES & _).
  { unfold distinct_signers. rewrite EM. cbn. lia. }
  eexists _, _, _, ps, _. split; [exact EN|]. split; [apply (demo_new keccak 1); tauto|]. split; [exact EP|exact ES].
Qed.
(** and every signature issued for one is rejected by Verify. *)
Theorem C37_out_of_range_signature_rejected : forall keccak pshash ord f r x parts L R H2 msg T d0 cs sg P Ps,
  (forall i l, Permutation (ord i l) l) -> Z.of_nat (length parts) < N ->
  new_dss keccak x parts L R H2 msg T = Ok d0 -> shares_ok f r d0 -> ~ uint256 msg ->
  ks_commits L = P :: Ps ->
  Z.of_nat (length (ks_commits L)) <= T -> Z.of_nat (length (ks_commits R)) <= T ->
  signature keccak ord (run keccak pshash d0 cs) = Ok sg ->
  verify keccak (KP P) msg sg = Err.
Proof.
  intros keccak pshash ord f r x parts L R H2 msg T d0 cs sg P Ps HO Hn EN S U EP LT RT ES.
  apply (new_dss_ok keccak pshash) in EN. destruct EN as (I & D1 & _ & _ & _ & D5 & D6 & D7 & _ & D9 & D10 & _).
  pose proof (run_static keccak pshash cs d0) as ST. pose proof ST as ST'.
  unfold static in ST'. injection ST' as _ _ _ B4 BT B5 B6 _ B8 _.
  pose proof S as (Cf & Cr & _).
  apply Forall2_length in Cf, Cr. rewrite D6 in Cf. rewrite D7 in Cr.
  destruct (sig_verifies keccak pshash ord (run keccak pshash d0 cs) f r sg HO) as (P' & ls & E1 & _ & E2).
  - apply inv_run, I.
  - rewrite B4, D5. exact Hn.
  - eapply shares_static; [symmetry; exact ST|exact S].
  - apply values_run; [exact S|]. intros h _. rewrite D1. constructor.
  - rewrite BT, D10, Cf. exact LT.
  - rewrite BT, D10, Cr. exact RT.
  - exact ES.
  - rewrite B5, D6, EP in E1. injection E1 as <- <-. rewrite B8, D9 in E2. apply E2, U.
Qed.
Example C37_ex : ~ uint256 (-1) /\ ~ uint256 (2 ^ 256).
Proof. unfold uint256. lia. Qed.
Print Assumptions C37_out_of_range_signed_refuted. Print Assumptions C37_out_of_range_signature_rejected.
