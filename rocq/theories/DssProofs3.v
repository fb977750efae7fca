(** Counting, panics and example sessions for ethdss.go. *)
From Coq Require Import ZArith Znumtheory List Lia Bool Permutation.
From Coq Require Import Init.Byte.
From Verif Require Import Params NumTh PrimeN Zmod Curve Order Bytes Res Secp Spec SecpProofs SecpProofs2
  PublicKey Schnorr SchnorrProofs Lagrange Dss DssSpec DssProofs DssProofs2.
Import ListNotations.
Open Scope Z_scope.

Lemma bytes_eqb_eq a b : bytes_eqb a b = true <-> a = b.
Proof. destruct (bytes_eqb_spec a b); split; congruence. Qed.

Lemma Forall2_length {A B} (Q : A -> B -> Prop) l m : Forall2 Q l m -> length l = length m.
Proof. induction 1; cbn; congruence. Qed.

Lemma pub_eval_total C i : exists P, pub_eval C i = Ok P.
Proof.
  unfold pub_eval. induction C as [|c C [P IH]]; cbn [fold_right]; [eexists; reflexivity|].
  rewrite IH. cbn [rbind]. destruct (pt_mul_total (sc_set_int64 (1 + i)) P) as [Q ->]. cbn [rbind]. eexists; reflexivity.
Qed.

Section Hash.
  Variable keccak : bytes -> bytes.
  Variable pshash : Z -> Z -> bytes.

  Definition b2n (b : bool) : nat := if b then 1%nat else 0%nat.

  Lemma count_run cs : forall d,
    (length (d_partials (run keccak pshash d cs)) + b2n (d_signed d)
     = length (d_partials d) + accepted keccak pshash d cs + b2n (d_signed (run keccak pshash d cs)))%nat.
  Proof.
    unfold run. induction cs as [|c cs IH]; intros d; cbn [fold_left accepted]; [lia|].
    specialize (IH (step keccak pshash d c)). destruct c as [k|ps].
    - destruct (partial_sig keccak pshash k d) as [[[d' ps] b]| |] eqn:E; cbn [step] in *; rewrite E in *; try lia.
      apply partial_sig_ok in E. destruct E as (h & _ & _ & _ & ->).
      destruct (d_signed d) eqn:ES; [rewrite ES in *; lia|].
      cbn [add_partial d_partials d_signed] in *. rewrite app_length in IH. cbn [length b2n] in *. lia.
    - destruct (process_cases keccak pshash d ps) as [[E1 E2]|(E1 & i & v & h & _ & _ & _ & _ & _ & E2)]; cbn [step] in *.
      + rewrite E2 in *. destruct (snd (process keccak pshash d ps)) as [[]| |]; [contradiction| |]; lia.
      + rewrite E1, E2 in *. cbn [add_partial d_partials d_signed] in *. rewrite app_length in IH. cbn [length] in *. lia.
  Qed.

  Lemma no_hash_run cs : forall d, (forall h, hash_sig keccak d <> Ok h) -> run keccak pshash d cs = d.
  Proof.
    unfold run. induction cs as [|c cs IH]; intros d H; [reflexivity|]. cbn [fold_left].
    destruct (step_cases keccak pshash d c) as [E|[(k & h & _ & Eh & _)|(ps & i & v & h & _ & _ & _ & _ & _ & Eh & _)]].
    - rewrite E. apply IH, H.
    - destruct (H _ Eh).
    - destruct (H _ Eh).
  Qed.

  Lemma nodup_run cs : forall d, inv keccak d -> NoDup (map fst (d_partials d)) ->
    (d_signed d = true \/ (~ In (d_index d) (map fst (d_partials d)) /\ own_after_signing (d_index d) cs)) ->
    NoDup (map fst (d_partials (run keccak pshash d cs))).
  Proof.
    assert (APP : forall (l : list Z) a, NoDup l -> ~ In a l -> NoDup (l ++ [a])).
    { intros l a ND NI. eapply (Permutation_NoDup (l := a :: l)).
      - apply Permutation_cons_append.
      - constructor; assumption. }
    unfold run. induction cs as [|c cs IH]; intros d I ND H; [exact ND|].
    destruct (hash_sig keccak d) as [h0| |] eqn:Eh0.
    2,3: change (NoDup (map fst (d_partials (run keccak pshash d (c :: cs))))); rewrite no_hash_run by (intros; congruence); exact ND.
    cbn [fold_left].
    pose proof (inv_step keccak pshash d c I) as I'.
    destruct (step_cases keccak pshash d c) as [E|[(k & h & -> & Eh & ES & E)|(ps & i & v & h & -> & EP & R & Q & NI & Eh & EPr & E)]].
    - rewrite E. apply IH; [exact I|exact ND|]. destruct H as [H|[H1 H2]]; [tauto|].
      destruct c as [k|ps]; [|right; split; [exact H1|apply H2]].
      (* CallPartial changed nothing: it panicked, so nothing is ever collected *)
      destruct (d_signed d) eqn:ES; [tauto|]. right. split; [exact H1|].
      cbn [step] in E. rename h0 into h. rename Eh0 into Eh.
      { exfalso. set (v := own_value d h) in *.
        set (sg := sign_with keccak k (KS (d_secret d)) (ps_hash keccak pshash (d_index d) v (d_sid d))).
        assert (EP : partial_sig keccak pshash k d = Ok (add_partial d (d_index d) v true,
                     mkPsig (Some (d_index d, Some v)) (d_sid d) (match sg with Ok s => s | _ => SigNil end), is_ok sg)).
        { apply partial_sig_ok. exists h. split; [exact Eh|]. cbv zeta. rewrite ES. split; [reflexivity|]. split; reflexivity. }
        rewrite EP in E. apply (f_equal (fun x => length (d_partials x))) in E. cbn in E. rewrite app_length in E. cbn in E. lia. }
    - rewrite E in *. apply IH; [exact I'| |left; reflexivity]. cbn. rewrite map_app. apply APP; [exact ND|].
      destruct H as [H|[H _]]; [congruence|exact H].
    - rewrite E in *. cbn in I'. apply IH; [exact I'| |].
      + cbn. rewrite map_app. apply APP; [exact ND|]. rewrite <- (inv_keys keccak d I). exact NI.
      + cbn. destruct H as [H|[H1 [H2 H3]]]; [tauto|]. right. split; [|exact H3].
        rewrite map_app, in_app_iff. cbn. intros [X|[X|[]]]; [tauto|]. subst i. exact (H2 _ EP).
  Qed.

  Lemma partial_state k d h : hash_sig keccak d = Ok h -> d_signed d = false ->
    step keccak pshash d (CallPartial k) = add_partial d (d_index d) (own_value d h) true.
  Proof.
    intros Eh ES. cbn [step].
    set (sg := sign_with keccak k (KS (d_secret d)) (ps_hash keccak pshash (d_index d) (own_value d h) (d_sid d))).
    assert (X : partial_sig keccak pshash k d = Ok (add_partial d (d_index d) (own_value d h) true,
      mkPsig (Some (d_index d, Some (own_value d h))) (d_sid d) (match sg with Ok s => s | _ => SigNil end), is_ok sg)).
    { apply partial_sig_ok. exists h. split; [exact Eh|]. cbv zeta. rewrite ES. split; [reflexivity|]. split; reflexivity. }
    rewrite X. reflexivity.
  Qed.

  (** ** Panics *)
  Lemma hash_sig_panic d : hash_sig keccak d = Panic <->
    ks_commits (d_random d) = [] \/ ks_commits (d_long d) = [] \/
    exists P ls, ks_commits (d_long d) = P :: ls /\ ~ on_curve (fst P) (snd P).
  Proof.
    unfold hash_sig. destruct (ks_commits (d_random d)) as [|V rs]; [tauto|].
    rewrite eth_address_spec. cbn [rbind].
    destruct (ks_commits (d_long d)) as [|P ls]; [tauto|].
    destruct (challenge_hash keccak P (address_of keccak V) (d_msg d)) as [h| |] eqn:E.
    - apply challenge_hash_ok in E. split; [discriminate|]. intros [X|[X|(P' & ls' & X & Y)]]; try discriminate.
      injection X as <- <-. tauto.
    - apply challenge_hash_err in E. split; [|reflexivity]. intros _. right; right. eauto.
    - destruct (challenge_hash_no_panic _ _ _ _ E).
  Qed.

  Lemma process_panic d ps : snd (process keccak pshash d ps) = Panic <->
    ps_partial ps = None \/
    exists i v, ps_partial ps = Some (i, v) /\
      (i < 0 \/
       0 <= i < Z.of_nat (length (d_participants d)) /\ ps_sid ps = d_sid d /\
       (v = None \/ ps_sig ps = SigNil \/ (exists a, ps_sig ps = Sig a None) \/
        exists q w, v = Some w /\ nth_error (d_participants d) (Z.to_nat i) = Some q /\
          verify keccak (KP q) (ps_hash keccak pshash i w (d_sid d)) (ps_sig ps) = Ok tt /\
          In i (d_H2 d) /\ ~ In i (d_partialsIdx d) /\ hash_sig keccak d = Panic)).
  Proof.
    unfold process. destruct (ps_partial ps) as [[i v]|]; [|tauto].
    destruct (Z_lt_ge_dec i 0) as [LT|GE].
    { rewrite (proj2 (find_pub_spec _ _) LT). split; [intros _|reflexivity]. right. exists i, v. tauto. }
    destruct (Z_lt_ge_dec i (Z.of_nat (length (d_participants d)))) as [LT'|GE'].
    2:{ rewrite (proj1 (find_pub_spec _ _)) by lia. split; [discriminate|].
        intros [X|(i' & v' & X & Y)]; [discriminate|]. injection X as <- <-. lia. }
    destruct (find_pub_some (d_participants d) i) as (q & Eq & ->); [lia|].
    destruct (bytes_eqb (ps_sid ps) (d_sid d)) eqn:ES; cbn [negb].
    2:{ split; [discriminate|]. intros [X|(i' & v' & X & Y)]; [discriminate|]. injection X as <- <-.
        destruct Y as [Y|(_ & Y & _)]; [lia|]. rewrite Y in ES. rewrite (proj2 (bytes_eqb_eq _ _) eq_refl) in ES. discriminate. }
    apply bytes_eqb_eq in ES. destruct v as [v|].
    2:{ split; [intros _|reflexivity]. right. exists i, None. split; [reflexivity|]. right. split; [lia|tauto]. }
    destruct (verify keccak (KP q) (ps_hash keccak pshash i v (ps_sid ps)) (ps_sig ps)) as [[]| |] eqn:EV.
    - assert (SG : exists a z, ps_sig ps = Sig a (Some z)).
      { destruct (ps_sig ps) as [|a [z|]]; [discriminate| |discriminate]. eauto. }
      destruct SG as (a & z & SG).
      assert (P1 : snd (d, @Err unit) = Panic <-> False) by (split; [discriminate|tauto]).
      assert (P2 : forall X : Prop, (X -> hash_sig keccak d = Panic /\ In i (d_H2 d) /\ ~ In i (d_partialsIdx d)) ->
        (hash_sig keccak d = Panic /\ In i (d_H2 d) /\ ~ In i (d_partialsIdx d) -> X) ->
        X <-> (hash_sig keccak d = Panic /\ In i (d_H2 d) /\ ~ In i (d_partialsIdx d))) by tauto.
      transitivity (hash_sig keccak d = Panic /\ In i (d_H2 d) /\ ~ In i (d_partialsIdx d)).
      + destruct (existsb (Z.eqb i) (d_H2 d)) eqn:EH; cbn [negb].
        2:{ apply existsb_nIn in EH. rewrite P1. tauto. }
        apply existsb_In in EH. destruct (existsb (Z.eqb i) (d_partialsIdx d)) eqn:EI.
        { apply existsb_In in EI. rewrite P1. tauto. }
        apply existsb_nIn in EI. destruct (hash_sig keccak d) as [h| |] eqn:Eh; cbn [rbind].
        * destruct (pub_eval_total (ks_commits (d_random d)) i) as [A ->].
          destruct (pub_eval_total (ks_commits (d_long d)) i) as [B ->]. cbn [rbind].
          destruct (pt_mul_total h B) as [C ->]. cbn [rbind]. rewrite pt_mul_base by tauto. cbn [rbind].
          destruct (pt_equal _ _); cbn; split; try discriminate; intros [X _]; discriminate.
        * split; [discriminate|]. intros [X _]; discriminate.
        * cbn. tauto.
      + split.
        * intros (X & Y & Z). right. exists i, (Some v). split; [reflexivity|]. right. split; [lia|]. split; [exact ES|].
          right; right; right. exists q, v. rewrite <- ES. tauto.
        * intros [X|(i' & v' & X & Y)]; [discriminate|]. injection X as <- <-. destruct Y as [Y|(_ & _ & Y)]; [lia|].
          destruct Y as [Y|[Y|[(b & Y)|(q' & w & _ & _ & _ & Y1 & Y2 & Y3)]]]; [discriminate|congruence|congruence|tauto].
    - split; [discriminate|]. intros [X|(i' & v' & X & Y)]; [discriminate|]. injection X as <- <-.
      destruct Y as [Y|(_ & _ & Y)]; [lia|].
      destruct Y as [Y|[Y|[(b & Y)|(q' & w & Yw & Yq & YV & _)]]]; [discriminate| | |].
      + rewrite Y in EV. discriminate.
      + rewrite Y in EV. discriminate.
      + rewrite ES in EV. injection Yw as <-. rewrite Eq in Yq. injection Yq as <-. congruence.
    - split; [intros _|reflexivity]. right. exists i, (Some v). split; [reflexivity|]. right. split; [lia|].
      split; [exact ES|]. right. destruct (ps_sig ps) as [|a [z|]] eqn:SG; [tauto| |].
      + destruct (verify_no_panic _ _ _ _ _ EV).
      + right; left. eauto.
  Qed.
End Hash.

(** * Example sessions: participants with private keys 3 and 6 *)
Definition demo_share (c : list Z) (i : Z) : keyshare := mkShare (poly c (i + 1)) (map (fun a => of_E (smul a eG)) c).
Definition demo_parts : list point := map (fun x => of_E (smul x eG)) [3; 6].
Definition demo_dss keccak (i : Z) (f r H2 : list Z) (msg T : Z) : dss :=
  mkDss (3 + 3 * i) (of_E (smul (3 + 3 * i) eG)) i demo_parts T (demo_share f i) (demo_share r i) H2 msg [] [] false
    (session_id keccak (ks_commits (demo_share f i)) (ks_commits (demo_share r i))).

Lemma demo_eqb a b : 0 <= a < N -> 0 <= b < N -> a <> b -> pt_equal (of_E (smul a eG)) (of_E (smul b eG)) = false.
Proof.
  intros A B H. destruct (pt_equal _ _) eqn:E; [|reflexivity]. apply pt_equal_of_E in E. apply smul_G_inj in E.
  rewrite !Z.mod_small in E by assumption. contradiction.
Qed.
Lemma demo_refl a : pt_equal (of_E (smul a eG)) (of_E (smul a eG)) = true.
Proof. apply pt_equal_of_E. reflexivity. Qed.

Lemma demo_new keccak i f r H2 msg T : i = 0 \/ i = 1 ->
  new_dss keccak (3 + 3 * i) demo_parts (demo_share f i) (demo_share r i) H2 msg T = Ok (demo_dss keccak i f r H2 msg T).
Proof.
  intros H. unfold new_dss. rewrite pt_mul_base by tauto. cbn [rbind demo_parts map find_index].
  destruct H as [->| ->].
  - change (3 + 3 * 0) with 3. rewrite demo_refl. reflexivity.
  - change (3 + 3 * 1) with 6. rewrite demo_eqb by (solve [discriminate | split; [discriminate|reflexivity]]).
    rewrite demo_refl. reflexivity.
Qed.

Lemma demo_commits c : commits_of c (map (fun a => of_E (smul a eG)) c).
Proof. induction c as [|a c IH]; constructor; [apply pt_mul_base; tauto|exact IH]. Qed.
Lemma demo_shares keccak i f r H2 msg T : shares_ok f r (demo_dss keccak i f r H2 msg T).
Proof.
  unfold shares_ok. cbn [demo_dss demo_share d_long d_random d_index ks_v ks_commits].
  split; [apply demo_commits|]. split; [apply demo_commits|]. split; reflexivity.
Qed.
Lemma demo_curve a : ~ (N | a) -> curve_point (of_E (smul a eG)).
Proof.
  intros H. destruct (key_sound a H) as (P & b & E & C & _). rewrite pt_mul_base in E by tauto. injection E as ->. exact C.
Qed.
Lemma small_ndiv a : 0 < a < N -> ~ (N | a).
Proof. intros H D. apply Z.divide_pos_le in D; lia. Qed.
Lemma demo_parts_curve : Forall curve_point demo_parts.
Proof.
  unfold demo_parts. cbn [map]. apply Forall_cons; [|apply Forall_cons; [|apply Forall_nil]];
  apply demo_curve; apply small_ndiv; split; reflexivity.
Qed.
Lemma demo_hash keccak i f0 f r0 r H2 msg T : 0 < f0 < N ->
  exists h, hash_sig keccak (demo_dss keccak i (f0 :: f) (r0 :: r) H2 msg T) = Ok h.
Proof.
  intros H. eexists. apply hash_sig_ok. cbn [d_random d_long demo_dss demo_share ks_commits map].
  eexists _, _, _, _. split; [reflexivity|]. split; [reflexivity|]. split; [|reflexivity].
  apply curve_point_on, demo_curve, small_ndiv, H.
Qed.
Lemma demo_partial keccak pshash i f0 f r0 r H2 msg T k : 0 < f0 < N -> i = 0 \/ i = 1 ->
  let d := demo_dss keccak i (f0 :: f) (r0 :: r) H2 msg T in
  exists v ps, partial_sig keccak pshash k d = Ok (add_partial d i v true, ps, true) /\
    ps_partial ps = Some (i, Some v).
Proof.
  intros H Hi d. destruct (demo_hash keccak i f0 f r0 r H2 msg T H) as [h Eh]. fold d in Eh.
  destruct (sign_with keccak k (KS (3 + 3 * i)) (ps_hash keccak pshash i (own_value d h) (d_sid d))) as [sg| |] eqn:ES.
  2,3: exfalso; rewrite sign_with_spec in ES by (apply small_ndiv; destruct Hi as [->| ->]; split; reflexivity); discriminate.
  exists (own_value d h). eexists. split.
  - apply partial_sig_ok. exists h. split; [exact Eh|]. cbv zeta.
    change (d_secret d) with (3 + 3 * i). change (d_index d) with i. rewrite ES. split; [reflexivity|]. split; reflexivity.
  - reflexivity.
Qed.

(** The partial of participant j is accepted by participant i (possibly i = j,
    when it comes from another DSS with the same keys). *)
Lemma demo_accept keccak pshash i j f0 f r0 r H2 msg T k d' ps s :
  (forall b, length (keccak b) = 32%nat) -> 0 < f0 < N -> i = 0 \/ i = 1 -> j = 0 \/ j = 1 -> In j H2 ->
  let di := demo_dss keccak i (f0 :: f) (r0 :: r) H2 msg T in
  let dj := demo_dss keccak j (f0 :: f) (r0 :: r) H2 msg T in
  partial_sig keccak pshash k dj = Ok (d', ps, true) ->
  forall cs, s = run keccak pshash di cs -> ~ In j (d_partialsIdx s) ->
  exists v, process keccak pshash s ps = (add_partial s j v (d_signed s), Ok tt).
Proof.
  intros LK H Hi Hj IH di dj EP cs -> NI.
  pose proof (demo_new keccak j (f0 :: f) (r0 :: r) H2 msg T Hj) as EN. apply (new_dss_ok keccak pshash) in EN.
  destruct EN as (I & _ & _ & _ & _ & _ & _ & _ & _ & _ & _ & _ & PK & Q). fold dj in I, PK, Q.
  pose proof (run_static keccak pshash cs di) as ST. unfold static in ST. injection ST as _ _ _ E1 _ E2 E3 E4 E5 E6.
  apply (honest_accepted keccak pshash (f0 :: f) (r0 :: r) dj (run keccak pshash di cs) k d' ps LK I).
  - apply demo_shares.
  - apply demo_parts_curve.
  - exact PK.
  - exact Q.
  - exact EP.
  - exact E1.
  - rewrite E2. reflexivity.
  - rewrite E3. reflexivity.
  - exact E5.
  - exact E6.
  - rewrite E4. exact IH.
  - exact NI.
Qed.
