(** Lemmas about the calls of ethdss.go and their sequences. *)
From Coq Require Import ZArith Znumtheory List Lia Bool Permutation.
From Coq Require Import Init.Byte.
From Verif Require Import Params NumTh PrimeN Zmod Curve Order Bytes Res Secp Spec SecpProofs SecpProofs2
  PublicKey Schnorr SchnorrProofs Lagrange Dss DssSpec DssProofs.
Import ListNotations.
Open Scope Z_scope.

Lemma pt_equal_of_E a b : pt_equal (of_E a) (of_E b) = true <-> a = b.
Proof.
  unfold pt_equal. rewrite andb_true_iff, !fe_equal_spec. split.
  - intros [X Y]. apply of_E_inj. rewrite <- (pt_set_of_E a), <- (pt_set_of_E b).
    unfold pt_set. rewrite !fe_set_spec. unfold eqP in *. congruence.
  - intros ->. split; reflexivity.
Qed.

Lemma pt_equal_point P Q : group_elt P -> group_elt Q -> (pt_equal P Q = true <-> P = Q).
Proof.
  intros HP HQ. destruct (elt_of_E _ HP) as [a ->]. destruct (elt_of_E _ HQ) as [b ->].
  rewrite pt_equal_of_E. split; [congruence|apply of_E_inj].
Qed.

Lemma existsb_In i l : existsb (Z.eqb i) l = true <-> In i l.
Proof.
  rewrite existsb_exists. split.
  - intros (x & Hx & E). apply Z.eqb_eq in E. subst. exact Hx.
  - intros H. exists i. split; [exact H|apply Z.eqb_refl].
Qed.
Lemma existsb_nIn i l : existsb (Z.eqb i) l = false <-> ~ In i l.
Proof. rewrite <- existsb_In. destruct (existsb _ _); split; congruence. Qed.

Lemma find_index_spec P l : forall j i, find_index P l j = Some i ->
  exists q, j <= i < j + Z.of_nat (length l) /\ nth_error l (Z.to_nat (i - j)) = Some q /\ pt_equal q P = true.
Proof.
  induction l as [|q l IH]; intros j i H; [discriminate|]. cbn in H.
  destruct (pt_equal q P) eqn:E.
  - injection H as <-. exists q. rewrite Z.sub_diag. cbn. split; [lia|tauto].
  - destruct (IH _ _ H) as (q' & R & NE & EQ). exists q'. cbn [length]. split; [lia|]. split; [|exact EQ].
    replace (Z.to_nat (i - j)) with (S (Z.to_nat (i - (j + 1)))) by lia. exact NE.
Qed.

Lemma find_pub_some l i : 0 <= i < Z.of_nat (length l) ->
  exists q, nth_error l (Z.to_nat i) = Some q /\ find_pub l i = Ok (Some q).
Proof.
  intros H. unfold find_pub. destruct (Z.leb_spec (Z.of_nat (length l)) i); [lia|].
  destruct (Z.ltb_spec i 0); [lia|].
  destruct (nth_error l (Z.to_nat i)) as [q|] eqn:E; [exists q; tauto|].
  apply nth_error_None in E. lia.
Qed.

Lemma find_pub_spec l i :
  (Z.of_nat (length l) <= i -> find_pub l i = Ok None) /\
  (i < 0 -> find_pub l i = Panic).
Proof.
  unfold find_pub. split; intros H.
  - destruct (Z.leb_spec (Z.of_nat (length l)) i); [reflexivity|lia].
  - destruct (Z.leb_spec (Z.of_nat (length l)) i); [lia|]. destruct (Z.ltb_spec i 0); [reflexivity|lia].
Qed.

Section Hash.
  Variable keccak : bytes -> bytes.
  Variable pshash : Z -> Z -> bytes.

  Lemma hash_sig_ok d h : hash_sig keccak d = Ok h <->
    exists V rs P ls, ks_commits (d_random d) = V :: rs /\ ks_commits (d_long d) = P :: ls /\
      on_curve (fst P) (snd P) /\ h = challenge_of keccak P (address_of keccak V) (d_msg d).
  Proof.
    unfold hash_sig. destruct (ks_commits (d_random d)) as [|V rs].
    { split; [discriminate|]. intros (? & ? & ? & ? & E & _). discriminate. }
    rewrite eth_address_spec. cbn [rbind].
    destruct (ks_commits (d_long d)) as [|P ls].
    { split; [discriminate|]. intros (? & ? & ? & ? & _ & E & _). discriminate. }
    pose proof (challenge_hash_ok keccak P (address_of keccak V) (d_msg d)) as C.
    split.
    - intros H. exists V, rs, P, ls. split; [reflexivity|]. split; [reflexivity|].
      destruct (challenge_hash keccak P (address_of keccak V) (d_msg d)) as [e| |]; try discriminate.
      injection H as <-. apply C. reflexivity.
    - intros (V' & rs' & P' & ls' & E1 & E2 & O & EH). injection E1 as <- <-. injection E2 as <- <-.
      assert (X : challenge_hash keccak P (address_of keccak V) (d_msg d) = Ok h) by (apply C; split; [exact O|exact EH]).
      rewrite X. reflexivity.
  Qed.
  Lemma hash_sig_no_err d : hash_sig keccak d <> Err.
  Proof.
    unfold hash_sig. destruct (ks_commits (d_random d)); [discriminate|]. rewrite eth_address_spec. cbn [rbind].
    destruct (ks_commits (d_long d)); [discriminate|]. destruct (challenge_hash _ _ _ _); discriminate.
  Qed.
  Lemma hash_sig_range d h : hash_sig keccak d = Ok h -> 0 <= h < N.
  Proof. intros H. apply hash_sig_ok in H. destruct H as (? & ? & ? & ? & _ & _ & _ & ->). apply modN_range. Qed.

  (** The share equation checked by ProcessPartialSig. *)
  Lemma share_check f r L R h i v : commits_of f L -> commits_of r R ->
    exists bo, (rand_share <- pub_eval R i ;; long_share <- pub_eval L i ;; summand <- pt_mul h (KP long_share) ;;
      commit <- pt_mul v KP_nil ;; Ok (pt_equal commit (pt_sub rand_share summand))) = Ok bo /\
    (bo = true <-> eqN v (poly r (i + 1) - h * poly f (i + 1))).
  Proof.
    intros Hf Hr. rewrite (pub_eval_spec _ _ _ Hr), (pub_eval_spec _ _ _ Hf). cbn [rbind].
    rewrite pt_mul_of_E. cbn [rbind]. rewrite pt_mul_base by tauto. cbn [rbind].
    rewrite <- smul_mul, pt_sub_of_E. eexists. split; [reflexivity|].
    rewrite pt_equal_of_E. rewrite <- smul_sub. apply smul_G_inj.
  Qed.

  Definition static (d : dss) :=
    (d_secret d, d_public d, d_index d, d_participants d, d_T d, (d_long d, d_random d, d_H2 d, d_msg d, d_sid d)).
  Lemma static_add d i v s : static (add_partial d i v s) = static d. Proof. reflexivity. Qed.
  Lemma hash_sig_static d d' : static d = static d' -> hash_sig keccak d = hash_sig keccak d'.
  Proof. unfold static, hash_sig. intros H. injection H as _ _ _ _ _ E1 E2 _ E3 _. rewrite E1, E2, E3. reflexivity. Qed.

  Lemma process_ok f r d ps d' : commits_of f (ks_commits (d_long d)) -> commits_of r (ks_commits (d_random d)) ->
    (process keccak pshash d ps = (d', Ok tt) <->
     exists i v q h, ps_partial ps = Some (i, Some v) /\ 0 <= i < Z.of_nat (length (d_participants d)) /\
       nth_error (d_participants d) (Z.to_nat i) = Some q /\ ps_sid ps = d_sid d /\
       verify keccak (KP q) (ps_hash keccak pshash i v (d_sid d)) (ps_sig ps) = Ok tt /\
       In i (d_H2 d) /\ ~ In i (d_partialsIdx d) /\ hash_sig keccak d = Ok h /\
       eqN v (poly r (i + 1) - h * poly f (i + 1)) /\ d' = add_partial d i v (d_signed d)).
  Proof.
    intros Hf Hr. unfold process. split.
    - destruct (ps_partial ps) as [[i v]|] eqn:EP; [|discriminate].
      destruct (find_pub_spec (d_participants d) i) as [FP1 FP2].
      destruct (Z_lt_le_dec i 0) as [L|L]; [rewrite FP2 by exact L; discriminate|].
      destruct (Z_le_gt_dec (Z.of_nat (length (d_participants d))) i) as [L2|L2]; [rewrite FP1 by exact L2; discriminate|].
      destruct (find_pub_some (d_participants d) i) as (q & Eq & ->); [lia|].
      destruct (bytes_eqb_spec (ps_sid ps) (d_sid d)) as [Es|]; cbn [negb]; [|discriminate].
      destruct v as [v|]; [|discriminate].
      destruct (verify _ _ _ _) as [[]| |] eqn:EV; try discriminate.
      destruct (existsb (Z.eqb i) (d_H2 d)) eqn:EH; cbn [negb]; [|discriminate].
      destruct (existsb (Z.eqb i) (d_partialsIdx d)) eqn:EI; [discriminate|].
      destruct (hash_sig keccak d) as [h| |] eqn:Eh; cbn [rbind]; try discriminate.
      destruct (share_check f r _ _ h i v Hf Hr) as (bo & -> & Hb). destruct bo; [|discriminate].
      intros H. injection H as <-. exists i, v, q, h. rewrite Es in EV.
      split; [reflexivity|]. split; [lia|]. split; [exact Eq|]. split; [exact Es|]. split; [exact EV|].
      split; [apply existsb_In, EH|]. split; [apply existsb_nIn, EI|]. split; [reflexivity|].
      split; [apply Hb; reflexivity|reflexivity].
    - intros (i & v & q & h & EP & R & Eq & Es & EV & IH & NI & Eh & Ev & ->). rewrite EP.
      destruct (find_pub_some (d_participants d) i R) as (q' & Eq' & ->).
      assert (q' = q) by congruence. subst q'.
      destruct (bytes_eqb_spec (ps_sid ps) (d_sid d)); [|contradiction]. cbn [negb]. rewrite Es, EV.
      apply existsb_In in IH. apply existsb_nIn in NI. rewrite IH, NI, Eh. cbn [negb rbind].
      destruct (share_check f r _ _ h i v Hf Hr) as (bo & -> & Hb).
      destruct bo; [reflexivity|]. exfalso. assert (false = true) by (apply Hb, Ev). discriminate.
  Qed.

  (** Without commitments' discrete logs: the state only changes on acceptance. *)
  Lemma process_cases d ps :
    (snd (process keccak pshash d ps) <> Ok tt /\ fst (process keccak pshash d ps) = d) \/
    (snd (process keccak pshash d ps) = Ok tt /\
     exists i v h, ps_partial ps = Some (i, Some v) /\ 0 <= i < Z.of_nat (length (d_participants d)) /\
       In i (d_H2 d) /\ ~ In i (d_partialsIdx d) /\ hash_sig keccak d = Ok h /\
       fst (process keccak pshash d ps) = add_partial d i v (d_signed d)).
  Proof.
    unfold process. destruct (ps_partial ps) as [[i v]|] eqn:EP; [|left; split; [discriminate|reflexivity]].
    destruct (find_pub_spec (d_participants d) i) as [FP1 FP2].
    destruct (Z_lt_le_dec i 0) as [L|L]; [rewrite FP2 by exact L; left; split; [discriminate|reflexivity]|].
    destruct (Z_le_gt_dec (Z.of_nat (length (d_participants d))) i) as [L2|L2];
      [rewrite FP1 by exact L2; left; split; [discriminate|reflexivity]|].
    destruct (find_pub_some (d_participants d) i) as (q & Eq & ->); [lia|].
    destruct (negb (bytes_eqb _ _)); [left; split; [discriminate|reflexivity]|].
    destruct v as [v|]; [|left; split; [discriminate|reflexivity]].
    destruct (verify _ _ _ _) as [u| |]; try (left; split; [discriminate|reflexivity]).
    destruct (existsb (Z.eqb i) (d_H2 d)) eqn:EH; cbn [negb]; [|left; split; [discriminate|reflexivity]].
    destruct (existsb (Z.eqb i) (d_partialsIdx d)) eqn:EI; [left; split; [discriminate|reflexivity]|].
    destruct (hash_sig keccak d) as [h| |]; cbn [rbind]; try (left; split; [discriminate|reflexivity]).
    match goal with |- context [match ?x with Ok _ => _ | Err => _ | Panic => _ end] => destruct x as [[]| |] end;
      try (left; split; [discriminate|reflexivity]).
    right. split; [reflexivity|]. exists i, v, h. split; [reflexivity|]. split; [lia|].
    split; [apply existsb_In, EH|]. split; [apply existsb_nIn, EI|]. split; reflexivity.
  Qed.

  Definition own_value (d : dss) (h : Z) : Z := (ks_v (d_random d) - (h * ks_v (d_long d)) mod N) mod N.

  Lemma partial_sig_ok k d d' ps b : partial_sig keccak pshash k d = Ok (d', ps, b) <->
    exists h, hash_sig keccak d = Ok h /\
      let v := own_value d h in
      let sg := sign_with keccak k (KS (d_secret d)) (ps_hash keccak pshash (d_index d) v (d_sid d)) in
      b = is_ok sg /\ ps = mkPsig (Some (d_index d, Some v)) (d_sid d) (match sg with Ok s => s | _ => SigNil end) /\
      d' = if d_signed d then d else add_partial d (d_index d) v true.
  Proof.
    assert (NP : forall m, sign_with keccak k (KS (d_secret d)) m <> Panic).
    { intros m. destruct (Zdivide_dec N (d_secret d)) as [D|D];
        [rewrite sign_with_zero by exact D|rewrite (sign_with_spec keccak k _ m D)]; discriminate. }
    unfold partial_sig. destruct (hash_sig keccak d) as [h| |] eqn:E; cbn [rbind].
    2,3: split; [discriminate|intros (h & H & _); discriminate].
    change (sc_sub (ks_v (d_random d)) (sc_mul h (ks_v (d_long d)))) with (own_value d h).
    specialize (NP (ps_hash keccak pshash (d_index d) (own_value d h) (d_sid d))).
    split.
    - intros H. exists h. split; [reflexivity|]. cbv zeta.
      destruct (sign_with _ _ _ _) as [s| |]; try contradiction; injection H as <- <- <-; auto.
    - intros (h' & Eh & H). injection Eh as <-. cbv zeta in H. destruct H as (-> & -> & ->).
      destruct (sign_with _ _ _ _) as [s| |]; try contradiction; reflexivity.
  Qed.

  Lemma partial_sig_panics k d : hash_sig keccak d = Panic -> partial_sig keccak pshash k d = Panic.
  Proof. intros H. unfold partial_sig. rewrite H. reflexivity. Qed.

  (** One call: what may happen to the state. *)
  Lemma step_cases d c :
    step keccak pshash d c = d \/
    (exists k h, c = CallPartial k /\ hash_sig keccak d = Ok h /\ d_signed d = false /\
       step keccak pshash d c = add_partial d (d_index d) (own_value d h) true) \/
    (exists ps i v h, c = CallProcess ps /\ ps_partial ps = Some (i, Some v) /\
       0 <= i < Z.of_nat (length (d_participants d)) /\ In i (d_H2 d) /\ ~ In i (d_partialsIdx d) /\
       hash_sig keccak d = Ok h /\ process keccak pshash d ps = (add_partial d i v (d_signed d), Ok tt) /\
       step keccak pshash d c = add_partial d i v (d_signed d)).
  Proof.
    destruct c as [k|ps]; cbn [step].
    - destruct (partial_sig keccak pshash k d) as [[[d' ps] b]| |] eqn:E; [|tauto|tauto].
      apply partial_sig_ok in E. destruct E as (h & Eh & _ & _ & ->).
      destruct (d_signed d) eqn:ES; [tauto|]. right; left. exists k, h. tauto.
    - destruct (process_cases d ps) as [[_ E]|(E1 & i & v & h & EP & R & IH & NI & Eh & E2)].
      + left. exact E.
      + right; right. exists ps, i, v, h. rewrite <- E2 at 1. rewrite <- E1 at 1. rewrite <- surjective_pairing. tauto.
  Qed.

  Lemma step_static d c : static (step keccak pshash d c) = static d.
  Proof.
    destruct (step_cases d c) as [->|[(k & h & _ & _ & _ & ->)|(ps & i & v & h & _ & _ & _ & _ & _ & _ & _ & ->)]]; reflexivity.
  Qed.
  Lemma run_static cs : forall d, static (run keccak pshash d cs) = static d.
  Proof.
    unfold run. induction cs as [|c cs IH]; intros d; [reflexivity|]. cbn [fold_left]. rewrite IH. apply step_static.
  Qed.

  (** General invariant of a DSS created by NewDSS. *)
  Record inv (d : dss) : Prop := {
    inv_idx : 0 <= d_index d < Z.of_nat (length (d_participants d));
    inv_range : Forall (fun e => 0 <= fst e < Z.of_nat (length (d_participants d))) (d_partials d);
    inv_hash : d_partials d <> [] -> exists h, hash_sig keccak d = Ok h;
    inv_keys : forall i, In i (d_partialsIdx d) <-> In i (map fst (d_partials d));
    inv_signed : d_signed d = true -> In (d_index d) (map fst (d_partials d));
    inv_qual : Forall (fun e => In (fst e) (d_H2 d) \/ fst e = d_index d) (d_partials d)
  }.

  Lemma inv_add d i v s h : inv d -> 0 <= i < Z.of_nat (length (d_participants d)) -> hash_sig keccak d = Ok h ->
    (s = true -> d_signed d = true \/ i = d_index d) -> In i (d_H2 d) \/ i = d_index d ->
    inv (add_partial d i v s).
  Proof.
    intros [A B C D E F] R Eh S Q. constructor; cbn.
    - exact A.
    - apply Forall_app. split; [exact B|]. constructor; [exact R|constructor].
    - intros _. exists h. rewrite <- Eh. apply hash_sig_static. reflexivity.
    - intros j. rewrite map_app, in_app_iff. cbn. rewrite D. tauto.
    - intros ->. rewrite map_app, in_app_iff. cbn. destruct (S eq_refl) as [X| ->]; [left; apply E, X|tauto].
    - apply Forall_app. split; [exact F|]. constructor; [exact Q|constructor].
  Qed.

  Lemma inv_step d c : inv d -> inv (step keccak pshash d c).
  Proof.
    intros I. destruct (step_cases d c) as [->|[(k & h & _ & Eh & _ & ->)|(ps & i & v & h & _ & _ & R & Q & _ & Eh & _ & ->)]].
    - exact I.
    - eapply inv_add; [exact I|apply I|exact Eh|tauto|tauto].
    - eapply inv_add; [exact I|exact R|exact Eh|tauto|tauto].
  Qed.
  Lemma inv_run cs : forall d, inv d -> inv (run keccak pshash d cs).
  Proof. unfold run. induction cs as [|c cs IH]; intros d I; [exact I|]. apply IH, inv_step, I. Qed.

  Lemma new_dss_ok x ps L R H2 msg T d : new_dss keccak x ps L R H2 msg T = Ok d ->
    inv d /\ d_partials d = [] /\ d_partialsIdx d = [] /\ d_signed d = false /\ d_secret d = x /\ d_participants d = ps /\
    d_long d = L /\ d_random d = R /\ d_H2 d = H2 /\ d_msg d = msg /\ d_T d = T /\
    d_sid d = session_id keccak (ks_commits L) (ks_commits R) /\
    pt_mul x KP_nil = Ok (d_public d) /\
    exists q, nth_error ps (Z.to_nat (d_index d)) = Some q /\ pt_equal q (d_public d) = true.
  Proof.
    unfold new_dss. destruct (pt_mul x KP_nil) as [P| |] eqn:EP; cbn [rbind]; try discriminate.
    destruct (find_index P ps 0) as [i|] eqn:EI; [|discriminate]. intros H. injection H as <-. cbn.
    apply find_index_spec in EI. destruct EI as (q & Ri & Eq & Ep). rewrite Z.sub_0_r in Eq.
    split; [constructor; cbn; try constructor; try lia; try tauto; discriminate|].
    repeat (split; [reflexivity|]). exists q. tauto.
  Qed.

  (** ** Correct shares *)

  Definition values_ok (f r : list Z) (d : dss) : Prop :=
    forall h, hash_sig keccak d = Ok h ->
      Forall (fun e => eqN (snd e) (poly r (fst e + 1) - h * poly f (fst e + 1))) (d_partials d).

  Lemma shares_static f r d d' : static d = static d' -> shares_ok f r d -> shares_ok f r d'.
  Proof.
    unfold static, shares_ok. intros H. injection H as _ _ E0 _ _ E1 E2 _ _ _. rewrite E0, E1, E2. tauto.
  Qed.

  Lemma own_value_ok f r d h : shares_ok f r d ->
    eqN (own_value d h) (poly r (d_index d + 1) - h * poly f (d_index d + 1)).
  Proof.
    intros (_ & _ & A & B). unfold eqN, own_value in *. rewrite Zmod_mod, Zminus_mod_idemp_r.
    rewrite Zminus_mod, Zmult_mod, B, A, <- Zmult_mod, <- Zminus_mod. reflexivity.
  Qed.

  Lemma values_step f r d c : shares_ok f r d -> values_ok f r d -> values_ok f r (step keccak pshash d c).
  Proof.
    intros S V. pose proof S as (Hf & Hr & _ & _).
    destruct (step_cases d c) as [->|[(k & h & _ & Eh & _ & ->)|(ps & i & v & h & _ & _ & R & Q & _ & Eh & EP & ->)]]; [exact V| |].
    - intros h' Eh'. assert (h' = h) by (rewrite (hash_sig_static _ d) in Eh'; [congruence|reflexivity]). subst h'.
      cbn. apply Forall_app. split; [apply V, Eh|]. constructor; [|constructor]. apply own_value_ok, S.
    - intros h' Eh'. assert (h' = h) by (rewrite (hash_sig_static _ d) in Eh'; [congruence|reflexivity]). subst h'.
      cbn. apply Forall_app. split; [apply V, Eh|]. constructor; [|constructor].
      apply (process_ok f r) in EP; [|exact Hf|exact Hr].
      destruct EP as (i' & v' & q & h' & EPs & _ & _ & _ & _ & _ & _ & Eh2 & Ev & EA).
      assert (h' = h) by congruence. subst h'.
      assert (EQ : d_partials (add_partial d i v (d_signed d)) = d_partials (add_partial d i' v' (d_signed d))) by (rewrite EA; reflexivity).
      cbn in EQ. apply app_inv_head in EQ. injection EQ as -> ->. exact Ev.
  Qed.
  Lemma values_run f r cs : forall d, shares_ok f r d -> values_ok f r d -> values_ok f r (run keccak pshash d cs).
  Proof.
    unfold run. induction cs as [|c cs IH]; intros d S V; [exact V|]. cbn [fold_left]. apply IH.
    - eapply shares_static; [symmetry; apply step_static|exact S].
    - apply values_step; assumption.
  Qed.

  (** ** Signature *)
  Lemma sig_total ord d : (forall i l, Permutation (ord i l) l) -> inv d ->
    Z.of_nat (length (d_participants d)) < N -> 1 <= d_T d ->
    (Z.of_nat (ndk (d_partials d)) < d_T d -> signature keccak ord d = Err) /\
    (d_T d <= Z.of_nat (ndk (d_partials d)) -> exists a s, signature keccak ord d = Ok (Sig a (Some s)) /\ 0 <= s < N).
  Proof.
    intros HO I Hn T1. destruct (recover_total ord _ (d_partials d) (d_T d) HO Hn T1 (inv_range d I)) as [A B].
    assert (LE : (ndk (d_partials d) <= length (d_partials d))%nat).
    { unfold ndk. rewrite <- (map_length fst (d_partials d)). apply NoDup_incl_length; [apply NoDup_nodup|].
      intros j Hj. apply nodup_In in Hj. exact Hj. }
    unfold signature, enough. split; intros H.
    - rewrite (A H). destruct (_ <=? _); reflexivity.
    - destruct (B H) as (s & -> & Rs). destruct (Z.leb_spec (d_T d) (Z.of_nat (length (d_partials d)))); [|lia].
      cbn [negb rbind].
      destruct (inv_hash d I) as [h Eh]; [intros E; rewrite E in *; cbn in *; lia|].
      apply hash_sig_ok in Eh. destruct Eh as (V & rs & P & ls & E1 & _). rewrite E1, eth_address_spec.
      cbn [rbind]. do 2 eexists. split; [reflexivity|exact Rs].
  Qed.

  Lemma sig_value ord d f r sg : (forall i l, Permutation (ord i l) l) -> inv d ->
    Z.of_nat (length (d_participants d)) < N -> shares_ok f r d -> values_ok f r d ->
    Z.of_nat (length f) <= d_T d -> Z.of_nat (length r) <= d_T d ->
    signature keccak ord d = Ok sg ->
    exists V rs P ls h, ks_commits (d_random d) = V :: rs /\ ks_commits (d_long d) = P :: ls /\
      on_curve (fst P) (snd P) /\ h = challenge_of keccak P (address_of keccak V) (d_msg d) /\
      sg = Sig (address_of keccak V) (Some ((poly r 0 - h * poly f 0) mod N)).
  Proof.
    intros HO I Hn (Hf & Hr & _ & _) VO Lf Lr H.
    assert (T1 : 1 <= d_T d).
    { destruct r as [|r0 r]; [|cbn in Lr; lia]. exfalso. inversion Hr as [E|]; clear E.
      unfold signature in H. destruct (negb _); [discriminate|].
      destruct (recover_secret _ _ _); cbn [rbind] in H; try discriminate.
      destruct (ks_commits (d_random d)); discriminate. }
    destruct (sig_total ord d HO I Hn T1) as [ST1 _].
    destruct (Z_lt_le_dec (Z.of_nat (ndk (d_partials d))) (d_T d)) as [L|L]; [rewrite ST1 in H by exact L; discriminate|].
    destruct (inv_hash d I) as [h Eh]; [intros E; rewrite E in L; cbn in L; lia|].
    destruct (poly_comb h f r) as (c & Lc & Hc).
    destruct (recover_ok ord _ (d_partials d) (d_T d) c HO Hn ltac:(lia) T1 (inv_range d I)) as [_ RO].
    { eapply Forall_impl; [|apply (VO h Eh)]. intros e He. rewrite Hc. exact He. }
    unfold signature in H. destruct (negb (enough d)); [discriminate|].
    rewrite (RO L) in H. cbn [rbind] in H. apply hash_sig_ok in Eh.
    destruct Eh as (V & rs & P & ls & E1 & E2 & O & EH). rewrite E1, eth_address_spec in H. cbn [rbind] in H.
    exists V, rs, P, ls, h. rewrite Hc in H. split; [exact E1|]. split; [exact E2|]. split; [exact O|]. split; [exact EH|].
    congruence.
  Qed.

  Lemma sig_verifies ord d f r sg : (forall i l, Permutation (ord i l) l) -> inv d ->
    Z.of_nat (length (d_participants d)) < N -> shares_ok f r d -> values_ok f r d ->
    Z.of_nat (length f) <= d_T d -> Z.of_nat (length r) <= d_T d ->
    signature keccak ord d = Ok sg ->
    exists P ls, ks_commits (d_long d) = P :: ls /\
      (uint256 (d_msg d) -> verify keccak (KP P) (d_msg d) sg = Ok tt) /\
      (~ uint256 (d_msg d) -> verify keccak (KP P) (d_msg d) sg = Err).
  Proof.
    intros HO I Hn S VO Lf Lr H.
    destruct (sig_value ord d f r sg HO I Hn S VO Lf Lr H) as (V & rs & P & ls & h & E1 & E2 & O & EH & ->).
    exists P, ls. split; [exact E2|].
    assert (RN : 0 <= (poly r 0 - h * poly f 0) mod N < N) by apply modN_range.
    split; intros U.
    - apply verify_ok. exists P. split; [reflexivity|]. split; [exact O|]. split; [exact RN|]. split; [exact U|].
      destruct S as (Hf & Hr & _ & _). rewrite E1 in Hr. rewrite E2 in Hf.
      inversion Hr as [|r0 ? r' ? HV _ Er]; subst. inversion Hf as [|f0 ? f' ? HP _ Ef]; subst.
      rewrite pt_mul_base in HV, HP by tauto. injection HV as <-. injection HP as <-.
      rewrite pt_mul_base by tauto. unfold chal. rewrite pt_mul_of_E.
      do 2 eexists. split; [reflexivity|]. split; [reflexivity|]. f_equal.
      rewrite smul_modN, pt_add_of_E, <- smul_mul, <- smul_add. f_equal. f_equal. cbn [poly]. ring.
    - match goal with |- verify _ ?k ?m (Sig ?a (Some ?z)) = _ =>
        pose proof (verify_ok keccak k m a z) as VK; pose proof (verify_no_panic keccak k m a z) as NP;
        destruct (verify keccak k m (Sig a (Some z))) as [[]| |] end; [|reflexivity|contradiction].
      exfalso. destruct (proj1 VK eq_refl) as (? & _ & _ & _ & U' & _). contradiction.
  Qed.

  (** ** Honest partials *)
  Lemma honest_accepted f r dj di k dj' ps :
    (forall b, length (keccak b) = 32%nat) -> inv dj -> shares_ok f r dj ->
    Forall curve_point (d_participants dj) -> pt_mul (d_secret dj) KP_nil = Ok (d_public dj) ->
    (exists q, nth_error (d_participants dj) (Z.to_nat (d_index dj)) = Some q /\ pt_equal q (d_public dj) = true) ->
    partial_sig keccak pshash k dj = Ok (dj', ps, true) ->
    d_participants di = d_participants dj -> ks_commits (d_long di) = ks_commits (d_long dj) ->
    ks_commits (d_random di) = ks_commits (d_random dj) -> d_msg di = d_msg dj -> d_sid di = d_sid dj ->
    In (d_index dj) (d_H2 di) -> ~ In (d_index dj) (d_partialsIdx di) ->
    exists v, process keccak pshash di ps = (add_partial di (d_index dj) v (d_signed di), Ok tt).
  Proof.
    intros LK I S CP PK (q & Eq & PE) EP Ep El Er Em Es IH NI.
    apply partial_sig_ok in EP. destruct EP as (h & Eh & EB & Eps & _). cbv zeta in *.
    assert (Ehi : hash_sig keccak di = Ok h).
    { apply hash_sig_ok. apply hash_sig_ok in Eh. rewrite El, Er, Em. exact Eh. }
    pose proof S as (Hf & Hr & _ & _).
    exists (own_value dj h). rewrite <- El in Hf. rewrite <- Er in Hr. apply (process_ok f r); [exact Hf|exact Hr|].
    assert (Cq : curve_point q).
    { rewrite Forall_forall in CP. apply CP. eapply nth_error_In, Eq. }
    assert (EQ : q = d_public dj).
    { apply pt_equal_point in PE; [exact PE|right; exact Cq|]. rewrite pt_mul_base in PK by tauto. injection PK as <-. apply of_E_elt. }
    subst q.
    set (m := ps_hash keccak pshash (d_index dj) (own_value dj h) (d_sid dj)) in *.
    destruct (sign_with keccak k (KS (d_secret dj)) m) as [s| |] eqn:ES; cbn [is_ok] in EB; try discriminate.
    exists (d_index dj), (own_value dj h), (d_public dj), h. subst ps. cbn [ps_partial ps_sid ps_sig].
    rewrite Ep, Es. split; [reflexivity|]. split; [apply I|]. split; [exact Eq|]. split; [reflexivity|].
    split.
    { fold m. eapply sign_verify; [|exact ES|exact PK]. unfold m, ps_hash, uint256.
      pose proof (be2z_range (keccak (pshash (d_index dj) (own_value dj h) ++ d_sid dj))) as RB.
      rewrite LK, pow256_32 in RB. exact RB. }
    split; [exact IH|]. split; [exact NI|]. split; [exact Ehi|]. split; [apply own_value_ok, S|reflexivity].
  Qed.
End Hash.
