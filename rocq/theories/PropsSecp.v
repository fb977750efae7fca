(** Property theorems C01-C15, C18-C20 (scalars, points, group, keys). *)
From Coq Require Import ZArith Znumtheory List Lia Bool.
From Coq Require Import Init.Byte.
From Verif Require Import Params NumTh Zmod Curve Order Bytes Res Secp Spec SecpProofs SecpProofs2.
Import ListNotations.
Open Scope Z_scope.

(** ** C01 *)
Theorem C01_scalar_arithmetic : forall (a b : Z) (buf : bytes),
  repN (sc_add a b) (a + b) /\ repN (sc_sub a b) (a - b) /\ repN (sc_neg a) (- a) /\
  repN (sc_mul a b) (a * b) /\ repN (sc_mod a) a /\ repN (sc_set_int64 a) a /\
  repN sc_zero 0 /\ repN sc_one 1 /\ repN (sc_set_bytes buf) (be2z buf) /\
  (sc_equal a b = true <-> eqN a b).
Proof. intros. repeat split; try apply modN_range; try apply eqN_mod; apply sc_equal_spec. Qed.
Example C01_ex : sc_add (N - 1) 5 = 4 /\ sc_sub 3 5 = N - 2 /\ sc_mul (-1) (N + 2) = N - 2 /\
  sc_equal (-1) (2 * N - 1) = true /\ sc_equal 1 2 = false.
Proof. vm_compute. auto. Qed.
Print Assumptions C01_scalar_arithmetic.

(** ** C02 *)
Theorem C02_division : forall a b, ~ (N | b) ->
  exists c, sc_div a b = Ok c /\ 0 <= c < N /\ eqN (c * b) a /\
    forall c', 0 <= c' < N -> eqN (c' * b) a -> c' = c.
Proof. exact sc_div_ok. Qed.
Theorem C02_division_panics : forall a b, sc_div a b = Panic <-> (N | b).
Proof. exact sc_div_panic. Qed.
Theorem C02_inversion : forall old a, ~ (N | a) ->
  exists c, sc_inv old a = Ok c /\ 1 <= c < N /\ eqN (c * a) 1 /\
    forall c', 0 <= c' < N -> eqN (c' * a) 1 -> c' = c.
Proof. exact sc_inv_ok. Qed.
Theorem C02_inversion_of_zero : forall old a, (N | a) ->
  sc_inv old a = if a =? 0 then Panic else Ok old.
Proof. exact sc_inv_zero. Qed.
Example C02_ex : ~ (N | 2) /\ sc_div 1 2 = Ok ((N + 1) / 2) /\ sc_div 7 0 = Panic /\ sc_inv 5 2 = Ok ((N + 1) / 2).
Proof.
  assert (D : ~ (N | 2)).
  { intros H. apply Z.divide_pos_le in H; [|lia]. assert (2 < N) by reflexivity. lia. }
  assert (R : 0 <= (N + 1) / 2 < N) by (vm_compute; split; [discriminate|reflexivity]).
  split; [exact D|]. split; [|split].
  - destruct (C02_division 1 2 D) as (c & -> & _ & _ & U). rewrite (U _ R); [reflexivity|vm_compute; reflexivity].
  - apply C02_division_panics. apply Z.divide_0_r.
  - destruct (C02_inversion 5 2 D) as (c & -> & _ & _ & U). rewrite (U _ R); [reflexivity|vm_compute; reflexivity].
Qed.
Print Assumptions C02_division. Print Assumptions C02_division_panics.
Print Assumptions C02_inversion. Print Assumptions C02_inversion_of_zero.

(** ** C03 *)
Theorem C03_scalar_encoding : forall s,
  exists b, sc_marshal s = Ok b /\ length b = 32%nat /\ be2z b = s mod N /\ sc_unmarshal b = Ok (s mod N).
Proof.
  intros s. exists (be_fixed 32 (s mod N)). rewrite sc_marshal_spec, be_fixed_length, be2z_marshal.
  split; [reflexivity|]. split; [reflexivity|]. split; [reflexivity|].
  rewrite sc_unmarshal_spec, be_fixed_length, be2z_marshal, Zmod_mod. reflexivity.
Qed.
Theorem C03_scalar_decoding_fails_iff : forall buf,
  (length buf <> 32%nat -> sc_unmarshal buf = Err) /\
  (length buf = 32%nat -> sc_unmarshal buf = Ok (be2z buf mod N)).
Proof.
  intros buf. rewrite sc_unmarshal_spec. destruct (Nat.eqb_spec (length buf) 32); split; intros; try reflexivity; contradiction.
Qed.
Theorem C03_scalar_encoding_injective : forall s t, sc_marshal s = sc_marshal t <-> eqN s t.
Proof.
  intros s t. rewrite !sc_marshal_spec. unfold eqN. split; intros H.
  - assert (E : be_fixed 32 (s mod N) = be_fixed 32 (t mod N)) by congruence.
    apply (f_equal be2z) in E. rewrite !be2z_marshal in E. exact E.
  - rewrite H. reflexivity.
Qed.
Example C03_ex : sc_marshal (N + 258) = Ok (repeat x00 30 ++ [x01; x02]) /\
  sc_unmarshal (repeat x00 30 ++ [x01; x02]) = Ok 258 /\ sc_unmarshal [x01] = Err.
Proof. vm_compute. auto. Qed.
Print Assumptions C03_scalar_encoding. Print Assumptions C03_scalar_decoding_fails_iff.
Print Assumptions C03_scalar_encoding_injective.

(** ** C04: decoding is not canonical *)
Theorem C04_scalar_decoding_canonical_refuted : exists b b',
  b <> b' /\ length b = 32%nat /\ length b' = 32%nat /\ sc_unmarshal b = sc_unmarshal b'.
Proof.
  exists (be_fixed 32 0), (be_fixed 32 N). rewrite !sc_unmarshal_spec, !be_fixed_length, !be2z_be_fixed.
  split; [|split; [reflexivity|split; [reflexivity|vm_compute; reflexivity]]].
  intros H. apply (f_equal be2z) in H. rewrite !be2z_be_fixed in H. discriminate.
Qed.
(** Exactly the strings with value >= N, or small enough to have N added, are ambiguous. *)
Theorem C04_ambiguous_strings : forall b, length b = 32%nat ->
  ((exists b', b' <> b /\ length b' = 32%nat /\ sc_unmarshal b' = sc_unmarshal b)
   <-> N <= be2z b \/ be2z b < 2 ^ 256 - N).
Proof.
  intros b L. rewrite <- (collide N (be2z b)).
  - split.
    + intros (b' & NE & L' & E). exists (be2z b'). pose proof (be2z_range b') as R. rewrite L', pow256_32 in R.
      split; [exact R|]. split; [intros X; apply NE, be2z_inj; congruence|].
      rewrite !sc_unmarshal_spec, L, L' in E. cbn in E. congruence.
    + intros (w & R & NE & E). exists (be_fixed 32 w). rewrite be_fixed_length.
      assert (W : be2z (be_fixed 32 w) = w) by (rewrite be2z_be_fixed, pow256_32; apply Z.mod_small, R).
      split; [intros X; apply NE; congruence|]. split; [reflexivity|].
      rewrite !sc_unmarshal_spec, L, be_fixed_length, W, E. reflexivity.
  - pose proof N_pos. pose proof N_2. lia.
  - apply N_2.
  - pose proof (be2z_range b) as R. rewrite L, pow256_32 in R. exact R.
Qed.
Example C04_ex : N <= be2z (be_fixed 32 N) /\ ~ (N <= be2z (be_fixed 32 (N - 1)) \/ be2z (be_fixed 32 (N - 1)) < 2 ^ 256 - N).
Proof.
  rewrite !be2z_be_fixed. vm_compute. split; [discriminate|]. intros [H|H]; [apply H; reflexivity|discriminate].
Qed.
Print Assumptions C04_scalar_decoding_canonical_refuted. Print Assumptions C04_ambiguous_strings.

(** A concrete curve point used below. *)
Example G_curve_point : curve_point (Gx, Gy).
Proof. vm_compute. repeat split; discriminate. Qed.
Example one_curve_point : curve_point
  (1, 29896722852569046015560700294576055776214335159245303116488692907525646231534).
Proof. vm_compute. repeat split; discriminate. Qed.
Lemma group_G : group_elt (Gx, Gy). Proof. right. exact G_curve_point. Qed.

(** ** C05 *)
Theorem C05_decodes_iff : forall buf, (exists P, pt_unmarshal buf = Ok P) <->
  length buf = 33%nat /\ (nth 32 buf x00 = x00 \/ nth 32 buf x00 = x01) /\ is_abscissa (be2z (firstn 32 buf)).
Proof. exact pt_unmarshal_succeeds. Qed.
Theorem C05_decoded_point : forall buf P, pt_unmarshal buf = Ok P <->
  length buf = 33%nat /\ (nth 32 buf x00 = x00 \/ nth 32 buf x00 = x01) /\
  fst P = be2z (firstn 32 buf) mod p /\ 0 <= snd P < p /\
  on_curve (fst P) (snd P) /\ snd P mod 2 = z_of_byte (nth 32 buf x00).
Proof. exact pt_unmarshal_ok. Qed.
Theorem C05_never_panics : forall buf, pt_unmarshal buf <> Panic.
Proof. exact pt_unmarshal_no_panic. Qed.
Example C05_ex : pt_unmarshal (be_fixed 32 Gx ++ [x00]) = Ok (Gx, Gy).
Proof.
  apply C05_decoded_point. rewrite firstn_fixed, be2z_be_fixed, nth_fixed, app_length, be_fixed_length.
  vm_compute. repeat split; auto; discriminate.
Qed.
Example C05_ex_reject : pt_unmarshal (be_fixed 32 1 ++ [x02]) = Err /\ pt_unmarshal (be_fixed 32 1) = Err.
Proof. split; reflexivity. Qed.
Print Assumptions C05_decodes_iff. Print Assumptions C05_decoded_point. Print Assumptions C05_never_panics.

(** ** C06 *)
Theorem C06_point_roundtrip : forall P, curve_point P ->
  exists b, pt_marshal P = Ok b /\ length b = 33%nat /\ pt_unmarshal b = Ok P.
Proof.
  intros P C.
  assert (E : pt_marshal P = Ok (be_fixed 32 (fst P mod p) ++ [if snd P mod 2 =? 0 then x00 else x01]))
    by (apply pt_marshal_ok; split; [apply C|reflexivity]).
  eexists. split; [exact E|]. split; [rewrite app_length, be_fixed_length; reflexivity|].
  apply pt_roundtrip; assumption.
Qed.
Theorem C06_point_encoding_injective : forall P Q b, curve_point P -> curve_point Q ->
  pt_marshal P = Ok b -> pt_marshal Q = Ok b -> P = Q.
Proof.
  intros P Q b CP CQ EP EQ. pose proof (pt_roundtrip P b CP EP). pose proof (pt_roundtrip Q b CQ EQ). congruence.
Qed.
Example C06_ex : pt_marshal (Gx, Gy) = Ok (be_fixed 32 Gx ++ [x00]).
Proof. apply pt_marshal_ok. split; [apply G_curve_point|reflexivity]. Qed.
Print Assumptions C06_point_roundtrip. Print Assumptions C06_point_encoding_injective.

(** ** C07 *)
Theorem C07_marshal_fails_iff_off_curve : forall P, pt_marshal P = Err <-> ~ on_curve (fst P) (snd P).
Proof. exact pt_marshal_err. Qed.
Theorem C07_marshal_never_panics : forall P, pt_marshal P <> Panic.
Proof. exact pt_marshal_no_panic. Qed.
Theorem C07_identity_not_encodable : pt_marshal (0, 0) = Err /\
  exists P Q, curve_point P /\ curve_point Q /\ pt_add P Q = (0, 0).
Proof.
  split; [apply pt_marshal_err; exact null_off_curve|].
  exists (Gx, Gy), (mirror (Gx, Gy)). split; [exact G_curve_point|].
  split; [apply curve_neg, G_curve_point|].
  apply pt_add_opposite; [exact G_curve_point|apply curve_neg, G_curve_point|reflexivity|discriminate].
Qed.
Print Assumptions C07_marshal_fails_iff_off_curve. Print Assumptions C07_marshal_never_panics.
Print Assumptions C07_identity_not_encodable.

(** ** C08: point decoding is not canonical *)
Theorem C08_point_decoding_canonical_refuted : exists b b' P,
  b <> b' /\ pt_unmarshal b = Ok P /\ pt_unmarshal b' = Ok P.
Proof.
  exists (be_fixed 32 1 ++ [x00]), (be_fixed 32 (p + 1) ++ [x00]),
    (1, 29896722852569046015560700294576055776214335159245303116488692907525646231534).
  split.
  - intros H. apply (f_equal (firstn 32)) in H. rewrite !firstn_fixed in H.
    apply (f_equal be2z) in H. rewrite !be2z_be_fixed in H. discriminate.
  - split; apply pt_unmarshal_ok; rewrite firstn_fixed, be2z_be_fixed, nth_fixed, app_length, be_fixed_length;
      vm_compute; repeat split; auto; discriminate.
Qed.
(** The abscissa's residue and the sign byte are all that matters. *)
Theorem C08_only_ambiguity : forall b b' P, pt_unmarshal b = Ok P -> length b' = 33%nat ->
  (pt_unmarshal b' = Ok P <->
   eqP (be2z (firstn 32 b')) (be2z (firstn 32 b)) /\ nth 32 b' x00 = nth 32 b x00).
Proof.
  intros b b' P H L. apply pt_unmarshal_ok in H. destruct H as (Lb & S & HX & HY & HC & HP).
  rewrite pt_unmarshal_ok. split.
  - intros (_ & S' & HX' & _ & _ & HP'). split; [unfold eqP; congruence|].
    apply z_of_byte_inj. congruence.
  - intros [E S']. rewrite S'. unfold eqP in E. split; [exact L|]. split; [exact S|]. split; [congruence|].
    split; [exact HY|]. split; [exact HC|exact HP].
Qed.
Print Assumptions C08_point_decoding_canonical_refuted. Print Assumptions C08_only_ambiguity.

(** ** C09 *)
Theorem C09_abelian_group : forall P Q R, group_elt P -> group_elt Q -> group_elt R ->
  group_elt (pt_add P Q) /\ group_elt (pt_neg P) /\ group_elt (pt_sub P Q) /\
  (forall s, exists S, pt_mul s (KP P) = Ok S /\ group_elt S) /\
  pt_add (pt_add P Q) R = pt_add P (pt_add Q R) /\
  pt_add P Q = pt_add Q P /\
  pt_add P (0, 0) = P /\ pt_add P (pt_neg P) = (0, 0) /\
  pt_sub P Q = pt_add P (pt_neg Q).
Proof.
  intros P Q R HP HQ HR. destruct (elt_of_E _ HP) as [a ->]. destruct (elt_of_E _ HQ) as [b ->].
  destruct (elt_of_E _ HR) as [c ->]. change (0, 0) with (of_E eO).
  rewrite ?pt_neg_of_E, ?pt_sub_of_E, ?pt_add_of_E.
  repeat (split; [apply of_E_elt|]).
  split; [intros s; rewrite pt_mul_of_E; eexists; split; [reflexivity|apply of_E_elt]|].
  split; [rewrite eadd_assoc; reflexivity|]. split; [rewrite eadd_comm; reflexivity|].
  split; [rewrite eadd_0_r; reflexivity|]. split; [rewrite eadd_neg_r; reflexivity|reflexivity].
Qed.
(** The sum is the mirrored third intersection of the line through the two points. *)
Theorem C09_chord : forall P Q, curve_point P -> curve_point Q -> fst P <> fst Q ->
  curve_point (pt_add P Q) /\ collinear P Q (mirror (pt_add P Q)) /\ chord_sum P Q (pt_add P Q).
Proof.
  intros P Q HP HQ NE. destruct (pt_add_chord P Q HP HQ NE) as [A B].
  split; [exact A|]. split; [exact B|apply pt_add_chord_sum; assumption].
Qed.
Theorem C09_tangent : forall P, curve_point P ->
  curve_point (pt_add P P) /\ on_tangent P (mirror (pt_add P P)) /\ tangent_sum P (pt_add P P).
Proof.
  intros P HP. destruct (pt_double_tangent P HP) as [A B].
  split; [exact A|]. split; [exact B|apply pt_double_sum; assumption].
Qed.
Theorem C09_negation : forall P, group_elt P -> pt_neg P = mirror P.
Proof. exact pt_neg_mirror. Qed.
Example C09_ex : group_elt (Gx, Gy) /\ curve_point (Gx, Gy) /\
  curve_point (1, 29896722852569046015560700294576055776214335159245303116488692907525646231534) /\ Gx <> 1.
Proof. split; [exact group_G|]. split; [exact G_curve_point|]. split; [exact one_curve_point|discriminate]. Qed.
Print Assumptions C09_abelian_group. Print Assumptions C09_chord. Print Assumptions C09_tangent.
Print Assumptions C09_negation.

(** ** C10 *)
Theorem C10_scalar_action : forall P a b, group_elt P ->
  exists A B, pt_mul a (KP P) = Ok A /\ pt_mul b (KP P) = Ok B /\
    pt_mul (sc_add a b) (KP P) = Ok (pt_add A B) /\
    pt_mul (sc_mul a b) (KP P) = pt_mul a (KP B) /\
    pt_mul (sc_neg a) (KP P) = Ok (pt_neg A) /\
    pt_mul sc_one (KP P) = Ok P /\ pt_mul sc_zero (KP P) = Ok (0, 0) /\
    (A = (0, 0) <-> eqN a 0 \/ P = (0, 0)) /\
    (eqN a b -> A = B).
Proof.
  intros P a b HP. destruct (elt_of_E _ HP) as [e ->].
  exists (of_E (smul a e)), (of_E (smul b e)). rewrite !pt_mul_of_E.
  unfold sc_add, sc_mul, sc_neg, sc_one, sc_zero, sc_set_int64, sc_mod. rewrite !smul_modN.
  rewrite pt_add_of_E, pt_neg_of_E, smul_add, smul_mul, smul_opp, smul_1.
  repeat (split; [reflexivity|]). split.
  - change (0, 0) with (of_E eO). split.
    + intros H. apply of_E_inj in H. destruct (smul_eq_0 _ _ H) as [D| ->]; [left|right; reflexivity].
      unfold eqN. rewrite (Zdivide_mod _ _ D). reflexivity.
    + intros [H|H].
      * rewrite <- smul_modN. unfold eqN in H. rewrite H. reflexivity.
      * apply of_E_inj in H. subst e. rewrite smul_eO. reflexivity.
  - intros H. rewrite <- (smul_modN a), <- (smul_modN b). unfold eqN in H. rewrite H. reflexivity.
Qed.
Theorem C10_cyclic_of_order_N : forall P, group_elt P ->
  exists! k, 0 <= k < N /\ pt_mul k KP_nil = Ok P.
Proof.
  intros P HP. destruct (elt_of_E _ HP) as [e ->]. destruct (cyclic e) as (k & R & E).
  exists k. split.
  - split; [exact R|]. rewrite pt_mul_base by tauto. rewrite E. reflexivity.
  - intros k' [R' E']. rewrite pt_mul_base in E' by tauto.
    injection E' as X. apply of_E_inj in X. rewrite E in X.
    apply smul_G_inj in X. apply eqN_small; [exact R|exact R'|]. symmetry. exact X.
Qed.
Theorem C10_nil_is_the_base_point : forall s, pt_mul s KP_nil = pt_mul s (KP (Gx, Gy)) /\
  pt_mul s KP_typed_nil = pt_mul s (KP (Gx, Gy)).
Proof. intros s. split; reflexivity. Qed.
Example C10_ex : pt_mul (N + 2) (KP (Gx, Gy)) = Ok (pt_add (Gx, Gy) (Gx, Gy)) /\ group_elt (Gx, Gy).
Proof.
  split; [|exact group_G].
  destruct (C10_scalar_action (Gx, Gy) (N + 1) 1 group_G) as (A & B & EA & EB & E & _ & _ & E1 & _).
  destruct (C10_scalar_action (Gx, Gy) (N + 1) 1 group_G) as (A1 & B1 & EA1 & EB1 & _ & _ & _ & _ & _ & _ & EQ).
  destruct (C10_scalar_action (Gx, Gy) (N + 2) (sc_add (N + 1) 1) group_G) as (A2 & B2 & EA2 & EB2 & _ & _ & _ & _ & _ & _ & EQ2).
  change sc_one with 1 in E1.
  rewrite EA2, (EQ2 eq_refl), <- EB2, E.
  assert (A1 = B1) by (apply EQ; reflexivity). congruence.
Qed.
Print Assumptions C10_scalar_action. Print Assumptions C10_cyclic_of_order_N.
Print Assumptions C10_nil_is_the_base_point.

(** ** C11 *)
Theorem C11_key_pairs_sound : forall s, ~ eqN s 0 ->
  exists P b, scalar_to_public_point s = Ok P /\ curve_point P /\
    valid_public_key (KP P) = true /\ pt_marshal P = Ok b.
Proof.
  intros s H. apply key_sound. intros D. apply H. unfold eqN. rewrite (Zdivide_mod _ _ D). reflexivity.
Qed.
Theorem C11_distinct_keys : forall s t P, 0 <= s < N -> 0 <= t < N ->
  scalar_to_public_point s = Ok P -> scalar_to_public_point t = Ok P -> s = t.
Proof.
  intros s t P Hs Ht H1 H2. apply eqN_small; try assumption. eapply base_mul_inj; [exact H1|exact H2|reflexivity].
Qed.
Theorem C11_zero_key_unusable : forall s, eqN s 0 -> scalar_to_public_point s = Ok (0, 0) /\
  valid_public_key (KP (0, 0)) = false.
Proof.
  intros s H. split.
  - unfold scalar_to_public_point. rewrite pt_mul_base by tauto. rewrite <- smul_modN. unfold eqN in H. rewrite H. reflexivity.
  - destruct (valid_public_key (KP (0, 0))) eqn:E; [|reflexivity]. apply valid_public_key_spec in E.
    exfalso. exact (null_off_curve E).
Qed.
Example C11_ex : ~ eqN 5 0 /\ eqN (3 * N) 0.
Proof. vm_compute. split; [discriminate|reflexivity]. Qed.
Print Assumptions C11_key_pairs_sound. Print Assumptions C11_distinct_keys. Print Assumptions C11_zero_key_unusable.

(** ** C12 *)
Theorem C12_valid_public_key_iff : forall k, valid_public_key k = true <->
  exists P, k = KP P /\ on_curve (fst P) (snd P).
Proof.
  intros k. split.
  - destruct k as [| |P|]; try discriminate. intros H. exists P. split; [reflexivity|]. apply valid_public_key_spec, H.
  - intros (P & -> & H). apply valid_public_key_spec, H.
Qed.
Example C12_ex : valid_public_key (KP (Gx, Gy)) = true /\ valid_public_key (KP (Gx, Gy + 1)) = false /\
  valid_public_key KP_nil = false /\ valid_public_key KP_typed_nil = false /\ valid_public_key KP_foreign = false.
Proof.
  split; [apply valid_public_key_spec, G_curve_point|]. split; [|auto].
  destruct (valid_public_key (KP (Gx, Gy + 1))) eqn:E; [|reflexivity].
  apply valid_public_key_spec in E. vm_compute in E. discriminate.
Qed.
Print Assumptions C12_valid_public_key_iff.

(** ** C13: valid does not mean usable on-chain *)
Definition onchain_bound : Z := N / 2 + 1. (* half_q in ethschnorr2_test.go *)
Theorem C13_valid_means_onchain_usable_refuted : exists P, curve_point P /\
  valid_public_key (KP P) = true /\ ~ fst P < onchain_bound.
Proof.
  exists (89565891926547004231252920425935692360644145829622209833684329913297188986597,
   12158399299693830322967808612713398636155367887041628176798871954788371653930).
  assert (C : curve_point (89565891926547004231252920425935692360644145829622209833684329913297188986597,
   12158399299693830322967808612713398636155367887041628176798871954788371653930))
    by (vm_compute; repeat split; discriminate).
  split; [exact C|]. split; [apply valid_public_key_spec, C|]. vm_compute. discriminate.
Qed.
(** Only one direction holds. *)
Theorem C13_onchain_usable_is_valid : forall P, on_curve (fst P) (snd P) -> fst P < onchain_bound ->
  valid_public_key (KP P) = true.
Proof. intros P H _. apply valid_public_key_spec, H. Qed.
Example C13_ex : on_curve (Gx) (Gy) /\ Gx < onchain_bound.
Proof. vm_compute. auto. Qed.
Print Assumptions C13_valid_means_onchain_usable_refuted. Print Assumptions C13_onchain_usable_is_valid.

(** ** C14 *)
Theorem C14_embed_roundtrip : forall St (xks : St -> bytes -> St * bytes),
  (forall st b, length (snd (xks st b)) = length b) ->
  forall data st P st', pt_embed St xks data st = Ok (P, st') -> curve_point P /\ pt_data P = Ok data.
Proof. exact embed_ok. Qed.
Theorem C14_embed_panics_iff : forall St (xks : St -> bytes -> St * bytes) data st,
  pt_embed St xks data st = Panic <->
  (29 < length data)%nat \/
  (forall i, Z.of_nat i < 10000 -> ~ is_abscissa (embed_candidate St xks data st i)).
Proof. exact embed_panic. Qed.
Theorem C14_data_spec : forall P, let x := be_fixed 32 (fst P mod p) in
  (29 < z_of_byte (hd x00 x) -> pt_data P = Err) /\
  (z_of_byte (hd x00 x) <= 29 -> pt_data P = Ok (firstn (Z.to_nat (z_of_byte (hd x00 x))) (tl x))).
Proof. exact pt_data_spec. Qed.
(** With a stream whose i-th output is all bytes i, the first candidate for "ABC" is a curve abscissa. *)
Definition counter_stream (st : Z) (b : bytes) : Z * bytes := (st + 1, repeat (byte_of_z st) (length b)).
Example C14_ex : (forall st b, length (snd (counter_stream st b)) = length b) /\
  exists P st', pt_embed Z counter_stream [x41; x42; x43] 0 = Ok (P, st').
Proof.
  split; [intros; apply repeat_length|].
  destruct (pt_embed Z counter_stream [x41; x42; x43] 0) as [[P st']| |] eqn:E.
  - exists P, st'. reflexivity.
  - exfalso. exact (embed_no_err _ _ _ _ E).
  - exfalso. apply embed_panic in E. destruct E as [L|H]; [cbn in L; lia|].
    apply (H O); [lia|]. exists 79442302929185872921293847664119920382067725891765692449432740352477005581479.
    vm_compute. reflexivity.
Qed.
Print Assumptions C14_embed_roundtrip. Print Assumptions C14_embed_panics_iff. Print Assumptions C14_data_spec.

(** ** C15 *)
Theorem C15_long_roundtrip : forall P, curve_point P ->
  exists b, long_marshal P = Ok b /\ length b = 64%nat /\ long_unmarshal b = Ok P.
Proof.
  intros P C. pose proof (long_marshal_spec P) as E. eexists. split; [exact E|].
  split; [rewrite app_length, !be_fixed_length; reflexivity|]. apply long_roundtrip; assumption.
Qed.
Theorem C15_long_unmarshal_iff : forall m P, long_unmarshal m = Ok P <->
  length m = 64%nat /\ P = (be2z (firstn 32 m) mod p, be2z (skipn 32 m) mod p) /\
  on_curve (be2z (firstn 32 m)) (be2z (skipn 32 m)).
Proof. exact long_unmarshal_ok. Qed.
Theorem C15_long_unmarshal_never_panics : forall m, long_unmarshal m <> Panic.
Proof. exact long_unmarshal_no_panic. Qed.
Theorem C15_set_coordinates : forall x y,
  (on_curve x y -> set_coordinates x y = Ok (x mod p, y mod p)) /\
  (~ on_curve x y -> set_coordinates x y = Panic).
Proof. exact set_coordinates_spec. Qed.
Example C15_ex : on_curve (Gx + p) (Gy - p) /\ ~ on_curve 0 0 /\
  long_unmarshal (be_fixed 32 Gx ++ be_fixed 32 (Gy + 1)) = Err.
Proof. split; [vm_compute; reflexivity|]. split; [exact null_off_curve|].
  destruct (long_unmarshal (be_fixed 32 Gx ++ be_fixed 32 (Gy + 1))) as [P| |] eqn:E; [|reflexivity|].
  - apply C15_long_unmarshal_iff in E. destruct E as (_ & _ & E).
    rewrite firstn_fixed, skipn_fixed, !be2z_be_fixed in E. vm_compute in E. discriminate.
  - destruct (C15_long_unmarshal_never_panics _ E).
Qed.
Print Assumptions C15_long_roundtrip. Print Assumptions C15_long_unmarshal_iff.
Print Assumptions C15_long_unmarshal_never_panics. Print Assumptions C15_set_coordinates.

(** ** C18 *)
(** Pick returns the first draw in [1,N), if any. *)
Theorem C18_scalar_pick : forall St (xks : St -> bytes -> St * bytes) fuel st v st',
  sc_pick St xks fuel st = Some (v, st') <->
  exists i, (i < fuel)%nat /\ v = be2z (snd (draw St xks i st)) /\ st' = fst (draw St xks i st) /\ 0 < v < N /\
    forall j, (j < i)%nat -> ~ 0 < be2z (snd (draw St xks j st)) < N.
Proof. exact sc_pick_exact. Qed.
Theorem C18_point_pick : forall St (xks : St -> bytes -> St * bytes) fuel st P st',
  pt_pick St xks fuel st = Some (P, st') -> curve_point P.
Proof. exact pt_pick_point. Qed.
Theorem C18_generate : forall St (xks : St -> bytes -> St * bytes) fuel st s k n st',
  generate St xks fuel st = Some ((s, k), n, st') ->
  n = 1%nat /\ 1 <= s < N /\ exists P, k = KP P /\ pt_mul s KP_nil = Ok P /\ curve_point P /\
    valid_public_key k = true.
Proof. exact generate_once. Qed.
Theorem C18_generate_returns : forall St (xks : St -> bytes -> St * bytes) fuel st v st1,
  sc_pick St xks (S fuel) st = Some (v, st1) ->
  exists k, generate St xks (S fuel) st = Some ((v, k), 1%nat, st1).
Proof. exact generate_total. Qed.
Example C18_ex : (* all-ones draw rejected, then 0101...01 accepted *)
  sc_pick Z (fun st b => (st + 1, repeat (byte_of_z (if st =? 0 then 255 else st)) (length b))) 5 0
  = Some (be2z (repeat x01 32), 2).
Proof. vm_compute. reflexivity. Qed.
Example C18_ex_point : exists P st', pt_pick Z counter_stream 5 1 = Some (P, st').
Proof.
  destruct (pt_pick_first Z counter_stream 4 1 (be2z (repeat x01 32)) 2) as (P & st' & E & _).
  - vm_compute. reflexivity.
  - exists 34884343047476287872485460812753622401349492785792052895925986460469011584040. vm_compute. reflexivity.
  - exists P, st'. exact E.
Qed.
Print Assumptions C18_scalar_pick. Print Assumptions C18_point_pick. Print Assumptions C18_generate.
Print Assumptions C18_generate_returns.

(** ** C19: RepresentsScalar is not a range check *)
Theorem C19_represents_scalar_range_refuted : exists i, represents_scalar i = true /\ ~ 0 <= i < N.
Proof. exists (-1). split; [reflexivity|lia]. Qed.
Theorem C19_exactly_below_N : forall i, represents_scalar i = true <-> i < N.
Proof. intros i. apply Z.ltb_lt. Qed.
Theorem C19_range_for_nonnegative : forall i, 0 <= i -> (represents_scalar i = true <-> 0 <= i < N).
Proof. intros i H. rewrite C19_exactly_below_N. lia. Qed.
Print Assumptions C19_represents_scalar_range_refuted. Print Assumptions C19_exactly_below_N. Print Assumptions C19_range_for_nonnegative.

(** ** C20: Suite.New does not construct by type *)
Theorem C20_new_by_type_refuted :
  exists t, (t = RT_scalar_iface \/ t = RT_scalar_ptr) /\ suite_new t = NewNil.
Proof. exists RT_scalar_iface. split; [tauto|reflexivity]. Qed.
Theorem C20_new_only_for_nil_type : forall t,
  (t = RT_nil -> exists s, suite_new t = NewScalar s) /\ (t <> RT_nil -> suite_new t = NewNil).
Proof.
  intros t. split.
  - intros ->. exists 0. reflexivity.
  - intros H. destruct t; try reflexivity. contradiction.
Qed.
Print Assumptions C20_new_by_type_refuted. Print Assumptions C20_new_only_for_nil_type.
