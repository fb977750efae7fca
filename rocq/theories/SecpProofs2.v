(** Further proofs about the secp256k1 model: group, embedding, random picks. *)
From Coq Require Import ZArith Znumtheory List Lia Bool.
From Coq Require Import Init.Byte.
From Verif Require Import Params NumTh FastP PrimeP PrimeN Zmod ECGroup Curve OrderCert Order
  Bytes Res Secp Spec SecpProofs.
Import ListNotations.
Open Scope Z_scope.

(** * Scalars *)
Lemma repN_mod z : repN (z mod N) z.
Proof. split; [apply modN_range|]. unfold eqN. apply Zmod_mod. Qed.

Lemma repN_unique r z : repN r z -> r = z mod N.
Proof. intros [H1 H2]. unfold eqN in H2. rewrite Z.mod_small in H2 by exact H1. exact H2. Qed.

Lemma sc_equal_spec a b : sc_equal a b = true <-> eqN a b.
Proof.
  unfold sc_equal, eqN. rewrite Z.eqb_eq, eqm_divide by exact N_nz. split; intros H.
  - apply Zmod_divide; [exact N_nz|exact H].
  - apply Zdivide_mod, H.
Qed.

Lemma eqN_cancel a b c : ~ (N | c) -> eqN (a * c) (b * c) -> eqN a b.
Proof.
  unfold eqN. intros H E. apply eqm_divide in E; [|exact N_nz]. apply eqm_divide; [exact N_nz|].
  replace (a * c - b * c) with ((a - b) * c) in E by ring.
  apply prime_mult in E; [|exact prime_N]. destruct E; [assumption|contradiction].
Qed.

Lemma eqN_mul a b c d : eqN a b -> eqN c d -> eqN (a * c) (b * d).
Proof. unfold eqN. intros H1 H2. rewrite Zmult_mod, H1, H2, <- Zmult_mod. reflexivity. Qed.
Lemma eqN_add a b c d : eqN a b -> eqN c d -> eqN (a + c) (b + d).
Proof. unfold eqN. intros H1 H2. rewrite Zplus_mod, H1, H2, <- Zplus_mod. reflexivity. Qed.
Lemma eqN_mod a : eqN (a mod N) a. Proof. apply Zmod_mod. Qed.
Lemma eqN_sym a b : eqN a b -> eqN b a. Proof. unfold eqN; congruence. Qed.
Lemma eqN_trans a b c : eqN a b -> eqN b c -> eqN a c. Proof. unfold eqN; congruence. Qed.
Lemma eqN_small x y : 0 <= x < N -> 0 <= y < N -> eqN x y -> x = y.
Proof. unfold eqN. intros Hx Hy. rewrite !Z.mod_small by assumption. trivial. Qed.

Lemma modinv_N a : ~ (N | a) -> 1 <= modinv a N < N /\ eqN (a * modinv a N) 1.
Proof.
  intros H. pose proof (modinv_spec a N prime_N H) as S.
  assert (R : 0 <= modinv a N < N) by (apply modinv_range, N_pos).
  assert (E1 : 1 mod N = 1) by reflexivity.
  split.
  - assert (modinv a N <> 0); [|lia]. intros X. rewrite X, Z.mul_0_r in S. discriminate.
  - unfold eqN. rewrite E1. exact S.
Qed.

Lemma inverse_dec a : big_mod_inverse a = None <-> (N | a).
Proof.
  unfold big_mod_inverse. destruct (Z.eqb_spec (a mod N) 0) as [H|H]; split; intros X;
    try reflexivity; try discriminate.
  - apply Zmod_divide; [exact N_nz|exact H].
  - apply Zdivide_mod in X. contradiction.
Qed.

Lemma inverse_some a : ~ (N | a) -> big_mod_inverse a = Some (modinv a N).
Proof.
  intros H. unfold big_mod_inverse. destruct (Z.eqb_spec (a mod N) 0) as [X|X]; [|reflexivity].
  exfalso. apply H, Zmod_divide; [exact N_nz|exact X].
Qed.

Lemma sc_div_ok a b : ~ (N | b) ->
  exists c, sc_div a b = Ok c /\ 0 <= c < N /\ eqN (c * b) a /\
    forall c', 0 <= c' < N -> eqN (c' * b) a -> c' = c.
Proof.
  intros H. assert (b <> 0) by (intros ->; apply H, Z.divide_0_r).
  unfold sc_div. destruct (Z.eqb_spec b 0); [contradiction|].
  rewrite (inverse_some b H). destruct (modinv_N b H) as [R I].
  exists (sc_mod (a * modinv b N)). split; [reflexivity|].
  assert (E : eqN (sc_mod (a * modinv b N) * b) a).
  { eapply eqN_trans; [apply eqN_mul; [apply eqN_mod|reflexivity]|].
    replace (a * modinv b N * b) with (a * (b * modinv b N)) by ring.
    eapply eqN_trans; [apply eqN_mul; [reflexivity|exact I]|]. rewrite Z.mul_1_r. reflexivity. }
  split; [apply modN_range|]. split; [exact E|].
  intros c' Hc' E'. apply eqN_small; [exact Hc'|apply modN_range|].
  apply (eqN_cancel _ _ b H). eapply eqN_trans; [exact E'|]. apply eqN_sym, E.
Qed.

Lemma sc_div_panic a b : sc_div a b = Panic <-> (N | b).
Proof.
  split.
  - intros H. destruct (Zdivide_dec N b) as [D|D]; [exact D|].
    destruct (sc_div_ok a b D) as (c & E & _). congruence.
  - intros H. unfold sc_div. destruct (Z.eqb_spec b 0); [reflexivity|].
    apply inverse_dec in H. rewrite H. reflexivity.
Qed.

Lemma sc_inv_ok s a : ~ (N | a) ->
  exists c, sc_inv s a = Ok c /\ 1 <= c < N /\ eqN (c * a) 1 /\
    forall c', 0 <= c' < N -> eqN (c' * a) 1 -> c' = c.
Proof.
  intros H. assert (a <> 0) by (intros ->; apply H, Z.divide_0_r).
  unfold sc_inv. destruct (Z.eqb_spec a 0); [contradiction|].
  rewrite (inverse_some a H). destruct (modinv_N a H) as [R I].
  exists (modinv a N). split; [reflexivity|]. split; [exact R|].
  rewrite Z.mul_comm. split; [exact I|].
  intros c' Hc' E'. apply eqN_small; [exact Hc'|lia|].
  apply (eqN_cancel _ _ a H). eapply eqN_trans; [exact E'|]. apply eqN_sym.
  rewrite Z.mul_comm. exact I.
Qed.

Lemma sc_inv_zero s a : (N | a) -> sc_inv s a = if a =? 0 then Panic else Ok s.
Proof.
  intros H. unfold sc_inv. destruct (a =? 0); [reflexivity|].
  apply inverse_dec in H. rewrite H. reflexivity.
Qed.

Lemma sc_inv_panic s a : sc_inv s a = Panic <-> a = 0.
Proof.
  unfold sc_inv. destruct (Z.eqb_spec a 0) as [E|E].
  - split; trivial.
  - destruct (big_mod_inverse a); split; intros H; try discriminate; contradiction.
Qed.

Lemma sc_unmarshal_spec buf : sc_unmarshal buf
  = if (length buf =? 32)%nat then Ok (be2z buf mod N) else Err.
Proof. reflexivity. Qed.

Lemma N_2 : N < 2 ^ 256 /\ 2 ^ 256 < 2 * N.
Proof. split; reflexivity. Qed.
Lemma p_2 : p < 2 ^ 256 /\ 2 ^ 256 < 2 * p.
Proof. split; reflexivity. Qed.

(** A value below 2^256 shares its residue mod m (m < 2^256 < 2m) with another such value iff
    it is at least m or below 2^256-m. *)
Lemma collide m v : 0 < m < 2 ^ 256 -> 2 ^ 256 < 2 * m -> 0 <= v < 2 ^ 256 ->
  (exists w, 0 <= w < 2 ^ 256 /\ w <> v /\ w mod m = v mod m) <-> m <= v \/ v < 2 ^ 256 - m.
Proof.
  intros Hm Hm2 Hv. split.
  - intros (w & Hw & NE & E).
    apply eqm_divide in E; [|lia]. destruct E as [k E].
    assert (k <> 0) by (intros ->; lia).
    destruct (Z.le_gt_cases m v) as [G|G]; [left; exact G|right].
    assert (-1 <= k <= 1) by (split; nia). assert (k = 1 \/ k = -1) as [-> | ->] by lia; lia.
  - intros [H|H].
    + exists (v - m). split; [lia|]. split; [lia|].
      apply eqm_divide; [lia|]. exists (-1). lia.
    + exists (v + m). split; [lia|]. split; [lia|].
      apply eqm_divide; [lia|]. exists 1. lia.
Qed.

(** * The group of points *)
Definition curve_E e : is_null (of_E e) = false -> curve_point (of_E e).
Proof.
  intros H. destruct (of_E_elt e) as [X|X]; [|exact X]. rewrite X in H. discriminate.
Qed.

Lemma curve_not_null P : curve_point P -> is_null P = false.
Proof.
  intros (Hx & Hy & H). destruct P as [x y]; cbn in *. unfold is_null; cbn.
  destruct (Z.eqb_spec x 0), (Z.eqb_spec y 0); try reflexivity. subst. exfalso. exact (null_off_curve H).
Qed.

Lemma curve_neg P : curve_point P -> curve_point (mirror P).
Proof.
  intros (Hx & Hy & H). unfold mirror. split; [exact Hx|]. split; [apply modp_range|]. cbn.
  unfold on_curve in *. eapply eqP_trans; [apply eqP_mul; apply eqP_mod|].
  replace (- snd P * - snd P) with (snd P * snd P) by ring. exact H.
Qed.

Lemma pt_neg_mirror P : group_elt P -> pt_neg P = mirror P.
Proof.
  intros [->|(Hx & Hy & _)]; [reflexivity|].
  unfold pt_neg, mirror. rewrite fe_set_spec, fe_neg_spec, Z.mod_small by exact Hx. reflexivity.
Qed.

Lemma modinv_p a : ~ eqP a 0 -> eqP (a * modinv a p) 1.
Proof.
  intros H. unfold eqP. change (1 mod p) with 1. apply modinv_spec; [exact prime_p|].
  intros D. apply H. unfold eqP. rewrite (Zdivide_mod _ _ D). reflexivity.
Qed.

Lemma line_third_collinear l x1 y1 x2 :
  let R := line_third l x1 y1 x2 in eqP (- snd R - y1) (l * (fst R - x1)).
Proof.
  cbn [line_third fst snd]. set (x3 := (l * l - x1 - x2) mod p).
  eapply eqP_trans.
  { apply eqP_sub; [apply eqP_opp, eqP_mod|reflexivity]. }
  replace (- (l * (x1 - x3) - y1) - y1) with (l * (x3 - x1)) by ring. reflexivity.
Qed.

Lemma curve_nz_diff x1 x2 : 0 <= x1 < p -> 0 <= x2 < p -> x1 <> x2 -> ~ eqP (x2 - x1) 0.
Proof.
  intros H1 H2 NE E. apply NE. apply eqP_small; [assumption..|].
  apply eqP_sym. replace x2 with (x2 - x1 + x1) by ring.
  eapply eqP_trans; [apply eqP_add; [exact E|reflexivity]|]. reflexivity.
Qed.

Lemma set_group P : group_elt P -> pt_set P = P.
Proof. intros H. destruct (elt_of_E _ H) as [e ->]. apply pt_set_of_E. Qed.

Lemma btc_add_group P Q : group_elt P -> group_elt Q -> group_elt (btc_add P Q).
Proof.
  intros HP HQ. destruct (elt_of_E _ HP) as [a ->]. destruct (elt_of_E _ HQ) as [b ->].
  rewrite btc_add_of_E. apply of_E_elt.
Qed.

Lemma pt_add_chord P Q : curve_point P -> curve_point Q -> fst P <> fst Q ->
  let R := pt_add P Q in curve_point R /\ collinear P Q (mirror R).
Proof.
  intros HP HQ NE R.
  assert (GP : group_elt P) by (right; exact HP). assert (GQ : group_elt Q) by (right; exact HQ).
  assert (ER : R = btc_add P Q) by (unfold R, pt_add; apply set_group, btc_add_group; assumption).
  assert (GR : group_elt R) by (rewrite ER; apply btc_add_group; assumption).
  assert (NR : R <> (0, 0)).
  { destruct (elt_of_E _ GP) as [a Ea]. destruct (elt_of_E _ GQ) as [b Eb].
    intros Z0. rewrite ER, Ea, Eb, btc_add_of_E in Z0.
    assert (eadd a b = eO) by (apply of_E_inj; exact Z0).
    assert (b = eneg a) by (apply eneg_unique; exact H).
    apply NE. rewrite Ea, Eb, H0, <- pt_neg_of_E. rewrite pt_neg_mirror by apply of_E_elt. reflexivity. }
  destruct GR as [|CR]; [contradiction|]. split; [exact CR|].
  unfold collinear, mirror. cbn [fst snd].
  rewrite ER. unfold btc_add. rewrite (curve_not_null P HP), (curve_not_null Q HQ).
  destruct P as [x1 y1], Q as [x2 y2]. cbn [fst snd] in *.
  destruct (Z.eqb_spec x1 x2) as [|_]; [contradiction|].
  set (l := (y2 - y1) * modinv (x2 - x1) p).
  pose proof (line_third_collinear l x1 y1 x2) as C. cbn zeta in C.
  set (T := line_third l x1 y1 x2) in *.
  apply eqP_sym. eapply eqP_trans.
  { apply eqP_mul; [|reflexivity]. apply eqP_sub; [apply eqP_mod|reflexivity]. }
  eapply eqP_trans; [apply eqP_mul; [exact C|reflexivity]|]. unfold l.
  replace ((y2 - y1) * modinv (x2 - x1) p * (fst T - x1) * (x2 - x1))
    with (((x2 - x1) * modinv (x2 - x1) p) * ((y2 - y1) * (fst T - x1))) by ring.
  destruct HP as (HP & _). destruct HQ as (HQ & _).
  eapply eqP_trans; [apply eqP_mul; [apply modinv_p, curve_nz_diff; assumption|reflexivity]|].
  rewrite Z.mul_1_l. reflexivity.
Qed.

Lemma pt_add_opposite P Q : curve_point P -> curve_point Q -> fst P = fst Q -> snd P <> snd Q ->
  pt_add P Q = (0, 0).
Proof.
  intros HP HQ E NE. unfold pt_add, btc_add.
  rewrite (curve_not_null P HP), (curve_not_null Q HQ).
  destruct P as [x1 y1], Q as [x2 y2]. cbn [fst snd] in *.
  destruct (Z.eqb_spec x1 x2); [|contradiction]. destruct (Z.eqb_spec y1 y2); [contradiction|].
  reflexivity.
Qed.

Lemma pt_double_tangent P : curve_point P ->
  let R := pt_add P P in curve_point R /\ on_tangent P (mirror R).
Proof.
  intros HP R. assert (GP : group_elt P) by (right; exact HP).
  assert (ER : R = btc_add P P) by (unfold R, pt_add; apply set_group, btc_add_group; assumption).
  assert (GR : group_elt R) by (rewrite ER; apply btc_add_group; assumption).
  assert (Y : ~ eqP (snd P) 0) by (apply (on_curve_y_nz (fst P)), HP).
  assert (NR : R <> (0, 0)).
  { destruct (elt_of_E _ GP) as [a Ea].
    intros Z0. rewrite ER, Ea, btc_add_of_E in Z0.
    assert (H : eadd a a = eO) by (apply of_E_inj; exact Z0).
    assert (a = eneg a) by (apply eneg_unique; exact H).
    assert (PE : P = mirror P) by (rewrite Ea at 1; rewrite H0, <- pt_neg_of_E, <- Ea; apply pt_neg_mirror, GP).
    apply (parity_of_neg (snd P)); [apply HP|exact Y|].
    rewrite PE at 2. cbn. reflexivity. }
  destruct GR as [|CR]; [contradiction|]. split; [exact CR|].
  unfold on_tangent, mirror. cbn [fst snd].
  rewrite ER. unfold btc_add. rewrite (curve_not_null P HP).
  destruct P as [x1 y1]. cbn [fst snd] in *.
  rewrite !Z.eqb_refl. destruct (Z.eqb_spec y1 0) as [->|_]; [exfalso; apply Y; reflexivity|].
  set (l := (3 * (x1 * x1)) mod p * modinv (2 * y1) p).
  pose proof (line_third_collinear l x1 y1 x1) as C. cbn zeta in C.
  set (T := line_third l x1 y1 x1) in *.
  apply eqP_sym. eapply eqP_trans.
  { apply eqP_mul; [reflexivity|]. apply eqP_sub; [apply eqP_mod|reflexivity]. }
  eapply eqP_trans; [apply eqP_mul; [reflexivity|exact C]|]. unfold l.
  replace (2 * y1 * ((3 * (x1 * x1)) mod p * modinv (2 * y1) p * (fst T - x1)))
    with (((2 * y1) * modinv (2 * y1) p) * (((3 * (x1 * x1)) mod p) * (fst T - x1))) by ring.
  eapply eqP_trans.
  { apply eqP_mul; [apply modinv_p|apply eqP_mul; [apply eqP_mod|reflexivity]].
    intros D. unfold eqP in D. change (0 mod p) with 0 in D. apply Zmod_divide in D; [|exact p_nz].
    apply prime_mult in D; [|exact prime_p]. destruct D as [D|D].
    - apply Z.divide_pos_le in D; [|lia]. pose proof N_lt_p.
      assert (2 < p) by reflexivity. lia.
    - apply Y. unfold eqP. rewrite (Zdivide_mod _ _ D). reflexivity. }
  rewrite Z.mul_1_l. reflexivity.
Qed.

Lemma curve_point_on P : curve_point P -> on_curve (fst P) (snd P).
Proof. intros (_ & _ & H). exact H. Qed.

Lemma slope_sq u w l : ~ eqP w 0 -> eqP l (u * modinv w p) -> eqP ((l * l) * (w * w)) (u * u).
Proof.
  intros Hw Hl. eapply eqP_trans.
  { apply eqP_mul; [apply eqP_mul; exact Hl|reflexivity]. }
  replace (u * modinv w p * (u * modinv w p) * (w * w))
    with ((w * modinv w p) * (w * modinv w p) * (u * u)) by ring.
  eapply eqP_trans; [apply eqP_mul; [apply eqP_mul; apply modinv_p, Hw|reflexivity]|].
  rewrite !Z.mul_1_l. reflexivity.
Qed.

Lemma pt_add_chord_sum P Q : curve_point P -> curve_point Q -> fst P <> fst Q -> chord_sum P Q (pt_add P Q).
Proof.
  intros HP HQ NE. unfold pt_add. rewrite set_group by (apply btc_add_group; right; assumption).
  unfold chord_sum, btc_add. rewrite (curve_not_null P HP), (curve_not_null Q HQ).
  destruct P as [x1 y1], Q as [x2 y2]. cbn [fst snd] in *.
  destruct (Z.eqb_spec x1 x2) as [|_]; [contradiction|]. unfold line_third. cbn [fst snd].
  set (l := (y2 - y1) * modinv (x2 - x1) p).
  destruct HP as (HP & _). destruct HQ as (HQ & _).
  pose proof (curve_nz_diff x1 x2 HP HQ NE) as D.
  eapply eqP_trans; [|apply (slope_sq (y2 - y1) (x2 - x1) l D); reflexivity].
  apply eqP_mul; [|reflexivity].
  eapply eqP_trans; [apply eqP_add; [reflexivity|apply eqP_mod]|].
  replace (x1 + x2 + (l * l - x1 - x2)) with (l * l) by ring. reflexivity.
Qed.

Lemma two_y_nz x y : on_curve x y -> ~ eqP (2 * y) 0.
Proof.
  intros H D. unfold eqP in D. change (0 mod p) with 0 in D. apply Zmod_divide in D; [|exact p_nz].
  apply prime_mult in D; [|exact prime_p]. destruct D as [D|D].
  - apply Z.divide_pos_le in D; [|lia]. assert (2 < p) by reflexivity. lia.
  - apply (on_curve_y_nz _ _ H). unfold eqP. rewrite (Zdivide_mod _ _ D). reflexivity.
Qed.

Lemma pt_double_sum P : curve_point P -> tangent_sum P (pt_add P P).
Proof.
  intros HP. unfold pt_add. rewrite set_group by (apply btc_add_group; right; assumption).
  unfold tangent_sum, btc_add. rewrite (curve_not_null P HP).
  pose proof (on_curve_y_nz _ _ (curve_point_on P HP)) as Y.
  pose proof (two_y_nz _ _ (curve_point_on P HP)) as Y2.
  destruct P as [x1 y1]. cbn [fst snd] in *. rewrite !Z.eqb_refl.
  destruct (Z.eqb_spec y1 0) as [->|_]; [exfalso; apply Y; reflexivity|].
  unfold line_third. cbn [fst snd].
  set (l := (3 * (x1 * x1)) mod p * modinv (2 * y1) p).
  eapply eqP_trans; [|apply (slope_sq (3 * (x1 * x1)) (2 * y1) l Y2)].
  - apply eqP_mul; [|reflexivity].
    eapply eqP_trans; [apply eqP_add; [reflexivity|apply eqP_mod]|].
    replace (2 * x1 + (l * l - x1 - x1)) with (l * l) by ring. reflexivity.
  - unfold l. apply eqP_mul; [apply eqP_mod|reflexivity].
Qed.

(** * Keys *)
Lemma base_mul s k : k = KP_nil \/ k = KP_typed_nil -> exists P, pt_mul s k = Ok P /\ group_elt P /\
  (P = (0, 0) <-> (N | s)).
Proof.
  intros H. exists (of_E (smul s eG)). split; [apply pt_mul_base, H|]. split; [apply of_E_elt|].
  split; intros X.
  - apply smul_G_0. apply of_E_inj. exact X.
  - rewrite <- smul_modN, (Zdivide_mod _ _ X). reflexivity.
Qed.

Lemma base_mul_inj s t P Q : pt_mul s KP_nil = Ok P -> pt_mul t KP_nil = Ok Q -> P = Q -> eqN s t.
Proof.
  rewrite !pt_mul_base by tauto. intros H1 H2 E. injection H1 as <-. injection H2 as <-.
  apply of_E_inj in E. unfold eqN.
  apply smul_G_inj. exact E.
Qed.

Lemma key_sound s : ~ (N | s) -> exists P b, pt_mul s KP_nil = Ok P /\ curve_point P /\
  valid_public_key (KP P) = true /\ pt_marshal P = Ok b.
Proof.
  intros H. destruct (base_mul s KP_nil (or_introl eq_refl)) as (P & E & G & Z0).
  assert (C : curve_point P) by (destruct G as [X|X]; [exfalso; tauto|exact X]).
  exists P. eexists. split; [exact E|]. split; [exact C|]. split.
  - apply valid_public_key_spec, C.
  - apply pt_marshal_ok. split; [apply C|reflexivity].
Qed.

(** * Long form *)
Lemma long_marshal_spec P :
  long_marshal P = Ok (be_fixed 32 (fst P mod p) ++ be_fixed 32 (snd P mod p)).
Proof. unfold long_marshal. rewrite !fe_bytes_spec. reflexivity. Qed.

Lemma be2z_fixed_p z : be2z (be_fixed 32 (z mod p)) = z mod p.
Proof.
  rewrite be2z_be_fixed. apply Z.mod_small. pose proof (modp_range z). pose proof (mod_p_256 z). lia.
Qed.

Lemma firstn_fixed a b : firstn 32 (be_fixed 32 a ++ b) = be_fixed 32 a.
Proof.
  rewrite firstn_app, be_fixed_length, Nat.sub_diag, firstn_O, app_nil_r.
  rewrite <- (be_fixed_length 32 a) at 1. apply firstn_all.
Qed.
Lemma nth_fixed a b c : nth 32 (be_fixed 32 a ++ [b]) c = b.
Proof. rewrite app_nth2; rewrite be_fixed_length; [reflexivity|apply le_n]. Qed.

Lemma skipn_fixed a b : skipn 32 (be_fixed 32 a ++ b) = b.
Proof.
  rewrite skipn_app, be_fixed_length, Nat.sub_diag.
  rewrite <- (be_fixed_length 32 a) at 1. rewrite skipn_all. reflexivity.
Qed.

Lemma long_unmarshal_ok m P : long_unmarshal m = Ok P <->
  length m = 64%nat /\ P = (be2z (firstn 32 m) mod p, be2z (skipn 32 m) mod p) /\
  on_curve (be2z (firstn 32 m)) (be2z (skipn 32 m)).
Proof.
  unfold long_unmarshal. destruct (Nat.eqb_spec (length m) 64) as [L|L]; cbn [negb].
  2:{ split; [discriminate|]. intros (H & _); contradiction. }
  rewrite !fe_set_spec.
  pose proof (valid_public_key_spec (be2z (firstn 32 m) mod p, be2z (skipn 32 m) mod p)) as V.
  cbn [fst snd] in V.
  destruct (valid_public_key _) eqn:E.
  - split.
    + intros H. injection H as <-. split; [exact L|]. split; [reflexivity|].
      eapply on_curve_congr; [apply eqP_mod|apply eqP_mod|]. apply V. reflexivity.
    + intros (_ & -> & _). reflexivity.
  - split; [discriminate|]. intros (_ & -> & H). exfalso.
    assert (false = true); [|discriminate]. apply V.
    eapply on_curve_congr; [apply eqP_sym, eqP_mod|apply eqP_sym, eqP_mod|]. exact H.
Qed.

Lemma long_unmarshal_no_panic m : long_unmarshal m <> Panic.
Proof. unfold long_unmarshal. destruct (negb _); [discriminate|]. destruct (valid_public_key _); discriminate. Qed.

Lemma long_roundtrip P b : curve_point P -> long_marshal P = Ok b -> long_unmarshal b = Ok P.
Proof.
  intros (Hx & Hy & H). rewrite long_marshal_spec. intros E.
  assert (Eb : b = be_fixed 32 (fst P mod p) ++ be_fixed 32 (snd P mod p)) by congruence. clear E. subst b.
  apply long_unmarshal_ok. rewrite firstn_fixed, skipn_fixed, !be2z_fixed_p.
  rewrite !Z.mod_small by (assumption || (rewrite Z.mod_small; assumption)).
  split; [rewrite app_length, !be_fixed_length; reflexivity|]. split; [destruct P; reflexivity|exact H].
Qed.

Lemma set_coordinates_spec x y :
  (on_curve x y -> set_coordinates x y = Ok (x mod p, y mod p)) /\
  (~ on_curve x y -> set_coordinates x y = Panic).
Proof.
  unfold set_coordinates. rewrite !fe_set_spec.
  pose proof (valid_public_key_spec (x mod p, y mod p)) as V. cbn [fst snd] in V.
  assert (C : on_curve (x mod p) (y mod p) <-> on_curve x y).
  { split; intros H; eapply on_curve_congr; try exact H; try apply eqP_mod; apply eqP_sym, eqP_mod. }
  rewrite C in V. destruct (valid_public_key _); split; intros H; try reflexivity; exfalso.
  - apply H, V. reflexivity.
  - apply V in H. discriminate.
Qed.

(** * Compressed form *)
Lemma pt_roundtrip P b : curve_point P -> pt_marshal P = Ok b -> pt_unmarshal b = Ok P.
Proof.
  intros (Hx & Hy & H) E. apply pt_marshal_ok in E. destruct E as [_ ->].
  rewrite Z.mod_small by exact Hx.
  apply pt_unmarshal_ok. rewrite firstn_fixed, app_length, be_fixed_length.
  rewrite app_nth2 by (rewrite be_fixed_length; lia). rewrite be_fixed_length. cbn [nth Nat.sub].
  split; [reflexivity|]. split; [destruct (_ =? 0); tauto|].
  split.
  { rewrite <- (Z.mod_small (fst P) p Hx) at 2. rewrite be2z_fixed_p, Zmod_mod. symmetry. apply Z.mod_small, Hx. }
  split; [exact Hy|]. split; [exact H|].
  pose proof (Z.mod_pos_bound (snd P) 2 ltac:(lia)).
  destruct (Z.eqb_spec (snd P mod 2) 0) as [->|]; [reflexivity|].
  rewrite x01_z. lia.
Qed.

Lemma pt_unmarshal_point b P : pt_unmarshal b = Ok P -> curve_point P.
Proof.
  intros H. apply pt_unmarshal_ok in H. destruct H as (_ & _ & HX & HY & HC & _).
  split; [rewrite HX; apply modp_range|]. split; [exact HY|exact HC].
Qed.

(** Success is decided by the abscissa alone. *)
Lemma on_curve_parity x s : is_abscissa x -> s = 0 \/ s = 1 ->
  exists y, 0 <= y < p /\ on_curve x y /\ y mod 2 = s.
Proof.
  intros [y0 H] Hs.
  assert (H' : on_curve x (y0 mod p)) by (eapply on_curve_congr; [reflexivity|apply eqP_sym, eqP_mod|exact H]).
  assert (Hn : on_curve x ((- (y0 mod p)) mod p)).
  { unfold on_curve in *. eapply eqP_trans; [apply eqP_mul; apply eqP_mod|].
    replace (- (y0 mod p) * - (y0 mod p)) with ((y0 mod p) * (y0 mod p)) by ring. exact H'. }
  pose proof (parity_of_neg (y0 mod p) (modp_range _) (on_curve_y_nz _ _ H')) as Par.
  pose proof (Z.mod_pos_bound (y0 mod p) 2 ltac:(lia)) as B1.
  pose proof (Z.mod_pos_bound ((- (y0 mod p)) mod p) 2 ltac:(lia)) as B2.
  destruct (Z.eq_dec ((y0 mod p) mod 2) s) as [E|E].
  - exists (y0 mod p). split; [apply modp_range|]. tauto.
  - exists ((- (y0 mod p)) mod p). split; [apply modp_range|]. split; [exact Hn|]. lia.
Qed.

Lemma is_abscissa_mod x : is_abscissa (x mod p) <-> is_abscissa x.
Proof.
  split; intros [y H]; exists y; eapply on_curve_congr; try exact H; try reflexivity;
    [apply eqP_mod|apply eqP_sym, eqP_mod].
Qed.

Lemma pt_unmarshal_succeeds buf : (exists P, pt_unmarshal buf = Ok P) <->
  length buf = 33%nat /\ (nth 32 buf x00 = x00 \/ nth 32 buf x00 = x01) /\
  is_abscissa (be2z (firstn 32 buf)).
Proof.
  split.
  - intros [P H]. apply pt_unmarshal_ok in H. destruct H as (L & S & HX & _ & HC & _).
    split; [exact L|]. split; [exact S|]. apply is_abscissa_mod. exists (snd P). rewrite <- HX. exact HC.
  - intros (L & S & A). apply is_abscissa_mod in A.
    destruct (on_curve_parity _ (z_of_byte (nth 32 buf x00)) A) as (y & Hy & HC & HP).
    { destruct S as [-> | ->]; [left|right]; reflexivity. }
    exists (be2z (firstn 32 buf) mod p, y). apply pt_unmarshal_ok. cbn. tauto.
Qed.

(** * Embedding *)
Section Streams.
  Variable St : Type.
  Variable xks : St -> bytes -> St * bytes.
  Hypothesis xks_len : forall st b, length (snd (xks st b)) = length b.

  Notation feed := (feed St xks).

  Lemma feed_len n : forall st src, length (snd (feed n st src)) = length src.
  Proof.
    induction n as [|n IH]; intros st src; [reflexivity|]. cbn.
    pose proof (xks_len st src) as L. destruct (xks st src) as [st' b]. cbn in L. rewrite IH. exact L.
  Qed.

  Lemma fe_rhs_abscissa x : fe_maybe_sqrt (fe_rhs x) = None <-> ~ is_abscissa x.
  Proof.
    rewrite fe_rhs_spec. split.
    - intros H [y Hy]. apply (maybe_sqrt_none _ y H). eapply eqP_trans; [exact Hy|apply eqP_sym, eqP_mod].
    - intros H. destruct (fe_maybe_sqrt _) as [s|] eqn:E; [|reflexivity].
      exfalso. apply H. exists s. apply maybe_sqrt_some in E. destruct E as [_ E].
      eapply eqP_trans; [exact E|apply eqP_mod].
  Qed.

  Lemma embed_loop_spec n : forall pre rest st,
    (forall P st', embed_loop St xks n pre rest st = Ok (P, st') ->
       exists i, (i < n)%nat /\ fst P = be2z (pre ++ snd (feed (S i) st rest)) mod p /\
         0 <= snd P < p /\ on_curve (fst P) (snd P)) /\
    (embed_loop St xks n pre rest st = Panic <->
       forall i, (i < n)%nat -> ~ is_abscissa (be2z (pre ++ snd (feed (S i) st rest)))) /\
    embed_loop St xks n pre rest st <> Err.
  Proof.
    induction n as [|n IH]; intros pre rest st.
    - cbn. split; [discriminate|]. split; [|discriminate]. split; [intros _ i Hi; lia|reflexivity].
    - cbn [embed_loop]. destruct (xks st rest) as [st1 r1] eqn:E1.
      unfold fe_set_bytes. rewrite fe_modQ_spec.
      set (x := be2z (pre ++ r1) mod p).
      destruct (fe_maybe_sqrt (fe_rhs x)) as [y|] eqn:E.
      + split; [|split; [|discriminate]].
        * intros P st' H. injection H as <- <-. exists 0%nat. split; [lia|].
          cbn [feed]. rewrite E1. cbn [snd fst]. split; [reflexivity|].
          rewrite fe_rhs_spec in E. apply maybe_sqrt_some in E. destruct E as [R E].
          split; [exact R|]. eapply eqP_trans; [exact E|apply eqP_mod].
        * split; [discriminate|]. intros H. exfalso. apply (H 0%nat); [lia|].
          cbn [feed]. rewrite E1. cbn [snd]. apply is_abscissa_mod.
          rewrite fe_rhs_spec in E. apply maybe_sqrt_some in E. destruct E as [R E].
          exists y. fold x. eapply eqP_trans; [exact E|apply eqP_mod].
      + destruct (IH pre r1 st1) as (I1 & I2 & I3). split; [|split; [|exact I3]].
        * intros P st' H. destruct (I1 P st' H) as (i & Hi & X). exists (S i). split; [lia|].
          cbn [feed] in *. rewrite E1. exact X.
        * rewrite I2. split.
          -- intros H [|i] Hi.
             ++ cbn [feed]. rewrite E1. cbn [snd]. apply fe_rhs_abscissa in E.
                intros A. apply E. unfold x. apply is_abscissa_mod. exact A.
             ++ specialize (H i ltac:(lia)). cbn [feed] in *. rewrite E1. exact H.
          -- intros H i Hi. specialize (H (S i) ltac:(lia)). cbn [feed] in *. rewrite E1 in H. exact H.
  Qed.

  Lemma data_point pre_n data rest P :
    (length data <= 29)%nat -> length rest = (31 - length data)%nat -> pre_n = Z.of_nat (length data) ->
    fst P = be2z ((byte_of_z pre_n :: data) ++ rest) mod p -> pt_data P = Ok data.
  Proof.
    intros Hd Hr -> HP. unfold pt_data. rewrite fe_bytes_spec, HP, Zmod_mod. cbn [rbind].
    set (buf := (byte_of_z (Z.of_nat (length data)) :: data) ++ rest).
    assert (L : length buf = 32%nat) by (unfold buf; rewrite app_length; cbn [length]; lia).
    assert (Z0 : z_of_byte (byte_of_z (Z.of_nat (length data))) = Z.of_nat (length data)).
    { rewrite z_byte_z. apply Z.mod_small. lia. }
    assert (B : 0 <= be2z buf < p).
    { split; [apply be2z_range|]. unfold buf. cbn [app]. rewrite be2z_cons, Z0.
      pose proof (be2z_range (data ++ rest)) as R. rewrite app_length, Hr in *.
      replace (length data + (31 - length data))%nat with 31%nat in * by lia.
      apply Z.lt_le_trans with (30 * 256 ^ Z.of_nat 31); [nia|].
      intros X; discriminate. }
    rewrite Z.mod_small by exact B.
    assert (BB : be_fixed 32 (be2z buf) = buf) by (rewrite <- L; apply be_fixed_be2z). rewrite BB. unfold buf. cbn [app hd tl].
    rewrite Z0. unfold embed_len. change ((255 - 8 - 8) / 8) with 29.
    destruct (Z.ltb_spec 29 (Z.of_nat (length data))); [lia|].
    rewrite Nat2Z.id. f_equal. rewrite firstn_app, Nat.sub_diag, firstn_all. cbn. apply app_nil_r.
  Qed.

  Lemma embed_ok data st P st' : pt_embed St xks data st = Ok (P, st') ->
    curve_point P /\ pt_data P = Ok data.
  Proof.
    unfold pt_embed, embed_len. change ((255 - 8 - 8) / 8) with 29.
    destruct (Z.leb_spec (Z.of_nat (length data)) 29) as [L|L]; [|discriminate].
    intros H. destruct (embed_loop_spec max_attempts (byte_of_z (Z.of_nat (length data)) :: data)
      (repeat x00 (32 - length (byte_of_z (Z.of_nat (length data)) :: data))) st) as (I & _ & _).
    destruct (I _ _ H) as (i & _ & EX & HY & HC).
    split.
    - split; [rewrite EX; apply modp_range|]. tauto.
    - eapply data_point; [lia| |reflexivity|exact EX].
      rewrite feed_len, repeat_length. cbn [length]. lia.
  Qed.

  Notation embed_candidate := (embed_candidate St xks).

  Lemma embed_panic data st : pt_embed St xks data st = Panic <->
    (29 < length data)%nat \/ (forall i, Z.of_nat i < 10000 -> ~ is_abscissa (embed_candidate data st i)).
  Proof.
    unfold pt_embed, embed_len. change ((255 - 8 - 8) / 8) with 29.
    assert (M : Z.of_nat max_attempts = 10000) by reflexivity.
    destruct (Z.leb_spec (Z.of_nat (length data)) 29) as [L|L].
    - destruct (embed_loop_spec max_attempts (byte_of_z (Z.of_nat (length data)) :: data)
      (repeat x00 (32 - length (byte_of_z (Z.of_nat (length data)) :: data))) st) as (_ & I & _).
      rewrite I. replace (32 - length (byte_of_z (Z.of_nat (length data)) :: data))%nat
        with (31 - length data)%nat by (cbn [length]; lia).
      split.
      + intros H. right. intros i Hi. apply H. lia.
      + intros [H|H]; [lia|]. intros i Hi. apply H. lia.
    - split; [intros _; left; lia|reflexivity].
  Qed.

  Lemma embed_no_err data st : pt_embed St xks data st <> Err.
  Proof.
    unfold pt_embed. destruct (_ <=? _); [|discriminate]. apply embed_loop_spec.
  Qed.

  Lemma pt_data_spec P :
    let x := be_fixed 32 (fst P mod p) in
    (29 < z_of_byte (hd x00 x) -> pt_data P = Err) /\
    (z_of_byte (hd x00 x) <= 29 -> pt_data P = Ok (firstn (Z.to_nat (z_of_byte (hd x00 x))) (tl x))).
  Proof.
    cbn zeta. unfold pt_data, embed_len. change ((255 - 8 - 8) / 8) with 29.
    rewrite fe_bytes_spec. cbn [rbind].
    destruct (Z.ltb_spec 29 (z_of_byte (hd x00 (be_fixed 32 (fst P mod p))))); split; intros; try reflexivity; lia.
  Qed.

  (** * Random picks *)
  Notation draw := (draw St xks).

  Lemma random_int_exact fuel : forall m st v st', random_int St xks fuel m st = Some (v, st') <->
    exists i, (i < fuel)%nat /\ v = be2z (snd (draw i st)) /\ st' = fst (draw i st) /\ 0 < v < m /\
      forall j, (j < i)%nat -> ~ 0 < be2z (snd (draw j st)) < m.
  Proof.
    induction fuel as [|f IH]; intros m st v st'.
    - cbn. split; [discriminate|]. intros (i & H & _). lia.
    - cbn [random_int]. destruct (xks st (repeat x00 32)) as [st1 b] eqn:E.
      destruct (Z.ltb_spec 0 (be2z b)) as [H1|H1]; destruct (Z.ltb_spec (be2z b) m) as [H2|H2]; cbn [andb].
      1:{ split.
        - intros H. injection H as <- <-. exists 0%nat. cbn [draw]. rewrite E. cbn.
          split; [lia|]. split; [reflexivity|]. split; [reflexivity|]. split; [lia|]. intros j Hj; lia.
        - intros ([|i] & Hi & Hv & Hs & R & F).
          + cbn [draw] in *. rewrite E in *. cbn in *. congruence.
          + exfalso. apply (F 0%nat); [lia|]. cbn [draw]. rewrite E. cbn. lia. }
      all: rewrite IH; split;
        [ intros (i & Hi & Hv & Hs & R & F); exists (S i); cbn [draw]; rewrite E; cbn [fst];
          split; [lia|]; split; [exact Hv|]; split; [exact Hs|]; split; [exact R|];
          intros [|j] Hj; [cbn [draw]; rewrite E; cbn [snd]; lia|cbn [draw]; rewrite E; apply F; lia]
        | intros ([|i] & Hi & Hv & Hs & R & F);
          [ exfalso; cbn [draw] in *; rewrite E in *; cbn in *; lia
          | cbn [draw] in Hv, Hs; rewrite E in Hv, Hs; cbn [fst] in Hv, Hs; exists i;
            split; [lia|]; split; [exact Hv|]; split; [exact Hs|]; split; [exact R|];
            intros j Hj; specialize (F (S j) ltac:(lia)); cbn [draw] in F; rewrite E in F; exact F ] ].
  Qed.

  Lemma random_int_range fuel m st v st' : random_int St xks fuel m st = Some (v, st') -> 0 < v < m.
  Proof. intros H. apply random_int_exact in H. destruct H as (i & _ & _ & _ & R & _). exact R. Qed.

  Lemma sc_pick_exact fuel st v st' : sc_pick St xks fuel st = Some (v, st') <->
    exists i, (i < fuel)%nat /\ v = be2z (snd (draw i st)) /\ st' = fst (draw i st) /\ 0 < v < N /\
      forall j, (j < i)%nat -> ~ 0 < be2z (snd (draw j st)) < N.
  Proof.
    rewrite <- random_int_exact. unfold sc_pick.
    destruct (random_int St xks fuel N st) as [[w s]|] eqn:E.
    - apply random_int_range in E. unfold sc_mod. rewrite Z.mod_small by lia. reflexivity.
    - split; discriminate.
  Qed.

  Lemma pt_pick_point fuel : forall st P st', pt_pick St xks fuel st = Some (P, st') -> curve_point P.
  Proof.
    induction fuel as [|f IH]; intros st P st'; [discriminate|].
    cbn [pt_pick]. unfold fe_pick. destruct (random_int St xks (S f) p st) as [[x0 st1]|] eqn:E; [|discriminate].
    apply random_int_range in E.
    assert (X : fe_set (fe_set x0) = x0) by (rewrite !fe_set_spec, Zmod_mod; apply Z.mod_small; lia).
    rewrite X. destruct (fe_maybe_sqrt (fe_rhs x0)) as [y0|] eqn:Eq.
    - rewrite fe_rhs_spec in Eq. apply maybe_sqrt_some in Eq. destruct Eq as [R Eq].
      assert (C : on_curve x0 y0) by (eapply eqP_trans; [exact Eq|apply eqP_mod]).
      rewrite fe_set_spec, fe_neg_spec, (Z.mod_small y0) by exact R.
      destruct (xks st1 [x00]) as [st2 b]. intros H. injection H as <- <-.
      assert (CP : curve_point (x0, y0)) by (split; [cbn; lia|split; assumption]).
      destruct (_ =? 0); [apply (curve_neg _ CP)|exact CP].
    - apply IH.
  Qed.

  (** A first draw that is the abscissa of a curve point is kept. *)
  Lemma pt_pick_first f st x st1 : random_int St xks (S f) p st = Some (x, st1) -> is_abscissa x ->
    exists P st', pt_pick St xks (S f) st = Some (P, st') /\ fst P = x.
  Proof.
    intros E [y C]. cbn [pt_pick]. unfold fe_pick. rewrite E. apply random_int_range in E.
    assert (X : fe_set (fe_set x) = x) by (rewrite !fe_set_spec, Zmod_mod; apply Z.mod_small; lia).
    rewrite X. destruct (fe_maybe_sqrt (fe_rhs x)) as [y0|] eqn:Eq.
    - destruct (xks st1 [x00]) as [st2 b]. do 2 eexists. split; reflexivity.
    - exfalso. rewrite fe_rhs_spec in Eq. apply (maybe_sqrt_none _ y Eq).
      eapply eqP_trans; [exact C|apply eqP_sym, eqP_mod].
  Qed.

  Lemma generate_once fuel st s k n st' : generate St xks fuel st = Some ((s, k), n, st') ->
    n = 1%nat /\ 1 <= s < N /\ exists P, k = KP P /\ pt_mul s KP_nil = Ok P /\ curve_point P /\
      valid_public_key k = true.
  Proof.
    unfold generate. destruct fuel as [|f]; [discriminate|]. cbn [generate_loop valid_public_key snd].
    destruct (sc_pick St xks (S f) st) as [[v st1]|] eqn:E; [|discriminate].
    apply sc_pick_exact in E. destruct E as (i & _ & _ & _ & R & _).
    assert (ND : ~ (N | v)) by (intros D; apply Z.divide_pos_le in D; lia).
    destruct (key_sound v ND) as (P & b & EP & C & V & _). rewrite EP.
    destruct f; cbn [generate_loop snd]; rewrite V; intros H; injection H as <- <- <- <-;
      (split; [reflexivity|]); (split; [lia|]); exists P; rewrite EP; tauto.
  Qed.

  Lemma generate_total fuel st v st1 : sc_pick St xks (S fuel) st = Some (v, st1) ->
    exists k, generate St xks (S fuel) st = Some ((v, k), 1%nat, st1).
  Proof.
    intros E. unfold generate. cbn [generate_loop valid_public_key snd]. rewrite E.
    apply sc_pick_exact in E. destruct E as (i & _ & _ & _ & R & _).
    assert (ND : ~ (N | v)) by (intros D; apply Z.divide_pos_le in D; lia).
    destruct (key_sound v ND) as (P & b & EP & C & V & _). rewrite EP. exists (KP P).
    destruct fuel; cbn [generate_loop snd]; rewrite V; reflexivity.
  Qed.
End Streams.
