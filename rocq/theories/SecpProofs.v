(** Proofs about the model of the secp256k1 package. *)
From Coq Require Import ZArith Znumtheory List Lia Bool.
From Coq Require Import Init.Byte.
From Verif Require Import Params NumTh FastP PrimeP PrimeN Zmod ECGroup Curve OrderCert Order
  Bytes Res Secp Spec.
Import ListNotations.
Open Scope Z_scope.

(** * Field *)
Lemma fe_modQ_spec f : fe_modQ f = f mod p.
Proof.
  unfold fe_modQ. destruct (Z.leb_spec p f), (Z.ltb_spec f 0); cbn; try reflexivity.
  symmetry. apply Z.mod_small. lia.
Qed.

Lemma modp_range z : 0 <= z mod p < p.
Proof. apply Z.mod_pos_bound, p_pos. Qed.
Lemma modN_range z : 0 <= z mod N < N.
Proof. apply Z.mod_pos_bound, N_pos. Qed.

Lemma p_nz : p <> 0. Proof. discriminate. Qed.
Lemma N_nz : N <> 0. Proof. discriminate. Qed.

Lemma fe_equal_spec f g : fe_equal f g = true <-> eqP f g.
Proof.
  unfold fe_equal, eqP. rewrite fe_modQ_spec, Z.eqb_eq. rewrite eqm_divide by exact p_nz.
  split; intros H.
  - apply Zmod_divide; [exact p_nz|exact H].
  - apply Zdivide_mod, H.
Qed.

Lemma fe_equal_false f g : fe_equal f g = false <-> ~ eqP f g.
Proof.
  rewrite <- fe_equal_spec. destruct (fe_equal f g); split; congruence.
Qed.

Lemma mod_p_256 z : z mod p < 256 ^ Z.of_nat 32.
Proof. rewrite pow256_32. pose proof (modp_range z). pose proof p_lt. lia. Qed.
Lemma mod_N_256 z : z mod N < 256 ^ Z.of_nat 32.
Proof. rewrite pow256_32. pose proof (modN_range z). pose proof N_lt. lia. Qed.

Lemma fe_bytes_spec f : fe_bytes f = Ok (be_fixed 32 (f mod p)).
Proof.
  unfold fe_bytes. rewrite fe_modQ_spec. cbv zeta.
  pose proof (modp_range f) as R. pose proof (mod_p_256 f) as B.
  assert (L : (length (big_bytes (f mod p)) <= 32)%nat).
  { rewrite big_bytes_length. apply nbytes_le. rewrite Z.abs_eq by lia. exact B. }
  destruct (Nat.ltb_spec 32 (length (big_bytes (f mod p)))) as [H|_]; [lia|].
  rewrite pad_big_bytes by (rewrite Z.abs_eq by lia; exact B).
  rewrite Z.abs_eq by lia. reflexivity.
Qed.

Lemma fe_rhs_spec x : fe_rhs x = (x * x * x + 7) mod p.
Proof.
  unfold fe_rhs, fe_add. rewrite !fe_modQ_spec, powm_spec by exact p_nz.
  rewrite <- Zplus_mod. f_equal. f_equal. ring.
Qed.

Lemma fe_square_spec y : fe_square y = (y * y) mod p.
Proof.
  unfold fe_square. rewrite fe_modQ_spec, powm_spec, Zmod_mod by exact p_nz. f_equal. ring.
Qed.

Lemma eqP_refl x : eqP x x. Proof. reflexivity. Qed.
Lemma eqP_sym x y : eqP x y -> eqP y x. Proof. unfold eqP; congruence. Qed.
Lemma eqP_trans x y z : eqP x y -> eqP y z -> eqP x z. Proof. unfold eqP; congruence. Qed.
Lemma eqP_mod x : eqP (x mod p) x. Proof. apply Zmod_mod. Qed.
Lemma eqP_add a b c d : eqP a b -> eqP c d -> eqP (a + c) (b + d).
Proof. unfold eqP. intros H1 H2. rewrite Zplus_mod, H1, H2, <- Zplus_mod. reflexivity. Qed.
Lemma eqP_sub a b c d : eqP a b -> eqP c d -> eqP (a - c) (b - d).
Proof. unfold eqP. intros H1 H2. rewrite Zminus_mod, H1, H2, <- Zminus_mod. reflexivity. Qed.
Lemma eqP_mul a b c d : eqP a b -> eqP c d -> eqP (a * c) (b * d).
Proof. unfold eqP. intros H1 H2. rewrite Zmult_mod, H1, H2, <- Zmult_mod. reflexivity. Qed.
Lemma eqP_opp a b : eqP a b -> eqP (- a) (- b).
Proof. intros H. apply (eqP_sub 0 0 a b); [reflexivity|exact H]. Qed.
Lemma eqP_small x y : 0 <= x < p -> 0 <= y < p -> eqP x y -> x = y.
Proof. unfold eqP. intros Hx Hy. rewrite !Z.mod_small by assumption. trivial. Qed.

Lemma sqrt_power_eq : 4 * Zpos sqrt_power = p + 1.
Proof. reflexivity. Qed.

Lemma sqrt_complete v y : eqP (y * y) v ->
  eqP (powm v sqrt_power p * powm v sqrt_power p) v.
Proof.
  intros H. rewrite powm_spec by exact p_nz.
  eapply eqP_trans; [apply eqP_mul; apply eqP_mod|].
  assert (E : eqP (v ^ Zpos sqrt_power * v ^ Zpos sqrt_power)
                  ((y * y) ^ Zpos sqrt_power * (y * y) ^ Zpos sqrt_power)).
  { apply eqP_mul; apply pow_mod_congrZ; try lia; symmetry; exact H. }
  eapply eqP_trans; [exact E|]. eapply eqP_trans; [|exact H].
  replace (y * y) with (y ^ 2) at 1 2 by ring.
  rewrite <- Z.pow_mul_r, <- Z.pow_add_r by lia.
  replace (2 * Zpos sqrt_power + 2 * Zpos sqrt_power) with ((p - 1) + 2)
    by (pose proof sqrt_power_eq; lia).
  assert (P1 : 0 <= p - 1) by (intros X; discriminate).
  rewrite Z.pow_add_r by (exact P1 || lia).
  destruct (Zdivide_dec p y) as [D|ND].
  - destruct D as [k ->]. unfold eqP.
    replace ((k * p) ^ (p - 1) * (k * p) ^ 2) with (((k * p) ^ (p - 1) * k * k * p) * p) by ring.
    replace (k * p * (k * p)) with ((k * k * p) * p) by ring.
    rewrite !Z_mod_mult. reflexivity.
  - pose proof (fermat p prime_p y ND) as F.
    replace (y * y) with (1 * y ^ 2) by ring. apply eqP_mul; [|reflexivity].
    unfold eqP. rewrite F. reflexivity.
Qed.

Lemma maybe_sqrt_some v s : fe_maybe_sqrt v = Some s -> 0 <= s < p /\ eqP (s * s) v.
Proof.
  unfold fe_maybe_sqrt. cbv zeta.
  destruct (fe_equal (fe_square (powm v sqrt_power p)) v) eqn:E; [|discriminate].
  intros H. injection H as <-. split.
  - rewrite powm_spec by exact p_nz. apply modp_range.
  - apply fe_equal_spec in E. rewrite fe_square_spec in E.
    eapply eqP_trans; [|exact E]. apply eqP_sym, eqP_mod.
Qed.

Lemma maybe_sqrt_none v y : fe_maybe_sqrt v = None -> ~ eqP (y * y) v.
Proof.
  unfold fe_maybe_sqrt. cbv zeta.
  destruct (fe_equal (fe_square (powm v sqrt_power p)) v) eqn:E; [discriminate|].
  intros _ H. apply fe_equal_false in E. apply E. rewrite fe_square_spec.
  eapply eqP_trans; [apply eqP_mod|]. eapply sqrt_complete, H.
Qed.

Lemma fe_neg_spec g : fe_neg g = (- g) mod p.
Proof. unfold fe_neg. apply fe_modQ_spec. Qed.
Lemma fe_set_spec g : fe_set g = g mod p.
Proof. apply fe_modQ_spec. Qed.

(** Square roots are unique up to sign. *)
Lemma sqrt_unique a b : eqP (a * a) (b * b) -> eqP a b \/ eqP a (- b).
Proof.
  intros H. unfold eqP in *. apply eqm_divide in H; [|exact p_nz].
  replace (a * a - b * b) with ((a - b) * (a + b)) in H by ring.
  apply prime_mult in H; [|exact prime_p].
  destruct H as [H|H]; [left|right]; apply eqm_divide; try exact p_nz.
  - exact H.
  - replace (a - - b) with (a + b) by lia. exact H.
Qed.

Lemma valid_public_key_spec P : valid_public_key (KP P) = true <-> on_curve (fst P) (snd P).
Proof.
  unfold valid_public_key. rewrite fe_rhs_spec. unfold on_curve.
  destruct (fe_maybe_sqrt _) as [s|] eqn:E.
  - apply maybe_sqrt_some in E. destruct E as [_ E].
    assert (E' : eqP (s * s) (fst P * fst P * fst P + 7)) by (eapply eqP_trans; [exact E|apply eqP_mod]).
    rewrite orb_true_iff, !fe_equal_spec. split.
    + intros [H|H].
      * eapply eqP_trans; [apply eqP_mul; exact H|exact E'].
      * assert (H' : eqP (snd P) (- s)).
        { eapply eqP_trans; [exact H|]. rewrite fe_neg_spec. apply eqP_mod. }
        eapply eqP_trans; [apply eqP_mul; exact H'|].
        replace (- s * - s) with (s * s) by ring. exact E'.
    + intros H. destruct (sqrt_unique (snd P) s) as [G|G].
      * eapply eqP_trans; [exact H|]. apply eqP_sym, E'.
      * left; exact G.
      * right. rewrite fe_neg_spec. eapply eqP_trans; [exact G|]. apply eqP_sym, eqP_mod.
  - split; [discriminate|]. intros H. exfalso.
    apply (maybe_sqrt_none _ (snd P) E). eapply eqP_trans; [exact H|]. apply eqP_sym, eqP_mod.
Qed.

Lemma rhs_ne_0 x : ~ eqP (x * x * x + 7) 0.
Proof.
  intros H. apply (fp_noroot (fp x)).
  unfold b7, fp. rewrite <- !of_Z_mul, <- of_Z_add. apply of_Z_eq. exact H.
Qed.

Lemma on_curve_y_nz x y : on_curve x y -> ~ eqP y 0.
Proof.
  intros H E. apply (rhs_ne_0 x). eapply eqP_trans; [apply eqP_sym, H|].
  apply (eqP_trans _ (0 * 0)); [apply eqP_mul; exact E|reflexivity].
Qed.

(** * Integer pairs and the abstract group *)
Definition of_E (e : E) : point :=
  match epoint e with
  | Inf _ => (0, 0)
  | Aff _ x y => (val x, val y)
  end.

Lemma onc_of_Z x y : onc (PAff (fp x) (fp y)) <-> on_curve x y.
Proof.
  unfold onc, on, on_curve, eqP, b7, fp. rewrite <- !of_Z_mul, <- of_Z_add. apply of_Z_eq.
Qed.

Lemma of_E_elt e : group_elt (of_E e).
Proof.
  unfold of_E, group_elt. pose proof (e_on e) as O. destruct (epoint e) as [|x y]; [now left|right].
  unfold curve_point; cbn. split; [apply val_range, p_pos|]. split; [apply val_range, p_pos|].
  apply onc_of_Z. unfold fp. rewrite !of_Z_val. exact O.
Qed.

Lemma elt_of_E P : group_elt P -> exists e, P = of_E e.
Proof.
  intros [->|H].
  - exists eO. reflexivity.
  - destruct P as [x y]. destruct H as (Hx & Hy & H). cbn in *.
    exists (epack _ (proj2 (onc_of_Z x y) H)). unfold of_E; cbn [epoint epack proj1_sig].
    unfold fp. rewrite !val_of_Z, !Z.mod_small by assumption. reflexivity.
Qed.

Lemma null_off_curve : ~ on_curve 0 0.
Proof. unfold on_curve, eqP. intros H. discriminate. Qed.

Lemma of_E_null e : is_null (of_E e) = true <-> e = eO.
Proof.
  split.
  - unfold is_null, of_E. intros H. apply andb_prop in H. destruct H as [H1 H2].
    apply Z.eqb_eq in H1, H2. pose proof (e_on e) as O.
    destruct (epoint e) as [|x y] eqn:Ep.
    + apply E_eq. exact Ep.
    + exfalso. cbn in H1, H2. apply null_off_curve.
      rewrite <- H1 at 1. rewrite <- H2. apply onc_of_Z. unfold fp. rewrite !of_Z_val. exact O.
  - intros ->. reflexivity.
Qed.

Lemma of_E_inj a b : of_E a = of_E b -> a = b.
Proof.
  intros H.
  destruct (is_null (of_E a)) eqn:Na.
  - pose proof Na as Nb. rewrite H in Nb. apply of_E_null in Na, Nb. congruence.
  - assert (Nb : is_null (of_E b) = false) by (rewrite <- H; exact Na).
    apply E_eq. unfold of_E in *.
    destruct (epoint a) as [|x y]; [discriminate|].
    destruct (epoint b) as [|x' y']; [discriminate|].
    injection H as H1 H2. apply Fm_eq in H1, H2. congruence.
Qed.

Lemma of_E_not_null e : is_null (of_E e) = false ->
  exists x y, epoint e = PAff x y /\ of_E e = (val x, val y).
Proof.
  unfold of_E. destruct (epoint e) as [|x y]; [discriminate|]. intros _. now exists x, y.
Qed.

Lemma modinv_mod a m : 0 < m -> modinv (a mod m) m = modinv a m.
Proof.
  intros Hm. unfold modinv. cbv zeta. rewrite Zmod_mod, Zmult_mod_idemp_l.
  destruct (_ =? 1); [reflexivity|].
  rewrite !powm_spec by lia. apply pow_mod_congrZ; [lia|]. apply Zmod_mod.
Qed.

Lemma fp_modinv a : fp (modinv a p) = finv (fp a).
Proof.
  unfold finv, fp. rewrite val_of_Z, modinv_mod by apply p_pos. reflexivity.
Qed.

Lemma fp_val (x : Fp) : fp (val x) = x. Proof. apply of_Z_val. Qed.

Lemma fp_modp z : fp (z mod p) = fp z. Proof. apply of_Z_mod. Qed.

Lemma val_fp z : val (fp z) = z mod p. Proof. reflexivity. Qed.

Lemma line_third_of_E l (x1 y1 x2 : Fp) :
  line_third l (val x1) (val y1) (val x2)
  = match chord Fp fmul fsub (fp l) x1 y1 x2 with
    | Inf _ => (0, 0) | Aff _ x y => (val x, val y) end.
Proof.
  unfold line_third, chord. cbv zeta.
  set (X := (l * l - val x1 - val x2) mod p).
  assert (EX : fp X = fsub (fsub (fmul (fp l) (fp l)) x1) x2).
  { unfold X. rewrite fp_modp, !fp_sub, fp_mul, !fp_val. reflexivity. }
  f_equal.
  - rewrite <- EX, val_fp. unfold X. rewrite Zmod_mod. reflexivity.
  - rewrite <- EX. rewrite <- (fp_val x1) at 2. rewrite <- (fp_val y1) at 2.
    rewrite <- !fp_sub, <- fp_mul, <- fp_sub. rewrite val_fp. reflexivity.
Qed.

Lemma val_eq_iff (x y : Fp) : val x = val y <-> x = y.
Proof. split; [apply Fm_eq|congruence]. Qed.

Lemma btc_add_of_E a b : btc_add (of_E a) (of_E b) = of_E (eadd a b).
Proof.
  unfold btc_add. destruct (is_null (of_E a)) eqn:Na.
  { apply of_E_null in Na. subst a. rewrite eadd_0_l. reflexivity. }
  destruct (is_null (of_E b)) eqn:Nb.
  { apply of_E_null in Nb. subst b. rewrite eadd_0_r. reflexivity. }
  destruct (of_E_not_null _ Na) as (x1 & y1 & Pa & Ea).
  destruct (of_E_not_null _ Nb) as (x2 & y2 & Pb & Eb).
  pose proof (e_on a) as Oa. pose proof (e_on b) as Ob. rewrite Pa in Oa. rewrite Pb in Ob.
  rewrite Ea, Eb. unfold of_E. cbn [eadd epack epoint proj1_sig]. fold (epoint a). fold (epoint b).
  rewrite Pa, Pb. unfold caddp. cbn [padd].
  assert (Y1 : y1 <> fzero)
    by (apply (y_nz Fp fzero fone fadd fmul fsub fopp fdiv finv Fp_field b7 fp_noroot x1 y1); exact Oa).
  destruct (Z.eqb_spec (val x1) (val x2)) as [X|X].
  - apply val_eq_iff in X. subst x2.
    destruct (Fm_eq_dec x1 x1) as [_|NE]; [|congruence].
    destruct (Z.eqb_spec (val y1) (val y2)) as [Y|Y].
    + apply val_eq_iff in Y. subst y2.
      destruct (Z.eqb_spec (val y1) 0) as [Z0|_].
      { exfalso. apply Y1. apply Fm_eq. exact Z0. }
      destruct (Fm_eq_dec (fadd y1 y1) fzero) as [E0|_].
      { exfalso. assert (E1 : fmul (fadd fone fone) y1 = fzero).
        { rewrite <- (fp_val y1) in *. rewrite <- E0. change fone with (fp 1).
          rewrite <- !fp_add, <- fp_mul. f_equal. ring. }
        apply (fmul_eq_0 p prime_p) in E1. destruct E1 as [E1|E1]; [exact (fp_two_nz E1)|contradiction]. }
      rewrite line_third_of_E. do 2 f_equal. unfold fdiv.
      rewrite fp_mul, fp_modp, fp_modinv, !fp_mul, !fp_val, fp_3, fp_2. reflexivity.
    + destruct (Fm_eq_dec (fadd y1 y2) fzero) as [_|NE]; [reflexivity|].
      exfalso. destruct (on_same_x _ _ _ Oa Ob) as [->| ->].
      * apply Y. reflexivity.
      * apply NE. apply Fm_eq. rewrite val_add, val_opp, Zplus_mod_idemp_r, Z.add_opp_diag_r. reflexivity.
  - destruct (Fm_eq_dec x1 x2) as [E0|_]; [subst x2; congruence|].
    rewrite line_third_of_E. do 2 f_equal. unfold fdiv.
    rewrite fp_mul, fp_modinv, !fp_sub, !fp_val. reflexivity.
Qed.

Lemma btc_pmul_of_E n a : btc_pmul n (of_E a) = of_E (pmul n a).
Proof.
  induction n as [n IH|n IH|]; cbn [btc_pmul pmul]; cbv zeta; rewrite ?IH, ?btc_add_of_E; reflexivity.
Qed.

Lemma btc_mul_of_E a k : btc_mul (of_E a) k = of_E (smul (be2z k) a).
Proof.
  unfold btc_mul. pose proof (be2z_range k). destruct (be2z k) as [|n|n]; [reflexivity| |lia].
  cbn [smul]. apply btc_pmul_of_E.
Qed.

Lemma of_E_base : pt_base = of_E eG.
Proof. unfold of_E, eG; cbn [epoint epack proj1_sig]. rewrite !val_fp. reflexivity. Qed.

Lemma pt_set_of_E a : pt_set (of_E a) = of_E a.
Proof.
  pose proof (of_E_elt a) as H. unfold pt_set. rewrite !fe_set_spec.
  destruct H as [->|(Hx & Hy & _)]; [reflexivity|].
  rewrite !Z.mod_small by assumption. destruct (of_E a); reflexivity.
Qed.

Lemma pt_add_of_E a b : pt_add (of_E a) (of_E b) = of_E (eadd a b).
Proof. unfold pt_add. rewrite btc_add_of_E. apply pt_set_of_E. Qed.

Lemma pt_neg_of_E a : pt_neg (of_E a) = of_E (eneg a).
Proof.
  unfold pt_neg. rewrite fe_set_spec, fe_neg_spec. unfold of_E at 3.
  cbn [eneg epack epoint proj1_sig]. fold (epoint a). unfold of_E.
  destruct (epoint a) as [|x y]; [reflexivity|]. cbn.
  rewrite val_opp. rewrite val_mod. reflexivity.
Qed.

Lemma neg_y_of_E a : (fst (of_E a), fe_neg (snd (of_E a))) = of_E (eneg a).
Proof.
  rewrite <- pt_neg_of_E. unfold pt_neg. f_equal.
  pose proof (pt_set_of_E a) as H. unfold pt_set in H. rewrite <- H at 1. reflexivity.
Qed.

Lemma pt_sub_of_E a b : pt_sub (of_E a) (of_E b) = of_E (esub a b).
Proof. unfold pt_sub. rewrite neg_y_of_E, btc_add_of_E. apply pt_set_of_E. Qed.

(** * Scalars *)
Lemma sc_marshal_spec s : sc_marshal s = Ok (be_fixed 32 (s mod N)).
Proof.
  unfold sc_marshal, sc_mod. cbv zeta.
  pose proof (modN_range s) as R. pose proof (mod_N_256 s) as B.
  assert (L : (length (big_bytes (s mod N)) <= 32)%nat).
  { rewrite big_bytes_length. apply nbytes_le. rewrite Z.abs_eq by lia. exact B. }
  destruct (Nat.ltb_spec 32 (length (big_bytes (s mod N)))) as [H|_]; [lia|].
  rewrite pad_big_bytes by (rewrite Z.abs_eq by lia; exact B).
  rewrite be_fixed_length, Z.abs_eq by lia. reflexivity.
Qed.

Lemma be2z_marshal s : be2z (be_fixed 32 (s mod N)) = s mod N.
Proof.
  rewrite be2z_be_fixed. apply Z.mod_small. pose proof (modN_range s). pose proof (mod_N_256 s). lia.
Qed.

Lemma pt_mul_of_E s a : pt_mul s (KP (of_E a)) = Ok (of_E (smul s a)).
Proof.
  unfold pt_mul. rewrite sc_marshal_spec, btc_mul_of_E, be2z_marshal, smul_modN, pt_set_of_E.
  reflexivity.
Qed.

Lemma pt_mul_base s k : k = KP_nil \/ k = KP_typed_nil -> pt_mul s k = Ok (of_E (smul s eG)).
Proof.
  intros [-> | ->]; unfold pt_mul;
  rewrite sc_marshal_spec, of_E_base, btc_mul_of_E, be2z_marshal, smul_modN, pt_set_of_E; reflexivity.
Qed.

(** * Point encodings *)
Lemma parity_of_neg y : 0 <= y < p -> ~ eqP y 0 -> ((- y) mod p) mod 2 <> y mod 2.
Proof.
  intros Hy Hn. assert (y <> 0) by (intros ->; apply Hn; reflexivity).
  assert (E : (- y) mod p = p - y).
  { symmetry. apply (Z.mod_unique _ _ (-1)); lia. }
  rewrite E. pose proof p_odd as O. rewrite Zminus_mod, O.
  pose proof (Z.mod_pos_bound y 2 ltac:(lia)).
  assert (C : y mod 2 = 0 \/ y mod 2 = 1) by lia.
  destruct C as [-> | ->]; cbn; lia.
Qed.

Lemma on_curve_congr x x' y y' : eqP x x' -> eqP y y' -> on_curve x y -> on_curve x' y'.
Proof.
  unfold on_curve. intros Hx Hy H.
  eapply eqP_trans; [apply eqP_mul; apply eqP_sym, Hy|].
  eapply eqP_trans; [exact H|].
  apply eqP_add; [|reflexivity]. apply eqP_mul; [apply eqP_mul|]; exact Hx.
Qed.

Lemma pt_marshal_ok P b : pt_marshal P = Ok b <->
  on_curve (fst P) (snd P) /\
  b = be_fixed 32 (fst P mod p) ++ [if snd P mod 2 =? 0 then x00 else x01].
Proof.
  pose proof (valid_public_key_spec P) as V. unfold valid_public_key in V.
  unfold pt_marshal. rewrite fe_bytes_spec. cbn [rbind].
  destruct (fe_maybe_sqrt (fe_rhs (fst P))) as [s|].
  - rewrite <- V. unfold fe_is_even.
    destruct (fe_equal (snd P) s), (fe_equal (snd P) (fe_neg s)); cbn; split; intros H;
      try (injection H as <-; tauto); try (destruct H as [_ ->]; reflexivity);
      try discriminate; destruct H; discriminate.
  - rewrite <- V. split; [discriminate|]. intros [H _]; discriminate.
Qed.

Lemma pt_marshal_no_panic P : pt_marshal P <> Panic.
Proof.
  unfold pt_marshal. rewrite fe_bytes_spec. cbn [rbind].
  destruct (fe_maybe_sqrt _); [|discriminate]. destruct (_ && _); discriminate.
Qed.

Lemma pt_marshal_err P : pt_marshal P = Err <-> ~ on_curve (fst P) (snd P).
Proof.
  split.
  - intros H O. assert (X : pt_marshal P = Ok (be_fixed 32 (fst P mod p) ++ [if snd P mod 2 =? 0 then x00 else x01])).
    { apply pt_marshal_ok. tauto. }
    congruence.
  - intros H. destruct (pt_marshal P) as [b| |] eqn:E; [|reflexivity|].
    + apply pt_marshal_ok in E. tauto.
    + exfalso. exact (pt_marshal_no_panic P E).
Qed.

Lemma x00_z : z_of_byte x00 = 0. Proof. reflexivity. Qed.
Lemma x01_z : z_of_byte x01 = 1. Proof. reflexivity. Qed.

Lemma pt_unmarshal_ok buf P : pt_unmarshal buf = Ok P <->
  length buf = 33%nat /\
  (nth 32 buf x00 = x00 \/ nth 32 buf x00 = x01) /\
  fst P = be2z (firstn 32 buf) mod p /\ 0 <= snd P < p /\
  on_curve (fst P) (snd P) /\ snd P mod 2 = z_of_byte (nth 32 buf x00).
Proof.
  unfold pt_unmarshal, pt_unmarshal_recv.
  destruct (Nat.eqb_spec (length buf) 33) as [L|L]; cbn [negb].
  2:{ split; [discriminate|]. intros (H & _). contradiction. }
  set (s := nth 32 buf x00).
  destruct (byte_eqb_spec s x00) as [S0|S0]; destruct (byte_eqb_spec s x01) as [S1|S1];
    cbn [negb orb andb]; try (exfalso; congruence).
  3:{ split; [discriminate|]. intros (_ & [H|H] & _); contradiction. }
  all: unfold fe_set_bytes; rewrite fe_rhs_spec, !fe_modQ_spec;
    set (x := be2z (firstn 32 buf) mod p);
    (destruct (fe_maybe_sqrt ((x * x * x + 7) mod p)) as [y0|] eqn:E;
     [apply maybe_sqrt_some in E; destruct E as [Ry E];
      assert (C : on_curve x y0) by (unfold on_curve; eapply eqP_trans; [exact E|apply eqP_mod]);
      pose proof (on_curve_y_nz x y0 C) as Ynz;
      pose proof (parity_of_neg y0 Ry Ynz) as Par;
      pose proof (Z.mod_pos_bound y0 2 ltac:(lia)) as B2;
      pose proof (Z.mod_pos_bound ((- y0) mod p) 2 ltac:(lia)) as B3;
      assert (Cn : on_curve x ((- y0) mod p))
        by (unfold on_curve; eapply eqP_trans; [apply eqP_mul; apply eqP_mod|];
            replace (- y0 * - y0) with (y0 * y0) by ring; exact C);
      unfold fe_set; rewrite fe_modQ_spec, (Z.mod_small y0 p Ry), fe_neg_spec;
      unfold fe_is_even;
      destruct (Z.eqb_spec (y0 mod 2) 0) as [Ev|Ev]; cbn [negb andb orb]
     |]).
  all: try (rewrite S0, x00_z); try (rewrite S1, x01_z).
  all: try (split;
    [ intros H; injection H as <-; cbn [fst snd]; repeat split;
      try assumption; try (left; reflexivity); try (right; reflexivity);
      try apply modp_range; try lia
    | intros (_ & _ & HX & HY & HC & HP); destruct P as [px py]; cbn [fst snd] in *; subst px;
      destruct (sqrt_unique py y0) as [U|U];
      [ eapply eqP_trans; [exact HC|]; apply eqP_sym, C
      | assert (py = y0) by (apply eqP_small; assumption); subst py;
        (reflexivity || (exfalso; lia))
      | assert (py = (- y0) mod p) by (apply eqP_small; [assumption|apply modp_range|];
            eapply eqP_trans; [exact U|apply eqP_sym, eqP_mod]); subst py;
        (reflexivity || (exfalso; lia)) ] ]).
  all: split; [discriminate|]; intros (_ & _ & HX & HY & HC & HP); exfalso;
    apply (maybe_sqrt_none _ (snd P) E); rewrite HX in HC;
    eapply eqP_trans; [exact HC|]; apply eqP_sym, eqP_mod.
Qed.

Lemma pt_unmarshal_no_panic buf : pt_unmarshal buf <> Panic.
Proof.
  unfold pt_unmarshal, pt_unmarshal_recv.
  destruct (negb _); [discriminate|]. cbv zeta. destruct (negb _); [discriminate|].
  destruct (fe_maybe_sqrt _); [|discriminate]. destruct (_ || _); discriminate.
Qed.
