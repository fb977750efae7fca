(** Fast reduction modulo p, for certificates only.  No modelled code here. *)
From Coq Require Import ZArith Lia Znumtheory.
From Verif Require Import Params NumTh.
Open Scope Z_scope.

Definition cP : Z := 0x1000003D1.   (* 2^256 - p *)
Definition m256 : Z := 0xFFFFFFFFFFFFFFFFFFFFFFFFFFFFFFFFFFFFFFFFFFFFFFFFFFFFFFFFFFFFFFFF.

Definition red1 (x : Z) : Z := cP * Z.shiftr x 256 + Z.land m256 x.
Definition redp (x : Z) : Z := red1 (red1 x).

Lemma p_eq : p = 2 ^ 256 - cP. Proof. reflexivity. Qed.

Lemma red1_spec x : red1 x mod p = x mod p.
Proof.
  unfold red1. rewrite Z.shiftr_div_pow2 by lia.
  rewrite Z.land_comm. change m256 with (Z.ones 256). rewrite Z.land_ones by lia.
  pose proof (Z_div_mod_eq_full x (2 ^ 256)) as H.
  apply eqm_divide; [intros E; discriminate|].
  exists (- (x / 2 ^ 256)). rewrite p_eq. nia.
Qed.

Lemma redp_spec x : redp x mod p = x mod p.
Proof. unfold redp. rewrite !red1_spec. reflexivity. Qed.

Fixpoint powp (a : Z) (e : positive) : Z :=
  match e with
  | xH => a
  | xO e' => let r := powp a e' in redp (r * r)
  | xI e' => let r := powp a e' in redp (a * redp (r * r))
  end.

Lemma powp_spec a e : powp a e mod p = (a ^ Zpos e) mod p.
Proof.
  induction e as [e IH|e IH|]; cbn [powp].
  - assert (E : redp (powp a e * powp a e) mod p = (a ^ Z.pos e * a ^ Z.pos e) mod p).
    { rewrite redp_spec, Zmult_mod, IH, <- Zmult_mod. reflexivity. }
    rewrite redp_spec, Zmult_mod, E, <- Zmult_mod. f_equal.
    rewrite Pos2Z.inj_xI, Z.pow_add_r, Z.pow_mul_r, Z.pow_1_r by lia.
    rewrite Z.pow_2_r, Z.pow_mul_l. ring.
  - rewrite redp_spec, Zmult_mod, IH, <- Zmult_mod. f_equal.
    rewrite Pos2Z.inj_xO, Z.pow_mul_r, Z.pow_2_r, Z.pow_mul_l by lia. reflexivity.
  - rewrite Z.pow_1_r. reflexivity.
Qed.

Definition e3 : positive := Eval vm_compute in Z.to_pos ((p - 1) / 3).

Lemma e3_spec : 3 * Zpos e3 = p - 1.
Proof. reflexivity. Qed.

(** -7 is not a cube mod p. *)
Lemma m7_power : (powp (-7) e3 mod p =? 1) = false.
Proof. vm_cast_no_check (eq_refl false). Qed.

(** Pocklington for the modulus p with this reduction. *)
Definition pockp_ok (q a c : Z) : bool :=
  (p - 1 =? c * q) && (0 <? c) && (p <? q * q) &&
  (let b := powp a (Z.to_pos c) in
   (powp b (Z.to_pos q) mod p =? 1) && (Z.gcd (b - 1) p =? 1)).

Theorem pockp_sound q a c : prime q -> pockp_ok q a c = true -> prime p.
Proof.
  intros Pq H. unfold pockp_ok in H.
  apply andb_prop in H; destruct H as [H H5].
  apply andb_prop in H; destruct H as [H H4].
  apply andb_prop in H; destruct H as [H2 H3].
  apply Z.ltb_lt in H3, H4. apply Z.eqb_eq in H2.
  cbv zeta in H5. apply andb_prop in H5; destruct H5 as [H5 H6].
  apply Z.eqb_eq in H5, H6.
  pose proof (prime_ge_2 q Pq) as q2.
  rewrite powp_spec in H5.
  rewrite (pow_mod_congrZ _ _ _ p (Pos2Z.is_nonneg _) (powp_spec a (Z.to_pos c))) in H5.
  rewrite !Z2Pos.id in H5 by lia.
  assert (E : 1 < p) by reflexivity.
  apply (pocklington1 p q a c); try assumption; try lia.
  - rewrite H2, Z.pow_mul_r by lia. exact H5.
  - refine (eq_trans (gcd_mod_sub _ _ _ _ _) H6); [discriminate|].
    rewrite powp_spec, Z2Pos.id by lia. reflexivity.
Qed.
