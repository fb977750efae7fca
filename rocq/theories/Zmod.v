(** The ring Z/m as a subset type with Leibniz equality; a field for prime m.
    No modelled code here, except that [modinv] is what big.Int.ModInverse
    computes for a prime modulus. *)
From Coq Require Import ZArith Znumtheory Lia Bool Eqdep_dec Field List.
From Verif Require Import NumTh.
Import ListNotations.
Open Scope Z_scope.

(** Extended Euclid, only used as a fast way to find a candidate inverse. *)
Fixpoint egcd (fuel : nat) (r0 s0 r1 s1 : Z) : Z :=
  match fuel with
  | O => s0
  | S f => if r1 =? 0 then s0
           else let q := r0 / r1 in egcd f r1 s1 (r0 - q * r1) (s0 - q * s1)
  end.

(** The inverse of [a] modulo the prime [m], in [0,m). *)
Definition modinv (a m : Z) : Z :=
  let s := (egcd 1000 m 0 (a mod m) 1) mod m in
  if (a * s) mod m =? 1 then s else powm a (Z.to_pos (m - 2)) m.

Lemma modinv_range a m : 0 < m -> 0 <= modinv a m < m.
Proof.
  intros Hm. unfold modinv. cbv zeta.
  destruct (_ =? 1).
  - apply Z.mod_pos_bound; assumption.
  - rewrite powm_spec by lia. apply Z.mod_pos_bound; assumption.
Qed.

Lemma modinv_spec a m : prime m -> ~ (m | a) -> (a * modinv a m) mod m = 1.
Proof.
  intros Pm Ha. pose proof (prime_ge_2 m Pm) as m2.
  unfold modinv. cbv zeta.
  destruct (Z.eqb_spec ((a * ((egcd 1000 m 0 (a mod m) 1) mod m)) mod m) 1) as [E|_]; [exact E|].
  rewrite powm_spec by lia. rewrite Zmult_mod_idemp_r.
  destruct (Z.eq_dec m 2) as [->|Hm].
  - change (Z.to_pos (2 - 2)) with 1%positive. rewrite Z.pow_1_r.
    assert (a mod 2 <> 0) by (intros E; apply Ha, Zmod_divide; [lia|exact E]).
    pose proof (Z.mod_pos_bound a 2 ltac:(lia)).
    rewrite Zmult_mod. replace (a mod 2) with 1 by lia. reflexivity.
  - rewrite Z2Pos.id by lia.
    rewrite <- Z.pow_succ_r by lia.
    replace (Z.succ (m - 2)) with (m - 1) by lia. apply fermat; assumption.
Qed.

Section Zmod.
  Variable m : Z.

  Definition Fm : Type := { z : Z | (z mod m =? z) = true }.
  Definition val (a : Fm) : Z := proj1_sig a.

  Lemma mod_ok z : (z mod m mod m =? z mod m) = true.
  Proof. apply Z.eqb_eq, Zmod_mod. Qed.

  Definition of_Z (z : Z) : Fm := exist _ (z mod m) (mod_ok z).

  Lemma Fm_eq (a b : Fm) : val a = val b -> a = b.
  Proof.
    destruct a as [x Hx], b as [y Hy]; unfold val; cbn. intros ->.
    f_equal. apply UIP_dec. apply bool_dec.
  Qed.

  Lemma val_mod (a : Fm) : val a mod m = val a.
  Proof. destruct a as [x Hx]; cbn. apply Z.eqb_eq, Hx. Qed.

  Lemma val_of_Z z : val (of_Z z) = z mod m.
  Proof. reflexivity. Qed.

  Lemma of_Z_val (a : Fm) : of_Z (val a) = a.
  Proof. apply Fm_eq. rewrite val_of_Z. apply val_mod. Qed.

  Lemma of_Z_eq x y : of_Z x = of_Z y <-> x mod m = y mod m.
  Proof.
    split; intros H.
    - apply (f_equal val) in H. exact H.
    - apply Fm_eq. exact H.
  Qed.

  Lemma val_range (a : Fm) : 0 < m -> 0 <= val a < m.
  Proof. intros Hm. rewrite <- val_mod. apply Z.mod_pos_bound; assumption. Qed.

  Definition Fm_eq_dec (a b : Fm) : {a = b} + {a <> b}.
  Proof.
    destruct (Z.eq_dec (val a) (val b)) as [E|E].
    - left. apply Fm_eq, E.
    - right. intros ->. apply E; reflexivity.
  Defined.

  Definition fzero : Fm := of_Z 0.
  Definition fone : Fm := of_Z 1.
  Definition fadd (a b : Fm) : Fm := of_Z (val a + val b).
  Definition fsub (a b : Fm) : Fm := of_Z (val a - val b).
  Definition fmul (a b : Fm) : Fm := of_Z (val a * val b).
  Definition fopp (a : Fm) : Fm := of_Z (- val a).
  Definition finv (a : Fm) : Fm := of_Z (modinv (val a) m).
  Definition fdiv (a b : Fm) : Fm := fmul a (finv b).

  Lemma of_Z_add x y : of_Z (x + y) = fadd (of_Z x) (of_Z y).
  Proof. apply of_Z_eq. rewrite !val_of_Z. apply Zplus_mod. Qed.
  Lemma of_Z_sub x y : of_Z (x - y) = fsub (of_Z x) (of_Z y).
  Proof. apply of_Z_eq. rewrite !val_of_Z. apply Zminus_mod. Qed.
  Lemma of_Z_mul x y : of_Z (x * y) = fmul (of_Z x) (of_Z y).
  Proof. apply of_Z_eq. rewrite !val_of_Z. apply Zmult_mod. Qed.
  Lemma of_Z_opp x : of_Z (- x) = fopp (of_Z x).
  Proof.
    apply of_Z_eq. rewrite !val_of_Z.
    rewrite <- (Z.sub_0_l x), <- (Z.sub_0_l (x mod m)). symmetry. apply Zminus_mod_idemp_r.
  Qed.
  Lemma of_Z_mod x : of_Z (x mod m) = of_Z x.
  Proof. apply of_Z_eq. apply Zmod_mod. Qed.

  Lemma val_add a b : val (fadd a b) = (val a + val b) mod m. Proof. reflexivity. Qed.
  Lemma val_sub a b : val (fsub a b) = (val a - val b) mod m. Proof. reflexivity. Qed.
  Lemma val_mul a b : val (fmul a b) = (val a * val b) mod m. Proof. reflexivity. Qed.
  Lemma val_opp a : val (fopp a) = (- val a) mod m. Proof. reflexivity. Qed.

  Lemma Fm_ring : ring_theory fzero fone fadd fmul fsub fopp eq.
  Proof.
    constructor; intros;
      repeat match goal with a : Fm |- _ => rewrite <- (of_Z_val a); generalize (val a); clear a; intro end;
      unfold fzero, fone;
      repeat rewrite <- ?of_Z_add, <- ?of_Z_sub, <- ?of_Z_mul, <- ?of_Z_opp;
      try (apply f_equal; ring).
  Qed.

  Hypothesis Pm : prime m.

  Lemma fone_neq : fone <> fzero.
  Proof.
    intros H. apply of_Z_eq in H. pose proof (prime_ge_2 m Pm).
    rewrite Z.mod_0_l, Z.mod_1_l in H; lia.
  Qed.

  Lemma finv_l a : a <> fzero -> fmul (finv a) a = fone.
  Proof.
    intros Ha. apply Fm_eq. unfold finv. rewrite val_mul, val_of_Z.
    unfold fone. rewrite val_of_Z. pose proof (prime_ge_2 m Pm).
    rewrite (Z.mod_1_l m) by lia.
    rewrite Zmult_mod_idemp_l, Z.mul_comm. apply modinv_spec; [assumption|].
    intros D. apply Ha. apply Fm_eq. unfold fzero. rewrite val_of_Z, Z.mod_0_l by lia.
    rewrite <- val_mod. apply Zdivide_mod, D.
  Qed.

  Lemma Fm_field : field_theory fzero fone fadd fmul fsub fopp fdiv finv eq.
  Proof.
    constructor.
    - apply Fm_ring.
    - apply fone_neq.
    - reflexivity.
    - apply finv_l.
  Qed.

  Lemma fmul_eq_0 a b : fmul a b = fzero -> a = fzero \/ b = fzero.
  Proof.
    intros H. apply (f_equal val) in H. rewrite val_mul in H.
    unfold fzero in H. rewrite val_of_Z in H. pose proof (prime_ge_2 m Pm).
    rewrite Z.mod_0_l in H by lia. apply Zmod_divide in H; [|lia].
    apply prime_mult in H; [|assumption].
    destruct H as [H|H]; [left|right]; apply Fm_eq; unfold fzero;
      rewrite val_of_Z, Z.mod_0_l by lia; rewrite <- val_mod; apply Zdivide_mod, H.
  Qed.
End Zmod.

Arguments val {m}.
Arguments fadd {m}. Arguments fsub {m}. Arguments fmul {m}. Arguments fopp {m}.
Arguments finv {m}. Arguments fdiv {m}. Arguments fzero {m}. Arguments fone {m}.
Arguments Fm_eq_dec {m}.
Global Opaque of_Z.
