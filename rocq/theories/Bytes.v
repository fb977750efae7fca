(** Byte strings and big-endian integers, as math/big's SetBytes/Bytes use
    them.  Contract B2 of DESIGN.md. *)
From Coq Require Import ZArith List Lia Bool.
From Coq Require Import Init.Byte Strings.Byte.
Import ListNotations.
Open Scope Z_scope.

Notation bytes := (list byte).

Definition z_of_byte (b : byte) : Z := Z.of_N (Byte.to_N b).
Definition byte_of_z (z : Z) : byte :=
  match Byte.of_N (Z.to_N (z mod 256)) with Some b => b | None => x00 end.

Lemma z_of_byte_range b : 0 <= z_of_byte b < 256.
Proof. unfold z_of_byte. pose proof (Byte.to_N_bounded b). lia. Qed.

Lemma z_byte_z z : z_of_byte (byte_of_z z) = z mod 256.
Proof.
  unfold byte_of_z, z_of_byte.
  pose proof (Z.mod_pos_bound z 256 ltac:(lia)) as B.
  destruct (Byte.of_N (Z.to_N (z mod 256))) as [b|] eqn:E.
  - apply Byte.to_of_N in E. rewrite E. lia.
  - exfalso. apply Byte.of_N_None_iff in E. lia.
Qed.

Lemma byte_z_byte b : byte_of_z (z_of_byte b) = b.
Proof.
  unfold byte_of_z. pose proof (z_of_byte_range b) as R.
  rewrite Z.mod_small by exact R. unfold z_of_byte. rewrite N2Z.id, Byte.of_to_N. reflexivity.
Qed.

Lemma z_of_byte_inj a b : z_of_byte a = z_of_byte b -> a = b.
Proof. intros H. rewrite <- (byte_z_byte a), <- (byte_z_byte b), H. reflexivity. Qed.

Definition byte_eqb (a b : byte) : bool := z_of_byte a =? z_of_byte b.
Lemma byte_eqb_spec a b : reflect (a = b) (byte_eqb a b).
Proof.
  unfold byte_eqb. destruct (Z.eqb_spec (z_of_byte a) (z_of_byte b)) as [E|E]; constructor.
  - apply z_of_byte_inj, E.
  - intros ->. apply E; reflexivity.
Qed.

(** bytes.Equal *)
Fixpoint bytes_eqb (a b : bytes) : bool :=
  match a, b with
  | [], [] => true
  | x :: a', y :: b' => byte_eqb x y && bytes_eqb a' b'
  | _, _ => false
  end.
Lemma bytes_eqb_spec a b : reflect (a = b) (bytes_eqb a b).
Proof.
  revert b. induction a as [|x a IH]; intros [|y b]; cbn; try (constructor; congruence).
  destruct (byte_eqb_spec x y) as [->|N]; cbn.
  - destruct (IH b) as [->|N]; constructor; congruence.
  - constructor. congruence.
Qed.

(** big.Int.SetBytes: big-endian, any length. *)
Definition be2z (l : bytes) : Z := fold_left (fun a b => a * 256 + z_of_byte b) l 0.

(** The low n bytes of z, big-endian. *)
Fixpoint be_fixed (n : nat) (z : Z) : bytes :=
  match n with
  | O => []
  | S n' => be_fixed n' (z / 256) ++ [byte_of_z z]
  end.

(** Number of bytes of |z| without leading zeros. *)
Definition nbytes (z : Z) : nat :=
  if z =? 0 then O else Z.to_nat (Z.log2 (Z.abs z) / 8 + 1).

(** big.Int.Bytes: minimal big-endian form of |z|. *)
Definition big_bytes (z : Z) : bytes := be_fixed (nbytes z) (Z.abs z).

(** big.Int.BitLen *)
Definition bitlen (z : Z) : Z := if z =? 0 then 0 else Z.log2 (Z.abs z) + 1.

Lemma be2z_app a b : be2z (a ++ b) = be2z a * 256 ^ Z.of_nat (length b) + be2z b.
Proof.
  unfold be2z. rewrite fold_left_app.
  assert (G : forall l x, fold_left (fun a b => a * 256 + z_of_byte b) l x
              = x * 256 ^ Z.of_nat (length l) + fold_left (fun a b => a * 256 + z_of_byte b) l 0).
  { induction l as [|c l IH]; intros x; cbn [fold_left length].
    - change (256 ^ Z.of_nat 0) with 1. lia.
    - rewrite (IH (x * 256 + z_of_byte c)), (IH (0 * 256 + z_of_byte c)).
      rewrite Nat2Z.inj_succ, Z.pow_succ_r by lia. ring. }
  apply G.
Qed.

Lemma be2z_snoc l b : be2z (l ++ [b]) = be2z l * 256 + z_of_byte b.
Proof. rewrite be2z_app. unfold be2z at 2. cbn. lia. Qed.

Lemma be2z_cons b l : be2z (b :: l) = z_of_byte b * 256 ^ Z.of_nat (length l) + be2z l.
Proof. change (b :: l) with ([b] ++ l). rewrite be2z_app. unfold be2z at 1. cbn. lia. Qed.

Lemma be2z_range l : 0 <= be2z l < 256 ^ Z.of_nat (length l).
Proof.
  induction l as [|b l IH] using rev_ind; [cbn; lia|].
  rewrite be2z_snoc, app_length, Nat2Z.inj_add. change (Z.of_nat (length [b])) with 1.
  rewrite Z.pow_add_r, Z.pow_1_r by lia. pose proof (z_of_byte_range b). nia.
Qed.

Lemma be_fixed_length n z : length (be_fixed n z) = n.
Proof.
  revert z. induction n as [|n IH]; intros z; [reflexivity|].
  cbn [be_fixed]. rewrite app_length, IH. cbn. lia.
Qed.

Lemma be2z_be_fixed n z : be2z (be_fixed n z) = z mod 256 ^ Z.of_nat n.
Proof.
  revert z. induction n as [|n IH]; intros z.
  - cbn. rewrite Z.mod_1_r. reflexivity.
  - cbn [be_fixed]. rewrite be2z_snoc, IH, z_byte_z.
    rewrite Nat2Z.inj_succ, Z.pow_succ_r by lia.
    rewrite Z.rem_mul_r by lia. lia.
Qed.

Lemma be_fixed_be2z l : be_fixed (length l) (be2z l) = l.
Proof.
  induction l as [|b l IH] using rev_ind; [reflexivity|].
  rewrite app_length. cbn [length]. rewrite Nat.add_1_r. cbn [be_fixed].
  rewrite be2z_snoc. pose proof (z_of_byte_range b) as R.
  f_equal.
  - rewrite Z.div_add_l, Z.div_small, Z.add_0_r by lia. exact IH.
  - f_equal. rewrite <- (byte_z_byte b) at 2. unfold byte_of_z.
    rewrite Z.add_comm, Z_mod_plus_full. reflexivity.
Qed.

Lemma be_fixed_mod n z : be_fixed n (z mod 256 ^ Z.of_nat n) = be_fixed n z.
Proof.
  rewrite <- be2z_be_fixed.
  rewrite <- (be_fixed_length n z) at 1. apply be_fixed_be2z.
Qed.

Lemma be_fixed_inj n x y :
  0 <= x < 256 ^ Z.of_nat n -> 0 <= y < 256 ^ Z.of_nat n ->
  be_fixed n x = be_fixed n y -> x = y.
Proof.
  intros Hx Hy H. apply (f_equal be2z) in H. rewrite !be2z_be_fixed in H.
  rewrite !Z.mod_small in H by assumption. exact H.
Qed.

Lemma be2z_inj a b : length a = length b -> be2z a = be2z b -> a = b.
Proof.
  intros L H. rewrite <- (be_fixed_be2z a), <- (be_fixed_be2z b), L, H. reflexivity.
Qed.

(** Splitting off high bytes. *)
Lemma be_fixed_app n k z :
  be_fixed (k + n) z = be_fixed k (z / 256 ^ Z.of_nat n) ++ be_fixed n z.
Proof.
  revert z. induction n as [|n IH]; intros z.
  - rewrite Nat.add_0_r. cbn. rewrite Z.div_1_r, app_nil_r. reflexivity.
  - rewrite Nat.add_succ_r. cbn [be_fixed]. rewrite IH, <- app_assoc.
    rewrite Nat2Z.inj_succ, Z.pow_succ_r, Z.div_div by lia. reflexivity.
Qed.

Lemma be_fixed_0 n : be_fixed n 0 = repeat x00 n.
Proof.
  induction n as [|n IH]; [reflexivity|].
  cbn [be_fixed]. rewrite Z.div_0_l by lia. rewrite IH.
  change [byte_of_z 0] with (repeat x00 1). rewrite <- repeat_app. f_equal. lia.
Qed.

Lemma nbytes_le z n : (nbytes z <= n)%nat <-> Z.abs z < 256 ^ Z.of_nat n.
Proof.
  unfold nbytes. destruct (Z.eqb_spec z 0) as [->|Hz].
  - cbn. split; [|lia]. intros _. apply Z.pow_pos_nonneg; lia.
  - assert (Ha : 0 < Z.abs z) by lia.
    replace 256 with (2 ^ 8) by reflexivity. rewrite <- Z.pow_mul_r by lia.
    rewrite Z.log2_lt_pow2 by lia. pose proof (Z.log2_nonneg (Z.abs z)) as L.
    pose proof (Z.div_pos (Z.log2 (Z.abs z)) 8 L ltac:(lia)) as D.
    pose proof (Z_div_mod_eq_full (Z.log2 (Z.abs z)) 8) as E.
    pose proof (Z.mod_pos_bound (Z.log2 (Z.abs z)) 8 ltac:(lia)). lia.
Qed.

Lemma be2z_big_bytes z : be2z (big_bytes z) = Z.abs z.
Proof.
  unfold big_bytes. rewrite be2z_be_fixed. apply Z.mod_small.
  split; [lia|]. apply nbytes_le. lia.
Qed.

Lemma big_bytes_length z : length (big_bytes z) = nbytes z.
Proof. apply be_fixed_length. Qed.

Lemma big_bytes_abs z : big_bytes z = big_bytes (Z.abs z).
Proof.
  unfold big_bytes, nbytes. rewrite Z.abs_involutive.
  destruct (Z.eqb_spec z 0), (Z.eqb_spec (Z.abs z) 0); try lia; reflexivity.
Qed.

Lemma big_bytes_opp z : big_bytes (- z) = big_bytes z.
Proof. rewrite big_bytes_abs, Z.abs_opp, <- big_bytes_abs. reflexivity. Qed.

Lemma big_bytes_inj x y : big_bytes x = big_bytes y -> Z.abs x = Z.abs y.
Proof. intros H. rewrite <- !be2z_big_bytes, H. reflexivity. Qed.

(** Left padding with zeros. *)
Lemma pad_big_bytes n z : Z.abs z < 256 ^ Z.of_nat n ->
  repeat x00 (n - length (big_bytes z)) ++ big_bytes z = be_fixed n (Z.abs z).
Proof.
  intros H. rewrite big_bytes_length. apply nbytes_le in H.
  replace n with ((n - nbytes z) + nbytes z)%nat at 2 by lia.
  rewrite be_fixed_app. unfold big_bytes at 1. f_equal.
  rewrite Z.div_small, be_fixed_0; [reflexivity|].
  split; [lia|]. apply nbytes_le. lia.
Qed.

Lemma bitlen_le z n : 0 <= n -> (bitlen z <= n <-> Z.abs z < 2 ^ n).
Proof.
  intros Hn. unfold bitlen. destruct (Z.eqb_spec z 0) as [->|Hz].
  - cbn. split; [|lia]. intros _. apply Z.pow_pos_nonneg; lia.
  - rewrite Z.log2_lt_pow2 by lia. lia.
Qed.

Lemma pow256_32 : 256 ^ Z.of_nat 32 = 2 ^ 256.
Proof. reflexivity. Qed.

Arguments be2z : simpl never.
Arguments be_fixed : simpl never.
Arguments big_bytes : simpl never.
