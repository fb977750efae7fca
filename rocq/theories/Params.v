(** Constants of the secp256k1 curve.

    The Go code takes them from btcec: [s256 = btcec.S256()]
    (ch/core/services/signatures/secp256k1/point.go:29,
    field.go:23 [q = s256.P], scalar.go:25 [GroupOrder = s256.N],
    curve.go).  They are the published SEC2 parameters. *)
From Coq Require Import ZArith.
Open Scope Z_scope.

(** field.go:23 [q]: the field size. *)
Definition p : Z :=
  0xFFFFFFFFFFFFFFFFFFFFFFFFFFFFFFFFFFFFFFFFFFFFFFFFFFFFFFFEFFFFFC2F.

(** scalar.go:25 [GroupOrder]: the order of the base point. *)
Definition N : Z :=
  0xFFFFFFFFFFFFFFFFFFFFFFFFFFFFFFFEBAAEDCE6AF48A03BBFD25E8CD0364141.

(** btcec.S256().Gx, Gy: the base point (point.go [Base]). *)
Definition Gx : Z :=
  0x79BE667EF9DCBBAC55A06295CE870B07029BFCDB2DCE28D959F2815B16F81798.
Definition Gy : Z :=
  0x483ADA7726A3C4655DA4FBFC0E1108A8FD17B448A68554199C47D08FFB10D4B8.

Lemma p_pos : 0 < p. Proof. reflexivity. Qed.
Lemma N_pos : 0 < N. Proof. reflexivity. Qed.
Lemma p_lt : p < 2 ^ 256. Proof. reflexivity. Qed.
Lemma N_lt : N < 2 ^ 256. Proof. reflexivity. Qed.
Lemma N_lt_p : N < p. Proof. reflexivity. Qed.

Global Opaque p N Gx Gy.
