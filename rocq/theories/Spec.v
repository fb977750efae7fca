(** Independent vocabulary for the property statements of the cryptographic
    part: the curve equation over the integers, byte values, nothing else. *)
From Coq Require Import ZArith List.
From Coq Require Import Init.Byte.
From Verif Require Import Params Bytes.
Import ListNotations.
Open Scope Z_scope.

(** Congruence mod the group order and the field size. *)
Definition eqN (a b : Z) : Prop := a mod N = b mod N.
Definition eqP (a b : Z) : Prop := a mod p = b mod p.

(** (x,y) satisfies y^2 = x^3 + 7 mod p. *)
Definition on_curve (x y : Z) : Prop := eqP (y * y) (x * x * x + 7).

(** A curve point with reduced coordinates, as an integer pair. *)
Definition curve_point (P : Z * Z) : Prop :=
  0 <= fst P < p /\ 0 <= snd P < p /\ on_curve (fst P) (snd P).

(** A group element: a curve point, or the identity, represented by (0,0). *)
Definition group_elt (P : Z * Z) : Prop := P = (0, 0) \/ curve_point P.

(** x^3+7 has a square root mod p, i.e. x is the abscissa of a curve point. *)
Definition is_abscissa (x : Z) : Prop := exists y, on_curve x y.

Definition uint256 (m : Z) : Prop := 0 <= m < 2 ^ 256.

(** r is the canonical representative of z mod N. *)
Definition repN (r z : Z) : Prop := 0 <= r < N /\ eqN r z.

(** Three points with pairwise cross products zero mod p lie on one line. *)
Definition collinear (P Q R : Z * Z) : Prop :=
  eqP ((snd Q - snd P) * (fst R - fst P)) ((snd R - snd P) * (fst Q - fst P)).

(** R is on the tangent to the curve at P (slope 3x^2 / 2y). *)
Definition on_tangent (P R : Z * Z) : Prop :=
  eqP (3 * (fst P * fst P) * (fst R - fst P)) (2 * snd P * (snd R - snd P)).

(** x(P)+x(Q)+x(R) is the square of the slope of the chord PQ: R is the third
    intersection of that line with the curve, counted with multiplicity. *)
Definition chord_sum (P Q R : Z * Z) : Prop :=
  eqP ((fst P + fst Q + fst R) * ((fst Q - fst P) * (fst Q - fst P)))
      ((snd Q - snd P) * (snd Q - snd P)).
(** The same for the tangent at P. *)
Definition tangent_sum (P R : Z * Z) : Prop :=
  eqP ((2 * fst P + fst R) * ((2 * snd P) * (2 * snd P)))
      ((3 * (fst P * fst P)) * (3 * (fst P * fst P))).

(** The mirror image of a point. *)
Definition mirror (P : Z * Z) : Z * Z := (fst P, (- snd P) mod p).

(** A stream cipher [xks]: state and source bytes to new state and output bytes. *)
Section Stream.
  Variable St : Type.
  Variable xks : St -> bytes -> St * bytes.

  (** Output of the n-th of successive calls, each fed the previous output. *)
  Fixpoint feed (n : nat) (st : St) (src : bytes) : St * bytes :=
    match n with
    | O => (st, src)
    | S m => let (st', b) := xks st src in feed m st' b
    end.

  (** The i-th candidate abscissa Embed tries. *)
  Definition embed_candidate (data : bytes) (st : St) (i : nat) : Z :=
    be2z (byte_of_z (Z.of_nat (length data)) :: data ++ snd (feed (S i) st (repeat x00 (31 - length data)))).

  (** The i-th 32-byte draw, and the state after it. *)
  Fixpoint draw (i : nat) (st : St) : St * bytes :=
    match i with
    | O => xks st (repeat x00 32)
    | S j => draw j (fst (xks st (repeat x00 32)))
    end.
End Stream.

(** Byte string hashed for the challenge: x (32 bytes), parity of y (1 byte), minimal
    big-endian |msg|, commitment address. *)
Definition challenge_input (P : Z * Z) (addr : bytes) (msg : Z) : bytes :=
  be_fixed 32 (fst P mod p) ++ [if snd P mod 2 =? 0 then x00 else x01] ++ big_bytes msg ++ addr.

(** What the on-chain verifier hashes: the message as 32 bytes. *)
Definition onchain_input (P : Z * Z) (addr : bytes) (msg : Z) : bytes :=
  be_fixed 32 (fst P mod p) ++ [if snd P mod 2 =? 0 then x00 else x01] ++ be_fixed 32 msg ++ addr.

(** Bytes 12..31 of the hash of x||y. *)
Definition address_of (keccak : bytes -> bytes) (P : Z * Z) : bytes :=
  firstn 20 (skipn 12 (keccak (be_fixed 32 (fst P mod p) ++ be_fixed 32 (snd P mod p)))).


(** The Schnorr challenge: the hash of the challenge input as an integer mod N. *)
Definition challenge_of (keccak : bytes -> bytes) (P : Z * Z) (addr : bytes) (msg : Z) : Z :=
  be2z (keccak (challenge_input P addr msg)) mod N.

(** Polynomial with integer coefficients, constant term first. *)
Fixpoint poly (c : list Z) (x : Z) : Z :=
  match c with [] => 0 | a :: r => a + x * poly r x end.
