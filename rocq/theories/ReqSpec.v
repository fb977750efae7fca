(** Vocabulary for the statements about requests: hexadecimal numbers as written. *)
From Coq Require Import ZArith List.
From Coq Require Import Init.Byte.
From Verif Require Import Bytes.
Import ListNotations.
Open Scope Z_scope.

(** "0123456789abcdef" and "0123456789ABCDEF" *)
Definition lower : bytes := [x30; x31; x32; x33; x34; x35; x36; x37; x38; x39; x61; x62; x63; x64; x65; x66].
Definition upper : bytes := [x30; x31; x32; x33; x34; x35; x36; x37; x38; x39; x41; x42; x43; x44; x45; x46].
(** The bytes [l] are the hexadecimal digits with values [ds]. *)
Definition hex_digits (l : bytes) (ds : list nat) : Prop :=
  Forall2 (fun c d => nth_error lower d = Some c \/ nth_error upper d = Some c) l ds.
(** The number with digits [ds], the most significant first *)
Fixpoint number (ds : list nat) : Z :=
  match ds with [] => 0 | d :: r => Z.of_nat d * 16 ^ Z.of_nat (length r) + number r end.
(** [doc] is the integer z: digits, at least one, with or without a sign. *)
Definition hex_integer (doc : bytes) (z : Z) : Prop :=
  exists l ds, l <> [] /\ hex_digits l ds /\
    ((doc = l \/ doc = x2b :: l) /\ z = number ds \/ doc = x2d :: l /\ z = - number ds).
