(** The group: lengths, fresh elements, identifiers (curve.go, point.go, scalar.go). *)
From Coq Require Import Strings.String.
From Coq Require Import ZArith List Bool.
From Coq Require Import Init.Byte.
From Verif Require Import Params Bytes Res Secp Stream.
Import ListNotations.
Open Scope Z_scope.

(** curve.go:33 with scalar.go:160; egScalar (29) is only asked for its size *)
Definition scalar_len : nat := sc_size.
(** curve.go:39 with point.go:225 *)
Definition point_len : nat := pt_size.
(** curve.go:36 with scalar.go:43-45 *)
Definition new_scalar : Z := sc_mod 0.
(** curve.go:42-44 *)
Definition new_point : point := (0, 0).
(** scalar.go:163-165, point.go:228-230 *)
Definition scalar_id : bytes := list_byte_of_string "sp256.sc".
Definition point_id : bytes := list_byte_of_string "sp256.po".
