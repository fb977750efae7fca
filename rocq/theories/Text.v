(** Model of the String methods of field elements, points and scalars (ch/core/services/signatures/secp256k1). *)
From Coq Require Import Strings.String.
From Coq Require Import ZArith List.
From Coq Require Import Init.Byte.
From Coq Require Hexadecimal.
From Verif Require Import Params Bytes Secp.
Import ListNotations.
Open Scope list_scope.
Open Scope Z_scope.

(** fmt's %x on a *big.Int (its Format): minus sign if negative, then the digits, lower case, without leading
    zeros.  A nil integer is not modelled. *)
Fixpoint hexdigs (u : Hexadecimal.uint) : bytes :=
  match u with
  | Hexadecimal.Nil => []
  | Hexadecimal.D0 u => x30 :: hexdigs u | Hexadecimal.D1 u => x31 :: hexdigs u | Hexadecimal.D2 u => x32 :: hexdigs u | Hexadecimal.D3 u => x33 :: hexdigs u
  | Hexadecimal.D4 u => x34 :: hexdigs u | Hexadecimal.D5 u => x35 :: hexdigs u | Hexadecimal.D6 u => x36 :: hexdigs u | Hexadecimal.D7 u => x37 :: hexdigs u
  | Hexadecimal.D8 u => x38 :: hexdigs u | Hexadecimal.D9 u => x39 :: hexdigs u | Hexadecimal.Da u => x61 :: hexdigs u | Hexadecimal.Db u => x62 :: hexdigs u
  | Hexadecimal.Dc u => x63 :: hexdigs u | Hexadecimal.Dd u => x64 :: hexdigs u | Hexadecimal.De u => x65 :: hexdigs u | Hexadecimal.Df u => x66 :: hexdigs u
  end.
Definition format_hex (z : Z) : bytes :=
  match Z.to_hex_int z with Hexadecimal.Pos u => hexdigs u | Hexadecimal.Neg u => x2d :: hexdigs u end.
(** field.go:57-59 *)
Definition fe_string (f : Z) : bytes := list_byte_of_string "fieldElt{" ++ format_hex f ++ list_byte_of_string "}".
(** point.go:39-41; %s on a *fieldElt is its String *)
Definition pt_string (P : point) : bytes :=
  list_byte_of_string "Secp256k1{X: " ++ fe_string (fst P) ++ list_byte_of_string ", Y: " ++ fe_string (snd P) ++ list_byte_of_string "}".
(** scalar.go:59-61 *)
Definition sc_string (s : Z) : bytes := list_byte_of_string "scalar{" ++ format_hex s ++ list_byte_of_string "}".
