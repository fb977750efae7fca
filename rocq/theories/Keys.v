(** Further functions on keys: scalar.go:222-224. *)
From Coq Require Import ZArith List.
From Verif Require Import Bytes Res Secp PublicKey.
Open Scope Z_scope.

(** scalar.go:49, 222-224: the integer as it is, not reduced; common.BigToHash is BytesToHash of
    its bytes *)
Definition scalar_to_hash (s : Z) : bytes := to_fixed 32 (big_bytes s).
