(** Vocabulary for the statements about csprng.go. *)
From Coq Require Import ZArith List.
From Coq Require Import Init.Byte.
From Verif Require Import Bytes Csprng.
Import ListNotations.
Open Scope Z_scope.

Section Source.
  Variable key : nat -> bytes.
  Variable ks : bytes -> Z -> byte.

  (** Byte number m of the whole output: position m mod 2^20 of key m / 2^20. *)
  Definition out_byte (m : Z) : byte := ks (key (Z.to_nat (m / mebi))) (m mod mebi).
  (** Bytes number a, a+1, ..., a+n-1. *)
  Fixpoint out_bytes (a : Z) (n : nat) : bytes :=
    match n with O => [] | S m => out_byte a :: out_bytes (a + 1) m end.

  Definition mismatch (x : rcall) : Prop :=
    match x with CFill _ _ => False | CXor _ d s => length d <> length s end.

  (** The results [outs] (destination, returned normally) of the calls [cs] are
      those of taking consecutive bytes, number [a] first; the next one is [e].
      A call that panics for lack of randomness leaves zeros at the end; one
      with mismatched lengths panics and touches nothing. *)
  Fixpoint consecutive (a : Z) (cs : list rcall) (outs : list (bytes * bool)) (e : Z) : Prop :=
    match cs, outs with
    | [], [] => a = e
    | x :: cs, (d, ok) :: outs =>
        exists n, (n <= length (dst_of x))%nat /\
          (mismatch x -> ok = false /\ d = dst_of x /\ n = O) /\
          (~ mismatch x -> d = out_bytes a n ++ repeat x00 (length (dst_of x) - n) /\
                           (ok = true <-> n = length (dst_of x))) /\
          consecutive (a + Z.of_nat n) cs outs e
    | _, _ => False
    end.

  (** Results of successive calls. *)
  Fixpoint rrun (c : rng) (cs : list rcall) : option (rng * list (bytes * bool)) :=
    match cs with
    | [] => Some (c, [])
    | x :: r => match rstep key ks c x with
                | Some (c1, d, ok) => match rrun c1 r with Some (c2, o) => Some (c2, (d, ok) :: o) | None => None end
                | None => None
                end
    end.
End Source.

(** How many bytes have been taken. *)
Definition taken (c : rng) : Z := Z.of_nat (g_nk c) * mebi - g_rem c.

(** All reads of fresh keys succeed. *)
Definition always (x : rcall) : Prop := match x with CFill a _ => forall n, a n = true | CXor a _ _ => forall n, a n = true end.
Definition total_len (cs : list rcall) : nat := fold_right (fun x n => (length (dst_of x) + n)%nat) O cs.
