(** Model of prot.go:311-336: the outputs of protocol runs. *)
From Coq Require Import ZArith List Lia Bool.
From Verif Require Import Bytes KMap.
Import ListNotations.
Open Scope Z_scope.

Section Outputs.
  Context {V : Type}.
  (** 315-325.  Guests and protocol codes are those of the node (for others the
      code dereferences a nil lock; no caller does that). *)
  Definition outputs := kmap V.
  (** 327-329 *)
  Definition push_output (m : outputs) (k : key) (v : V) : outputs := kset m k v.
  (** 331-336 *)
  Definition pop_output (m : outputs) (k : key) : outputs * option V := (kdel m k, kget m k).

  (** A history of calls; every call runs under the lock. *)
  Inductive ocall := Push (k : key) (v : V) | Pop (k : key).
  (** The map after the calls, and the answers to the pops, in order. *)
  Fixpoint orun (m : outputs) (cs : list ocall) : outputs * list (option V) :=
    match cs with
    | [] => (m, [])
    | Push k v :: cs' => orun (push_output m k v) cs'
    | Pop k :: cs' => let x := pop_output m k in let y := orun (fst x) cs' in (fst y, snd x :: snd y)
    end.
End Outputs.
Arguments outputs V : clear implicits.
Arguments ocall V : clear implicits.
