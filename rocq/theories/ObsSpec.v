(** Vocabulary for the statements about termination observers. *)
From Coq Require Import List.
From Verif Require Import KMap Observers.
Import ListNotations.
Open Scope nat_scope.

(** How often [c] was sent to, and how often it was closed. *)
Definition sends (c : nat) (tr : list oobs) : nat := length (filter (fun o => match o with OSend c' => Nat.eqb c c' | _ => false end) tr).
Definition closes (c : nat) (tr : list oobs) : nat := length (filter (fun o => match o with OClose c' => Nat.eqb c c' | _ => false end) tr).
(** Every thread has done all it had to do. *)
Definition finished (s : ost) : Prop := forall t, In t (os_thrs s) -> t = TDone.
(** The run table lists a run for [k] and this run has terminated. *)
Definition listed_terminated (s : ost) (k : key) : Prop :=
  exists r o, kget (os_table s) k = Some r /\ nth_error (os_objs s) r = Some o /\ ob_term o = true.
