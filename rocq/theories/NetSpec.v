(** Vocabulary for the statements about outgoing queues, read off traces. *)
From Coq Require Import ZArith List Bool.
From Verif Require Import Net.
Import ListNotations.

(** [a] is a subsequence of [b]. *)
Inductive subseq {A} : list A -> list A -> Prop :=
| sub_nil : forall b, subseq [] b
| sub_take : forall x a b, subseq a b -> subseq (x :: a) (x :: b)
| sub_skip : forall x a b, subseq a b -> subseq a (x :: b).

Section Spec.
  Context {M : Type}.
  (** Messages for which try_send found room. *)
  Definition accepted (tr : list (nobs M)) : list M := flat_map (fun o => match o with NAccept m => [m] | _ => [] end) tr.
  (** Messages for which a remote call was made, and those whose call succeeded or failed. *)
  Definition called (tr : list (nobs M)) : list M := flat_map (fun o => match o with NCall m _ => [m] | _ => [] end) tr.
  Definition called_with (ok : bool) (tr : list (nobs M)) : list M :=
    flat_map (fun o => match o with NCall m b => if Bool.eqb b ok then [m] else [] | _ => [] end) tr.
  Definition dropped_msgs (tr : list (nobs M)) : list M := flat_map (fun o => match o with NDropped m => [m] | _ => [] end) tr.
  (** Messages called or dropped, in order. *)
  Definition settled (tr : list (nobs M)) : list M :=
    flat_map (fun o => match o with NCall m _ | NDropped m => [m] | _ => [] end) tr.
  (** Whether there is a working connection after a trace: one was made, and no call on it failed. *)
  Fixpoint link (up : bool) (tr : list (nobs M)) : bool :=
    match tr with
    | [] => up
    | NConnected :: r => link true r
    | NDial :: r | NCall _ false :: r => link false r
    | _ :: r => link up r
    end.
  Definition linked (tr : list (nobs M)) : bool := link false tr.
  Definition is_send (ev : nevent M) : bool := match ev with EvSend _ => true | _ => false end.
End Spec.
