(** Vocabulary for connecting to a peer (C113-C115). *)
From Coq Require Import ZArith List.
From Verif Require Import Net Connect.
Import ListNotations.
Open Scope Z_scope.

Definition millisecond : Z := 1000000.
Definition second : Z := 1000 * millisecond.
Definition minute : Z := 60 * second.

(** Every number is one that Int63n(900) may return. *)
Definition draws (rnd : nat -> Z) : Prop := forall k, 0 <= rnd k < 900.
(** No dial takes longer than [D]. *)
Definition dials_within (w : network) (D : Z) : Prop := forall t, 0 <= dial_takes w t <= D.
(** Dials begun at [T] or later succeed. *)
Definition reachable_from (w : network) (T : Z) : Prop := forall t, T <= t -> dial_ok w t = true.
(** Dials begun at any time fail. *)
Definition unreachable (w : network) : Prop := forall t, dial_ok w t = false.

(** Times in a list are at least [gap] apart, in order. *)
Fixpoint spaced (gap : Z) (l : list Z) : Prop :=
  match l with
  | a :: ((b :: _) as r) => a + gap <= b /\ spaced gap r
  | _ => True
  end.

(** The event of starting a connector. *)
Definition is_dial {M} (o : nobs M) : bool := match o with NDial => true | _ => false end.
(** A history of a queue (Net.v) in time: its connectors are those of Connect.v.  The
    time is when the event before happened; [k]: the connector, if one is running. *)
Inductive timed {M} (w : network) : Z -> nq M -> option cstate -> list (nevent M) -> Prop :=
| timed_nil : forall t s k, timed w t s k []
| timed_send : forall t t' s k m l, t <= t' ->
    timed w t' (fst (nstep s (EvSend m))) k l -> timed w t s k (EvSend m :: l)
| timed_go : forall t t' x s k ok l, t <= t' -> 0 <= x < 900 ->
    timed w t' (fst (nstep s (EvGo ok)))
      (if existsb is_dial (snd (nstep s (EvGo ok))) then Some (connector0 x t') else k) l ->
    timed w t s k (EvGo ok :: l)
| timed_dial : forall t t' x c s o dials e ok ps l, 0 <= x < 900 ->
    try_connect w x grace_conn_attempts (c_now c) = (dials, e, ok) -> round w x c = (o, dials, ps) ->
    t <= t' -> e <= t' ->
    timed w t' (fst (nstep s (EvDial ok))) o l -> timed w t s (Some c) (EvDial ok :: l).
