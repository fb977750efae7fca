(** Vocabulary for C118: the events of an outgoing queue with their times, and that the queue's
    connectors are those of Connect.v. *)
From Coq Require Import ZArith List Bool.
From Verif Require Import Prot DkgProt Net Connect ConnectSpec Cluster.
Import ListNotations.
Open Scope Z_scope.

(** What happened in lane [l], and when. *)
Definition lane_clock {G} (l : lane) (tr : list (cobs (G := G))) : list (Z * nevent (message payload)) :=
  flat_map (fun o => match o with XLane now l' ev _ => if lane_eqb l' l then [(now, ev)] else [] | _ => [] end) tr.
(** As ConnectSpec.timed, for events that carry their times. *)
Inductive clocked {M} (w : network) : Z -> nq M -> option cstate -> list (Z * nevent M) -> Prop :=
| clocked_nil : forall t s k, clocked w t s k []
| clocked_send : forall t t' s k m l, t <= t' ->
    clocked w t' (fst (nstep s (EvSend m))) k l -> clocked w t s k ((t', EvSend m) :: l)
| clocked_go : forall t t' x s k ok l, t <= t' -> 0 <= x < 900 ->
    clocked w t' (fst (nstep s (EvGo ok)))
      (if existsb is_dial (snd (nstep s (EvGo ok))) then Some (connector0 x t') else k) l ->
    clocked w t s k ((t', EvGo ok) :: l)
| clocked_dial : forall t t' x c s o dials e ok ps l, 0 <= x < 900 ->
    try_connect w x grace_conn_attempts (c_now c) = (dials, e, ok) -> round w x c = (o, dials, ps) ->
    t <= t' -> e <= t' ->
    clocked w t' (fst (nstep s (EvDial ok))) o l -> clocked w t s (Some c) ((t', EvDial ok) :: l).
(** Messages refused because the queue was full. *)
Definition refused {M} (tr : list (nobs M)) : list M := flat_map (fun o => match o with NRefuse m => [m] | _ => [] end) tr.
