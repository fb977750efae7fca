(** Vocabulary for the statements about several nodes, read off the trace. *)
From Coq Require Import ZArith List Bool Permutation.
From Verif Require Import Bytes Res Dto Prot DkgProt KMap Firewall Node NodeSpec Cluster.
From Verif Require Net.
Import ListNotations.
Open Scope Z_scope.

(** All of [a] is in [b], counted with multiplicity. *)
Definition among {A} (a b : list A) : Prop := exists rest, Permutation (a ++ rest) b.

Section Spec.
  Context {G : Type}.
  Notation message := (message payload).
  Notation cobs := (cobs (G := G)).

  (** What happened in process [i]: its events and their effects. *)
  Definition events_at (i : nat) (tr : list cobs) : list (nevent (G := G)) :=
    flat_map (fun o => match o with XNode i' _ ev _ => if Nat.eqb i' i then [ev] else [] | _ => [] end) tr.
  Definition trace_at (i : nat) (tr : list cobs) : list nobs :=
    flat_map (fun o => match o with XNode i' _ _ os => if Nat.eqb i' i then os else [] | _ => [] end) tr.
  (** What happened in lane [l]. *)
  Definition lane_events (l : lane) (tr : list cobs) : list (Net.nevent message) :=
    flat_map (fun o => match o with XLane _ l' ev _ => if lane_eqb l' l then [ev] else [] | _ => [] end) tr.
  Definition lane_trace (l : lane) (tr : list cobs) : list (Net.nobs message) :=
    flat_map (fun o => match o with XLane _ l' _ os => if lane_eqb l' l then os else [] | _ => [] end) tr.
  (** The messages put in a lane. *)
  Definition put_in (evs : list (Net.nevent message)) : list message :=
    flat_map (fun ev => match ev with Net.EvSend m => [m] | _ => [] end) evs.
  (** The messages that runs of protocol [pc] and guest [a] sent to member [b]. *)
  Definition sent_to (pc a b : Z) (tr : list nobs) : list message :=
    flat_map (fun o => match o with NRun k (OSent m) => if (k_pc k =? pc) && (k_guest k =? a) && (m_rcpt m =? b) then [m] else [] | _ => [] end) tr.
  (** The messages that came in by calls of lane [l]: by those that succeeded, and by all. *)
  Definition came_via (l : lane) (tr : list cobs) : list message :=
    flat_map (fun o => match o with XNode _ (Via l') (VIn _ m) _ => if lane_eqb l' l then [m] else [] | _ => [] end) tr.
  Definition came_by (l : lane) (tr : list cobs) : list message :=
    flat_map (fun o => match o with XNode _ (Via l' | Late l') (VIn _ m) _ => if lane_eqb l' l then [m] else [] | _ => [] end) tr.
  (** Messages that came in to process [j] from outside. *)
  Definition from_outside (j : nat) (tr : list cobs) : list message :=
    flat_map (fun o => match o with XNode i Own (VIn _ m) _ => if Nat.eqb i j then [m] else [] | _ => [] end) tr.
End Spec.
