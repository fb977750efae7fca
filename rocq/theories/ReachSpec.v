(** Vocabulary: the way of a message through a node, from the firewall to the run. *)
From Coq Require Import ZArith List Bool.
From Verif Require Import Bytes Res Dto Prot DkgProt KMap Firewall FwSpec Node NodeSpec.
Import ListNotations.
Open Scope Z_scope.

Section Spec.
  Context {G : Type}.
  Notation message := (message payload).
  Definition for_run (k : key) (m : message) : list message := if key_eqb (key_of m) k then [m] else [].
  (** Messages for run [k]: offered to its incoming queue, those that entered it, those that its consumer took. *)
  Definition offered_for (k : key) (tr : list nobs) : list message := flat_map (fun o => match o with NQueued m | NRefused m => for_run k m | _ => [] end) tr.
  Definition queued_for (k : key) (tr : list nobs) : list message := flat_map (fun o => match o with NQueued m => for_run k m | _ => [] end) tr.
  Definition taken_for (k : key) (tr : list nobs) : list message := flat_map (fun o => match o with NTake m => for_run k m | _ => [] end) tr.
  (** The message for run [k] that the consumer holds, waiting for the run's lock; those in the queue. *)
  Definition held_for (k : key) (n : node (G := G)) : list message :=
    match kget (n_cons n) (mkKey (k_pc k) (k_guest k) []) with Some (_, m) => for_run k m | None => [] end.
  Definition waiting_for (k : key) (n : node (G := G)) : list message := flat_map (for_run k) (kslice (n_qs n) (mkKey (k_pc k) (k_guest k) [])).
  (** What came in from the network, with the time: to the node and to its firewall. *)
  Definition came (evs : list (nevent (G := G))) : list (Z * message) := flat_map (fun ev => match ev with VIn t m => [(t, m)] | _ => [] end) evs.
  Definition fw_came (l : list (fevent payload)) : list (Z * message) := flat_map (fun ev => match ev with EvIn t m => [(t, m)] | _ => [] end) l.
End Spec.
