(** Vocabulary: the history of one run object inside a node. *)
From Coq Require Import ZArith List Bool.
From Verif Require Import Bytes Res Dto Prot DkgProt KMap Firewall Node NodeSpec.
Import ListNotations.
Open Scope Z_scope.

Section Spec.
  Context {G : Type}.
  Variable ky : kyber G.
  Variable keccak : bytes -> bytes.
  Variable pshash : Z -> Z -> bytes.
  Variable su : setup.
  Notation nevent := (nevent (G := G)). Notation node := (node (G := G)).

  (** What event [ev] of the node is to the run object number [j] (in the order they are made), with its moment: the
      goroutine of the run wakes up, its sleep being over, or the consumer hands over a message it took for this run. *)
  Definition event_of_run (n : node) (j : nat) (ev : nevent) : list (Z * event payload env) :=
    match ev with
    | VTick now j' nonce ord =>
        match nth_error (n_heap n) j with
        | Some (k, r) => if Nat.eqb j' j && (r_wake r <=? now) then [(now, ETick (env_for su n k nonce ord) now)] else []
        | None => []
        end
    | VDeliver now pc g nonce ord =>
        match nth_error (n_heap n) j, kget (n_cons n) (mkKey pc g []) with
        | Some (k, r), Some (j', m) => if Nat.eqb j' j then [(now, EMsg (env_for su n k nonce ord) m)] else []
        | _, _ => []
        end
    | _ => []
    end.
  Fixpoint run_history (n : node) (evs : list nevent) (j : nat) : list (Z * event payload env) :=
    match evs with
    | [] => []
    | ev :: l => event_of_run n j ev ++ match nstep ky keccak pshash su n ev with Ok x => run_history (fst x) l j | _ => [] end
    end.

  (** Run object [j] is one of run [k], began with the data [k0] and its history is [h], in a node that went from [n0] through [evs]. *)
  Definition lives (n0 : node) (evs : list nevent) (j : nat) (k : key) (k0 : kd G) (h : list (Z * event payload env)) : Prop :=
    h = run_history n0 evs j /\
    exists a ev b n tr n' o, evs = a ++ ev :: b /\ nexec ky keccak pshash su n0 a = Ok (n, tr) /\ nstep ky keccak pshash su n ev = Ok (n', o) /\
      nth_error (n_heap n) j = None /\ nth_error (n_heap n') j = Some (k, new_run k0).

  (** What the node's trace shows of the runs with key [k]. *)
  Definition run_trace (k : key) (tr : list nobs) : list (obs payload arg output) :=
    flat_map (fun o => match o with NRun k' x => if key_eqb k' k then [x] else [] | _ => [] end) tr.

  (** How often an output was returned for [k]. *)
  Definition pops (k : key) (tr : list nobs) : nat := length (filter (fun o => match o with NPop k' _ => key_eqb k' k | _ => false end) tr).
  (** The output kept for [k]: the last one given by a run of its guest and id under its protocol, if it was not returned since. *)
  Definition kept (k : key) (tr : list nobs) : option output :=
    fold_left (fun acc o => match o with
      | NRun k' (OOutput pc v) => if key_eqb (mkKey pc (k_guest k') (k_run k')) k then Some v else acc
      | NPop k' _ => if key_eqb k' k then None else acc
      | _ => acc end) tr None.
End Spec.
