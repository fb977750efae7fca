(** Vocabulary for statements about infinite schedules of a node. *)
From Coq Require Import ZArith List.
From Verif Require Import Bytes Res KMap Firewall Node NodeSpec.
Import ListNotations.
Open Scope Z_scope.

Section Spec.
  Context {G : Type}.
  Notation nevent := (nevent (G := G)).
  Variable sg : nat -> nevent.

  (** The first [p] steps. *)
  Definition prefix (p : nat) : list nevent := map sg (seq 0 p).
  (** Such a step is taken again and again, at later and later times. *)
  Definition again (h : nevent -> Prop) : Prop := forall T p, exists q, (p <= q)%nat /\ h (sg q) /\ T <= ntime (sg q).
  (** How many requests were made before step [p]: the number of the request made then, if one is. *)
  Definition requests_before (p : nat) : nat :=
    length (filter (fun ev => match ev with VRequest _ _ _ _ => true | _ => false end) (prefix p)).
  (** The goroutines that request [i], for the runs of protocol [pc] named [id], waits for get their turns: its own, that
      of each guest, those the firewall starts for these runs, and the run objects of the node. *)
  Definition fair_to (su : setup) (i : nat) (pc : Z) (id : bytes) : Prop :=
    again (fun ev => exists t, ev = VWait t i) /\
    (forall g, In g (su_guests su) ->
      again (fun ev => exists t, ev = VGo t i g) /\
      again (fun ev => exists t gen, ev = VGuest t i g gen) /\
      forall c, again (fun ev => exists t, ev = VFw t (mkKey pc g id) c)) /\
    forall j, again (fun ev => exists t nonce ord, ev = VTick t j nonce ord).
End Spec.
