(** Vocabulary for the statements about when things happen in a run. *)
From Coq Require Import ZArith List Sorted.
From Verif Require Import Bytes Res Dto Prot ProtSpec.
Import ListNotations.
Open Scope Z_scope.

Section Spec.
  Context {D A K E V : Type}.
  Notation event := (event D E). Notation rst := (rst D K). Notation obs := (obs D A V).

  (** A timed history: events with the moments at which they happen, in order; a
      wake-up reads the clock at its moment. *)
  Definition untimed (h : list (Z * event)) : list event := map snd h.
  Definition clocked (h : list (Z * event)) : Prop :=
    StronglySorted (fun x y => fst x <= fst y) h /\
    (forall t e now, In (t, ETick e now) h -> now = t).

  Variable p : protocol D A K E V.
  Variable c : info.

  (** The goroutine of the run is never late by more than [d]. *)
  Fixpoint punctual (d : Z) (r : rst) (evs : list event) : Prop :=
    match evs with
    | [] => True
    | ev :: l => match ev, r_loc r with
                 | ETick _ now, (LStart | LStage | LPause) => now <= r_wake r + d
                 | _, _ => True
                 end /\
                 match step p c r ev with Ok x => punctual d (fst x) l | _ => True end
    end.

  (** At moment [t] of the history [h], [o] happens in the run that began with the data [k]. *)
  Definition happens (k : K) (h : list (Z * event)) (t : Z) (o : obs) : Prop :=
    exists a ev b r tr r' os, h = a ++ (t, ev) :: b /\ exec p c (new_run k) (untimed a) = Ok (r, tr) /\
      step p c r ev = Ok (r', os) /\ In o os.
  (** Message [m] arrives at moment [t]. *)
  Definition arrives (h : list (Z * event)) (t : Z) (m : message D) : Prop := exists e, In (t, EMsg e m) h.
End Spec.
