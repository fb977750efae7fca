(** Vocabulary for the statements about protocol runs: everything is read off the
    list of events and the trace of what happened. *)
From Coq Require Import ZArith List Bool.
From Verif Require Import Bytes Res Dto Prot.
Import ListNotations.
Open Scope Z_scope.

Section Spec.
  Context {D A V E : Type}.
  Notation message := (message D). Notation obs := (obs D A V). Notation event := (event D E).

  (** Messages received, and those taken up, dropped, made, sent. *)
  Definition received (evs : list event) : list message :=
    flat_map (fun e => match e with EMsg _ m => [m] | _ => [] end) evs.
  Definition handled (tr : list obs) : list message := flat_map (fun o => match o with OHandle m => [m] | _ => [] end) tr.
  Definition dropped (tr : list obs) : list message := flat_map (fun o => match o with ODrop m => [m] | _ => [] end) tr.
  Definition created (tr : list obs) : list message := flat_map (fun o => match o with OCreate m => [m] | _ => [] end) tr.
  Definition sent (tr : list obs) : list message := flat_map (fun o => match o with OSent m => [m] | _ => [] end) tr.
  (** Stages entered and steps called, in order. *)
  Definition entered (tr : list obs) : list Z := flat_map (fun o => match o with OEnter k _ => [k] | _ => [] end) tr.
  Definition stepped (tr : list obs) : list Z := flat_map (fun o => match o with OStep k => [k] | _ => [] end) tr.
  Definition ticks (evs : list event) : nat :=
    length (filter (fun e => match e with ETick _ _ => true | _ => false end) evs).

  (** Outputs pushed, in order. *)
  Definition outputs_of (tr : list obs) : list (Z * V) :=
    flat_map (fun o => match o with OOutput pc v => [(pc, v)] | _ => [] end) tr.

  (** Only messages for stage k. *)
  Definition for_op (k : Z) (l : list message) : list message := filter (fun m => m_op m =? k) l.

  (** Stage and pausing flag after a trace: (-1, false) before stage 0. *)
  Definition stage_now (tr : list obs) : Z * bool :=
    fold_left (fun s o => match o with OEnter k _ => (k, false) | OPause k => (k, true) | _ => s end) tr (-1, false).

  Definition is_abandon (o : obs) : bool := match o with OAbandon => true | _ => false end.
  Definition is_term (o : obs) : bool := match o with OTerm _ => true | _ => false end.
  Definition abandoned_in (tr : list obs) : bool := existsb is_abandon tr.
  Definition terminated_in (tr : list obs) : bool := existsb is_term tr.

  (** [P before o] for every occurrence [o] in the trace, with what came before it. *)
  Definition always (P : list obs -> obs -> Prop) (tr : list obs) : Prop :=
    forall a o b, tr = a ++ o :: b -> P a o.
End Spec.

(** 0, 1, ..., k (nothing for k = -1). *)
Definition upto (k : Z) : list Z := map Z.of_nat (seq 0 (Z.to_nat (k + 1))).

Section Spec2.
  Context {D A K E V : Type}.
  Notation obs := (obs D A V). Notation action := (action D V).

  (** When the run's goroutine started. *)
  Definition start_of (tr : list obs) : option Z :=
    fold_right (fun o acc => match o with OStart now => Some now | _ => acc end) None tr.

  Variable p : protocol D A K E V.

  (** Sum of the timeouts of the stages before stage k. *)
  Definition elapsed (k : Z) : Z := fold_right (fun s t => stage_timeout s + t) 0 (firstn (Z.to_nat k) (p_stages p)).

  (** Whether stage k has a step. *)
  Definition has_step (k : Z) : bool :=
    match stage_at p k with Some s => match sg_step s with Some _ => true | None => false end | None => false end.

  (** Protocols whose steps, when they abandon, do nothing else, whose processors
      never abandon, and which make messages for the present stage, the next, or
      earlier ones only. *)
  Definition okact (k : Z) (a : action) : Prop :=
    match a with ASend _ op _ => op <= k + 1 | AAbandon => False | AOutput _ _ => True end.
  Definition tidy : Prop := forall k s, stage_at p k = Some s ->
    (forall f ci e kd kd' acts, sg_step s = Some f -> f ci e kd = Ok (kd', acts) -> acts = [AAbandon] \/ Forall (okact k) acts) /\
    (forall f ci e kd arg kd' acts, sg_proc s = Some f -> f ci e kd arg = Ok (kd', acts) -> Forall (okact k) acts).

  (** The last stage takes no messages. *)
  Definition no_last_proc : Prop := forall s, stage_at p (final p) = Some s -> sg_proc s = None.
End Spec2.
