(** What a run computes, without its goroutines, clock and buffers: the step of
    each stage, then the messages of that stage, one after the other. *)
From Coq Require Import ZArith List Bool.
From Verif Require Import Bytes Res Dto Prot ProtSpec.
Import ListNotations.
Open Scope Z_scope.

Section Flow.
  Context {D A K E V : Type}.
  Notation message := (message D). Notation obs := (obs D A V). Notation action := (action D V).
  Variable p : protocol D A K E V.
  Variable c : info.

  (** Messages made, abandonment and outputs, as they happen in a trace. *)
  Definition doings (tr : list obs) : list action :=
    flat_map (fun o => match o with
      | OCreate m => [ASend (m_rcpt m) (m_op m) (m_dto m)] | OAbandon => [AAbandon] | OOutput pc v => [AOutput pc v] | _ => [] end) tr.
  Definition gives_up (l : list action) : bool := existsb (fun a => match a with AAbandon => true | _ => false end) l.

  (** The data of the run, whether it is abandoned, what it has done. *)
  Record flow := mkFlow { fl_k : K; fl_ab : bool; fl_acts : list action }.
  Definition call (x : flow) (f : K -> res (K * list action)) : res flow :=
    if fl_ab x then Ok x else y <- f (fl_k x) ;; Ok (mkFlow (fst y) (gives_up (snd y)) (fl_acts x ++ snd y)).
  (** One message: only of the right type and form, from a member, and valid. *)
  Definition take (e : E) (s : stage D A K E V) (x : flow) (m : message) : res flow :=
    match fl_ab x, sg_proc s with
    | false, Some f =>
        if sg_type s (m_dto m) then
          match sg_unm s (m_dto m) with
          | Ok a => if (0 <=? m_sender m) && (m_sender m <? i_members c)
                    then v <- sg_valid s a (m_sender m) ;; if v : bool then call x (fun k => f c e k a) else Ok x
                    else Ok x
          | Err => Ok x
          | Panic => Panic
          end
        else Ok x
    | _, _ => Ok x
    end.
  Fixpoint take_all (e : E) (s : stage D A K E V) (x : flow) (l : list message) : res flow :=
    match l with [] => Ok x | m :: r => y <- take e s x m ;; take_all e s y r end.
  Definition begin (e : E) (s : stage D A K E V) (x : flow) : res flow :=
    match sg_step s with None => Ok x | Some f => call x (fun k => f c e k) end.
  (** The first n stages, with the messages [ms k] in stage k. *)
  Fixpoint through (e : E) (n : nat) (k0 : K) (ms : Z -> list message) : res flow :=
    match n with
    | O => Ok (mkFlow k0 false [])
    | S n' => x <- through e n' k0 ms ;;
              match stage_at p (Z.of_nat n') with
              | Some s => y <- begin e s x ;; take_all e s y (ms (Z.of_nat n'))
              | None => Panic
              end
    end.

  (** Stages up to the k-th depend on nothing but the run's data and the messages. *)
  Definition closed_upto (k : Z) : Prop := forall j s, stage_at p j = Some s -> j <= k ->
    (forall f, sg_step s = Some f -> forall e e' kd, f c e kd = f c e' kd) /\
    (forall f, sg_proc s = Some f -> forall e e' kd a, f c e kd a = f c e' kd a).
End Flow.
Arguments mkFlow {D K V} fl_k fl_ab fl_acts. Arguments fl_k {D K V} f. Arguments fl_ab {D K V} f. Arguments fl_acts {D K V} f.
