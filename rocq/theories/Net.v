(** Model of siggy/src/net/net_caller.go.

    A queue has three users: callers of try_send, the goroutine of
    _run_outgoing_queue_consumer, and the goroutine of _run_connector it starts.
    They share the channels only, so an execution is a list of events, each one
    step of one of them.  Delays do not occur: every order of steps is possible.
    Closing a connection is not modelled. *)
From Coq Require Import ZArith List Lia Bool.
From Verif Require Import Bytes Res.
Import ListNotations.
Open Scope Z_scope.

(** net_caller.go:3 *)
Definition msg_max : Z := 1000.

(** Where the consumer is: at the top of its loop (32), waiting for the connector
    (34), before line 38, before line 39, before line 43, before the call (45), in
    the post statement of line 44 with the error of the call (true: nil). *)
Inductive cloc := LTop | LWait | LDrop | LSel | LGet | LCall | LPost (ok : bool).
(** What the connector does: trying (53), with failed_before; blocked sending nil
    (55); blocked sending a connection (54); not running. *)
Inductive kloc := KTry (failed_before : bool) | KNil | KUp | KIdle.

Section Net.
  Context {M : Type}.
  (** The channel of messages and the locals of the consumer (29). *)
  Record nq := mkNq { n_q : list M; n_loc : cloc; n_msg : option M; n_pushed : bool; n_conn : kloc }.
  (** net_caller.go:20-21, 30-31 *)
  Definition nq0 : nq := mkNq [] LTop None false KIdle.

  (** A message is put in the queue, or refused; a message is dropped (41); a call
      ends, without error or with one; a connector is started; a connection is
      taken over. *)
  Inductive nobs := NAccept (m : M) | NRefuse (m : M) | NDropped (m : M) | NCall (m : M) (ok : bool) | NDial | NConnected.
  (** try_send; the connector has tried _grace_conn_attempts times, with or without
      success; the consumer goes on, a call, if it makes one, having this outcome. *)
  Inductive nevent := EvSend (m : M) | EvDial (ok : bool) | EvGo (ok : bool).

  (** 11-14.  A select with a default: the call does not wait. *)
  Definition nsend (s : nq) (m : M) : nq * list nobs :=
    if Z.of_nat (length (n_q s)) <? msg_max
    then (mkNq (n_q s ++ [m]) (n_loc s) (n_msg s) (n_pushed s) (n_conn s), [NAccept m])
    else (s, [NRefuse m]).

  (** 49-66: one round of the loop *)
  Definition ndial (s : nq) (ok : bool) : nq :=
    match n_conn s with
    | KTry fb => mkNq (n_q s) (n_loc s) (n_msg s) (n_pushed s) (if ok then KUp else if fb then KTry true else KNil)
    | _ => s
    end.

  (** msg = <-msg_ch, then on to [l]; waits if the queue is empty *)
  Definition nrecv (s : nq) (l : cloc) : nq :=
    match n_q s with
    | m :: q => mkNq q l (Some m) (n_pushed s) (n_conn s)
    | [] => s
    end.
  (** if pushed_back {pushed_back = false} else {msg = <-msg_ch} (38, 43) *)
  Definition nget (s : nq) (l : cloc) : nq :=
    if n_pushed s then mkNq (n_q s) l (n_msg s) false (n_conn s) else nrecv s l.
  Definition held (s : nq) : list M := match n_msg s with Some m => [m] | None => [] end.

  (** 28-46: to the next operation on a channel, or call *)
  Definition ngo (s : nq) (ok : bool) : nq * list nobs :=
    match n_loc s with
    | LTop => (mkNq (n_q s) LWait (n_msg s) (n_pushed s) (KTry false), [NDial])
    | LWait => (* c = <-conn_ch *)
        match n_conn s with
        | KNil => (mkNq (n_q s) LDrop (n_msg s) (n_pushed s) (KTry true), [])
        | KUp => (mkNq (n_q s) LGet (n_msg s) (n_pushed s) KIdle, [NConnected])
        | _ => (s, [])
        end
    | LDrop => (nget s LSel, [])
    | LSel =>
        match n_conn s with
        | KUp => (mkNq (n_q s) LCall (n_msg s) (n_pushed s) KIdle, [NConnected])
        | _ => (mkNq (n_q s) LDrop (n_msg s) (n_pushed s) (n_conn s), map NDropped (held s))
        end
    | LGet => (nget s LCall, [])
    | LCall => (mkNq (n_q s) (LPost ok) (n_msg s) (n_pushed s) (n_conn s), map (fun m => NCall m ok) (held s))
    | LPost true => (nrecv s LCall, [])
    | LPost false => (* the post statement comes before the test of the error *)
        match n_q s with
        | m :: q => (mkNq q LTop (Some m) true (n_conn s), [])
        | [] => (s, [])
        end
    end.

  Definition nstep (s : nq) (ev : nevent) : nq * list nobs :=
    match ev with
    | EvSend m => nsend s m
    | EvDial ok => (ndial s ok, [])
    | EvGo ok => ngo s ok
    end.
  Fixpoint nexec (s : nq) (evs : list nevent) : nq * list nobs :=
    match evs with
    | [] => (s, [])
    | ev :: l => let x := nstep s ev in let y := nexec (fst x) l in (fst y, snd x ++ snd y)
    end.
End Net.
Arguments nq M : clear implicits. Arguments nobs M : clear implicits. Arguments nevent M : clear implicits.

(** ** All the queues of a net_caller *)
(** A Go slice of channels: [None], the nil channel. *)
Fixpoint put_nth {A} (l : list A) (n : nat) (x : A) : list A :=
  match l, n with [], _ => [] | _ :: r, O => x :: r | y :: r, S n' => y :: put_nth r n' x end.
(** net_caller.go:16-22: the address of the consumer of each queue.  [m2a]: the map
    in the order of the range loop. *)
Fixpoint start_queues {Ad} (addrs : list Ad) (qs : list (option Ad)) (m2a : list (Z * Z)) : res (list (option Ad)) :=
  match m2a with
  | [] => Ok qs
  | (midx, aidx) :: r =>
      if (0 <=? midx) && (midx <? Z.of_nat (length qs)) then
        match (if aidx <? 0 then None else nth_error addrs (Z.to_nat aidx)) with
        | Some a => start_queues addrs (put_nth qs (Z.to_nat midx) (Some a)) r
        | None => Panic
        end
      else Panic
  end.
Definition start_net_caller {Ad} (addrs : list Ad) (m2a : list (Z * Z)) : res (list (option Ad)) :=
  start_queues addrs (repeat None (length m2a)) m2a.
