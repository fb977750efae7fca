(** Model of siggy/src/protocol/prot.go: one run of a protocol with timed stages.

    A run has two users: the goroutine of _run_timed_steps, and the consumer of
    the incoming queue.  Both hold the run's mutex except while the former sleeps,
    so an execution is a list of events, each one critical section: the timed
    goroutine waking up, or the consumer delivering a message.  Times are
    nanoseconds.  A panic ends the process ([Panic]); what the critical section
    that panics had done before is not recorded.

    Parameters: D, the interface values carried by messages; A, unmarshalled
    arguments of processors; K, the data of a run (kyber_dat, prot_dat and what
    is stored elsewhere under the run); E, global data that steps read; V,
    outputs. *)
From Coq Require Import ZArith List Lia Bool.
From Verif Require Import Bytes Res Dto.
Import ListNotations.
Open Scope Z_scope.

(** 8-19 *)
Definition ms : Z := 1000000.
Definition state_timeout : Z := 75 * ms.
Definition step_timeout : Z := 25 * ms.
Definition pause : Z := 5 * ms.
Definition protocol_timeout_pad : Z := 50 * ms.

(** net/msg.go:3-10 *)
Record message (D : Type) := mkMsg {
  m_sender : Z; m_pc : Z; m_rcpt : Z; m_run : bytes; m_op : Z; m_dto : D }.
Arguments mkMsg {D} m_sender m_pc m_rcpt m_run m_op m_dto.
Arguments m_sender {D} m. Arguments m_pc {D} m. Arguments m_rcpt {D} m.
Arguments m_run {D} m. Arguments m_op {D} m. Arguments m_dto {D} m.

(** What a step or a processor does to the run and the outside: [send] (272),
    [abandon] (153), [push_output] (327) for its own guest and run. *)
Inductive action (D V : Type) := ASend (index op : Z) (dto : D) | AAbandon | AOutput (pc : Z) (v : V).
Arguments ASend {D V} index op dto. Arguments AAbandon {D V}. Arguments AOutput {D V} pc v.

(** The immutable part of protocol_run (136-142): the protocol's code, the run
    id, the guest, len(members) and the number of outgoing queues. *)
Record info := mkInfo { i_pc : Z; i_id : bytes; i_guest : Z; i_members : Z; i_queues : Z }.

(** 21-29.  [sg_type]: whether the dynamic type of a DTO is dto_type.  A step
    never returns [Err]. *)
Record stage (D A K E V : Type) := mkStage {
  sg_step : option (info -> E -> K -> res (K * list (action D V)));
  sg_proc : option (info -> E -> K -> A -> res (K * list (action D V)));
  sg_unm : D -> res A;
  sg_valid : A -> Z -> res bool;
  sg_type : D -> bool }.
Arguments mkStage {D A K E V} sg_step sg_proc sg_unm sg_valid sg_type.
Arguments sg_step {D A K E V} s. Arguments sg_proc {D A K E V} s. Arguments sg_unm {D A K E V} s.
Arguments sg_valid {D A K E V} s. Arguments sg_type {D A K E V} s.

(** 37-42 *)
Record protocol (D A K E V : Type) := mkProt {
  p_code : Z; p_stages : list (stage D A K E V); p_cleanup : K -> K }.
Arguments mkProt {D A K E V} p_code p_stages p_cleanup.
Arguments p_code {D A K E V} p. Arguments p_stages {D A K E V} p. Arguments p_cleanup {D A K E V} p.

(** Where the timed goroutine is: not scheduled yet (before 194), about to lock
    (195), in the sleep of line 208, in the sleep of line 198, ended. *)
Inductive loc := LFresh | LStart | LStage | LPause | LEnd.

(** The mutable part (143-150), the local t of _run_timed_steps, and the time
    before which its present sleep cannot end. *)
Record rst (D K : Type) := mkRst {
  r_k : K; r_state : Z; r_paused : bool;
  r_rcv : list (Z * list (message D)); r_snd : list (Z * list (message D));
  r_abandon : bool; r_term : bool; r_loc : loc; r_t : Z; r_wake : Z }.
Arguments mkRst {D K} r_k r_state r_paused r_rcv r_snd r_abandon r_term r_loc r_t r_wake.
Arguments r_k {D K} r. Arguments r_state {D K} r. Arguments r_paused {D K} r. Arguments r_rcv {D K} r.
Arguments r_snd {D K} r. Arguments r_abandon {D K} r. Arguments r_term {D K} r. Arguments r_loc {D K} r.
Arguments r_t {D K} r. Arguments r_wake {D K} r.

(** What happens, in order: the goroutine starts; stage k is entered; its step is
    called; the pause after stage k begins; a message is taken up by _process_msg;
    a processor is called; a message is dropped as late; a message is made; a
    message is handed to the network; the run is abandoned; an output is pushed;
    cleanup and termination. *)
Inductive obs (D A V : Type) :=
| OStart (now : Z) | OEnter (k now : Z) | OStep (k : Z) | OPause (k : Z)
| OHandle (m : message D) | OProc (m : message D) (a : A) | ODrop (m : message D)
| OCreate (m : message D) | OSent (m : message D)
| OAbandon | OOutput (pc : Z) (v : V) | OTerm (now : Z).
Arguments OStart {D A V} now. Arguments OEnter {D A V} k now. Arguments OStep {D A V} k.
Arguments OPause {D A V} k. Arguments OHandle {D A V} m. Arguments OProc {D A V} m a.
Arguments ODrop {D A V} m. Arguments OCreate {D A V} m. Arguments OSent {D A V} m.
Arguments OAbandon {D A V}. Arguments OOutput {D A V} pc v. Arguments OTerm {D A V} now.

(** The timed goroutine goes on at time [now], or the consumer delivers [m]. *)
Inductive event (D E : Type) := ETick (e : E) (now : Z) | EMsg (e : E) (m : message D).
Arguments ETick {D E} e now. Arguments EMsg {D E} e m.

(** delete(map, key) *)
Fixpoint mdel {V} (m : list (Z * V)) (k : Z) : list (Z * V) :=
  match m with [] => [] | (k', v) :: r => if k' =? k then mdel r k else (k', v) :: mdel r k end.
(** map[key] for slices: nil when absent *)
Definition mslice {V} (m : list (Z * list V)) (k : Z) : list V :=
  match mget m k with Some l => l | None => [] end.

Section Run.
  Context {D A K E V : Type}.
  Notation message := (message D). Notation rst := (rst D K). Notation obs := (obs D A V).
  Notation action := (action D V). Notation stage := (stage D A K E V).
  Notation event := (event D E).
  Variable p : protocol D A K E V.
  Variable c : info.

  Definition set_k (r : rst) (k : K) : rst :=
    mkRst k (r_state r) (r_paused r) (r_rcv r) (r_snd r) (r_abandon r) (r_term r) (r_loc r) (r_t r) (r_wake r).
  Definition set_rcv (r : rst) (b : list (Z * list message)) : rst :=
    mkRst (r_k r) (r_state r) (r_paused r) b (r_snd r) (r_abandon r) (r_term r) (r_loc r) (r_t r) (r_wake r).
  Definition set_snd (r : rst) (b : list (Z * list message)) : rst :=
    mkRst (r_k r) (r_state r) (r_paused r) (r_rcv r) b (r_abandon r) (r_term r) (r_loc r) (r_t r) (r_wake r).
  Definition set_abandon (r : rst) : rst :=
    mkRst (r_k r) (r_state r) (r_paused r) (r_rcv r) (r_snd r) true (r_term r) (r_loc r) (r_t r) (r_wake r).
  Definition set_clock (r : rst) (l : loc) (t wake : Z) : rst :=
    mkRst (r_k r) (r_state r) (r_paused r) (r_rcv r) (r_snd r) (r_abandon r) (r_term r) l t wake.
  Definition set_stage (r : rst) (k : Z) (pa : bool) : rst :=
    mkRst (r_k r) k pa (r_rcv r) (r_snd r) (r_abandon r) (r_term r) (r_loc r) (r_t r) (r_wake r).

  (** 30-35 *)
  Definition stage_timeout (s : stage) : Z := match sg_proc s with None => step_timeout | Some _ => state_timeout end.
  (** 54-57 *)
  Definition protocol_timeout : Z := fold_left (fun t s => t + stage_timeout s) (p_stages p) 0.
  (** 60 *)
  Definition protocol_sleep : Z := protocol_timeout + protocol_timeout_pad.
  (** protocol.stages[k] *)
  Definition stage_at (k : Z) : option stage :=
    if k <? 0 then None else nth_error (p_stages p) (Z.to_nat k).

  (** 174-183 *)
  Definition new_run (k : K) : rst := mkRst k (-1) false [] [] false false LFresh 0 0.

  (** 277-280 *)
  Definition make_msg (rcpt op : Z) (d : D) : message := mkMsg (i_guest c) (i_pc c) rcpt (i_id c) op d.

  (** net_caller.go:11-14: only the index; what happens in the queue is in Net.v *)
  Definition try_send (m : message) : res (list obs) :=
    if (0 <=? m_rcpt m) && (m_rcpt m <? i_queues c) then Ok [OSent m] else Panic.

  (** 272-275 *)
  Definition send (r : rst) (index op : Z) (d : D) : res (rst * list obs) :=
    let m := make_msg index op d in
    if r_state r <? op then Ok (set_snd r (mset (r_snd r) op (mslice (r_snd r) op ++ [m])), [OCreate m])
    else o <- try_send m ;; Ok (r, OCreate m :: o).

  (** 269-270 *)
  Definition send1 (ci : info) (index op : Z) (d : D) : list action :=
    if index =? i_guest ci then [] else [ASend index op d].
  (** 262-263 *)
  Definition broadcast (ci : info) (op : Z) (d : D) : list action :=
    flat_map (fun i => send1 ci (Z.of_nat i) op d) (seq 0 (Z.to_nat (i_members ci))).
  (** 266-267 *)
  Definition multicast (idxs : list Z) (ci : info) (op : Z) (d : D) : list action :=
    flat_map (fun i => send1 ci i op d) idxs.

  Definition do_action (r : rst) (a : action) : res (rst * list obs) :=
    match a with
    | ASend i op d => send r i op d
    | AAbandon => Ok (set_abandon r, [OAbandon])
    | AOutput pc v => Ok (r, [OOutput pc v])
    end.
  Fixpoint do_actions (r : rst) (l : list action) : res (rst * list obs) :=
    match l with
    | [] => Ok (r, [])
    | a :: l' => x <- do_action r a ;; y <- do_actions (fst x) l' ;; Ok (fst y, snd x ++ snd y)
    end.
  (** Storing what the called function left in the run, and its effects. *)
  Definition perform (r : rst) (x : res (K * list action)) : res (rst * list obs) :=
    ka <- x ;; do_actions (set_k r (fst ka)) (snd ka).

  (** 247-259 *)
  Definition process_msg (e : E) (r : rst) (m : message) : res (rst * list obs) :=
    if r_abandon r then Ok (r, [OHandle m])
    else match stage_at (m_op m) with
    | None => Panic
    | Some s =>
        match sg_proc s with
        | None => Ok (r, [OHandle m])
        | Some proc =>
            if negb (sg_type s (m_dto m)) then Ok (r, [OHandle m])
            else match sg_unm s (m_dto m) with
            | Err => Ok (r, [OHandle m])
            | Panic => Panic
            | Ok arg =>
                if (0 <=? m_sender m) && (m_sender m <? i_members c)
                then v <- sg_valid s arg (m_sender m) ;;
                     if v : bool
                     then y <- perform r (proc c e (r_k r) arg) ;; Ok (fst y, OHandle m :: OProc m arg :: snd y)
                     else Ok (r, [OHandle m])
                else Ok (r, [OHandle m])
            end
        end
    end.
  (** the loop of line 206 *)
  Fixpoint process_all (e : E) (r : rst) (l : list message) : res (rst * list obs) :=
    match l with
    | [] => Ok (r, [])
    | m :: l' => x <- process_msg e r m ;; y <- process_all e (fst x) l' ;; Ok (fst y, snd x ++ snd y)
    end.

  (** 233-245: the consumer, holding the lock *)
  Definition deliver (e : E) (r : rst) (m : message) : res (rst * list obs) :=
    if (m_op m <? r_state r) || ((m_op m =? r_state r) && r_paused r) then Ok (r, [ODrop m])
    else if r_state r <? m_op m then Ok (set_rcv r (mset (r_rcv r) (m_op m) (mslice (r_rcv r) (m_op m) ++ [m])), [])
    else process_msg e r m.

  (** 282-286 *)
  Fixpoint try_send_all (l : list message) : res (list obs) :=
    match l with [] => Ok [] | m :: l' => x <- try_send m ;; y <- try_send_all l' ;; Ok (x ++ y) end.
  Definition flush_snd_buf (r : rst) : res (rst * list obs) :=
    o <- try_send_all (mslice (r_snd r) (r_state r)) ;; Ok (set_snd r (mdel (r_snd r) (r_state r)), o).

  (** 203-205 *)
  Definition run_step (e : E) (s : stage) (r : rst) : res (rst * list obs) :=
    if r_abandon r then Ok (r, [])
    else match sg_step s with
    | None => Ok (r, [])
    | Some f => y <- perform r (f c e (r_k r)) ;; Ok (fst y, OStep (r_state r) :: snd y)
    end.

  (** 199-208, up to the sleep *)
  Definition enter_stage (e : E) (now : Z) (r0 : rst) : res (rst * list obs) :=
    let k := r_state r0 + 1 in
    match stage_at k with
    | None => Panic
    | Some s =>
        let r := set_stage r0 k false in
        let t := r_t r + stage_timeout s in
        x <- flush_snd_buf r ;;
        y <- run_step e s (fst x) ;;
        z <- process_all e (fst y) (mslice (r_rcv (fst y)) k) ;;
        let r4 := set_rcv (fst z) (mdel (r_rcv (fst z)) k) in
        Ok (set_clock r4 LStage t t, OEnter k now :: snd x ++ snd y ++ snd z)
    end.

  Definition final : Z := Z.of_nat (length (p_stages p)) - 1.
  (** The loop test of line 196 on reaching it, and lines 197-198 or 209-211.
      [now]: when the lock was obtained. *)
  Definition loop_top (e : E) (now : Z) (r : rst) : res (rst * list obs) :=
    if r_state r <? final then
      if -1 <? r_state r then
        Ok (set_clock (set_stage r (r_state r) true) LPause (r_t r) (now + pause), [OPause (r_state r)])
      else enter_stage e now r
    else Ok (mkRst (p_cleanup p (r_k r)) (r_state r) (r_paused r) (r_rcv r) (r_snd r) (r_abandon r) true LEnd (r_t r) (r_wake r),
             [OTerm now]).

  (** 193-211 from one lock to the next unlock *)
  Definition tick (e : E) (now : Z) (r : rst) : res (rst * list obs) :=
    match r_loc r with
    | LFresh => Ok (set_clock r LStart now now, [OStart now])
    | LStart | LStage => loop_top e now r
    | LPause => enter_stage e now r
    | LEnd => Ok (r, [])
    end.

  Definition step (r : rst) (ev : event) : res (rst * list obs) :=
    match ev with ETick e now => tick e now r | EMsg e m => deliver e r m end.
  Fixpoint exec (r : rst) (evs : list event) : res (rst * list obs) :=
    match evs with
    | [] => Ok (r, [])
    | ev :: l => x <- step r ev ;; y <- exec (fst x) l ;; Ok (fst y, snd x ++ snd y)
    end.

  (** Sleeps last at least as long as asked: the goroutine does not go on before
      its wake-up time. *)
  Fixpoint timely (r : rst) (evs : list event) : Prop :=
    match evs with
    | [] => True
    | ev :: l => match ev with ETick _ now => r_wake r <= now | EMsg _ _ => True end /\
                 match step r ev with Ok x => timely (fst x) l | _ => True end
    end.
End Run.
