(** Several nodes that talk to each other: nodes (Node.v), joined by the outgoing
    queues (Net.v) of siggy/src/net/net_caller.go and the remote calls that
    siggy/src/net/net_listener.go:20-24 serves.

    The net_callers of a process are indexed by protocol and guest (prot.go:81) and
    have a queue for each member (net_caller.go:8): a [lane].  What a run sends goes
    to the lane of its protocol and guest to the recipient (prot.go:180, 275, 285;
    net_caller.go:11-14).  The consumer of a lane makes one call at a time, to the
    address of that member (net_caller.go:22, 45).  A call that succeeds has executed
    Receive once, which hands the message to the firewall of the process that listens
    there (net_listener.go:20-24, prot.go:126); what was sent is what comes in (C41).
    A call that fails may still execute Receive, once, then or later, or never.  A call
    and its execution are one step here: nothing else happens in the lane meanwhile,
    and whatever happens elsewhere may come before or after.

    An execution is a list of events on one time line, each a step of one goroutine
    of one process, or of the network.  The clock of each process differs from this
    time line by a constant.  A process whose goroutine panics is gone: nothing
    happens in it any more, and what its last critical section sent is lost.  A call
    whose execution ends the process it is made to does not succeed. *)
From Coq Require Import ZArith List Lia Bool.
From Verif Require Import Params Bytes Res Secp Dto Dss Prot DkgProt KMap Firewall Outputs Node NodeSpec.
From Verif Require Net.
Import ListNotations.
Open Scope Z_scope.

Section Cluster.
  Context {G : Type}.
  Variable ky : kyber G.
  Variable keccak : bytes -> bytes.
  Variable pshash : Z -> Z -> bytes.
  Notation message := (message payload). Notation nevent := (nevent (G := G)). Notation node := (node (G := G)).

  (** A process: what it is set up with, when it stops dropping messages and when it
      starts, by its clock; what its clock shows more than the time line. *)
  Record place := mkPlace { pl_su : setup; pl_until : Z; pl_begin : Z; pl_skew : Z }.
  Variable places : list place.
  (** The process that listens at the address of a member (layout.go: member_to_addr,
      addrs), if there is one. *)
  Variable home : Z -> option nat.

  (** An outgoing queue: its process, protocol, guest (all prot.go:81) and the member
      it is for (net_caller.go:8). *)
  Record lane := mkLane { l_at : nat; l_pc : Z; l_from : Z; l_to : Z }.
  Definition lane_eqb (a b : lane) : bool :=
    Nat.eqb (l_at a) (l_at b) && (l_pc a =? l_pc b) && (l_from a =? l_from b) && (l_to a =? l_to b).

  (** Processes that run, or not any more; lanes; messages of calls that failed and may
      still come in. *)
  Record cluster := mkCluster { c_nodes : list (option node); c_lanes : lane -> Net.nq message; c_stray : list (lane * message) }.
  Definition start_cluster : cluster :=
    mkCluster (map (fun p => Some (start_node (pl_su p) (pl_until p) (pl_begin p))) places) (fun _ => Net.nq0) [].

  (** Process i does a step of its own, with the time of its clock; a message that comes
      in this way is from outside.  The connector of a lane, its consumer goes on, as in
      Net.v.  A message whose call failed comes in. *)
  Inductive cevent :=
  | COwn (i : nat) (ev : nevent) | CDial (now : Z) (l : lane) (ok : bool) | CGo (now : Z) (l : lane) (ok : bool)
  | CLate (now : Z) (s : nat).
  (** Whether a step of a process is its own, or a message that comes in by a call that
      succeeds, or by one that failed. *)
  Inductive origin := Own | Via (l : lane) | Late (l : lane).
  Inductive cobs :=
  | XNode (i : nat) (o : origin) (ev : nevent) (os : list (nobs))
  | XLane (now : Z) (l : lane) (ev : Net.nevent message) (os : list (Net.nobs message))
  | XDown (i : nat) (o : origin) (ev : nevent).

  Definition skew_of (i : nat) : Z := match nth_error places i with Some p => pl_skew p | None => 0 end.
  Definition set_node (c : cluster) (i : nat) (n : option node) : cluster := mkCluster (put (c_nodes c) i n) (c_lanes c) (c_stray c).
  Definition set_stray (c : cluster) (s : list (lane * message)) : cluster := mkCluster (c_nodes c) (c_lanes c) s.
  Definition alive (c : cluster) (i : nat) : bool := match nth_error (c_nodes c) i with Some (Some _) => true | _ => false end.

  Definition step_lane (c : cluster) (now : Z) (l : lane) (ev : Net.nevent message) : cluster * list cobs :=
    let x := Net.nstep (c_lanes c l) ev in
    (mkCluster (c_nodes c) (fun l' => if lane_eqb l' l then fst x else c_lanes c l') (c_stray c), [XLane now l ev (snd x)]).

  (** prot.go:275, 285: the lane of each message the runs of process i send. *)
  Definition sends_of (i : nat) (os : list nobs) : list (lane * message) :=
    flat_map (fun o => match o with NRun k (OSent m) => [(mkLane i (k_pc k) (k_guest k) (m_rcpt m), m)] | _ => [] end) os.
  Fixpoint send_all (c : cluster) (now : Z) (l : list (lane * message)) : cluster * list cobs :=
    match l with
    | [] => (c, [])
    | (l1, m) :: r => let x := step_lane c now l1 (Net.EvSend m) in let y := send_all (fst x) now r in (fst y, snd x ++ snd y)
    end.

  (** None: there is no such step. *)
  Definition step_node (c : cluster) (i : nat) (org : origin) (ev : nevent) : option (cluster * list cobs) :=
    match nth_error places i, nth_error (c_nodes c) i with
    | Some p, Some (Some n) =>
        if ntime ev <? pl_begin p then None
        else match nstep ky keccak pshash (pl_su p) n ev with
        | Ok x => let y := send_all (set_node c i (Some (fst x))) (ntime ev - pl_skew p) (sends_of i (snd x)) in
                  Some (fst y, XNode i org ev (snd x) :: snd y)
        | Panic => match org with Via _ => None | _ => Some (set_node c i None, [XDown i org ev]) end
        | Err => None
        end
    | _, _ => None
    end.

  (** The call that a step of a consumer makes, if any (net_caller.go:45) *)
  Definition call_in (os : list (Net.nobs message)) : option (message * bool) :=
    match os with Net.NCall m ok :: _ => Some (m, ok) | _ => None end.
  Fixpoint remove_nth {A} (l : list A) (n : nat) : list A :=
    match l, n with [], _ => [] | _ :: r, O => r | x :: r, S n' => x :: remove_nth r n' end.

  Definition cstep (c : cluster) (ev : cevent) : option (cluster * list cobs) :=
    match ev with
    | COwn i e => step_node c i Own e
    | CDial now l ok => if alive c (l_at l) then Some (step_lane c now l (Net.EvDial ok)) else None
    | CGo now l ok =>
        if alive c (l_at l) then
          let x := step_lane c now l (Net.EvGo ok) in
          match call_in (snd (Net.ngo (c_lanes c l) ok)) with
          | None => Some x
          | Some (m, false) => Some (set_stray (fst x) (c_stray c ++ [(l, m)]), snd x)
          | Some (m, true) =>
              match home (l_to l) with
              | None => None
              | Some j => match step_node (fst x) j (Via l) (VIn (now + skew_of j) m) with
                          | Some y => Some (fst y, snd x ++ snd y)
                          | None => None
                          end
              end
          end
        else None
    | CLate now s =>
        match nth_error (c_stray c) s with
        | None => None
        | Some (l, m) =>
            match home (l_to l) with
            | None => None
            | Some j => step_node (set_stray c (remove_nth (c_stray c) s)) j (Late l) (VIn (now + skew_of j) m)
            end
        end
    end.
  Fixpoint cexec (c : cluster) (evs : list cevent) : option (cluster * list cobs) :=
    match evs with
    | [] => Some (c, [])
    | ev :: l => match cstep c ev with
                 | Some x => match cexec (fst x) l with Some y => Some (fst y, snd x ++ snd y) | None => None end
                 | None => None
                 end
    end.

  (** The time line. *)
  Definition ctime (ev : cevent) : Z :=
    match ev with COwn i e => ntime e - skew_of i | CDial now _ _ | CGo now _ _ | CLate now _ => now end.
  Fixpoint cclock (t0 : Z) (evs : list cevent) : Prop :=
    match evs with [] => True | ev :: l => t0 <= ctime ev /\ cclock (ctime ev) l end.
  Definition chistory (t0 : Z) (evs : list cevent) (c : cluster) (tr : list cobs) : Prop :=
    cclock t0 evs /\ cexec start_cluster evs = Some (c, tr).
End Cluster.
