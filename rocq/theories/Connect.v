(** Model of the goroutine that connects to a peer, with its delays:
    net_caller.go:48-73.  Net.v has the same goroutine without time; C115 relates
    them.  Times and durations in nanoseconds.  Steps other than sleeping and
    dialling take no time; so does handing over the interim nil, as the consumer waits for
    it (34). *)
From Coq Require Import ZArith List Lia Bool.
From Verif Require Import Prot.
Import ListNotations.
Open Scope Z_scope.

(** net_caller.go:5 *)
Definition grace_conn_attempts : nat := 5.
(** net_caller.go:68; Main.v has it too, for signode.go *)
Definition conn_start_grace : Z := 2000 * ms.
(** net_caller.go:70-71; [x] is what mrand.Int63n(900) returns *)
Definition retry_delay (x : Z) : Z := (100 + x) * ms.
(** net_caller.go:73 *)
Definition min_dur (x y : Z) : Z := if x <? y then x else y.
(** 5*time.Minute *)
Definition max_backoff : Z := 5 * 60 * 1000 * ms.

(** The network: what rpc.DialHTTP does when called at a time: how long it takes,
    and whether it succeeds. *)
Record network := mkNetwork { dial_takes : Z -> Z; dial_ok : Z -> bool }.

(** net_caller.go:61-66, from [i] on with [n] attempts left.  Result: the times at
    which it dials, the time at the end, whether there is a connection. *)
Fixpoint attempts (w : network) (delay : Z) (first : bool) (n : nat) (t : Z) : list Z * Z * bool :=
  match n with
  | O => ([], t, false)
  | S n' =>
      let t1 := t + (if first then conn_start_grace else delay) in
      let t2 := t1 + dial_takes w t1 in
      if dial_ok w t1 then ([t1], t2, true)
      else let '(l, t3, ok) := attempts w delay false n' t2 in (t1 :: l, t3, ok)
  end.
(** net_caller.go:59-66 *)
Definition try_connect (w : network) (x : Z) (n : nat) (t : Z) : list Z * Z * bool :=
  attempts w (retry_delay x) true n t.

(** What is sent on conn_ch: nil, or a connection; when. *)
Inductive pub := PNil (t : Z) | PConn (t : Z).

(** The loop of net_caller.go:52-56 at its top: the time, failed_before, d. *)
Record cstate := mkCstate { c_now : Z; c_failed : bool; c_delay : Z }.
(** net_caller.go:50-52 *)
Definition connector0 (x t : Z) : cstate := mkCstate t false (4 * retry_delay x).
(** net_caller.go:53-56 and the post statement of 52.  [None]: the loop was left. *)
Definition round (w : network) (x : Z) (c : cstate) : option cstate * list Z * list pub :=
  let '(dials, t, ok) := try_connect w x grace_conn_attempts (c_now c) in
  if ok then (None, dials, [PConn t])
  else (Some (mkCstate (t + c_delay c) true (min_dur (2 * c_delay c) max_backoff)), dials,
        if c_failed c then [] else [PNil t]).

(** The first [n] rounds; the random numbers are [rnd 0], [rnd 1], ...: one for each
    round.  Result: the state if it still tries, the times of the dials, what it sent. *)
Fixpoint rounds (w : network) (rnd : nat -> Z) (n : nat) (c : cstate) : option cstate * list Z * list pub :=
  match n with
  | O => (Some c, [], [])
  | S n' =>
      match round w (rnd O) c with
      | (None, dials, ps) => (None, dials, ps)
      | (Some c', dials, ps) =>
          let '(o, dials', ps') := rounds w (fun k => rnd (S k)) n' c' in (o, dials ++ dials', ps ++ ps')
      end
  end.

(** net_caller.go:49-56: started at [t0]; the first number is for the delay between rounds. *)
Definition run_connector (w : network) (rnd : nat -> Z) (n : nat) (t0 : Z) : option cstate * list Z * list pub :=
  rounds w (fun k => rnd (S k)) n (connector0 (rnd O) t0).
Definition dials_of {A C} (r : A * list Z * C) : list Z := snd (fst r).
Definition pubs_of {A B} (r : A * B * list pub) : list pub := snd r.
