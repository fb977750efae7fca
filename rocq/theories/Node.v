(** Model of a running node: siggy/src/protocol/prot.go (run table, incoming queues,
    protocol_start), siggy/src/protocol/dss.go (documents) and siggy/src/signode/
    {runner,run_sig,run_longterm}.go (requests), around the firewall (Firewall.v),
    the runs (Prot.v) and the protocols (DkgProt.v).

    An execution is a list of events, each one step of one goroutine: an incoming
    message, a goroutine of the firewall, the consumer of an incoming queue, the timed
    goroutine of a run, or the goroutines of a request.  Every event has its time.
    A panic of any goroutine ends the process. *)
From Coq Require Import ZArith List Lia Bool Decimal DecimalZ.
From Coq Require Import Init.Byte.
From Verif Require Import Params Bytes Res Secp Dto Dss Prot DkgProt KMap Firewall Outputs.
Import ListNotations.
Open Scope Z_scope.

(** strconv.FormatInt(i, 10) *)
Fixpoint digits (u : uint) : bytes :=
  match u with
  | Nil => [] | D0 u => x30 :: digits u | D1 u => x31 :: digits u | D2 u => x32 :: digits u | D3 u => x33 :: digits u
  | D4 u => x34 :: digits u | D5 u => x35 :: digits u | D6 u => x36 :: digits u | D7 u => x37 :: digits u
  | D8 u => x38 :: digits u | D9 u => x39 :: digits u
  end.
Definition format_int (i : Z) : bytes :=
  match Z.to_int i with Decimal.Pos u => digits u | Decimal.Neg u => x2d :: digits u end.
(** runner.go:22-23.  A time is nanoseconds since 1970; UnixMilli rounds down. *)
Definition run_id_for (base : bytes) (start : Z) : bytes := base ++ format_int (start / ms).

(** runner.go:3-4 *)
Definition max_drift : Z := 5 * ms.
Definition stop_grace : Z := 1000 * ms.
(** prot.go:77 *)
Definition rcv_buf_max : Z := 10000.
(** prot.go:6 *)
Definition nprots : Z := 2.

Section Node.
  Context {G : Type}.
  Variable ky : kyber G.
  Variable keccak : bytes -> bytes.
  Variable pshash : Z -> Z -> bytes.

  (** What protocol_start and dss_init are given (prot.go:87-95, dss.go:22-26): guests,
      public keys of the members, T, number of outgoing queues, secrets and long-term
      shares of the guests. *)
  Record setup := mkSetup {
    su_guests : list Z; su_members : list point; su_T : Z; su_queues : Z; su_secret : Z -> Z; su_long : Z -> option dks }.
  Variable su : setup.
  Notation message := (message payload). Notation run := (rst payload (kd G)).
  Notation robs := (obs payload arg output).

  (** prot.go:44-50; index in range by the callers *)
  Definition the_prot (pc : Z) : protocol payload arg (kd G) env output :=
    if pc =? pc_dkg then dkg_prot ky else dss_prot ky keccak pshash.
  (** prot.go:172-183: what is fixed in a run *)
  Definition run_info (k : key) : info :=
    mkInfo (k_pc k) (k_run k) (k_guest k) (Z.of_nat (length (su_members su))) (su_queues su).
  (** prot.go:173 with dkg.go:36-40 (abstract: [g]), dss.go:67-76 *)
  Definition new_kd (k : key) (g : G) : kd G :=
    mkKd g None (if k_pc k =? pc_dkg then None else Some (mkArgs (su_secret su (k_guest k)) (su_members su) (su_T su))) None.

  (** Where a guest's goroutine of a request is (runner.go:34-54): before fw_set_allowance;
      waiting for the firewall to buffer (line 45; with the number of its call); asleep
      (46); waiting for the run's termination (47); in the goroutine of _runner_cleanup_run
      with 2 or 1 receives to go (52), about to send the signal (53), finished. *)
  Inductive gloc := GAllow | GBuf (n : nat) | GSleep (n : nat) | GTerm (n : nat) | GClean2 (n : nat) | GClean1 (n : nat) | GSignal | GEnd.
  (** wg.Done has been called (runner.go:36) *)
  Definition guest_done (l : gloc) : bool :=
    match l with GClean2 _ | GClean1 _ | GSignal | GEnd => true | _ => false end.
  (** Where the goroutine of a request is (runner.go:7-32; run_sig.go:32-40;
      run_longterm.go:21-34): registering the document for the guests left; in wg.Wait;
      deregistering; popping the outputs; returned. *)
  Inductive rphase := RReg (todo : list Z) | RRun | RDereg (todo : list Z) | RPop (todo : list Z) | RDone.
  (** A request: run_dkg if there is no document, else run_dss. *)
  Record request := mkReq { rq_doc : option Z; rq_id : bytes; rq_start : Z; rq_phase : rphase; rq_locs : list (Z * gloc) }.
  Definition rq_pc (r : request) : Z := match rq_doc r with None => pc_dkg | Some _ => pc_dss end.
  Definition rq_key (r : request) (g : Z) : key := mkKey (rq_pc r) g (rq_id r).

  (** The node: firewall (prot.go:84); incoming queues (82) and the message and run
      their consumers hold (228-233); run objects made so far; run table (65); outputs
      (315); documents (dss.go:12); requests made so far.  Queues are indexed by
      protocol and guest, documents by guest and run. *)
  Record node := mkNode {
    n_fw : fw payload; n_qs : kmap (list message); n_cons : kmap (nat * message);
    n_heap : list (key * run); n_table : kmap nat; n_outs : kmap output; n_docs : kmap Z; n_reqs : list request }.
  Definition qkey (pc g : Z) : key := mkKey pc g [].
  Definition dkey (g : Z) (id : bytes) : key := mkKey pc_dss g id.

  Definition set_fw (n : node) x := mkNode x (n_qs n) (n_cons n) (n_heap n) (n_table n) (n_outs n) (n_docs n) (n_reqs n).
  Definition set_qs (n : node) x := mkNode (n_fw n) x (n_cons n) (n_heap n) (n_table n) (n_outs n) (n_docs n) (n_reqs n).
  Definition set_cons (n : node) x := mkNode (n_fw n) (n_qs n) x (n_heap n) (n_table n) (n_outs n) (n_docs n) (n_reqs n).
  Definition set_heap (n : node) x := mkNode (n_fw n) (n_qs n) (n_cons n) x (n_table n) (n_outs n) (n_docs n) (n_reqs n).
  Definition set_table (n : node) x := mkNode (n_fw n) (n_qs n) (n_cons n) (n_heap n) x (n_outs n) (n_docs n) (n_reqs n).
  Definition set_outs (n : node) x := mkNode (n_fw n) (n_qs n) (n_cons n) (n_heap n) (n_table n) x (n_docs n) (n_reqs n).
  Definition set_docs (n : node) x := mkNode (n_fw n) (n_qs n) (n_cons n) (n_heap n) (n_table n) (n_outs n) x (n_reqs n).
  Definition set_reqs (n : node) x := mkNode (n_fw n) (n_qs n) (n_cons n) (n_heap n) (n_table n) (n_outs n) (n_docs n) x.

  (** What happens: in the firewall; a message enters or is kept out of a queue; a
      consumer takes a message; a run object is made; a run is removed from the table;
      in a run; a cleanup signal is sent; an output is popped. *)
  Inductive nobs :=
  | NFw (o : fobs payload) | NQueued (m : message) | NRefused (m : message) | NTake (m : message)
  | NCreate (now : Z) (k : key) | NDelete (k : key) | NRun (k : key) (o : robs) | NCleanup (k : key) | NPop (k : key) (v : option output).

  (** A request is made (base, start, document); it registers or deregisters the document
      of a guest, or pops the output of a guest; it goes on after wg.Wait; the goroutine
      of one of its guests goes on ([gen]: a new generator, if it makes one); a message
      comes in; the initial dropping ends; a firewall goroutine goes on; the consumer of a queue
      takes a message; it delivers it; the timed goroutine of a run goes on ([nonce] and
      [ord]: what the step draws). *)
  Inductive nevent :=
  | VRequest (now : Z) (base : bytes) (start : Z) (doc : option Z)
  | VGo (now : Z) (i : nat) (g : Z) | VWait (now : Z) (i : nat) | VGuest (now : Z) (i : nat) (g : Z) (gen : G)
  | VIn (now : Z) (m : message) | VUndrop (now : Z) | VFw (now : Z) (k : key) (c : nat)
  | VTake (now : Z) (pc g : Z) (gen : G)
  | VDeliver (now : Z) (pc g : Z) (nonce : Z) (ord : Z -> list (Z * Z) -> list (Z * Z))
  | VTick (now : Z) (j : nat) (nonce : Z) (ord : Z -> list (Z * Z) -> list (Z * Z)).

  Definition start_node (until now : Z) : node :=
    mkNode (make_fw nprots (su_guests su) until now) [] [] [] [] [] [] [].

  Definition is_guest (g : Z) : bool := existsb (Z.eqb g) (su_guests su).
  (** prot.go:219-225.  Err: the sender blocks (the queue is full, or there is none). *)
  Definition receive (n : node) (m : message) : res (node * list nobs) :=
    let pc := Z.abs (m_pc m) in
    let q := qkey pc (m_rcpt m) in
    let l := kslice (n_qs n) q in
    let room := is_guest (m_rcpt m) && (Z.of_nat (length l) <? rcv_buf_max) in
    let queued := Ok (set_qs n (kset (n_qs n) q (l ++ [m])), [NQueued m]) in
    if nprots <=? pc then Panic
    else if m_pc m <? 0 then (if room then queued else Err)
    else if negb ((0 <=? m_op m) && (m_op m <? Z.of_nat (length (p_stages (the_prot (m_pc m)))))) then Ok (n, [NRefused m])
    else if room then queued else Ok (n, [NRefused m]).
  (** The firewall's output function on the messages it passes (prot.go:94). *)
  Fixpoint receive_all (n : node) (l : list (fobs payload)) : res (node * list nobs) :=
    match l with
    | [] => Ok (n, [])
    | o :: l' =>
        x <- match o with FPass _ m => receive n m | _ => Ok (n, []) end ;;
        y <- receive_all (fst x) l' ;; Ok (fst y, NFw o :: snd x ++ snd y)
    end.
  Definition firewall (n : node) (ev : fevent payload) : res (node * list nobs) :=
    x <- fstep (n_fw n) ev ;; receive_all (set_fw n (fst x)) (snd x).

  (** prot.go:157-186: the run and whether it was made; its goroutine starts with it *)
  Definition ensure_run (n : node) (now : Z) (k : key) (gen : G) : node * nat * list nobs :=
    match kget (n_table n) k with
    | Some j => (n, j, [])
    | None =>
        let j := length (n_heap n) in
        (set_table (set_heap n (n_heap n ++ [(k, new_run (new_kd k gen))])) (kset (n_table n) k j), j, [NCreate now k])
    end.

  (** The environment of a step of run k (dss.go:33-38). *)
  Definition env_for (n : node) (k : key) (nonce : Z) (ord : Z -> list (Z * Z) -> list (Z * Z)) : env :=
    mkEnv (kget (n_docs n) (dkey (k_guest k) (k_run k))) (su_long su (k_guest k)) nonce ord.
  (** prot.go:327-329 *)
  Fixpoint push_all (m : kmap output) (k : key) (l : list robs) : kmap output :=
    match l with
    | [] => m
    | OOutput pc v :: l' => push_all (push_output m (mkKey pc (k_guest k) (k_run k)) v) k l'
    | _ :: l' => push_all m k l'
    end.
  (** What a critical section of run j leaves *)
  Definition run_after (n : node) (j : nat) (k : key) (x : run * list robs) : node * list nobs :=
    (set_outs (set_heap n (put (n_heap n) j (k, fst x))) (push_all (n_outs n) k (snd x)), map (NRun k) (snd x)).

  (** prot.go:227-245 up to the lock of the run *)
  Definition consumer_take (n : node) (now pc g : Z) (gen : G) : node * list nobs :=
    match kget (n_cons n) (qkey pc g), kslice (n_qs n) (qkey pc g) with
    | None, m :: rest =>
        let n1 := set_qs n (kset (n_qs n) (qkey pc g) rest) in
        if m_pc m <? 0 then (* 188-191, 231 *)
          let k := mkKey (- m_pc m) (m_rcpt m) (m_run m) in
          (set_table n1 (kdel (n_table n1) k), [NTake m; NDelete k])
        else
          let x := ensure_run n1 now (fw_key m) gen in
          (set_cons (fst (fst x)) (kset (n_cons n1) (qkey pc g) (snd (fst x), m)), NTake m :: snd x)
    | _, _ => (n, [])
    end.
  (** prot.go:233-245 *)
  Definition consumer_deliver (n : node) (pc g nonce : Z) (ord : Z -> list (Z * Z) -> list (Z * Z)) : res (node * list nobs) :=
    match kget (n_cons n) (qkey pc g) with
    | None => Ok (n, [])
    | Some (j, m) =>
        match nth_error (n_heap n) j with
        | None => Panic
        | Some (k, r) =>
            x <- deliver (the_prot (k_pc k)) (run_info k) (env_for n k nonce ord) r m ;;
            let y := run_after n j k x in
            Ok (set_cons (fst y) (kdel (n_cons (fst y)) (qkey pc g)), snd y)
        end
    end.
  (** prot.go:193-211.  It does not go on before its sleep has ended. *)
  Definition run_tick (n : node) (now : Z) (j : nat) (nonce : Z) (ord : Z -> list (Z * Z) -> list (Z * Z)) : res (node * list nobs) :=
    match nth_error (n_heap n) j with
    | None => Ok (n, [])
    | Some (k, r) =>
        if now <? r_wake r then Ok (n, [])
        else x <- tick (the_prot (k_pc k)) (run_info k) (env_for n k nonce ord) now r ;; Ok (run_after n j k x)
    end.

  (** ** Requests *)
  Definition put_req (n : node) (i : nat) (r : request) : node := set_reqs n (put (n_reqs n) i r).
  Definition with_phase (r : request) (p : rphase) : request := mkReq (rq_doc r) (rq_id r) (rq_start r) p (rq_locs r).
  Definition with_locs (r : request) (l : list (Z * gloc)) : request := mkReq (rq_doc r) (rq_id r) (rq_start r) (rq_phase r) l.
  (** runner.go:29-30 *)
  Definition spawn (r : request) : request :=
    mkReq (rq_doc r) (rq_id r) (rq_start r) RRun (map (fun g => (g, GAllow)) (su_guests su)).
  (** runner.go:7-20 up to the first document *)
  Definition new_request (base : bytes) (start : Z) (doc : option Z) : request :=
    let r := mkReq doc (run_id_for base start) start (RReg (su_guests su)) [] in
    match doc with None => spawn r | Some _ => match su_guests su with [] => spawn r | _ => r end end.
  Definition remove (g : Z) (l : list Z) : list Z := filter (fun x => negb (x =? g)) l.
  (** runner.go:17; runner.go:19; run_sig.go:37-40 or run_longterm.go:26-33, for guest g.
      The type assertions panic on other outputs.  Printing is not modelled. *)
  Definition request_go (n : node) (i : nat) (g : Z) : res (node * list nobs) :=
    match nth_error (n_reqs n) i with
    | None => Ok (n, [])
    | Some r =>
        match rq_phase r with
        | RReg todo =>
            if existsb (Z.eqb g) todo then
              let n1 := match rq_doc r with Some d => set_docs n (kset (n_docs n) (dkey g (rq_id r)) d) | None => n end in
              let todo' := remove g todo in
              Ok (put_req n1 i (match todo' with [] => spawn r | _ => with_phase r (RReg todo') end), [])
            else Ok (n, [])
        | RDereg todo =>
            if existsb (Z.eqb g) todo then
              let n1 := set_docs n (kdel (n_docs n) (dkey g (rq_id r))) in
              let todo' := remove g todo in
              Ok (put_req n1 i (with_phase r (match todo' with [] => RPop (su_guests su) | _ => RDereg todo' end)), [])
            else Ok (n, [])
        | RPop todo =>
            if existsb (Z.eqb g) todo then
              let k := rq_key r g in
              let x := pop_output (n_outs n) k in
              let todo' := remove g todo in
              let n1 := put_req (set_outs n (fst x)) i (with_phase r (match todo' with [] => RDone | _ => RPop todo' end)) in
              match rq_doc r, snd x with
              | Some _, (None | Some (VSig _)) => Ok (n1, [NPop k (snd x)])
              | None, Some (VShare s q) => if (length q <? length (su_members su))%nat then Panic else Ok (n1, [NPop k (snd x)])
              | _, _ => Panic
              end
            else Ok (n, [])
        | _ => Ok (n, [])
        end
    end.
  (** runner.go:31 *)
  Definition request_wait (n : node) (i : nat) : node :=
    match nth_error (n_reqs n) i with
    | Some r =>
        match rq_phase r with
        | RRun => if forallb (fun x => guest_done (snd x)) (rq_locs r)
                  then put_req n i (with_phase r (match rq_doc r with Some _ => RDereg (su_guests su) | None => RPop (su_guests su) end))
                  else n
        | _ => n
        end
    | None => n
    end.

  (** runner.go:42-44 *)
  Definition allowance_for (pc start : Z) : allowance :=
    mkAllow (start - max_drift) start (start + (protocol_timeout (the_prot pc) + stop_grace)).
  (** runner.go:53-54 *)
  Definition signal (d : payload) (k : key) : message := mkMsg 0 (- k_pc k) (k_guest k) (k_run k) 0 d.
  Definition nil_dto : payload := PResp (mkResp 0 None).

  (** runner.go:34-54.  The channel of obs_term is told only after a run of that key
      has terminated (C58), so the receive of line 47 is possible only then. *)
  Definition terminated_run (n : node) (k : key) : bool :=
    existsb (fun x => key_eqb (fst x) k && r_term (snd x)) (n_heap n).
  Definition chan_ready (n : node) (k : key) (c : nat) : bool :=
    match nth_error (kslice (f_calls (n_fw n)) k) c with Some s => match sl_chan s with [] => false | _ => true end | None => false end.
  Definition guest_go (n : node) (now : Z) (k : key) (start : Z) (l : gloc) (gen : G) : res (node * gloc * list nobs) :=
    let recv c l' := if chan_ready n k c
                     then x <- firewall n (EvRecv now k c) ;; Ok (fst x, l', snd x) else Ok (n, l, []) in
    match l with
    | GAllow => x <- firewall n (EvAllow now k (allowance_for (k_pc k) start)) ;;
                Ok (fst x, GBuf (length (kslice (f_calls (n_fw n)) k)), snd x)
    | GBuf c => recv c (GSleep c)
    | GSleep c => if now <? start then Ok (n, l, [])
                  else let x := ensure_run n now k gen in Ok (fst (fst x), GTerm c, snd x)
    | GTerm c => if terminated_run n k then Ok (n, GClean2 c, []) else Ok (n, l, [])
    | GClean2 c => recv c (GClean1 c)
    | GClean1 c => recv c GSignal
    | GSignal => match receive n (signal nil_dto k) with
                 | Ok x => Ok (fst x, GEnd, NCleanup k :: snd x)
                 | Err => Ok (n, l, [])
                 | Panic => Panic
                 end
    | GEnd => Ok (n, l, [])
    end.
  Fixpoint loc_of (l : list (Z * gloc)) (g : Z) : option gloc :=
    match l with [] => None | (g', x) :: r => if g' =? g then Some x else loc_of r g end.
  Fixpoint set_loc (l : list (Z * gloc)) (g : Z) (x : gloc) : list (Z * gloc) :=
    match l with [] => [] | (g', y) :: r => if g' =? g then (g', x) :: r else (g', y) :: set_loc r g x end.
  Definition request_guest (n : node) (now : Z) (i : nat) (g : Z) (gen : G) : res (node * list nobs) :=
    match nth_error (n_reqs n) i with
    | None => Ok (n, [])
    | Some r =>
        match loc_of (rq_locs r) g with
        | None => Ok (n, [])
        | Some l =>
            x <- guest_go n now (rq_key r g) (rq_start r) l gen ;;
            Ok (put_req (fst (fst x)) i (with_locs r (set_loc (rq_locs r) g (snd (fst x)))), snd x)
        end
    end.

  Definition nstep (n : node) (ev : nevent) : res (node * list nobs) :=
    match ev with
    | VRequest now base start doc => Ok (set_reqs n (n_reqs n ++ [new_request base start doc]), [])
    | VGo now i g => request_go n i g
    | VWait now i => Ok (request_wait n i, [])
    | VGuest now i g gen => request_guest n now i g gen
    | VIn now m => firewall n (EvIn now m)
    | VUndrop now => firewall n (EvUndrop now)
    | VFw now k c => firewall n (EvWake now k c)
    | VTake now pc g gen => Ok (consumer_take n now pc g gen)
    | VDeliver now pc g nonce ord => consumer_deliver n pc g nonce ord
    | VTick now j nonce ord => run_tick n now j nonce ord
    end.
  Fixpoint nexec (n : node) (evs : list nevent) : res (node * list nobs) :=
    match evs with
    | [] => Ok (n, [])
    | ev :: l => x <- nstep n ev ;; y <- nexec (fst x) l ;; Ok (fst y, snd x ++ snd y)
    end.
End Node.
