(** Model of siggy/src/protocol/firewall.go.

    Every segment of code between two operations on the lock is one step.  Times
    are integers on one clock; every step knows the time at which it has the
    lock. *)
From Coq Require Import ZArith List Lia Bool.
From Verif Require Import Bytes Res Prot KMap.
Import ListNotations.
Open Scope Z_scope.

(** firewall.go 20: the states *)
Definition fw_dropping : Z := 0. Definition fw_buffering : Z := 1.
Definition fw_forwarding : Z := 2. Definition fw_stopped : Z := 3. Definition nfw : nat := 4.
(** firewall.go 34 *)
Definition fw_buf_max : Z := 2048.
(** firewall.go 21 *)
Record allowance := mkAllow { al_buf : Z; al_start : Z; al_stop : Z }.

(** Where a goroutine of _fw_state_step is: before its first lock (firewall.go 74), in the
    sleeps of lines 76, 78, 81 (with its local allowance), returned. *)
Inductive fwloc := FNew | FBuf (a : allowance) | FStart (a : allowance) | FStop (a : allowance) | FEnd.
(** One call of fw_set_allowance (firewall.go 63-71): its goroutine, if it started one, and what is in
    the returned channel. *)
Record slot := mkSlot { sl_thread : option fwloc; sl_chan : list Z }.

Section Fw.
  Context {D : Type}.
  Notation message := (message D).
  (** The three indices of the firewall's maps (firewall.go 28). *)
  Definition fw_key (m : message) : key := mkKey (m_pc m) (m_rcpt m) (m_run m).

  (** firewall.go 22-33.  The output function is replaced by the observation FPass.  The calls of fw_set_allowance made so far for each key are kept too. *)
  Record fw := mkFw {
    f_nprots : Z; f_guests : list Z; f_until : Z; f_drop : bool;
    f_allow : kmap allowance; f_state : kmap Z; f_buf : kmap (list message); f_calls : kmap (list slot) }.

  (** What happens: a message comes in; initial dropping ends; an allowance is put
      in place; a run changes its phase; a channel (of the n-th call for the key) is
      told something; a message is passed to the output. *)
  Inductive fobs :=
  | FIn (now : Z) (m : message) | FUndropped (now : Z) | FSet (now : Z) (k : key) (a : allowance)
  | FPhase (now : Z) (k : key) (p : Z) | FTold (now : Z) (k : key) (n : nat) (v : Z) | FPass (now : Z) (m : message).
  (** fw_input; the goroutine of line 56 goes on; fw_set_allowance; the goroutine
      started by the n-th call for k gets the lock; the caller receives from the
      channel of its n-th call for k. *)
  Inductive fevent :=
  | EvIn (now : Z) (m : message) | EvUndrop (now : Z) | EvAllow (now : Z) (k : key) (a : allowance)
  | EvWake (now : Z) (k : key) (n : nat) | EvRecv (now : Z) (k : key) (n : nat).

  (** firewall.go 36-59 *)
  Definition make_fw (nprots : Z) (guests : list Z) (drop_until now : Z) : fw :=
    mkFw nprots guests drop_until (now <? drop_until) [] [] [] [].

  (** The inner maps exist: pc indexes the slices and gidx was a guest (firewall.go 47-54). *)
  Definition known (f : fw) (pc gidx : Z) : bool :=
    (0 <=? pc) && (pc <? f_nprots f) && existsb (Z.eqb gidx) (f_guests f).

  Definition set_drop (f : fw) (b : bool) : fw :=
    mkFw (f_nprots f) (f_guests f) (f_until f) b (f_allow f) (f_state f) (f_buf f) (f_calls f).
  Definition set_allow (f : fw) (x : kmap allowance) : fw :=
    mkFw (f_nprots f) (f_guests f) (f_until f) (f_drop f) x (f_state f) (f_buf f) (f_calls f).
  Definition set_state (f : fw) (x : kmap Z) : fw :=
    mkFw (f_nprots f) (f_guests f) (f_until f) (f_drop f) (f_allow f) x (f_buf f) (f_calls f).
  Definition set_buf (f : fw) (x : kmap (list message)) : fw :=
    mkFw (f_nprots f) (f_guests f) (f_until f) (f_drop f) (f_allow f) (f_state f) x (f_calls f).
  Definition set_calls (f : fw) (x : kmap (list slot)) : fw :=
    mkFw (f_nprots f) (f_guests f) (f_until f) (f_drop f) (f_allow f) (f_state f) (f_buf f) x.

  (** firewall.go 63-71.  Writing to a map of an unknown guest panics. *)
  Definition fw_set_allowance (f : fw) (now : Z) (k : key) (a : allowance) : res (fw * list fobs) :=
    if negb (known f (k_pc k) (k_guest k)) then Panic
    else match kget (f_allow f) k with
    | Some _ => Ok (set_calls f (kset (f_calls f) k (kslice (f_calls f) k ++ [mkSlot None []])), [])
    | None =>
        let f1 := set_allow f (kset (f_allow f) k a) in
        let f2 := set_state f1 (kset (f_state f1) k fw_dropping) in
        Ok (set_calls f2 (kset (f_calls f2) k (kslice (f_calls f2) k ++ [mkSlot (Some FNew) []])), [FSet now k a])
    end.

  Fixpoint put {A} (l : list A) (n : nat) (x : A) : list A :=
    match l, n with [], _ => [] | _ :: r, O => x :: r | y :: r, S n' => y :: put r n' x end.
  Definition put_slot (f : fw) (k : key) (n : nat) (s : slot) : fw :=
    set_calls f (kset (f_calls f) k (put (kslice (f_calls f) k) n s)).

  (** firewall.go 65, 77, 80, 82: obs <- v on a channel of capacity 4.  Err: the goroutine blocks, with the lock
      of the firewall. *)
  Definition told (c : list Z) (v : Z) : res (list Z) := if (length c <? nfw)%nat then Ok (c ++ [v]) else Err.

  (** firewall.go 90-93 *)
  Definition fw_flush (f : fw) (now : Z) (k : key) : fw * list fobs :=
    (set_buf f (kdel (f_buf f) k), map (FPass now) (kslice (f_buf f) k)).

  (** firewall.go 73-88: from one lock to the next unlock.  The goroutine does not go on before
      its deadline. *)
  Definition fw_state_step (f : fw) (now : Z) (k : key) (n : nat) : res (fw * list fobs) :=
    match nth_error (kslice (f_calls f) k) n with
    | None => Ok (f, [])
    | Some s =>
        match sl_thread s with
        | None | Some FEnd => Ok (f, [])
        | Some FNew =>
            let a := match kget (f_allow f) k with Some a => a | None => mkAllow 0 0 0 end in
            Ok (put_slot f k n (mkSlot (Some (FBuf a)) (sl_chan s)), [])
        | Some (FBuf a) =>
            if now <? al_buf a then Ok (f, []) else
            let f1 := set_state f (kset (f_state f) k fw_buffering) in
            c <- told (sl_chan s) fw_buffering ;;
            Ok (put_slot f1 k n (mkSlot (Some (FStart a)) c), [FPhase now k fw_buffering; FTold now k n fw_buffering])
        | Some (FStart a) =>
            if now <? al_start a then Ok (f, []) else
            let x := fw_flush f now k in
            let f1 := set_state (fst x) (kset (f_state (fst x)) k fw_forwarding) in
            c <- told (sl_chan s) fw_forwarding ;;
            Ok (put_slot f1 k n (mkSlot (Some (FStop a)) c), snd x ++ [FPhase now k fw_forwarding; FTold now k n fw_forwarding])
        | Some (FStop a) =>
            if now <? al_stop a then Ok (f, []) else
            let f1 := set_state f (kset (f_state f) k fw_stopped) in
            c <- told (sl_chan s) fw_stopped ;;
            let f2 := set_allow f1 (kdel (f_allow f1) k) in
            let f3 := set_state f2 (kdel (f_state f2) k) in
            Ok (put_slot f3 k n (mkSlot (Some FEnd) c), [FPhase now k fw_stopped; FTold now k n fw_stopped])
        end
    end.

  (** firewall.go 111-115 *)
  Definition fw_message_valid (f : fw) (m : message) : bool := known f (m_pc m) (m_rcpt m).
  (** firewall.go 98-109.  Warnings are not modelled. *)
  Definition fw_process (f : fw) (now : Z) (m : message) : fw * list fobs :=
    if f_drop f || negb (fw_message_valid f m) then (f, [])
    else match kget (f_state f) (fw_key m) with
    | None => (f, [])
    | Some st =>
        if st =? fw_buffering then
          let buf := kslice (f_buf f) (fw_key m) in
          if Z.of_nat (length buf) <? fw_buf_max then (set_buf f (kset (f_buf f) (fw_key m) (buf ++ [m])), []) else (f, [])
        else if st =? fw_forwarding then (f, [FPass now m])
        else (f, [])
    end.

  (** firewall.go 71: <-obs by the caller of the n-th call; nothing to receive: it goes on waiting *)
  Definition fw_recv (f : fw) (k : key) (n : nat) : fw :=
    match nth_error (kslice (f_calls f) k) n with
    | Some s => put_slot f k n (mkSlot (sl_thread s) (tl (sl_chan s)))
    | None => f
    end.

  (** One step: a function called, or a goroutine continued. *)
  Definition fstep (f : fw) (ev : fevent) : res (fw * list fobs) :=
    match ev with
    | EvIn now m => let x := fw_process f now m in Ok (fst x, FIn now m :: snd x)
    | EvUndrop now => (* firewall.go 55-58 *)
        if f_drop f && (f_until f <=? now) then Ok (set_drop f false, [FUndropped now]) else Ok (f, [])
    | EvAllow now k a => fw_set_allowance f now k a
    | EvWake now k n => fw_state_step f now k n
    | EvRecv now k n => Ok (fw_recv f k n, [])
    end.
  Fixpoint fexec (f : fw) (evs : list fevent) : res (fw * list fobs) :=
    match evs with
    | [] => Ok (f, [])
    | ev :: l => x <- fstep f ev ;; y <- fexec (fst x) l ;; Ok (fst y, snd x ++ snd y)
    end.
End Fw.
Arguments fw D : clear implicits. Arguments fobs D : clear implicits. Arguments fevent D : clear implicits.
