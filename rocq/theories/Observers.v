(** Model of the termination observers of siggy/src/protocol/prot.go: obs_term and
    _update_term_observers, with the parts of the run table they use.

    Threads interleave between the critical sections: an event is one critical
    section, one send or one close of one thread.  Runs are objects: deleting a run
    from the table leaves the object to the thread that runs it. *)
From Coq Require Import ZArith List Lia Bool.
From Verif Require Import Bytes Res KMap.
Import ListNotations.

(** A channel made by make(chan int, 1) (prot.go:290): how many values are in it, whether it is closed. *)
Record chst := mkCh { ch_buf : nat; ch_closed : bool }.
(** A run object: what identifies it (code, guest, id) and its field terminated (150). *)
Record robj := mkObj { ob_key : key; ob_term : bool }.

(** What a thread still has to do. *)
Inductive thr :=
| TObs (k : key)                 (* obs_term after the registration, before 295 *)
| TRead (r : nat)                (* obs_term with a hit, before 298 *)
| TRun (r : nat)                 (* _run_timed_steps, before 210 *)
| TTake (k : key)                (* _update_term_observers, before 305 *)
| TTell (cs : list nat)          (* in the loop of 309, before the send to the first *)
| TClose (c : nat) (cs : list nat) (* in the loop of 309, before closing [c] *)
| TDone.

(** [os_obs]: _term_obs as the list of its entries, in the order of registration
    (the map of slices is the list, grouped by key).  [os_table]: _runs.  Channels
    and objects are named by their position. *)
Record ost := mkOst {
  os_chans : list chst; os_obs : list (key * nat); os_objs : list robj; os_table : list (key * nat); os_thrs : list thr }.
Definition ost0 : ost := mkOst [] [] [] [] [].

Fixpoint upd_nth {A} (l : list A) (n : nat) (x : A) : list A :=
  match l, n with [], _ => [] | _ :: r, O => x :: r | y :: r, S n' => y :: upd_nth r n' x end.

(** Somebody calls obs_term (289-293); somebody calls _ensure_run (164-169), and a
    new run gets its thread (157-161); _delete_run (188-191); the reader of a
    channel takes a value; a thread goes on. *)
Inductive oevent := OvObserve (k : key) | OvEnsure (k : key) | OvDelete (k : key) | OvRead (c : nat) | OvGo (i : nat).
(** Channel [c] registered for [k]; a run for [k] created, or marked terminated; a
    send on [c]; [c] closed. *)
Inductive oobs := ORegister (c : nat) (k : key) | OCreate (k : key) | OTerminate (k : key) | OSend (c : nat) | OClose (c : nat).

Definition set_thr (s : ost) (i : nat) (t : thr) : ost :=
  mkOst (os_chans s) (os_obs s) (os_objs s) (os_table s) (upd_nth (os_thrs s) i t).
Definition chans_of (k : key) (l : list (key * nat)) : list nat := map snd (filter (fun x => key_eqb k (fst x)) l).
Definition others_of (k : key) (l : list (key * nat)) : list (key * nat) := filter (fun x => negb (key_eqb k (fst x))) l.

(** One step of thread [i], whose next action is [t].  Panic: a send on, or a close
    of, a closed channel. *)
Definition ogo (s : ost) (i : nat) (t : thr) : res (ost * list oobs) :=
  match t with
  | TObs k => (* 295-297 *)
      Ok (match kget (os_table s) k with
          | Some r => set_thr s i (TRead r)
          | None => set_thr s i TDone
          end, [])
  | TRead r => (* 298-299 *)
      Ok (match nth_error (os_objs s) r with
          | Some o => if ob_term o then set_thr s i (TTake (ob_key o)) else set_thr s i TDone
          | None => s
          end, [])
  | TRun r => (* 210-212 *)
      Ok (match nth_error (os_objs s) r with
          | Some o => (mkOst (os_chans s) (os_obs s) (upd_nth (os_objs s) r (mkObj (ob_key o) true)) (os_table s)
                             (upd_nth (os_thrs s) i (TTake (ob_key o))), [OTerminate (ob_key o)])
          | None => (s, [])
          end)
  | TTake k => (* 305-308 *)
      Ok (mkOst (os_chans s) (others_of k (os_obs s)) (os_objs s) (os_table s)
                (upd_nth (os_thrs s) i (TTell (chans_of k (os_obs s)))), [])
  | TTell [] => Ok (set_thr s i TDone, [])
  | TTell (c :: cs) => (* c <- 0 *)
      match nth_error (os_chans s) c with
      | Some ch =>
          if ch_closed ch then Panic
          else if Nat.eqb (ch_buf ch) 0
          then Ok (mkOst (upd_nth (os_chans s) c (mkCh 1 false)) (os_obs s) (os_objs s) (os_table s)
                         (upd_nth (os_thrs s) i (TClose c cs)), [OSend c])
          else Ok (s, []) (* blocked *)
      | None => Panic
      end
  | TClose c cs => (* close(c) *)
      match nth_error (os_chans s) c with
      | Some ch =>
          if ch_closed ch then Panic
          else Ok (mkOst (upd_nth (os_chans s) c (mkCh (ch_buf ch) true)) (os_obs s) (os_objs s) (os_table s)
                         (upd_nth (os_thrs s) i (TTell cs)), [OClose c])
      | None => Panic
      end
  | TDone => Ok (s, [])
  end.

Definition ostep (s : ost) (ev : oevent) : res (ost * list oobs) :=
  match ev with
  | OvObserve k =>
      let c := length (os_chans s) in
      Ok (mkOst (os_chans s ++ [mkCh 0 false]) (os_obs s ++ [(k, c)]) (os_objs s) (os_table s) (os_thrs s ++ [TObs k]), [ORegister c k])
  | OvEnsure k =>
      match kget (os_table s) k with
      | Some _ => Ok (s, [])
      | None =>
          let r := length (os_objs s) in
          Ok (mkOst (os_chans s) (os_obs s) (os_objs s ++ [mkObj k false]) (kset (os_table s) k r) (os_thrs s ++ [TRun r]), [OCreate k])
      end
  | OvDelete k => Ok (mkOst (os_chans s) (os_obs s) (os_objs s) (kdel (os_table s) k) (os_thrs s), [])
  | OvRead c =>
      Ok (match nth_error (os_chans s) c with
          | Some ch => mkOst (upd_nth (os_chans s) c (mkCh (pred (ch_buf ch)) (ch_closed ch))) (os_obs s) (os_objs s) (os_table s) (os_thrs s)
          | None => s
          end, [])
  | OvGo i => match nth_error (os_thrs s) i with Some t => ogo s i t | None => Ok (s, []) end
  end.
Fixpoint oexec (s : ost) (evs : list oevent) : res (ost * list oobs) :=
  match evs with
  | [] => Ok (s, [])
  | ev :: l => x <- ostep s ev ;; y <- oexec (fst x) l ;; Ok (fst y, snd x ++ snd y)
  end.
