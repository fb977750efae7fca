(** Model of csprng/csprng/csprng.go. *)
From Coq Require Import ZArith List Lia Bool.
From Coq Require Import Init.Byte.
From Verif Require Import Bytes Res.
Import ListNotations.
Open Scope Z_scope.

(** csprng.go:15 *)
Definition mebi : Z := 1048576.

(** 10-14 without the mutex.  [g_st]: key and position of the CTR stream, [None]
    the nil interface.  [g_nk]: number of keys drawn so far. *)
Record rng := mkRng { g_rem : Z; g_st : option (bytes * Z); g_nk : nat }.
(** 47 *)
Definition rng0 : rng := mkRng 0 None 0.

Definition xor_byte (a b : byte) : byte := byte_of_z (Z.lxor (z_of_byte a) (z_of_byte b)).

Section Source.
  (** The n-th key read from the operating system, and the AES-CTR keystream
      (with zero IV) of a key: any functions. *)
  Variable key : nat -> bytes.
  Variable ks : bytes -> Z -> byte.

  (** cipher.Stream.XORKeyStream(d, d) at position pos *)
  Fixpoint xor_stream (k : bytes) (pos : Z) (d : bytes) : bytes :=
    match d with [] => [] | b :: r => xor_byte b (ks k pos) :: xor_stream k (pos + 1) r end.

  (** 16-28; [ok]: whether rand.Read succeeds (it panics otherwise, before the
      generator is assigned).  aes.NewCipher does not fail on 32 bytes. *)
  Definition renew (ok : bool) (c : rng) : res rng :=
    if ok then Ok (mkRng mebi (Some (key (g_nk c), 0)) (S (g_nk c))) else Panic.

  (** 35-45, one round with dstlen > 0: generator, finished bytes, rest *)
  Definition fill_iter (ok : bool) (c : rng) (done rest : bytes) : res (rng * bytes * bytes) :=
    c1 <- (if g_rem c =? 0 then renew ok c else Ok c) ;;
    let n := Z.to_nat (Z.min (Z.of_nat (length rest)) (g_rem c1)) in
    match g_st c1 with
    | None => Panic
    | Some (k, pos) =>
        Ok (mkRng (g_rem c1 - Z.of_nat n) (Some (k, pos + Z.of_nat n)) (g_nk c1),
            done ++ xor_stream k pos (firstn n rest), skipn n rest)
    end.

  (** 34-46; [avail n]: whether the read of key n succeeds during this call.
      The result carries the destination and whether the call returned normally
      (false: it panicked).  [None]: more than [fuel] rounds. *)
  Fixpoint fill_loop (fuel : nat) (avail : nat -> bool) (c : rng) (done rest : bytes) : option (rng * bytes * bool) :=
    match fuel with
    | O => None
    | S f =>
        match rest with
        | [] => Some (c, done, true)
        | _ => match fill_iter (avail (g_nk c)) c done rest with
               | Ok (c', done', rest') => fill_loop f avail c' done' rest'
               | _ => Some (c, done ++ rest, false)
               end
        end
    end.

  (** 30-46; 32: zeroing *)
  Definition fill (fuel : nat) (avail : nat -> bool) (c : rng) (dst : bytes) : option (rng * bytes * bool) :=
    fill_loop fuel avail c [] (map (fun _ => x00) dst).

  (** 58-64 *)
  Definition xor_key_stream (fuel : nat) (avail : nat -> bool) (c : rng) (dst src : bytes) : option (rng * bytes * bool) :=
    if Z.of_nat (length dst) <? Z.of_nat (length src) then Some (c, dst, false)
    else if Z.of_nat (length src) <? Z.of_nat (length dst) then Some (c, dst, false)
    else fill fuel avail c dst.

  (** * Call sequences *)
  Inductive rcall := CFill (avail : nat -> bool) (dst : bytes) | CXor (avail : nat -> bool) (dst src : bytes).
  Definition dst_of (x : rcall) : bytes := match x with CFill _ d => d | CXor _ d _ => d end.
  Definition rstep (c : rng) (x : rcall) : option (rng * bytes * bool) :=
    match x with
    | CFill a d => fill (S (length d)) a c d
    | CXor a d s => xor_key_stream (S (length d)) a c d s
    end.

  (** * Concurrent callers *)
  (** 30-46 as seen by the scheduler: zeroing the caller's own destination (32),
      waiting for the lock (33), holding it in the loop, returned, panicked (the
      deferred Unlock runs in both cases).  Destinations are not shared. *)
  Inductive tstate :=
    | Idle (dst : bytes) | Waiting (dst : bytes) | Holding (done rest : bytes)
    | Returned (dst : bytes) | Panicked (dst : bytes).
  Record world := mkWorld { w_rng : rng; w_lock : option nat; w_thr : nat -> tstate }.
  Definition set_thr (f : nat -> tstate) (t : nat) (s : tstate) : nat -> tstate :=
    fun u => if Nat.eqb u t then s else f u.
  (** Step of thread [t]; [ok]: outcome of rand.Read, should this step draw a key. *)
  Definition wstep (w : world) (t : nat) (ok : bool) : world :=
    match w_thr w t with
    | Idle d => mkWorld (w_rng w) (w_lock w) (set_thr (w_thr w) t (Waiting (map (fun _ => x00) d)))
    | Waiting d =>
        match w_lock w with
        | None => mkWorld (w_rng w) (Some t) (set_thr (w_thr w) t (Holding [] d))
        | Some _ => w
        end
    | Holding done [] => mkWorld (w_rng w) None (set_thr (w_thr w) t (Returned done))
    | Holding done rest =>
        match fill_iter ok (w_rng w) done rest with
        | Ok (c, done', rest') => mkWorld c (w_lock w) (set_thr (w_thr w) t (Holding done' rest'))
        | _ => mkWorld (w_rng w) None (set_thr (w_thr w) t (Panicked (done ++ rest)))
        end
    | _ => w
    end.
  Definition wrun (w : world) (sched : list (nat * bool)) : world :=
    fold_left (fun w x => wstep w (fst x) (snd x)) sched w.
End Source.
