(** Model of siggy/src/signode/run_sig.go (requests read from standard input) and of
    siggy/src/signode/run_longterm.go (the rounds of long-term key generation). *)
From Coq Require Import ZArith List Lia Bool.
From Coq Require Import Init.Byte.
From Verif Require Import Params Bytes Res Secp Dto Dss Prot DkgProt Firewall Node.
Import ListNotations.
Open Scope Z_scope.

(** math/big, as used by run_sig.go:29: z.SetString(s, 16): a sign or none, then digits up to the
    first byte that is none (of base 16); it fails if there is no digit, or a byte left.  A given base admits
    neither prefix nor underscores. *)
Definition hex_val (c : byte) : option Z :=
  let v := z_of_byte c in
  let d := if (48 <=? v) && (v <=? 57) then v - 48
           else if (97 <=? v) && (v <=? 122) then v - 97 + 10
           else if (65 <=? v) && (v <=? 90) then v - 65 + 10 else 63 in
  if 16 <=? d then None else Some d.
Fixpoint hex_scan (acc : Z) (l : bytes) : Z * nat * bytes :=
  match l with
  | [] => (acc, O, [])
  | c :: r => match hex_val c with
              | Some d => let '(z, n, rest) := hex_scan (acc * 16 + d) r in (z, S n, rest)
              | None => (acc, O, l)
              end
  end.
Definition scan_sign (s : bytes) : bool * bytes :=
  match s with
  | c :: r => if byte_eqb c x2d then (true, r) else if byte_eqb c x2b then (false, r) else (false, s)
  | [] => (false, s)
  end.
Definition set_string16 (s : bytes) : option Z :=
  let '(neg, r) := scan_sign s in
  let '(z, n, rest) := hex_scan 0 r in
  match n, rest with
  | O, _ | _, _ :: _ => None
  | S _, [] => Some (if neg : bool then - z else z)
  end.

(** "sig", "_", "longterm" *)
Definition s_sig : bytes := [x73; x69; x67].
Definition s_default : bytes := [x5f].
Definition s_longterm : bytes := [x6c; x6f; x6e; x67; x74; x65; x72; x6d].

Section Sigs.
  (** time.Parse(time.RFC3339, ...); None: an error *)
  Variable parse_time : bytes -> option Z.
  Variable default_start : Z.
  (** run_sig.go:23-30 and 32-34: the base, start and document run_dss is called with; None: a warning. *)
  Definition run_sig1 (nmspc tm doc : bytes) : option (bytes * Z * Z) :=
    match (if bytes_eqb tm s_default then Some default_start else parse_time tm) with
    | None => None
    | Some t => match set_string16 doc with None => None | Some d => Some (s_sig ++ nmspc, t, d) end
    end.
  (** run_sig.go:10-21.  Given are the words the scanner delivers (bufio is not modelled);
      each result is that of one goroutine. *)
  Fixpoint run_sigs (words : list bytes) : list (option (bytes * Z * Z)) :=
    match words with
    | nmspc :: tm :: doc :: r => run_sig1 nmspc tm doc :: run_sigs r
    | _ => []
    end.
End Sigs.

Section Longterm.
  (** What pop_output finds for a run id and guest when that round's run_dkg has returned. *)
  Variable found : bytes -> Z -> option output.
  Variable nmembers : nat.
  Variable start : Z.
  (** prot.go:58-62 for pc_dkg *)
  Variable dkg_timeout : Z.

  (** run_longterm.go:6, 11 *)
  Definition lt_interval : Z := dkg_timeout + 1000 * ms.
  (** run_longterm.go:10, 15, 18 with runner.go:22-23: when round i starts, and its run id *)
  Definition round_at (i : nat) : Z := start + Z.of_nat i * lt_interval.
  Definition round_base (i : nat) : bytes := s_longterm ++ format_int (start / ms) ++ format_int (Z.of_nat i).
  Definition round_id (i : nat) : bytes := run_id_for (round_base i) (round_at i).

  (** run_longterm.go:22-34, for the guests in the order of the loop.  A panic ends the program. *)
  Fixpoint longterm (id : bytes) (guests : list Z) : res (list (Z * dks)) :=
    match guests with
    | [] => Ok []
    | g :: r =>
        match found id g with
        | Some (VShare s q) => if (length q <? nmembers)%nat then Panic else l <- longterm id r ;; Ok ((g, s) :: l)
        | _ => Panic
        end
    end.
  (** run_longterm.go:17 with base.go:41.  Public() of a share without commitments panics; && does
      not evaluate it once cv is false. *)
  Fixpoint all_valid (cv : bool) (lts : list (Z * dks)) {struct lts} : res bool :=
    match lts with
    | [] => Ok cv
    | (_, s) :: r =>
        if cv then match dk_commits s with [] => Panic | P :: _ => all_valid (valid_public_key (KP P)) r end
        else all_valid false r
    end.
  (** run_longterm.go:8-19: the rounds from i on, at most [fuel]; None: it has not returned by
      then.  Otherwise the number of the last round and the shares.  [ord i]: the order in which
      round i's loop over the guests visits them; [ord' i]: that of the loop over the shares. *)
  Fixpoint longterm_loop (fuel i : nat) (ord : nat -> list Z) (ord' : nat -> list (Z * dks) -> list (Z * dks)) : res (option (nat * list (Z * dks))) :=
    match fuel with
    | O => Ok None
    | S f => lts <- longterm (round_id i) (ord i) ;; cv <- all_valid true (ord' i lts) ;;
             if cv : bool then Ok (Some (i, lts)) else longterm_loop f (S i) ord ord'
    end.
End Longterm.
