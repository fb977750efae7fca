(** Model of what siggy/src/signode/run_sig.go and run_longterm.go print on standard output. *)
From Coq Require Import ZArith List Bool.
From Coq Require Import Init.Byte.
From Verif Require Import Params Bytes Res Secp Dto Dss Schnorr Prot DkgProt KMap Firewall FwSpec Outputs Node.
Import ListNotations.
Open Scope Z_scope.

(** "DSS completed run ID", "no signature produced", "success for guest index", "<nil>" *)
Definition s_completed : bytes := [x44; x53; x53; x20; x63; x6f; x6d; x70; x6c; x65; x74; x65; x64; x20; x72; x75; x6e; x20; x49; x44].
Definition s_none : bytes := [x6e; x6f; x20; x73; x69; x67; x6e; x61; x74; x75; x72; x65; x20; x70; x72; x6f; x64; x75; x63; x65; x64].
Definition s_success : bytes := [x73; x75; x63; x63; x65; x73; x73; x20; x66; x6f; x72; x20; x67; x75; x65; x73; x74; x20; x69; x6e; x64; x65; x78].
Definition s_nil : bytes := [x3c; x6e; x69; x6c; x3e].

(** fmt.Println: operands with spaces between; the line is given without its end. *)
Fixpoint spaced (l : list bytes) : bytes :=
  match l with [] => [] | [x] => x | x :: r => x ++ x20 :: spaced r end.
(** fmt on a [20]byte: [d d ... d] *)
Definition print_bytes (a : bytes) : bytes := x5b :: spaced (map (fun b => format_int (z_of_byte b)) a) ++ [x5d].
(** fmt on a *big.Int, by its Format *)
Definition print_int (z : option Z) : bytes := match z with Some z => format_int z | None => s_nil end.
(** run_sig.go:40: fmt on an ethschnorr.Signature, a pointer to a struct: &{address integer} *)
Definition print_sig (s : sigptr) : bytes :=
  match s with SigNil => s_nil | Sig a z => x26 :: x7b :: spaced [print_bytes a; print_int z] ++ [x7d] end.

Section Print.
  Context {G : Type}.
  Variable ky : kyber G.
  Variable keccak : bytes -> bytes.
  Variable pshash : Z -> Z -> bytes.
  Variable su : setup.
  (** fmt on a *dkg.DistKeyShare, which is not in this repository *)
  Variable show_share : dks -> bytes.

  (** run_sig.go:36 *)
  Definition completed_line (id : bytes) : bytes := spaced [s_completed; id].
  (** run_sig.go:39-40; run_longterm.go:32 *)
  Definition result_line (g : Z) (id : bytes) (v : option output) : bytes :=
    match v with
    | None => spaced [s_none; id; format_int g]
    | Some (VSig s) => print_sig s
    | Some (VShare s _) => spaced [s_success; format_int g; show_share s]
    end.
  (** What a step from [n] to [n'] prints, with the number of the request that does.  A request to sign
      prints a line when run_dss returns (run_sig.go:35-36), and every request one for each output it takes
      (run_sig.go:37-40, run_longterm.go:26-32).  A line is written at once (os.Stdout is not buffered).
      Warnings go to standard error and are not modelled. *)
  Definition step_lines (n : node (G := G)) (ev : nevent (G := G)) (n' : node (G := G)) (o : list nobs) : list (nat * bytes) :=
    match ev with
    | VGo _ i _ =>
        match nth_error (n_reqs n) i, nth_error (n_reqs n') i with
        | Some r, Some r' =>
            match rq_doc r, rq_phase r, rq_phase r' with Some _, RDereg _, RPop _ => [(i, completed_line (rq_id r))] | _, _, _ => [] end ++
            flat_map (fun x => match x with NPop k v => [(i, result_line (k_guest k) (k_run k) v)] | _ => [] end) o
        | _, _ => []
        end
    | _ => []
    end.
  Fixpoint printed (n : node (G := G)) (evs : list (nevent (G := G))) : list (nat * bytes) :=
    match evs with
    | [] => []
    | ev :: l => match nstep ky keccak pshash su n ev with
                 | Ok (n', o) => step_lines n ev n' o ++ printed n' l
                 | _ => []
                 end
    end.
  (** The lines request [i] has printed. *)
  Definition lines_of (i : nat) (l : list (nat * bytes)) : list bytes := map snd (filter (fun x => Nat.eqb (fst x) i) l).
End Print.
