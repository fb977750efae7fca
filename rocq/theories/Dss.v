(** Model of ch/core/services/signatures/ethdss/ethdss.go (package clientdss). *)
From Coq Require Import ZArith List Lia Bool.
From Coq Require Import Init.Byte.
From Verif Require Import Params Bytes Res Secp PublicKey Schnorr.
Import ListNotations.
Open Scope Z_scope.

(** * kyber share (contract B3) *)

(** PubPoly.Eval(i): Horner at i+1 over the commitments. *)
Definition pub_eval (commits : list point) (i : Z) : res point :=
  let xi := sc_set_int64 (1 + i) in
  fold_right (fun c v => v0 <- v ;; v1 <- pt_mul xi (KP v0) ;; Ok (pt_add v1 c)) (Ok pt_null) commits.

(** sort.Sort(byIndexScalar): by index.  (Go's sort is not stable; equal indices
    are kept in order here.) *)
Fixpoint insert_share (s : Z * Z) (l : list (Z * Z)) : list (Z * Z) :=
  match l with
  | [] => [s]
  | t :: r => if fst s <=? fst t then s :: l else t :: insert_share s r
  end.
Definition sort_shares (l : list (Z * Z)) : list (Z * Z) := fold_right insert_share [] l.

(** Assignment to a map kept as an association list. *)
Fixpoint map_set (m : list (Z * Z)) (k v : Z) : list (Z * Z) :=
  match m with
  | [] => [(k, v)]
  | (k', v') :: r => if k' =? k then (k, v) :: r else (k', v') :: map_set r k v
  end.

(** xyScalar: skips negative indices, stops after t entries. *)
Fixpoint xy_scalar (t : Z) (sorted m : list (Z * Z)) : list (Z * Z) :=
  match sorted with
  | [] => m
  | (i, v) :: r =>
      if i <? 0 then xy_scalar t r m
      else let m' := map_set m i v in
           if Z.of_nat (length m') =? t then m' else xy_scalar t r m'
  end.

Definition x_of (i : Z) : Z := sc_set_int64 (i + 1).

(** Inner loop of RecoverSecret over the map in some order. *)
Definition lagrange_loop (i yi : Z) (l : list (Z * Z)) : Z * Z :=
  fold_left (fun nd e => if i =? fst e then nd
                         else (sc_mul (fst nd) (x_of (fst e)), sc_mul (snd nd) (sc_sub (x_of (fst e)) (x_of i))))
            l (sc_mod yi, sc_one).

(** RecoverSecret.  [ord]: the order in which Go happens to iterate over the
    map, for the outer loop ([ord (-1)]) and each inner loop ([ord i]). *)
Definition recover_secret (ord : Z -> list (Z * Z) -> list (Z * Z)) (shares : list (Z * Z)) (t : Z) : res Z :=
  let x := xy_scalar t (sort_shares shares) [] in
  if Z.of_nat (length x) <? t then Err
  else fold_left (fun acc e =>
         a <- acc ;;
         let nd := lagrange_loop (fst e) (snd e) (ord (fst e) x) in
         q <- sc_div (fst nd) (snd nd) ;;
         Ok (sc_add a q)) (ord (-1) x) (Ok sc_zero).

(** * ethdss.go *)

(** 46-49: PriShare().V and Commitments(); PriShare().I is never used. *)
Record keyshare := mkShare { ks_v : Z; ks_commits : list point }.

(** 53-89 *)
Record dss := mkDss {
  d_secret : Z; d_public : point; d_index : Z; d_participants : list point; d_T : Z;
  d_long : keyshare; d_random : keyshare; d_H2 : list Z; d_msg : Z;
  d_partials : list (Z * Z); d_partialsIdx : list Z; d_signed : bool; d_sid : bytes
}.

(** 104-108: Partial may be a nil pointer, its V a nil interface. *)
Record psig := mkPsig { ps_partial : option (Z * option Z); ps_sid : bytes; ps_sig : sigptr }.

(** 119-125 *)
Fixpoint find_index (public : point) (ps : list point) (j : Z) : option Z :=
  match ps with
  | [] => None
  | q :: r => if pt_equal q public then Some j else find_index public r (j + 1)
  end.

(** 298-303 on a Go int *)
Definition find_pub (l : list point) (i : Z) : res (option point) :=
  if Z.of_nat (length l) <=? i then Ok None
  else if i <? 0 then Panic
  else match nth_error l (Z.to_nat i) with Some q => Ok (Some q) | None => Panic end.

Section Hash.
  Variable keccak : bytes -> bytes.
  (** PriShare.Hash (contract B3): any function of index and value. *)
  Variable pshash : Z -> Z -> bytes.

  (** point.go:267-273: nothing is written on a marshalling error *)
  Definition marshal_to (P : point) : bytes := match pt_marshal P with Ok b => b | _ => [] end.

  (** 305-316 *)
  Definition session_id (a b : list point) : bytes :=
    keccak (concat (map marshal_to a) ++ concat (map marshal_to b)).

  (** 115-146 *)
  Definition new_dss (secret : Z) (participants : list point) (long random : keyshare)
      (H2 : list Z) (msg T : Z) : res dss :=
    public <- pt_mul secret KP_nil ;;
    match find_index public participants 0 with
    | None => Err
    | Some i => Ok (mkDss secret public i participants T long random H2 msg [] [] false
                      (session_id (ks_commits long) (ks_commits random)))
    end.

  (** 272-281 *)
  Definition hash_sig (d : dss) : res Z :=
    match ks_commits (d_random d) with
    | [] => Panic
    | v :: _ =>
        addr <- eth_address keccak v ;;
        match ks_commits (d_long d) with
        | [] => Panic
        | public :: _ => match challenge_hash keccak public addr (d_msg d) with Ok h => Ok h | _ => Panic end
        end
    end.

  (** 291-296 *)
  Definition ps_hash (i v : Z) (sid : bytes) : Z := be2z (keccak (pshash i v ++ sid)).

  Definition add_partial (d : dss) (i v : Z) (signed : bool) : dss :=
    mkDss (d_secret d) (d_public d) (d_index d) (d_participants d) (d_T d) (d_long d) (d_random d)
          (d_H2 d) (d_msg d) (d_partials d ++ [(i, v)]) (i :: d_partialsIdx d) signed (d_sid d).

  (** 154-176; [k]: the nonce of the outer signature.  On success: new state,
      the partial, and whether the returned error is nil. *)
  Definition partial_sig (k : Z) (d : dss) : res (dss * psig * bool) :=
    h <- hash_sig d ;;
    let v := sc_sub (ks_v (d_random d)) (sc_mul h (ks_v (d_long d))) in
    let sg := sign_with keccak k (KS (d_secret d)) (ps_hash (d_index d) v (d_sid d)) in
    match sg with
    | Panic => Panic
    | _ =>
        let ps := mkPsig (Some (d_index d, Some v)) (d_sid d) (match sg with Ok s => s | _ => SigNil end) in
        let d' := if d_signed d then d else add_partial d (d_index d) v true in
        Ok (d', ps, is_ok sg)
    end.

  (** 185-237 *)
  Definition process (d : dss) (ps : psig) : dss * res unit :=
    match ps_partial ps with
    | None => (d, Panic)
    | Some (i, v) =>
        match find_pub (d_participants d) i with
        | Ok None => (d, Err)
        | Ok (Some public) =>
            if negb (bytes_eqb (ps_sid ps) (d_sid d)) then (d, Err)
            else match v with
            | None => (d, Panic)
            | Some v =>
                match verify keccak (KP public) (ps_hash i v (ps_sid ps)) (ps_sig ps) with
                | Ok _ =>
                    if negb (existsb (Z.eqb i) (d_H2 d)) then (d, Err)
                    else if existsb (Z.eqb i) (d_partialsIdx d) then (d, Err)
                    else
                      match (h <- hash_sig d ;;
                             rand_share <- pub_eval (ks_commits (d_random d)) i ;;
                             long_share <- pub_eval (ks_commits (d_long d)) i ;;
                             summand <- pt_mul h (KP long_share) ;;
                             commit <- pt_mul v KP_nil ;;
                             Ok (pt_equal commit (pt_sub rand_share summand))) with
                      | Ok true => (add_partial d i v (d_signed d), Ok tt)
                      | Ok false => (d, Err)
                      | Err => (d, Err)
                      | Panic => (d, Panic)
                      end
                | Err => (d, Err)
                | Panic => (d, Panic)
                end
            end
        | Err => (d, Err)
        | Panic => (d, Panic)
        end
    end.

  (** 242-244 *)
  Definition enough (d : dss) : bool := d_T d <=? Z.of_nat (length (d_partials d)).

  (** 251-267 *)
  Definition signature (ord : Z -> list (Z * Z) -> list (Z * Z)) (d : dss) : res sigptr :=
    if negb (enough d) then Err
    else s <- recover_secret ord (d_partials d) (d_T d) ;;
         match ks_commits (d_random d) with
         | [] => Panic
         | v :: _ => addr <- eth_address keccak v ;; Ok (Sig addr (Some s))
         end.

  (** * Call sequences *)
  Inductive call := CallPartial (k : Z) | CallProcess (ps : psig).
  (** State after a call; a panic happens before any field is assigned. *)
  Definition step (d : dss) (c : call) : dss :=
    match c with
    | CallPartial k => match partial_sig k d with Ok (d', _, _) => d' | _ => d end
    | CallProcess ps => fst (process d ps)
    end.
  Definition run (d : dss) (cs : list call) : dss := fold_left step cs d.
End Hash.
