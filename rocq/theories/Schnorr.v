(** Model of ch/core/services/signatures/ethschnorr/ethschnorr.go. *)
From Coq Require Import ZArith List Lia Bool.
From Coq Require Import Init.Byte.
From Verif Require Import Params Bytes Res Secp PublicKey.
Import ListNotations.
Open Scope Z_scope.

(** 31-38: a Signature is a pointer to (address, *big.Int). *)
Inductive sigptr := SigNil | Sig (addr : bytes) (s : option Z).

(** 42-44 *)
Definition u256_cardinality : Z := Z.shiftl 1 256.
Definition max_uint256 : Z := u256_cardinality - 1.

(** 47: an all-zero address and a zero integer *)
Definition new_signature : sigptr := Sig (repeat x00 20) (Some 0).

(** 52-55: a nil pointer is dereferenced *)
Definition valid_signature (s : sigptr) : res bool :=
  match s with
  | Sig _ (Some v) => Ok ((v <? N) && negb (v <? 0))
  | _ => Panic
  end.

Section Hash.
  Variable keccak : bytes -> bytes.

  (** 64-88, for a secp256k1 point and a non-nil msg.  [err] is threaded as
      in the code; hash writes do not fail. *)
  Definition challenge_hash (public : point) (raddr : bytes) (msg : Z) : res Z :=
    match pt_marshal public with
    | Panic => Panic
    | m =>
        let err := negb (is_ok m) in
        let err := if err && ((256 <? bitlen msg) || (msg <? 0)) then true else err in
        let buf := match m with Ok b => b | _ => [] end in
        let buf := if negb err then buf ++ big_bytes msg else buf in
        let buf := if negb err then buf ++ raddr else buf in
        if err then Err else Ok (sc_set_bytes (keccak buf))
    end.

  (** 92-112, the nonce drawn at 97-98 being [k] *)
  Definition sign_with (k : Z) (private : kscalar) (msg : Z) : res sigptr :=
    match is_secp_scalar private, private with
    | Some true, KS x0 =>
        let x := sc_mod x0 in (* reduced in place by IsSecp256k1Scalar *)
        R <- pt_mul k KP_nil ;;
        addr <- eth_address keccak R ;;
        public <- pt_mul x KP_nil ;;
        c <- challenge_hash public addr msg ;;
        Ok (Sig addr (Some (sc_sub k (sc_mul x c))))
    | None, _ => Panic
    | _, _ => Err
    end.

  (** 92-112 with the random stream; [None]: Pick has not returned.  The nonce is
      not drawn for a non-secp256k1 key. *)
  Definition sign {St} (xks : St -> bytes -> St * bytes) (fuel : nat) (st : St)
      (private : kscalar) (msg : Z) : option (res sigptr * St) :=
    match is_secp_scalar private with
    | Some true =>
        match sc_pick St xks fuel st with
        | Some (k, st') => Some (sign_with k private msg, st')
        | None => None
        end
    | Some false => Some (Err, st)
    | None => Some (Panic, st)
    end.

  (** 116-153, for a non-nil msg *)
  Definition verify (public : kpoint) (msg : Z) (s : sigptr) : res unit :=
    v <- valid_signature s ;;
    let err := negb v in
    let err := if negb err && negb (is_secp_point public) then true else err in
    let err := if negb err && negb (valid_public_key public) then true else err in
    let err := if negb err && ((msg <? 0) || (max_uint256 <? msg)) then true else err in
    if err then Err
    else
      match public, s with
      | KP P, Sig addr (Some z) =>
          challenge <- challenge_hash P addr msg ;;
          let sig_scalar := sc_mod z in
          A <- pt_mul sig_scalar KP_nil ;;
          B <- pt_mul challenge (KP P) ;;
          maddr <- eth_address keccak (pt_add A B) ;;
          if negb (bytes_eqb addr maddr) then Err else Ok tt
      | _, _ => Panic
      end.
End Hash.
