(** Vocabulary for the statements about ethdss.go. *)
From Coq Require Import ZArith List.
From Coq Require Import Init.Byte.
From Verif Require Import Params Bytes Res Secp Spec PublicKey Schnorr Dss.
Import ListNotations.
Open Scope Z_scope.

(** The points [C] are the commitments a_j*G to the coefficients [c]. *)
Definition commits_of (c : list Z) (C : list point) : Prop :=
  Forall2 (fun a P => pt_mul a KP_nil = Ok P) c C.

(** [d] holds correct shares of the long-term polynomial f and the nonce
    polynomial r: the values at its own index + 1, with commitments to both. *)
Definition shares_ok (f r : list Z) (d : dss) : Prop :=
  commits_of f (ks_commits (d_long d)) /\ commits_of r (ks_commits (d_random d)) /\
  eqN (ks_v (d_long d)) (poly f (d_index d + 1)) /\ eqN (ks_v (d_random d)) (poly r (d_index d + 1)).

(** No own-index partial is processed before the first PartialSig call. *)
Fixpoint own_after_signing (idx : Z) (cs : list call) : Prop :=
  match cs with
  | [] => True
  | CallPartial _ :: _ => True
  | CallProcess ps :: r => (forall v, ps_partial ps <> Some (idx, v)) /\ own_after_signing idx r
  end.


(** Number of different indices among the collected partials. *)
Definition distinct_signers (d : dss) : nat := length (nodup Z.eq_dec (map fst (d_partials d))).

Section Hash.
  Variable keccak : bytes -> bytes.
  Variable pshash : Z -> Z -> bytes.

  (** What the sender of a partial signature signs: index, value and session. *)
  Definition signed_digest (i v : Z) (sid : bytes) : Z := be2z (keccak (pshash i v ++ sid)).

  (** Number of ProcessPartialSig calls that return nil. *)
  Fixpoint accepted (d : dss) (cs : list call) : nat :=
    match cs with
    | [] => 0%nat
    | c :: r =>
        ((match c with
          | CallProcess ps => match snd (process keccak pshash d ps) with Ok _ => 1%nat | _ => 0%nat end
          | CallPartial _ => 0%nat
          end) + accepted (step keccak pshash d c) r)%nat
    end.

End Hash.
