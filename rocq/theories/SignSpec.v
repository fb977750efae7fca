(** Vocabulary for the statements about a signing session: several members that
    sign the same document. *)
From Coq Require Import ZArith List Permutation.
From Coq Require Import Init.Byte.
From Verif Require Import Params Bytes Res Secp Spec PublicKey Schnorr Dss DssSpec Dto DtoSpec Prot ProtSpec DkgProt.
Import ListNotations.
Open Scope Z_scope.

(** What the members of a session have in common: the polynomial behind the
    long-term key with its commitments, the polynomial behind the nonce with its
    commitments, the qualified members, the public keys of all members, the
    threshold, the document's hash. *)
Record session := mkSession {
  se_f : list Z; se_F : list point; se_r : list Z; se_R : list point;
  se_qual : list Z; se_parts : list point; se_T : Z; se_msg : Z }.

(** The commitments commit to the polynomials, whose degrees are below the
    threshold; the public keys are different points of the curve; the key to sign
    for is [P]. *)
Definition sound (S : session) (P : point) : Prop :=
  commits_of (se_f S) (se_F S) /\ commits_of (se_r S) (se_R S) /\
  (exists l, se_F S = P :: l) /\ on_curve (fst P) (snd P) /\ se_R S <> [] /\
  Z.of_nat (length (se_f S)) <= se_T S /\ Z.of_nat (length (se_r S)) <= se_T S /\
  Forall curve_point (se_parts S) /\ NoDup (se_parts S) /\ Z.of_nat (length (se_parts S)) < N /\
  (forall i, In i (se_qual S) -> 0 <= i < Z.of_nat (length (se_parts S))) /\ uint256 (se_msg S).

Section Spec.
  Context {G : Type}.
  Variable ky : kyber G.
  Variable keccak : bytes -> bytes.
  Variable pshash : Z -> Z -> bytes.
  Notation prot := (dss_prot ky keccak pshash).

  (** [s] is member [i]'s share of polynomial [f] with commitments [C]. *)
  Definition share_for (f : list Z) (C : list point) (i : Z) (s : dks) : Prop :=
    dk_commits s = C /\ eqN (pr_v (dk_share s)) (poly f (i + 1)).

  (** In the history [evs], member [i]'s run gets ready to sign for the session:
      after the nonce was generated (the pause after stage 8) it was not abandoned
      and has its share of the nonce, its keys, the document and its long-term share. *)
  Definition ready (S : session) (i : Z) (c : info) (k0 : kd G) (evs : list (event payload env)) : Prop :=
    i_guest c = i /\ i_members c = Z.of_nat (length (se_parts S)) /\ In i (se_qual S) /\
    exists a e now b r tr nonce long x q,
      evs = a ++ ETick e now :: b /\ exec prot c (new_run k0) a = Ok (r, tr) /\
      stage_now tr = (op_dkg_final, true) /\ abandoned_in tr = false /\
      ky_share ky (kd_gen (r_k r)) = Some nonce /\ share_for (se_r S) (se_R S) i nonce /\
      (forall j, In j (ky_qual ky (kd_gen (r_k r))) <-> In j (se_qual S)) /\
      kd_qual (r_k r) = Some q /\ (forall j, In j q <-> In j (se_qual S)) /\
      kd_args (r_k r) = Some (mkArgs x (se_parts S) (se_T S)) /\
      (exists Q, nth_error (se_parts S) (Z.to_nat i) = Some Q /\ pt_mul x KP_nil = Ok Q) /\
      e_doc e = Some (se_msg S) /\ e_long e = Some long /\ share_for (se_f S) (se_F S) i long.

  (** Map iterations go over all entries. *)
  Definition fair_maps (evs : list (event payload env)) : Prop :=
    forall e now, In (ETick e now) evs -> forall i l, Permutation (e_ord e i l) l.

  (** [m] is a partial signature that member [j], having got ready, sent. *)
  Definition partial_from (S : session) (j : Z) (m : message payload) : Prop :=
    exists c k0 evs r tr, ready S j c k0 evs /\ exec prot c (new_run k0) evs = Ok (r, tr) /\
      In m (sent tr) /\ m_op m = op_dss_partsig.
End Spec.
