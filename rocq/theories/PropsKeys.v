(** Property theorem C119 (further forms of keys). *)
From Coq Require Import ZArith List Lia Bool.
From Coq Require Import Init.Byte.
From Verif Require Import Params NumTh Zmod Bytes Res Secp Spec SecpProofs SecpProofs2 PublicKey PropsSecp Keys.
Import ListNotations.
Open Scope Z_scope.

(** ** C119 *)
Theorem C119_from_bytes : forall raw k, (pk_from_bytes raw = Ok k <-> length raw = 33%nat /\ k = raw) /\
  (length raw <> 33%nat -> pk_from_bytes raw = Err).
Proof.
  intros raw k. unfold pk_from_bytes, pk_len. destruct (Nat.eqb_spec (length raw) 33) as [E|E]; split; try tauto.
  - split; [intros X; injection X as <-; auto|intros [_ ->]; reflexivity].
  - split; [discriminate|tauto].
Qed.
(** The key of a curve point: from its encoding, and back to the point. *)
Theorem C119_key_of_point : forall P, curve_point P ->
  exists b, pt_marshal P = Ok b /\ pk_from_bytes b = Ok b /\ pk_point b = Ok P /\ pk_is_zero b = false.
Proof.
  intros P C. destruct (C06_point_roundtrip P C) as (b & E & L & U). exists b. split; [exact E|].
  split; [apply C119_from_bytes; auto|]. split; [exact U|].
  unfold pk_is_zero. destruct (bytes_eqb_spec b (repeat x00 pk_len)) as [->|]; [|reflexivity].
  exfalso. assert (Z0 : pt_unmarshal (repeat x00 pk_len) = Err) by (vm_compute; reflexivity). congruence.
Qed.
Theorem C119_is_zero : forall k, length k = 33%nat ->
  (pk_is_zero k = true <-> be2z k = 0) /\ (pk_is_zero k = true -> pk_point k = Err).
Proof.
  intros k L. assert (E : pk_is_zero k = true <-> k = repeat x00 pk_len).
  { unfold pk_is_zero. destruct (bytes_eqb_spec k (repeat x00 pk_len)); split; congruence. }
  split.
  - rewrite E. split; [intros ->; vm_compute; reflexivity|]. intros H. rewrite <- (be_fixed_be2z k), L, H. apply be_fixed_0.
  - rewrite E. intros ->. vm_compute. reflexivity.
Qed.
(** The uncompressed text of a key: 0x and the 128 hexadecimal digits of the coordinates. *)
Lemma hex_length : forall b, length (hex_encode b) = (2 * length b)%nat.
Proof. induction b as [|x b IH]; [reflexivity|]. cbn [hex_encode length]. rewrite IH. lia. Qed.
Lemma enc_length : forall a b, length (hexutil_encode (be_fixed 32 a ++ be_fixed 32 b)) = 130%nat.
Proof.
  intros a b. unfold hexutil_encode. change (S (S (length (hex_encode (be_fixed 32 a ++ be_fixed 32 b)))) = 130%nat).
  rewrite hex_length, app_length, !be_fixed_length. reflexivity.
Qed.
Theorem C119_uncompressed : forall k,
  (forall s, pk_string_uncompressed k = Ok s <->
     exists P, pk_point k = Ok P /\ s = hexutil_encode (be_fixed 32 (fst P) ++ be_fixed 32 (snd P))) /\
  (forall s, pk_string_uncompressed k = Ok s -> length s = 130%nat /\
     exists b P, hexutil_decode s = Ok b /\ long_unmarshal b = Ok P /\ pk_point k = Ok P) /\
  ((forall P, pk_point k <> Ok P) -> pk_string_uncompressed k = Err).
Proof.
  intros k. unfold pk_string_uncompressed.
  pose proof (C05_never_panics k) as NP. pose proof (fun P => proj1 (C05_decoded_point k P)) as D. unfold pk_point in *.
  destruct (pt_unmarshal k) as [P| |] eqn:E; cbn [rbind]; [|split; [|split]|contradiction].
  - destruct (D P eq_refl) as (_ & _ & X & Y & O & _).
    assert (C : curve_point P). { split; [rewrite X; apply modp_range|split; [exact Y|exact O]]. }
    rewrite long_marshal_spec. cbn [rbind]. rewrite (Z.mod_small (fst P)) by apply C. rewrite (Z.mod_small (snd P)) by apply C.
    split; [|split].
    + intros s. split; [intros X0; exists P; split; congruence|intros (Q & EQ & ->); injection EQ as <-; reflexivity].
    + intros s X0. assert (ES : s = hexutil_encode (be_fixed 32 (fst P) ++ be_fixed 32 (snd P))) by congruence. clear X0. subst s.
      split; [apply enc_length|].
      exists (be_fixed 32 (fst P) ++ be_fixed 32 (snd P)), P. split; [apply hexutil_roundtrip|]. split; [|reflexivity].
      apply (long_roundtrip P _ C). rewrite long_marshal_spec, (Z.mod_small (fst P)) by apply C. rewrite (Z.mod_small (snd P)) by apply C. reflexivity.
    + intros X0. destruct (X0 P eq_refl).
  - intros s. split; [discriminate|intros (P & X & _); discriminate].
  - discriminate.
  - reflexivity.
Qed.
Theorem C119_must_hash : forall keccak k, (pk_must_hash keccak k = Panic <-> forall P, pk_point k <> Ok P) /\
  (forall h, pk_must_hash keccak k = Ok h <-> pk_hash keccak k = Ok h).
Proof.
  intros keccak k. unfold pk_must_hash, pk_hash. destruct (pk_point k) as [P| |] eqn:E; cbn [rbind].
  - rewrite long_marshal_spec. cbn [rbind]. split; [|reflexivity]. split; [discriminate|]. intros H. destruct (H P eq_refl).
  - split; [split; [discriminate|reflexivity]|]. intros h. split; discriminate.
  - split; [split; [discriminate|reflexivity]|]. intros h. split; discriminate.
Qed.
(** ScalarToHash is the binary encoding of a reduced scalar. *)
Theorem C119_scalar_to_hash : forall s, 0 <= s < N -> sc_marshal s = Ok (scalar_to_hash s).
Proof.
  intros s H. rewrite sc_marshal_spec, Z.mod_small by exact H. f_equal. unfold scalar_to_hash, to_fixed.
  pose proof (mod_N_256 s) as B. rewrite Z.mod_small in B by exact H.
  assert (L : (length (big_bytes s) <= 32)%nat). { rewrite big_bytes_length. apply nbytes_le. rewrite Z.abs_eq by lia. exact B. }
  destruct (Nat.ltb_spec 32 (length (big_bytes s))); [lia|].
  rewrite pad_big_bytes by (rewrite Z.abs_eq by lia; exact B). rewrite Z.abs_eq by lia. reflexivity.
Qed.

(** The key of 2G and the zero key. *)
Example C119_ex : exists P b s, scalar_to_public_point 2 = Ok P /\ curve_point P /\ pt_marshal P = Ok b /\ pk_string_uncompressed b = Ok s /\
  length s = 130%nat /\ pk_is_zero (repeat x00 33) = true /\ scalar_to_hash 2 = repeat x00 31 ++ [x02].
Proof.
  destruct (C11_key_pairs_sound 2) as (P & b & E & C & _ & M); [intros X; vm_compute in X; discriminate|].
  destruct (C119_key_of_point P C) as (b' & M' & _ & K & _). rewrite M in M'. injection M' as <-.
  assert (S : pk_string_uncompressed b = Ok (hexutil_encode (be_fixed 32 (fst P) ++ be_fixed 32 (snd P)))) by (apply C119_uncompressed; exists P; auto).
  exists P, b. eexists. split; [exact E|]. split; [exact C|]. split; [exact M|]. split; [exact S|]. split; [apply enc_length|].
  split; vm_compute; reflexivity.
Qed.
Print Assumptions C119_from_bytes. Print Assumptions C119_key_of_point. Print Assumptions C119_is_zero.
Print Assumptions C119_uncompressed. Print Assumptions C119_must_hash. Print Assumptions C119_scalar_to_hash.
