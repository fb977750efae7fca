(** Statements about the group's lengths, fresh elements and identifiers. *)
From Coq Require Import Strings.String.
From Coq Require Import ZArith List Lia Bool.
From Coq Require Import Init.Byte.
From Verif Require Import Params Bytes Res Secp Spec SecpProofs SecpProofs2 Curve Order Stream PropsSecp Group.
Import ListNotations.
Open Scope Z_scope.

(** ** C124.  Lengths, fresh elements and identifiers. *)
(** Every scalar is encoded in ScalarLen bytes, every point that can be encoded in PointLen bytes, and nothing of another
    length is decoded. *)
Theorem C124_lengths :
  (forall s, exists b, sc_marshal s = Ok b /\ length b = scalar_len) /\
  (forall P b, pt_marshal P = Ok b -> length b = point_len) /\
  (forall b, (exists s, sc_unmarshal b = Ok s) <-> length b = scalar_len) /\
  (forall b P, pt_unmarshal b = Ok P -> length b = point_len) /\
  scalar_len <> point_len.
Proof.
  split; [|split; [|split; [|split; [|discriminate]]]].
  - intros s. destruct (C03_scalar_encoding s) as (b & E & L & _). eauto.
  - intros P b E. apply pt_marshal_ok in E. destruct E as [_ ->]. rewrite app_length, be_fixed_length. reflexivity.
  - intros b. unfold sc_unmarshal, scalar_len, sc_size. destruct (Nat.eqb_spec (length b) 32); split; intros H; eauto; [destruct H; discriminate|contradiction].
  - intros b P E. unfold pt_unmarshal, pt_unmarshal_recv in E. destruct (Nat.eqb_spec (length b) 33) as [L|L]; cbn [negb] in E; [exact L|discriminate E].
Qed.
(** A fresh scalar is zero and a fresh point the neutral element; the scalar can be encoded, the point cannot. *)
Theorem C124_fresh :
  (forall s, eqN (sc_add new_scalar s) s /\ eqN (sc_add s new_scalar) s) /\
  (forall P, group_elt P -> pt_add new_point P = P /\ pt_add P new_point = P) /\
  (forall P, group_elt P -> pt_mul new_scalar (KP P) = Ok new_point) /\ pt_mul new_scalar KP_nil = Ok new_point /\
  sc_marshal new_scalar = Ok (repeat x00 scalar_len) /\ pt_marshal new_point = Err.
Proof.
  assert (Z0 : forall P, group_elt P -> pt_mul new_scalar (KP P) = Ok new_point).
  { intros P G. destruct (elt_of_E _ G) as [e ->]. rewrite pt_mul_of_E. change new_scalar with 0. rewrite smul_0. reflexivity. }
  assert (A : forall P, group_elt P -> pt_add P new_point = P).
  { intros P G. destruct (C09_abelian_group P P P G G G) as (_ & _ & _ & _ & _ & _ & E & _). exact E. }
  split; [|split; [|split; [exact Z0|split; [|split; [reflexivity|apply C07_identity_not_encodable]]]]].
  - intros s. unfold eqN, sc_add. change new_scalar with 0. unfold sc_mod. rewrite Z.add_0_r. cbn [Z.add]. rewrite !Z.mod_mod by discriminate. split; reflexivity.
  - intros P G. split; [|exact (A P G)]. destruct (C09_abelian_group new_point P P (or_introl eq_refl) G G) as (_ & _ & _ & _ & _ & E & _). rewrite E. exact (A P G).
  - destruct (C10_nil_is_the_base_point new_scalar) as [-> _]. apply Z0. apply C09_ex.
Qed.
(** The identifiers have eight bytes and tell points from scalars. *)
Theorem C124_identifiers : length scalar_id = 8%nat /\ length point_id = 8%nat /\ scalar_id <> point_id.
Proof. split; [reflexivity|]. split; [reflexivity|discriminate]. Qed.
Example C124_ex : group_elt (Gx, Gy) /\ (exists b, pt_marshal (Gx, Gy) = Ok b) /\ (exists b P, pt_unmarshal b = Ok P).
Proof.
  destruct C09_ex as (A & B & _). split; [exact A|]. destruct (C06_point_roundtrip _ B) as (b & E & _ & U). eauto.
Qed.
Print Assumptions C124_lengths. Print Assumptions C124_fresh. Print Assumptions C124_identifiers.
