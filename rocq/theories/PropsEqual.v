(** Property theorem C117 (Equal on points). *)
From Coq Require Import ZArith List Lia Bool.
From Verif Require Import Params NumTh Zmod Curve Order Bytes Res Secp Spec SecpProofs DssProofs2.
Import ListNotations.
Open Scope Z_scope.

(** ** C117 *)
Theorem C117_equal_coordinates : forall P Q, pt_equal P Q = true <-> eqP (fst P) (fst Q) /\ eqP (snd P) (snd Q).
Proof. intros P Q. unfold pt_equal. rewrite andb_true_iff, !fe_equal_spec. reflexivity. Qed.
Theorem C117_equal_is_equality : forall P Q, group_elt P -> group_elt Q -> (pt_equal P Q = true <-> P = Q).
Proof. exact pt_equal_point. Qed.
Theorem C117_equal_public_keys : forall a b P Q, pt_mul a KP_nil = Ok P -> pt_mul b KP_nil = Ok Q ->
  (pt_equal P Q = true <-> eqN a b).
Proof.
  intros a b P Q EP EQ. rewrite pt_mul_base in EP by (left; reflexivity). rewrite pt_mul_base in EQ by (left; reflexivity).
  injection EP as <-. injection EQ as <-. rewrite pt_equal_of_E. apply smul_G_inj.
Qed.
(** A point and its opposite have the same first coordinate and are not equal; coordinates that are not
    reduced are compared modulo p. *)
Theorem C117_opposite : forall P, curve_point P -> pt_equal P (pt_neg P) = false.
Proof.
  intros P C. destruct (pt_equal P (pt_neg P)) eqn:E; [|reflexivity]. exfalso.
  destruct (elt_of_E P (or_intror C)) as [e ->]. rewrite pt_neg_of_E in E. apply pt_equal_of_E in E.
  destruct (cyclic e) as (k & Hk & ->). rewrite <- smul_opp in E. apply smul_G_inj in E.
  apply eqm_divide in E; [|discriminate]. destruct E as (z & Ez).
  assert (K : k = 0).
  { assert (z = 0 \/ z = 1) as [-> | ->] by (pose proof N_pos; nia); [lia|].
    exfalso. rewrite Z.mul_1_l in Ez. assert (X : N mod 2 = 1) by (vm_compute; reflexivity).
    rewrite <- Ez in X. replace (k - - k) with (k * 2) in X by lia. rewrite Z.mod_mul in X by lia. discriminate. }
  subst k. destruct C as (_ & _ & C). cbn in C. unfold on_curve, eqP in C. vm_compute in C. discriminate.
Qed.
Example C117_ex : curve_point (of_E eG) /\ pt_equal (of_E eG) (pt_neg (of_E eG)) = false /\
   pt_equal (of_E eG) (fst (of_E eG) + p, snd (of_E eG) - p) = true /\ fst (pt_neg (of_E eG)) = fst (of_E eG).
Proof.
  assert (C : curve_point (of_E eG)).
  { destruct (of_E_elt eG) as [E|C]; [vm_compute in E; discriminate|exact C]. }
  split; [exact C|]. split; [apply C117_opposite, C|]. split; vm_compute; reflexivity.
Qed.
Print Assumptions C117_equal_coordinates. Print Assumptions C117_equal_is_equality. Print Assumptions C117_equal_public_keys. Print Assumptions C117_opposite.
