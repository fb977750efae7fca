(** secp256k1: the group of points of y^2 = x^3 + 7 over F_p, as an abelian
    group on a type with Leibniz equality.  No modelled code here. *)
From Coq Require Import ZArith Znumtheory Lia Bool Field Eqdep_dec.
From Verif Require Import Params NumTh FastP PrimeP Zmod ECGroup.
Open Scope Z_scope.

Notation Fp := (Fm p).
Definition fp : Z -> Fp := of_Z p.
Definition Fp_field : @field_theory Fp fzero fone fadd fmul fsub fopp fdiv finv eq :=
  Fm_field p prime_p.
Add Field FpField : Fp_field.

Definition b7 : Fp := fp 7.

Lemma fp_neq x y : x mod p <> y mod p -> fp x <> fp y.
Proof. intros H E. apply H. apply of_Z_eq. exact E. Qed.

Lemma fp_two_nz : fadd fone fone <> (fzero : Fp).
Proof.
  change (fadd (fp 1) (fp 1) <> fp 0). unfold fp. rewrite <- of_Z_add.
  apply fp_neq. intros E. vm_compute in E. discriminate.
Qed.

Lemma fp_three_nz : fadd (fadd fone fone) fone <> (fzero : Fp).
Proof.
  change (fadd (fadd (fp 1) (fp 1)) (fp 1) <> fp 0). unfold fp. rewrite <- !of_Z_add.
  apply fp_neq. intros E. vm_compute in E. discriminate.
Qed.

Lemma fp_noroot (x : Fp) : fadd (fmul (fmul x x) x) b7 <> fzero.
Proof.
  intros E. set (z := val x).
  assert (H : (z * z * z) mod p = (-7) mod p).
  { assert (E1 : fp (z * z * z + 7) = fp 0).
    { unfold fp. rewrite of_Z_add, !of_Z_mul. unfold z. rewrite of_Z_val. exact E. }
    apply of_Z_eq in E1. apply eqm_divide in E1; [|discriminate].
    apply eqm_divide; [discriminate|]. replace (z * z * z - -7) with (z * z * z + 7 - 0) by lia.
    exact E1. }
  assert (Hz : ~ (p | z)).
  { intros [k Hk]. rewrite Hk in H.
    replace (k * p * (k * p) * (k * p)) with ((k * k * k * p * p) * p) in H by ring.
    rewrite Z_mod_mult in H. vm_compute in H. discriminate. }
  pose proof (fermat p prime_p z Hz) as HF.
  rewrite <- e3_spec, Z.pow_mul_r in HF by lia.
  assert (H3 : z ^ 3 = z * z * z) by ring. rewrite H3 in HF.
  rewrite (pow_mod_congrZ _ (-7) _ p) in HF by (assumption || lia).
  rewrite <- powp_spec in HF.
  pose proof m7_power as M. rewrite HF in M. discriminate.
Qed.

Definition ppt : Type := pt Fp.
Notation PInf := (Inf Fp).
Notation PAff := (Aff Fp).

Definition onc (P : ppt) : Prop := on Fp fadd fmul b7 P.
Definition rhs7 (x : Fp) : Fp := fadd (fmul (fmul x x) x) b7.
Definition oncb (P : ppt) : bool :=
  match P with
  | Inf _ => true
  | Aff _ x y => if Fm_eq_dec (fmul y y) (rhs7 x) then true else false
  end.

Lemma oncb_spec P : oncb P = true <-> onc P.
Proof.
  destruct P as [|x y]; cbn; [tauto|].
  unfold onc, on, rhs7. destruct (Fm_eq_dec _ _); split; congruence.
Qed.

Definition caddp (P Q : ppt) : ppt :=
  padd Fp fzero fone fadd fmul fsub fdiv Fm_eq_dec P Q.
Definition cnegp (P : ppt) : ppt := pneg Fp fopp P.

(** The group. *)
Definition E : Type := { P : ppt | oncb P = true }.
Definition epack (P : ppt) (H : onc P) : E := exist _ P (proj2 (oncb_spec P) H).
Definition epoint (P : E) : ppt := proj1_sig P.
Lemma e_on (P : E) : onc (epoint P).
Proof. destruct P as [P H]; cbn. apply oncb_spec, H. Qed.

Lemma E_eq (P Q : E) : epoint P = epoint Q -> P = Q.
Proof.
  destruct P as [P HP], Q as [Q HQ]; cbn. intros ->. f_equal. apply UIP_dec, bool_dec.
Qed.

Lemma caddp_on P Q : onc P -> onc Q -> onc (caddp P Q).
Proof.
  exact (padd_on Fp fzero fone fadd fmul fsub fopp fdiv finv Fp_field Fm_eq_dec
    (fmul_eq_0 p prime_p) b7 fp_two_nz fp_noroot P Q).
Qed.
Lemma cnegp_on P : onc P -> onc (cnegp P).
Proof.
  exact (pneg_on Fp fzero fone fadd fmul fsub fopp fdiv finv Fp_field b7 P).
Qed.

Definition eO : E := epack PInf I.
Definition eadd (P Q : E) : E :=
  epack (caddp (epoint P) (epoint Q)) (caddp_on _ _ (e_on P) (e_on Q)).
Definition eneg (P : E) : E := epack (cnegp (epoint P)) (cnegp_on _ (e_on P)).
Definition esub (P Q : E) : E := eadd P (eneg Q).

Definition E_eq_dec (P Q : E) : {P = Q} + {P <> Q}.
Proof.
  destruct P as [P HP], Q as [Q HQ].
  assert (D : {P = Q} + {P <> Q}).
  { clear. destruct P as [|x y], Q as [|x' y'].
    - left; reflexivity.
    - right; discriminate.
    - right; discriminate.
    - destruct (Fm_eq_dec x x') as [->|H].
      + destruct (Fm_eq_dec y y') as [->|H].
        * left; reflexivity.
        * right. intros E. injection E as E. contradiction.
      + right. intros E. injection E as E. contradiction. }
  destruct D as [D|D].
  - left. apply E_eq. exact D.
  - right. intros H. apply D. apply (f_equal epoint) in H. exact H.
Qed.

Lemma eadd_assoc P Q R : eadd (eadd P Q) R = eadd P (eadd Q R).
Proof.
  apply E_eq. cbn.
  exact (padd_assoc Fp fzero fone fadd fmul fsub fopp fdiv finv Fp_field Fm_eq_dec
    (fmul_eq_0 p prime_p) b7 fp_two_nz fp_noroot _ _ _ (e_on P) (e_on Q) (e_on R)).
Qed.
Lemma eadd_comm P Q : eadd P Q = eadd Q P.
Proof.
  apply E_eq. cbn.
  exact (padd_comm Fp fzero fone fadd fmul fsub fopp fdiv finv Fp_field Fm_eq_dec
    (fmul_eq_0 p prime_p) b7 fp_two_nz fp_noroot _ _ (e_on P) (e_on Q)).
Qed.
Lemma eadd_0_l P : eadd eO P = P.
Proof. apply E_eq. reflexivity. Qed.
Lemma eadd_0_r P : eadd P eO = P.
Proof. rewrite eadd_comm. apply eadd_0_l. Qed.
Lemma eadd_neg_r P : eadd P (eneg P) = eO.
Proof.
  apply E_eq. cbn.
  exact (padd_neg Fp fzero fone fadd fmul fsub fopp fdiv finv Fp_field Fm_eq_dec
    b7 _ (e_on P)).
Qed.
Lemma eadd_neg_l P : eadd (eneg P) P = eO.
Proof. rewrite eadd_comm. apply eadd_neg_r. Qed.

Lemma eadd_cancel_l P Q R : eadd P Q = eadd P R -> Q = R.
Proof.
  intros H. rewrite <- (eadd_0_l Q), <- (eadd_0_l R), <- (eadd_neg_l P), !eadd_assoc, H.
  reflexivity.
Qed.
Lemma eadd_cancel_r P Q R : eadd Q P = eadd R P -> Q = R.
Proof. rewrite !(eadd_comm _ P). apply eadd_cancel_l. Qed.

Lemma eneg_unique P Q : eadd P Q = eO -> Q = eneg P.
Proof. intros H. apply (eadd_cancel_l P). rewrite H, eadd_neg_r. reflexivity. Qed.
Lemma eneg_neg P : eneg (eneg P) = P.
Proof. symmetry. apply eneg_unique, eadd_neg_l. Qed.
Lemma eneg_0 : eneg eO = eO.
Proof. symmetry. apply eneg_unique, eadd_0_l. Qed.
Lemma eneg_add P Q : eneg (eadd P Q) = eadd (eneg P) (eneg Q).
Proof.
  symmetry. apply eneg_unique.
  rewrite (eadd_comm (eneg P)), <- eadd_assoc, (eadd_assoc P), eadd_neg_r, eadd_0_r.
  apply eadd_neg_r.
Qed.

Lemma no2tors P : eadd P P = eO -> P = eO.
Proof.
  intros H. apply E_eq. cbn.
  refine (no_two_torsion Fp fzero fone fadd fmul fsub fopp fdiv finv Fp_field
    (fmul_eq_0 p prime_p) b7 fp_two_nz fp_noroot _ (e_on P) _).
  apply eneg_unique in H. apply (f_equal epoint) in H. exact H.
Qed.

(** Integer multiples. *)
Fixpoint pmul (n : positive) (P : E) : E :=
  match n with
  | xH => P
  | xO n' => let Q := pmul n' P in eadd Q Q
  | xI n' => let Q := pmul n' P in eadd (eadd Q Q) P
  end.

Definition smul (k : Z) (P : E) : E :=
  match k with Z0 => eO | Zpos n => pmul n P | Zneg n => eneg (pmul n P) end.

Lemma pmul_succ n P : pmul (Pos.succ n) P = eadd (pmul n P) P.
Proof.
  induction n as [n IH|n IH|]; cbn [pmul Pos.succ].
  - rewrite IH. rewrite !eadd_assoc. f_equal. rewrite <- !eadd_assoc.
    rewrite (eadd_comm P). rewrite !eadd_assoc. reflexivity.
  - reflexivity.
  - reflexivity.
Qed.

Lemma smul_succ k P : smul (Z.succ k) P = eadd (smul k P) P.
Proof.
  destruct k as [|n|n].
  - cbn. rewrite eadd_0_l. reflexivity.
  - rewrite <- Pos2Z.inj_succ. apply pmul_succ.
  - destruct (Pos.eq_dec n 1) as [->|Hn].
    + cbn. rewrite eadd_neg_l. reflexivity.
    + rewrite <- (Pos.succ_pred n Hn) at 2. cbn [smul].
      rewrite pmul_succ, eneg_add, eadd_assoc, eadd_neg_l, eadd_0_r.
      replace (Z.succ (Z.neg n)) with (Z.neg (Pos.pred n)) by lia. reflexivity.
Qed.

Lemma smul_0 P : smul 0 P = eO. Proof. reflexivity. Qed.
Lemma smul_1 P : smul 1 P = P. Proof. reflexivity. Qed.

Lemma smul_pred k P : smul (Z.pred k) P = eadd (smul k P) (eneg P).
Proof.
  apply (eadd_cancel_r P). rewrite <- smul_succ, Z.succ_pred, eadd_assoc, eadd_neg_l, eadd_0_r.
  reflexivity.
Qed.

Lemma smul_add a c P : smul (a + c) P = eadd (smul a P) (smul c P).
Proof.
  revert a. apply Z.bi_induction.
  - intros x y ->. tauto.
  - rewrite Z.add_0_l, smul_0, eadd_0_l. reflexivity.
  - intros a. rewrite Z.add_succ_l, !smul_succ. split; intros H.
    + rewrite H, !eadd_assoc. f_equal. apply eadd_comm.
    + apply (eadd_cancel_r P). rewrite H, !eadd_assoc. f_equal. apply eadd_comm.
Qed.

Lemma smul_opp a P : smul (- a) P = eneg (smul a P).
Proof. apply eneg_unique. rewrite <- smul_add, Z.add_opp_diag_r. apply smul_0. Qed.

Lemma smul_sub a c P : smul (a - c) P = esub (smul a P) (smul c P).
Proof. unfold esub. rewrite <- smul_opp, <- smul_add. f_equal. Qed.

Lemma smul_eO k : smul k eO = eO.
Proof.
  revert k. apply Z.bi_induction.
  - intros x y ->. tauto.
  - reflexivity.
  - intros a. rewrite smul_succ, eadd_0_r. tauto.
Qed.

Lemma smul_mul a c P : smul (a * c) P = smul a (smul c P).
Proof.
  revert a. apply Z.bi_induction.
  - intros x y ->. tauto.
  - reflexivity.
  - intros a. rewrite Z.mul_succ_l, smul_add, smul_succ. split; intros H.
    + rewrite H. reflexivity.
    + apply (eadd_cancel_r (smul c P)). exact H.
Qed.

Lemma smul_padd a P Q : smul a (eadd P Q) = eadd (smul a P) (smul a Q).
Proof.
  revert a. apply Z.bi_induction.
  - intros x y ->. tauto.
  - cbn. rewrite eadd_0_l. reflexivity.
  - intros a. rewrite !smul_succ.
    assert (S : eadd (eadd (smul a P) P) (eadd (smul a Q) Q)
              = eadd (eadd (smul a P) (smul a Q)) (eadd P Q)).
    { rewrite !eadd_assoc. f_equal. rewrite <- !eadd_assoc. f_equal. apply eadd_comm. }
    rewrite S. split; intros H.
    + rewrite H. reflexivity.
    + apply (eadd_cancel_r (eadd P Q)). exact H.
Qed.

Lemma smul_neg a P : smul a (eneg P) = eneg (smul a P).
Proof. apply eneg_unique. rewrite <- smul_padd, eadd_neg_r. apply smul_eO. Qed.

(** The base point. *)
Lemma G_on : onc (PAff (fp Gx) (fp Gy)).
Proof.
  unfold onc, on, b7, fp. rewrite <- !of_Z_mul, <- of_Z_add.
  apply of_Z_eq. vm_compute. reflexivity.
Qed.
Definition eG : E := epack _ G_on.
Lemma eG_neq : eG <> eO.
Proof. intros H. apply (f_equal epoint) in H. discriminate. Qed.
