(** Lagrange interpolation at 0 over an arbitrary field.  No modelled code here. *)
From Coq Require Import List Field Ring Lia Permutation.
Import ListNotations.

Section Lagrange.
  Variable F : Type.
  Variables (f0 f1 : F) (fadd fmul fsub : F -> F -> F) (fopp : F -> F)
            (fdiv : F -> F -> F) (finv : F -> F).
  Variable Fth : field_theory f0 f1 fadd fmul fsub fopp fdiv finv eq.
  Add Field Ff : Fth.
  Variable fmul_eq_0 : forall a b, fmul a b = f0 -> a = f0 \/ b = f0.
  Infix "+" := fadd. Infix "*" := fmul. Infix "-" := fsub. Infix "/" := fdiv.
  Notation "- x" := (fopp x).

  Variable K : Type.
  Variable keqb : K -> K -> bool.
  Variable keqb_spec : forall a b, Bool.reflect (a = b) (keqb a b).
  Variable xf : K -> F.

  (** Product of [g j] over the keys other than [k]. *)
  Fixpoint prod_skip (g : K -> F) (k : K) (ks : list K) : F :=
    match ks with
    | [] => f1
    | j :: r => if keqb k j then prod_skip g k r else g j * prod_skip g k r
    end.
  Fixpoint sum (g : K -> F) (ks : list K) : F :=
    match ks with [] => f0 | k :: r => g k + sum g r end.
  Definition num k ks := prod_skip xf k ks.
  Definition den k ks := prod_skip (fun j => xf j - xf k) k ks.
  Definition interp (f : K -> F) (ks : list K) : F := sum (fun k => f k * num k ks / den k ks) ks.

  (** Polynomials as coefficient lists, constant term first. *)
  Fixpoint eval (c : list F) (x : F) : F :=
    match c with [] => f0 | a :: r => a + x * eval r x end.

  Definition distinct (ks : list K) : Prop :=
    NoDup ks /\ forall a b, In a ks -> In b ks -> a <> b -> xf a <> xf b.

  Lemma fmul_nz a b : a <> f0 -> b <> f0 -> a * b <> f0.
  Proof. intros Ha Hb E. destruct (fmul_eq_0 _ _ E); contradiction. Qed.
  Lemma fsub_nz a b : a <> b -> a - b <> f0.
  Proof. intros H E. apply H. assert (X : a = (a - b) + b) by ring. rewrite X, E. ring. Qed.

  Lemma keqb_refl k : keqb k k = true.
  Proof. destruct (keqb_spec k k); [reflexivity|contradiction]. Qed.
  Lemma keqb_ne k j : k <> j -> keqb k j = false.
  Proof. intros H. destruct (keqb_spec k j); [contradiction|reflexivity]. Qed.

  Lemma prod_skip_nz g k ks : (forall j, In j ks -> j <> k -> g j <> f0) -> prod_skip g k ks <> f0.
  Proof.
    induction ks as [|j r IH]; intros H; cbn [prod_skip].
    - apply (F_1_neq_0 Fth).
    - destruct (keqb_spec k j) as [->|NE].
      + apply IH. intros i Hi. apply H. right; exact Hi.
      + apply fmul_nz; [apply H; [left; reflexivity|congruence]|].
        apply IH. intros i Hi. apply H. right; exact Hi.
  Qed.

  Lemma den_nz k ks r : distinct ks -> In k ks -> (forall j, In j r -> In j ks) -> den k r <> f0.
  Proof.
    intros [_ D] Hk Hr. apply prod_skip_nz. intros j Hj NE. apply fsub_nz. apply D; auto.
  Qed.

  Lemma sum_ext g h ks : (forall k, In k ks -> g k = h k) -> sum g ks = sum h ks.
  Proof.
    induction ks as [|k r IH]; intros H; [reflexivity|]. cbn [sum].
    rewrite (H k), IH; [reflexivity| |left; reflexivity]. intros; apply H; right; assumption.
  Qed.
  Lemma sum_lin c d g h ks : sum (fun k => c * g k + d * h k) ks = c * sum g ks + d * sum h ks.
  Proof. induction ks as [|k r IH]; cbn [sum]; [ring|]. rewrite IH. ring. Qed.
  Lemma sum_scal c g ks : sum (fun k => c * g k) ks = c * sum g ks.
  Proof. induction ks as [|k r IH]; cbn [sum]; [ring|]. rewrite IH. ring. Qed.

  Lemma prod_skip_cons_ne g k j r : k <> j -> prod_skip g k (j :: r) = g j * prod_skip g k r.
  Proof. intros H. cbn. rewrite keqb_ne by exact H. reflexivity. Qed.
  Lemma prod_skip_cons_eq g k r : prod_skip g k (k :: r) = prod_skip g k r.
  Proof. cbn. rewrite keqb_refl. reflexivity. Qed.

  Lemma distinct_tl a r : distinct (a :: r) -> distinct r.
  Proof.
    intros [N D]. inversion N; subst. split; [assumption|]. intros; apply D; try right; assumption.
  Qed.

  Lemma distinct_skip a b r : distinct (a :: b :: r) -> distinct (a :: r).
  Proof.
    intros [N D]. inversion N as [|? ? Na Nr]; subst. inversion Nr; subst. split.
    - constructor; [|assumption]. intros H. apply Na. right; exact H.
    - intros x y Hx Hy. apply D; cbn in *; tauto.
  Qed.

  Lemma neville f a b r : distinct (a :: b :: r) ->
    (xf b - xf a) * interp f (a :: b :: r) = xf b * interp f (a :: r) + (- xf a) * interp f (b :: r).
  Proof.
    intros D. pose proof D as [N DD].
    assert (Hab : a <> b) by (inversion N as [|? ? Na ?]; subst; intros ->; apply Na; left; reflexivity).
    assert (Xab : xf b - xf a <> f0) by (apply fsub_nz, DD; cbn; auto).
    assert (Da : den a r <> f0) by (apply (den_nz a (a :: b :: r)); cbn; auto).
    assert (Db : den b r <> f0) by (apply (den_nz b (a :: b :: r)); cbn; auto).
    unfold interp. cbn [sum].
    rewrite (sum_ext (fun k => f k * num k (a :: b :: r) / den k (a :: b :: r))
              (fun k => (xf b / (xf b - xf a)) * (f k * num k (a :: r) / den k (a :: r))
                        + (- xf a / (xf b - xf a)) * (f k * num k (b :: r) / den k (b :: r)))).
    - rewrite sum_lin. unfold num, den.
      rewrite !prod_skip_cons_eq, (prod_skip_cons_ne _ a b) by congruence.
      rewrite (prod_skip_cons_ne _ a b) by congruence.
      rewrite !(prod_skip_cons_ne _ b a) by congruence. rewrite !prod_skip_cons_eq.
      fold (num a r) (num b r) (den a r) (den b r).
      assert (Xba : xf a - xf b <> f0) by (apply fsub_nz, DD; cbn; auto).
      field. repeat split; assumption.
    - intros k Hk.
      assert (Nka : k <> a) by (inversion N as [|? ? Na ?]; subst; intros ->; apply Na; right; exact Hk).
      assert (Nkb : k <> b) by (inversion N as [|? ? ? Nr]; subst; inversion Nr; subst; intros ->; contradiction).
      assert (Dk : den k r <> f0) by (apply (den_nz k (a :: b :: r)); cbn; auto).
      unfold num, den.
      rewrite !(prod_skip_cons_ne _ k a), !(prod_skip_cons_ne _ k b) by assumption.
      fold (num k r) (den k r).
      assert (Xa : xf a - xf k <> f0) by (apply fsub_nz, DD; cbn; auto).
      assert (Xb : xf b - xf k <> f0) by (apply fsub_nz, DD; cbn; auto).
      field. repeat split; assumption.
  Qed.

  Lemma interp_one : forall n ks, length ks = S n -> distinct ks -> interp (fun _ => f1) ks = f1.
  Proof.
    induction n as [|n IH]; intros ks L D.
    - destruct ks as [|a [|b r]]; try discriminate. unfold interp, num, den. cbn. rewrite keqb_refl.
      field. apply (F_1_neq_0 Fth).
    - destruct ks as [|a [|b r]]; try discriminate.
      assert (Xab : xf b - xf a <> f0).
      { destruct D as [N DD]. apply fsub_nz, DD; cbn; auto. inversion N as [|? ? Na ?]; subst.
        intros ->. apply Na. left; reflexivity. }
      pose proof (neville (fun _ => f1) a b r D) as E.
      rewrite (IH (a :: r)), (IH (b :: r)) in E.
      + assert (X : (xf b - xf a) * (interp (fun _ => f1) (a :: b :: r) - f1) = f0).
        { transitivity ((xf b - xf a) * interp (fun _ => f1) (a :: b :: r) - (xf b - xf a)); [ring|].
          rewrite E. ring. }
        destruct (fmul_eq_0 _ _ X) as [Y|Y]; [contradiction|].
        transitivity ((interp (fun _ => f1) (a :: b :: r) - f1) + f1); [ring|]. rewrite Y. ring.
      + cbn in *; lia.
      + apply (distinct_tl a), D.
      + cbn in *; lia.
      + apply (distinct_skip a b), D.
  Qed.

  Lemma synth c : forall a, exists q, length q = pred (length c) /\
    forall x, eval c x = eval c a + (x - a) * eval q x.
  Proof.
    induction c as [|c0 c IH]; intros a.
    - exists []. split; [reflexivity|]. intros x. cbn. ring.
    - destruct (IH a) as (q & Lq & Hq). cbn [length pred].
      (* quotient: c + a q *)
      assert (A : forall u v : list F, (length v <= length u)%nat -> exists w, length w = length u /\
                  forall x, eval w x = eval u x + a * eval v x).
      { induction u as [|u0 u IHu]; intros v Lv.
        - destruct v; [|cbn in Lv; lia]. exists []. split; [reflexivity|]. intros; cbn; ring.
        - destruct v as [|v0 v].
          + exists (u0 :: u). split; [reflexivity|]. intros; cbn; ring.
          + destruct (IHu v) as (w & Lw & Hw); [cbn in Lv; lia|].
            exists (u0 + a * v0 :: w). split; [cbn; lia|]. intros x. cbn. rewrite Hw. ring. }
      destruct (A c q) as (w & Lw & Hw); [lia|]. exists w. split; [exact Lw|].
      intros x. cbn [eval]. rewrite Hw. rewrite (Hq x). ring.
  Qed.

  Theorem interp_eval : forall ks c, (length c <= length ks)%nat -> distinct ks ->
    interp (fun k => eval c (xf k)) ks = eval c f0.
  Proof.
    induction ks as [|a ks IH]; intros c L D.
    - destruct c; [reflexivity|cbn in L; lia].
    - destruct (synth c (xf a)) as (q & Lq & Hq).
      assert (E1 : interp (fun k => eval c (xf k)) (a :: ks)
                   = eval c (xf a) * interp (fun _ => f1) (a :: ks)
                     + (- xf a) * interp (fun k => eval q (xf k)) ks).
      { unfold interp. cbn [sum].
        rewrite (sum_ext (fun k => eval c (xf k) * num k (a :: ks) / den k (a :: ks))
          (fun k => eval c (xf a) * (f1 * num k (a :: ks) / den k (a :: ks))
                    + (- xf a) * (eval q (xf k) * num k ks / den k ks))).
        - rewrite sum_lin. unfold num, den. rewrite !prod_skip_cons_eq.
          fold (num a ks) (den a ks).
          assert (den a ks <> f0) by (apply (den_nz a (a :: ks)); cbn; auto).
          field. assumption.
        - intros k Hk. pose proof D as [N DD].
          assert (Nka : k <> a) by (inversion N as [|? ? Na ?]; subst; intros ->; contradiction).
          assert (Dk : den k ks <> f0) by (apply (den_nz k (a :: ks)); cbn; auto).
          assert (Xa : xf a - xf k <> f0) by (apply fsub_nz, DD; cbn; auto).
          rewrite (Hq (xf k)). unfold num, den. rewrite !(prod_skip_cons_ne _ k a) by assumption.
          fold (num k ks) (den k ks). field. repeat split; assumption. }
      rewrite E1, (interp_one (length ks)) by (reflexivity || exact D).
      rewrite IH; [|cbn in L; lia|apply (distinct_tl a), D].
      rewrite (Hq f0). ring.
  Qed.

  (** Iteration order does not matter. *)
  Lemma prod_skip_perm g k ks ks' : Permutation ks ks' -> prod_skip g k ks = prod_skip g k ks'.
  Proof.
    induction 1 as [|j r r' _ IH|i j r|r1 r2 r3 _ IH1 _ IH2]; cbn [prod_skip].
    - reflexivity.
    - rewrite IH. reflexivity.
    - destruct (keqb k i), (keqb k j); try reflexivity. ring.
    - congruence.
  Qed.
  Lemma sum_perm g ks ks' : Permutation ks ks' -> sum g ks = sum g ks'.
  Proof.
    induction 1 as [|j r r' _ IH|i j r|r1 r2 r3 _ IH1 _ IH2]; cbn [sum].
    - reflexivity.
    - rewrite IH. reflexivity.
    - ring.
    - congruence.
  Qed.
End Lagrange.

Lemma field_div_eq (F : Type) (f0 f1 : F) fadd fmul fsub fopp fdiv finv
  (Fth : field_theory f0 f1 fadd fmul fsub fopp fdiv finv eq) a b c :
  b <> f0 -> fmul c b = a -> c = fdiv a b.
Proof.
  intros Hb <-. destruct Fth as [R _ D I]. rewrite D, <- (Rmul_assoc R), (Rmul_comm R b), (I b Hb).
  rewrite (Rmul_comm R). symmetry. apply (Rmul_1_l R).
Qed.
