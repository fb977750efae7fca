(** The group law of y^2 = x^3 + b over an arbitrary field in which 2 and 3
    are not 0 and x^3 + b has no root.  No modelled code here. *)
From Coq Require Import ZArith Field Ring Lia.

Section EC.
  Variable F : Type.
  Variables (f0 f1 : F) (fadd fmul fsub : F -> F -> F) (fopp : F -> F)
            (fdiv : F -> F -> F) (finv : F -> F).
  Variable Fth : field_theory f0 f1 fadd fmul fsub fopp fdiv finv eq.
  Add Field Ff : Fth.
  Variable eqd : forall a b : F, {a = b} + {a <> b}.
  Variable fmul_eq_0 : forall a b, fmul a b = f0 -> a = f0 \/ b = f0.
  Infix "+" := fadd. Infix "*" := fmul. Infix "-" := fsub. Infix "/" := fdiv.
  Notation "- x" := (fopp x).
  Variable b : F.
  Notation f2 := (f1 + f1).
  Notation f3 := (f1 + f1 + f1).
  Hypothesis two_nz : f2 <> f0.
  Hypothesis three_nz : f3 <> f0.
  Hypothesis noroot : forall x, x * x * x + b <> f0.

  Inductive pt := Inf | Aff (x y : F).

  Definition on (P : pt) : Prop :=
    match P with Inf => True | Aff x y => y * y = x * x * x + b end.

  Definition pneg (P : pt) : pt :=
    match P with Inf => Inf | Aff x y => Aff x (- y) end.

  (** Textbook chord and tangent. *)
  Definition chord (l x1 y1 x2 : F) : pt :=
    let x3 := l * l - x1 - x2 in Aff x3 (l * (x1 - x3) - y1).

  Definition padd (P Q : pt) : pt :=
    match P, Q with
    | Inf, _ => Q
    | _, Inf => P
    | Aff x1 y1, Aff x2 y2 =>
        if eqd x1 x2 then
          if eqd (y1 + y2) f0 then Inf
          else chord ((f3 * (x1 * x1)) / (f2 * y1)) x1 y1 x2
        else chord ((y2 - y1) / (x2 - x1)) x1 y1 x2
    end.

  (** Complete projective addition (Renes, Costello, Batina; a = 0). *)
  Definition cX X1 Y1 Z1 X2 Y2 Z2 :=
    (X1*Y2+X2*Y1)*(Y1*Y2-f3*b*(Z1*Z2)) - f3*b*((Y1*Z2+Y2*Z1)*(X1*Z2+X2*Z1)).
  Definition cY X1 Y1 Z1 X2 Y2 Z2 :=
    (Y1*Y2+f3*b*(Z1*Z2))*(Y1*Y2-f3*b*(Z1*Z2)) + f3*(f3*b)*((X1*X2)*(X1*Z2+X2*Z1)).
  Definition cZ X1 Y1 Z1 X2 Y2 Z2 :=
    (Y1*Z2+Y2*Z1)*(Y1*Y2+f3*b*(Z1*Z2)) + f3*((X1*X2)*(X1*Y2+X2*Y1)).

  (** (X,Y,Z) is a projective representative of P. *)
  Definition rep (X Y Z : F) (P : pt) : Prop :=
    match P with
    | Inf => X = f0 /\ Z = f0 /\ Y <> f0
    | Aff x y => Z <> f0 /\ X = x * Z /\ Y = y * Z
    end.

  Lemma mul_nz a c : a <> f0 -> c <> f0 -> a * c <> f0.
  Proof. intros Ha Hc H. apply fmul_eq_0 in H. tauto. Qed.

  Lemma mul_cancel d u v : d <> f0 -> d * u = d * v -> u = v.
  Proof.
    intros Hd H. assert (E : d * (u - v) = f0).
    { transitivity (d * u - d * v); [ring|]. rewrite H; ring. }
    apply fmul_eq_0 in E. destruct E as [E|E]; [contradiction|].
    transitivity (u - v + v); [ring|]. rewrite E; ring.
  Qed.

  Lemma div_eq l a c : c <> f0 -> l * c = a -> a / c = l.
  Proof. intros Hc <-. field. exact Hc. Qed.

  Lemma sub_nz x y : x <> y -> x - y <> f0.
  Proof. intros H E. apply H. transitivity (x - y + y); [ring|]. rewrite E; ring. Qed.

  Lemma y_nz x y : y * y = x * x * x + b -> y <> f0.
  Proof.
    intros H E. subst y. apply (noroot x). rewrite <- H. ring.
  Qed.

  Lemma b_nz : b <> f0.
  Proof. intros E. apply (noroot f0). rewrite E. ring. Qed.

  Lemma same_x x y1 y2 : y1 * y1 = x * x * x + b -> y2 * y2 = x * x * x + b ->
    y1 + y2 <> f0 -> y1 = y2.
  Proof.
    intros H1 H2 Hs. assert (E : (y1 + y2) * (y1 - y2) = f0).
    { transitivity (y1 * y1 - y2 * y2); [ring|]. rewrite H1, H2. ring. }
    apply fmul_eq_0 in E. destruct E as [E|E]; [contradiction|].
    transitivity (y1 - y2 + y2); [ring|]. rewrite E; ring.
  Qed.

  (** The third intersection of a line through two points of the curve is on it. *)
  Lemma line_on l x1 y1 x2 :
    y1 * y1 = x1 * x1 * x1 + b ->
    (y1 + l * (x2 - x1)) * (y1 + l * (x2 - x1)) = x2 * x2 * x2 + b ->
    x2 - x1 <> f0 -> on (chord l x1 y1 x2).
  Proof.
    intros H1 H2 Hd. unfold chord, on. set (x3 := l * l - x1 - x2).
    apply (mul_cancel (x2 - x1)); [exact Hd|].
    assert (E : (x2 - x1) * (x3 * x3 * x3 + b)
              = (x2 - x1) * ((l * (x1 - x3) - y1) * (l * (x1 - x3) - y1))
                + (x2 - x3) * ((x1 * x1 * x1 + b) - y1 * y1)
                + (x3 - x1) * ((x2 * x2 * x2 + b)
                    - (y1 + l * (x2 - x1)) * (y1 + l * (x2 - x1)))).
    { unfold x3. ring. }
    rewrite E, <- H1, <- H2. ring.
  Qed.

  Lemma tangent_on l x y :
    y * y = x * x * x + b -> l * (f2 * y) = f3 * (x * x) -> on (chord l x y x).
  Proof.
    intros H1 H2. unfold chord, on. set (x3 := l * l - x - x).
    assert (E : x3 * x3 * x3 + b
              = (l * (x - x3) - y) * (l * (x - x3) - y)
                + ((x * x * x + b) - y * y)
                + (x3 - x) * (f3 * (x * x) - l * (f2 * y))).
    { unfold x3. ring. }
    rewrite E, <- H1, H2. ring.
  Qed.

  Lemma padd_on P Q : on P -> on Q -> on (padd P Q).
  Proof.
    destruct P as [|x1 y1], Q as [|x2 y2]; cbn [padd]; intros HP HQ; try assumption; try exact I.
    destruct (eqd x1 x2) as [<-|Hx].
    - destruct (eqd (y1 + y2) f0) as [E|E]; [exact I|].
      apply tangent_on; [exact HP|]. field.
      split; [exact (y_nz _ _ HP)|exact two_nz].
    - assert (Hd : x2 - x1 <> f0) by (apply sub_nz; congruence).
      apply line_on; [exact HP| |exact Hd].
      replace (y1 + (y2 - y1) / (x2 - x1) * (x2 - x1)) with y2; [exact HQ|].
      field. exact Hd.
  Qed.

  Lemma pneg_on P : on P -> on (pneg P).
  Proof. destruct P as [|x y]; cbn; [tauto|]. intros <-. ring. Qed.

  (** The complete formulas compute the textbook law: affine inputs. *)
  Lemma c_aff x1 y1 x2 y2 : on (Aff x1 y1) -> on (Aff x2 y2) ->
    rep (cX x1 y1 f1 x2 y2 f1) (cY x1 y1 f1 x2 y2 f1) (cZ x1 y1 f1 x2 y2 f1)
        (padd (Aff x1 y1) (Aff x2 y2)).
  Proof.
    intros H1 H2. pose proof H1 as H1'. pose proof H2 as H2'. cbn in H1', H2'.
    cbn [padd]. destruct (eqd x1 x2) as [<-|Hx].
    - destruct (eqd (y1 + y2) f0) as [E|E].
      + (* opposite points *)
        assert (Ey : y2 = - y1) by (transitivity (y1 + y2 - y1); [ring|]; rewrite E; ring).
        subst y2. cbn [rep]. unfold cX, cY, cZ. split; [ring|]. split; [ring|].
        intros HY.
        assert (T : on (chord ((f3 * (x1 * x1)) / (f2 * y1)) x1 y1 x1)).
        { apply tangent_on; [exact H1'|]. field.
          split; [exact (y_nz _ _ H1')|exact two_nz]. }
        pose proof (y_nz x1 y1 H1') as Hy. unfold chord in T.
        match type of T with on (Aff ?u ?v) => pose proof (y_nz u v T) as Hv end.
        apply Hv. clear Hv T.
        apply (mul_cancel ((f2 * y1) * (f2 * y1) * (f2 * y1))).
        { apply mul_nz; [apply mul_nz|]; apply mul_nz; assumption. }
        match goal with |- _ = ?R => replace R with f0 by ring end.
        rewrite <- HY.
        transitivity (f3 * (f3 * (x1 * x1)) * (f2 * y1) * (f2 * y1) * x1
          - (f3 * (x1 * x1)) * (f3 * (x1 * x1)) * (f3 * (x1 * x1))
          - (f2 * y1) * (f2 * y1) * (f2 * y1) * y1).
        { field. split; [exact Hy|exact two_nz]. }
        clear HY. ring [H1'].
      + (* doubling *)
        assert (y1 = y2) as <- by (apply (same_x x1); assumption).
        pose proof (y_nz x1 y1 H1') as Hy. unfold chord. cbn [rep].
        assert (EZ : cZ x1 y1 f1 x1 y1 f1 = (f2 * y1) * (f2 * y1) * (f2 * y1)).
        { unfold cZ. ring [H1']. }
        rewrite EZ. split.
        { apply mul_nz; [apply mul_nz|]; apply mul_nz; assumption. }
        split.
        * transitivity ((f2 * y1) * ((f3 * (x1 * x1)) * (f3 * (x1 * x1)) - f2 * x1 * ((f2 * y1) * (f2 * y1)))).
          { unfold cX. ring [H1']. }
          field. split; [exact Hy|exact two_nz].
        * transitivity (f3 * (f3 * (x1 * x1)) * (f2 * y1) * (f2 * y1) * x1
          - (f3 * (x1 * x1)) * (f3 * (x1 * x1)) * (f3 * (x1 * x1))
          - (f2 * y1) * (f2 * y1) * (f2 * y1) * y1).
          { unfold cY. ring [H1']. }
          field. split; [exact Hy|exact two_nz].
    - (* chord *)
      assert (Hd : x2 - x1 <> f0) by (apply sub_nz; congruence).
      set (d := x2 - x1) in *.
      assert (EZ : cZ x1 y1 f1 x2 y2 f1 <> f0).
      { (* Z3 = d^3 y(P - Q) up to sign *)
        assert (T : on (chord ((- y2 - y1) / d) x1 y1 x2)).
        { apply line_on; [exact H1'| |exact Hd].
          replace (y1 + (- y2 - y1) / d * (x2 - x1)) with (- y2).
          - rewrite <- H2'. ring.
          - unfold d. field. exact Hd. }
        unfold chord in T.
        match type of T with on (Aff ?u ?v) => pose proof (y_nz u v T) as Hv end.
        intros EZ. apply Hv. clear Hv T.
        apply (mul_cancel (d * d * d)).
        { apply mul_nz; [apply mul_nz|]; assumption. }
        match goal with |- _ = ?R => replace R with f0 by ring end.
        rewrite <- EZ.
        transitivity ((- y2 - y1) * ((f2 * x1 + x2) * (d * d) - (- y2 - y1) * (- y2 - y1)) - d * d * d * y1).
        { field. exact Hd. }
        clear EZ. unfold cZ, d. ring [H1' H2']. }
      unfold chord. cbn [rep]. split; [exact EZ|].
      assert (EX : d * d * cX x1 y1 f1 x2 y2 f1
                 = ((y2 - y1) * (y2 - y1) - (x1 + x2) * (d * d)) * cZ x1 y1 f1 x2 y2 f1).
      { unfold cX, cZ, d. ring [H1' H2']. }
      assert (EY : d * d * d * cY x1 y1 f1 x2 y2 f1
                 = ((y2 - y1) * ((f2 * x1 + x2) * (d * d) - (y2 - y1) * (y2 - y1)) - d * d * d * y1)
                   * cZ x1 y1 f1 x2 y2 f1).
      { unfold cY, cZ, d. ring [H1' H2']. }
      generalize dependent (cZ x1 y1 f1 x2 y2 f1). intros Z3 HZ EX EY.
      split.
      + apply (mul_cancel (d * d)); [apply mul_nz; assumption|]. rewrite EX. field. exact Hd.
      + apply (mul_cancel (d * d * d)); [apply mul_nz; [apply mul_nz|]; assumption|].
        rewrite EY. field. exact Hd.
  Qed.

  (** Representatives of one triple are equal points. *)
  Lemma rep_fun X Y Z P Q : rep X Y Z P -> rep X Y Z Q -> P = Q.
  Proof.
    destruct P as [|x y], Q as [|x' y']; cbn; intros H1 H2; try tauto.
    destruct H1 as (Hz & -> & ->), H2 as (_ & Hx & Hy).
    assert (x = x') by (apply (mul_cancel Z); [exact Hz|]; transitivity (x * Z); [ring|]; rewrite Hx; ring).
    assert (y = y') by (apply (mul_cancel Z); [exact Hz|]; transitivity (y * Z); [ring|]; rewrite Hy; ring).
    congruence.
  Qed.

  (** Scaling. *)
  Lemma rep_scale k X Y Z P : k <> f0 -> rep X Y Z P -> rep (k * X) (k * Y) (k * Z) P.
  Proof.
    intros Hk. destruct P as [|x y]; cbn.
    - intros (-> & -> & HY). repeat split; try ring. apply mul_nz; assumption.
    - intros (HZ & -> & ->). split; [apply mul_nz; assumption|]. split; ring.
  Qed.

  (** The canonical triple. *)
  Definition tX (P : pt) : F := match P with Inf => f0 | Aff x _ => x end.
  Definition tY (P : pt) : F := match P with Inf => f1 | Aff _ y => y end.
  Definition tZ (P : pt) : F := match P with Inf => f0 | Aff _ _ => f1 end.

  Lemma one_nz : f1 <> f0.
  Proof. apply (F_1_neq_0 Fth). Qed.

  Lemma rep_form X Y Z P : rep X Y Z P ->
    exists k, k <> f0 /\ X = k * tX P /\ Y = k * tY P /\ Z = k * tZ P.
  Proof.
    destruct P as [|x y]; cbn.
    - intros (-> & -> & HY). exists Y. repeat split; try ring. exact HY.
    - intros (HZ & -> & ->). exists Z. repeat split; try ring. exact HZ.
  Qed.

  Lemma rep_canon P : rep (tX P) (tY P) (tZ P) P.
  Proof.
    destruct P as [|x y]; cbn; repeat split; try ring; apply one_nz.
  Qed.

  Lemma c_canon P Q : on P -> on Q ->
    rep (cX (tX P) (tY P) (tZ P) (tX Q) (tY Q) (tZ Q))
        (cY (tX P) (tY P) (tZ P) (tX Q) (tY Q) (tZ Q))
        (cZ (tX P) (tY P) (tZ P) (tX Q) (tY Q) (tZ Q)) (padd P Q).
  Proof.
    intros HP HQ. destruct P as [|x1 y1], Q as [|x2 y2].
    - cbn. unfold cX, cY, cZ. repeat split; try ring.
      intros E. apply one_nz. rewrite <- E. ring.
    - cbn [padd tX tY tZ rep]. cbn in HQ. pose proof (y_nz _ _ HQ) as Hy.
      unfold cX, cY, cZ. split; [|split; ring].
      intros E. apply Hy. rewrite <- E. ring.
    - cbn [padd tX tY tZ rep]. cbn in HP. pose proof (y_nz _ _ HP) as Hy.
      unfold cX, cY, cZ. split; [|split; ring].
      intros E. apply Hy. rewrite <- E. ring.
    - apply c_aff; assumption.
  Qed.

  Lemma c_rep X1 Y1 Z1 X2 Y2 Z2 P Q : on P -> on Q ->
    rep X1 Y1 Z1 P -> rep X2 Y2 Z2 Q ->
    rep (cX X1 Y1 Z1 X2 Y2 Z2) (cY X1 Y1 Z1 X2 Y2 Z2) (cZ X1 Y1 Z1 X2 Y2 Z2) (padd P Q).
  Proof.
    intros HP HQ R1 R2.
    apply rep_form in R1. destruct R1 as (k & Hk & -> & -> & ->).
    apply rep_form in R2. destruct R2 as (j & Hj & -> & -> & ->).
    pose proof (c_canon P Q HP HQ) as R.
    apply (rep_scale (k * j * (k * j))) in R.
    2:{ apply mul_nz; apply mul_nz; assumption. }
    match goal with |- rep ?A ?B ?C _ => match type of R with rep ?A' ?B' ?C' _ =>
      replace A with A' by (unfold cX; ring);
      replace B with B' by (unfold cY; ring);
      replace C with C' by (unfold cZ; ring) end end.
    exact R.
  Qed.

  Lemma padd_comm P Q : on P -> on Q -> padd P Q = padd Q P.
  Proof.
    intros HP HQ. pose proof (c_canon P Q HP HQ) as R1. pose proof (c_canon Q P HQ HP) as R2.
    match type of R2 with rep ?A ?B ?C _ => match type of R1 with rep ?A' ?B' ?C' _ =>
      replace A with A' in R2 by (unfold cX; ring);
      replace B with B' in R2 by (unfold cY; ring);
      replace C with C' in R2 by (unfold cZ; ring) end end.
    eapply rep_fun; eassumption.
  Qed.

  (** Two representatives with vanishing cross products are the same point. *)
  Lemma rep_cross X Y Z X' Y' Z' P Q : rep X Y Z P -> rep X' Y' Z' Q ->
    X * Z' = Z * X' -> Y * Z' = Z * Y' -> P = Q.
  Proof.
    destruct P as [|x y], Q as [|x' y']; cbn.
    - reflexivity.
    - intros (-> & -> & HY) (HZ & _ & _) _ E. exfalso.
      apply (mul_nz Y Z' HY HZ). rewrite E. ring.
    - intros (HZ & _ & _) (-> & -> & HY) _ E. exfalso.
      apply (mul_nz Z Y' HZ HY). rewrite <- E. ring.
    - intros (HZ & -> & ->) (HZ' & -> & ->) E1 E2.
      assert (x = x').
      { apply (mul_cancel (Z * Z')); [apply mul_nz; assumption|].
        transitivity (x * Z * Z'); [ring|]. rewrite E1. ring. }
      assert (y = y').
      { apply (mul_cancel (Z * Z')); [apply mul_nz; assumption|].
        transitivity (y * Z * Z'); [ring|]. rewrite E2. ring. }
      congruence.
  Qed.

  Lemma assoc_xz x1 y1 x2 y2 x3 y3 :
    y1 * y1 = x1 * x1 * x1 + b -> y2 * y2 = x2 * x2 * x2 + b -> y3 * y3 = x3 * x3 * x3 + b ->
    let X12 := cX x1 y1 f1 x2 y2 f1 in let Y12 := cY x1 y1 f1 x2 y2 f1 in
    let Z12 := cZ x1 y1 f1 x2 y2 f1 in let X23 := cX x2 y2 f1 x3 y3 f1 in
    let Y23 := cY x2 y2 f1 x3 y3 f1 in let Z23 := cZ x2 y2 f1 x3 y3 f1 in
    cX X12 Y12 Z12 x3 y3 f1 * cZ x1 y1 f1 X23 Y23 Z23
    = cZ X12 Y12 Z12 x3 y3 f1 * cX x1 y1 f1 X23 Y23 Z23.
  Proof.
    intros H1 H2 H3. cbv zeta. unfold cX, cY, cZ. ring [H1 H2 H3].
  Qed.

  Lemma assoc_yz x1 y1 x2 y2 x3 y3 :
    y1 * y1 = x1 * x1 * x1 + b -> y2 * y2 = x2 * x2 * x2 + b -> y3 * y3 = x3 * x3 * x3 + b ->
    let X12 := cX x1 y1 f1 x2 y2 f1 in let Y12 := cY x1 y1 f1 x2 y2 f1 in
    let Z12 := cZ x1 y1 f1 x2 y2 f1 in let X23 := cX x2 y2 f1 x3 y3 f1 in
    let Y23 := cY x2 y2 f1 x3 y3 f1 in let Z23 := cZ x2 y2 f1 x3 y3 f1 in
    cY X12 Y12 Z12 x3 y3 f1 * cZ x1 y1 f1 X23 Y23 Z23
    = cZ X12 Y12 Z12 x3 y3 f1 * cY x1 y1 f1 X23 Y23 Z23.
  Proof.
    intros H1 H2 H3. cbv zeta. unfold cX, cY, cZ. ring [H1 H2 H3].
  Qed.

  Lemma padd_0_r P : padd P Inf = P.
  Proof. destruct P; reflexivity. Qed.

  Lemma padd_neg P : on P -> padd P (pneg P) = Inf.
  Proof.
    destruct P as [|x y]; [reflexivity|]. intros H. cbn.
    destruct (eqd x x) as [_|E]; [|congruence].
    destruct (eqd (y + - y) f0) as [_|E]; [reflexivity|]. exfalso. apply E. ring.
  Qed.

  Theorem padd_assoc P Q R : on P -> on Q -> on R ->
    padd (padd P Q) R = padd P (padd Q R).
  Proof.
    intros HP HQ HR.
    destruct P as [|x1 y1]; [reflexivity|].
    destruct Q as [|x2 y2]; [reflexivity|].
    destruct R as [|x3 y3]; [rewrite !padd_0_r; reflexivity|].
    pose proof (c_canon _ _ HP HQ) as R12. pose proof (c_canon _ _ HQ HR) as R23.
    pose proof (c_rep _ _ _ _ _ _ _ _ (padd_on _ _ HP HQ) HR R12 (rep_canon (Aff x3 y3))) as RL.
    pose proof (c_rep _ _ _ _ _ _ _ _ HP (padd_on _ _ HQ HR) (rep_canon (Aff x1 y1)) R23) as RR.
    cbn [tX tY tZ] in RL, RR. cbn in HP, HQ, HR.
    eapply rep_cross; [exact RL|exact RR| |].
    - apply assoc_xz; assumption.
    - apply assoc_yz; assumption.
  Qed.

  (** No point of order 2. *)
  Lemma no_two_torsion P : on P -> P = pneg P -> P = Inf.
  Proof.
    destruct P as [|x y]; [reflexivity|]. cbn. intros H E. exfalso.
    injection E as E. apply (y_nz _ _ H).
    apply (mul_cancel f2); [exact two_nz|].
    transitivity (y + y); [ring|]. rewrite E at 2. ring.
  Qed.

End EC.
