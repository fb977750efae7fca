(** When the firewall enters the phases of an allowance. *)
From Coq Require Import ZArith List Lia Bool.
From Verif Require Import Bytes Res Dto Prot DkgProt KMap Firewall FwSpec FwProofs FwProofs2 FwProofs3 PropsFw.
Import ListNotations.
Open Scope Z_scope.

Section Phases.
  Context {D : Type}.
  Notation fw := (fw D). Notation fobs := (fobs D). Notation fevent := (fevent D).
  Variables (d0 : bool) (until : Z) (kn : key -> bool).
  Notation sound := (sound (D := D) d0 until kn).

  Definition phase_due (pre : list fobs) (t : Z) (k : key) (v : Z) : Prop :=
    exists t0 a a1 a2, pre = a1 ++ FSet t0 k a :: a2 /\ existsb (is_set k) a2 = false /\ existsb (is_phase k 3) a2 = false /\ phase k pre = Some (v - 1) /\
      (v = 1 /\ al_buf a <= t \/ v = 2 /\ al_start a <= t \/ v = 3 /\ al_stop a <= t).

  Lemma passes_quiet k now (l : list (message D)) : forall tr, phase k (tr ++ map (FPass now) l) = phase k tr /\ existsb (is_set k) (map (FPass now) l) = false /\ existsb (is_phase k 3) (map (FPass now) l) = false.
  Proof.
    induction l as [|m l IH]; intros tr; [rewrite app_nil_r; auto|]. cbn [map]. destruct (IH (tr ++ [FPass now m])) as (A & B & C).
    rewrite <- app_assoc in A. cbn [app] in A. rewrite A, phase_snoc. cbn [existsb is_set is_phase]. auto.
  Qed.
  Lemma not_passed now (l : list (message D)) x t k v y : map (FPass now) l = x ++ FPhase t k v :: y -> False.
  Proof.
    intros E. assert (X : In (FPhase t k v) (map (FPass now) l)) by (rewrite E; apply in_elt). apply in_map_iff in X. destruct X as (m & X & _). discriminate X.
  Qed.
  Lemma one_phase now k v n w x t k' v' y : [@FPhase D now k v; FTold now k n w] = x ++ FPhase t k' v' :: y -> x = [] /\ t = now /\ k' = k /\ v' = v.
  Proof.
    intros E. destruct x as [|z x]; [injection E as <- <- <- _; auto|]. destruct x as [|z' x]; [discriminate E|]. destruct x; discriminate E.
  Qed.

  Lemma wake_phase k (f f' : fw) n now o tr T x t k' v y : KI (D := D) d0 until kn k (view_of k f) tr T -> fw_state_step f now k n = Ok (f', o) -> o = x ++ FPhase t k' v :: y ->
    t = now /\ phase_due (tr ++ x) t k' v.
  Proof.
    intros HKI HS EO. unfold fw_state_step in HS.
    assert (SAME : @nil fobs = x ++ FPhase t k' v :: y -> t = now /\ phase_due (tr ++ x) t k' v) by (intros X; destruct x; discriminate X).
    destruct (nth_error (kslice (f_calls f) k) n) as [s|] eqn:EN; [|injection HS as _ <-; auto].
    destruct (sl_thread s) as [th|] eqn:ET; [|injection HS as _ <-; auto].
    destruct (match th with FEnd => true | _ => false end) eqn:TE; [destruct th; try discriminate TE; injection HS as _ <-; auto|].
    pose proof HKI as (A & B & C & E). destruct E as [(I1 & I2 & I3 & I4 & I5)|E].
    { exfalso. destruct (I4 n s EN) as [X|X]; rewrite ET in X; [discriminate|]. injection X as ->. discriminate TE. }
    destruct E as (n0 & s0 & a & t0 & a1 & a2 & X1 & X2 & X3 & X4 & E5 & X6 & X7 & X8 & X9 & X10).
    assert (n0 = n). { destruct (Nat.eq_dec n n0) as [|NE]; [auto|]. exfalso. destruct (X2 n s NE EN) as [X|X]; rewrite ET in X; [discriminate|]. injection X as ->. discriminate TE. }
    subst n0. cbn [view_of v_calls] in X1. rewrite EN in X1. injection X1 as <-. rewrite ET in X10. clear X2 X9 A B C.
    destruct th as [|b|b|b|]; [injection HS as _ <-; auto| | | |discriminate TE].
    - destruct X10 as (-> & _ & PH & _). destruct (Z.ltb_spec now (al_buf a)); [injection HS as _ <-; auto|].
      destruct (told _ _) as [c| |]; cbn [rbind] in HS; try discriminate. injection HS as _ <-. apply one_phase in EO. destruct EO as (-> & -> & -> & ->).
      split; [reflexivity|]. exists t0, a, a1, a2. rewrite app_nil_r. unfold fw_buffering. auto 8.
    - destruct X10 as (-> & _ & PH & _). destruct (Z.ltb_spec now (al_start a)); [injection HS as _ <-; auto|].
      destruct (told _ _) as [c| |]; cbn [rbind fw_flush fst snd] in HS; try discriminate. injection HS as _ <-. symmetry in EO. apply app_eq_app in EO. destruct EO as (l & [(EX & EL)|(EX & EL)]).
      + subst x. symmetry in EL. apply eq_sym, one_phase in EL. destruct EL as (-> & -> & -> & ->). rewrite app_nil_r.
        destruct (passes_quiet k now (kslice (f_buf f) k) tr) as (Q1 & Q2 & Q3). split; [reflexivity|]. exists t0, a, a1, (a2 ++ map (FPass now) (kslice (f_buf f) k)).
        rewrite Q1, E5, !existsb_app, X6, X7, Q2, Q3, <- E5, PH, E5, <- app_assoc. unfold fw_forwarding. cbn [orb app]. auto 8.
      + destruct l as [|z l]; [|exfalso; injection EL as EZ _; subst z; eapply not_passed; exact EX].
        rewrite app_nil_r in EX. cbn [app] in EL. symmetry in EL. pose proof (one_phase _ _ _ _ _ [] _ _ _ _ EL) as (_ & -> & -> & ->). subst x.
        destruct (passes_quiet k now (kslice (f_buf f) k) tr) as (Q1 & Q2 & Q3). split; [reflexivity|]. exists t0, a, a1, (a2 ++ map (FPass now) (kslice (f_buf f) k)).
        rewrite Q1, E5, !existsb_app, X6, X7, Q2, Q3, <- E5, PH, E5, <- app_assoc. unfold fw_forwarding. cbn [orb app]. auto 8.
    - destruct X10 as (-> & _ & PH & _). destruct (Z.ltb_spec now (al_stop a)); [injection HS as _ <-; auto|].
      destruct (told _ _) as [c| |]; cbn [rbind] in HS; try discriminate. injection HS as _ <-. apply one_phase in EO. destruct EO as (-> & -> & -> & ->).
      split; [reflexivity|]. exists t0, a, a1, a2. rewrite app_nil_r. unfold fw_stopped. auto 8.
  Qed.

  Lemma step_phase (f f' : fw) ev o tr T x t k v y : sound f tr T -> fstep f ev = Ok (f', o) -> o = x ++ FPhase t k v :: y -> t = time_of ev /\ phase_due (tr ++ x) t k v.
  Proof.
    intros (_ & _ & _ & HK) HS EO. assert (IN : In (FPhase t k v) o) by (rewrite EO; apply in_elt).
    destruct ev as [now m|now|now k' a|now k' n|now k' n]; cbn [fstep time_of] in HS |- *.
    - exfalso. injection HS as _ <-. destruct IN as [X|X]; [discriminate X|]. revert X. unfold fw_process. destruct (_ || _); [intros []|]. destruct (kget _ _); [|intros []].
      destruct (_ =? _); [destruct (_ <? _); intros []|]. destruct (_ =? _); [|intros []]. intros [X|[]]. discriminate X.
    - exfalso. destruct (_ && _); injection HS as _ <-; [destruct IN as [X|[]]; discriminate X|destruct IN].
    - exfalso. unfold fw_set_allowance in HS. destruct (negb _); [discriminate|]. destruct (kget _ _); injection HS as _ <-; [destruct IN|destruct IN as [X|[]]; discriminate X].
    - eapply wake_phase; [apply (HK k')|exact HS|exact EO].
    - exfalso. injection HS as _ <-. destruct IN.
  Qed.

  Lemma exec_phase evs : forall (f f' : fw) o tr T, clock T evs -> sound f tr T -> fexec f evs = Ok (f', o) -> forall x t k v y, o = x ++ FPhase t k v :: y -> phase_due (tr ++ x) t k v.
  Proof.
    induction evs as [|ev evs IH]; intros f f' o tr T HC HS HE x t k v y EO; cbn [fexec] in HE.
    - injection HE as _ <-. destruct x; discriminate EO.
    - destruct HC as [C1 C2]. destruct (fstep f ev) as [[f1 o1]| |] eqn:E1; cbn [rbind fst snd] in HE; try discriminate.
      destruct (fexec f1 evs) as [[f2 o2]| |] eqn:E2; cbn [rbind fst snd] in HE; try discriminate. injection HE as _ <-.
      destruct (step_sound _ _ _ f f1 ev o1 tr T C1 HS E1) as [S1 _].
      apply app_eq_app in EO. destruct EO as (l & [(EX & EL)|(EX & EL)]).
      + destruct l as [|z l].
        * cbn [app] in EL. rewrite app_nil_r in EX. subst x. pose proof (IH _ _ _ _ _ C2 S1 E2 [] t k v y (eq_sym EL)) as X. rewrite app_nil_r in X. exact X.
        * cbn [app] in EL. injection EL as EZ _. subst z. eapply step_phase; [exact HS|exact E1|exact EX].
      + subst x. pose proof (IH _ _ _ _ _ C2 S1 E2 l t k v y EL) as X. rewrite <- app_assoc in X. exact X.
  Qed.
End Phases.
