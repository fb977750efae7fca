(** A run computes the flow of FlowSpec.v. *)
From Coq Require Import ZArith List Lia Bool.
From Verif Require Import Bytes Res Dto DtoProofs Prot ProtSpec ProtProofs ProtProofs2 ProtProofs3 ProtProofs6 FlowSpec.
Import ListNotations.
Open Scope Z_scope.

Section FP.
  Context {D A K E V : Type}.
  Notation message := (message D). Notation rst := (rst D K). Notation obs := (obs D A V).
  Notation action := (action D V). Notation event := (event D E).
  Variable p : protocol D A K E V.
  Variable c : info.
  Notation take := (take (D := D) (A := A) (K := K) (E := E) (V := V) c). Notation take_all := (take_all (D := D) (A := A) (K := K) (E := E) (V := V) c). Notation begin := (begin (D := D) (A := A) (K := K) (E := E) (V := V) c). Notation through := (through p c).
  Notation flow := (flow (D := D) (K := K) (V := V)).

  Lemma doings_app (a b : list obs) : doings (a ++ b) = doings a ++ doings b. Proof. apply flat_map_app. Qed.
  Lemma take_all_app e s l1 : forall x l2, take_all e s x (l1 ++ l2) = (y <- take_all e s x l1 ;; take_all e s y l2).
  Proof. induction l1 as [|m l1 IH]; intros x l2; cbn; [reflexivity|]. destruct (take e s x m); cbn [rbind]; [apply IH|reflexivity|reflexivity]. Qed.
  Lemma through_ext e k0 ms ms' n : (forall k, 0 <= k < Z.of_nat n -> ms k = ms' k) -> through e n k0 ms = through e n k0 ms'.
  Proof.
    induction n as [|n IH]; intros H; [reflexivity|]. cbn [FlowSpec.through]. rewrite IH by (intros; apply H; lia).
    destruct (through e n k0 ms') as [x| |]; [|reflexivity|reflexivity]. cbn [rbind]. rewrite H by lia. reflexivity.
  Qed.

  Definition now_at (r : rst) (o : list action) : flow := mkFlow (r_k r) (r_abandon r) o.
  Lemma msg_flow (e : E) (r r' : rst) m tr o s : stage_at p (m_op m) = Some s -> process_msg p c e r m = Ok (r', tr) ->
    take e s (now_at r o) m = Ok (now_at r' (o ++ doings tr)) /\ same r r'.
  Proof.
    intros ES. unfold process_msg, FlowSpec.take. rewrite ES. cbn [now_at fl_ab].
    assert (TR : Ok (r, [OHandle m : obs]) = Ok (r', tr) -> Ok (now_at r o) = Ok (now_at r' (o ++ doings tr)) /\ same r r').
    { intros H. injection H as <- <-. cbn. rewrite app_nil_r. split; [reflexivity|apply same_refl]. }
    destruct (r_abandon r) eqn:HA; [exact TR|]. destruct (sg_proc s) as [f|] eqn:EP; [|exact TR].
    destruct (sg_type s (m_dto m)); cbn [negb]; [|exact TR]. destruct (sg_unm s (m_dto m)) as [a| |]; [|exact TR|discriminate].
    destruct (_ && _); [|exact TR]. destruct (sg_valid s a (m_sender m)) as [[|]| |]; cbn [rbind]; try discriminate; [|exact TR].
    unfold perform, call. cbn [now_at fl_ab fl_k fl_acts]. rewrite HA. destruct (f c e (r_k r) a) as [[kd' acts]| |]; cbn [rbind fst snd]; try discriminate.
    destruct (do_actions c (set_k r kd') acts) as [[r1 t1]| |] eqn:E1; cbn [rbind fst snd]; try discriminate.
    intros H. injection H as <- <-. destruct (acts_done c (fun _ _ _ _ => True) _ _ _ _ E1) as (O1 & K1 & A1 & S1). split; [|exact S1].
    unfold now_at. rewrite K1, A1. cbn [set_k r_k r_abandon]. rewrite HA. cbn [orb]. assert (OD : doings (OHandle m :: OProc m a :: t1) = acts) by exact O1. rewrite OD. reflexivity.
  Qed.
  Lemma msgs_flow (e : E) s l : forall (r r' : rst) tr o, stage_at p (r_state r) = Some s -> Forall (fun m => m_op m = r_state r) l ->
    process_all p c e r l = Ok (r', tr) -> take_all e s (now_at r o) l = Ok (now_at r' (o ++ doings tr)) /\ same r r'.
  Proof.
    induction l as [|m l IH]; intros r r' tr o ES HO; cbn [process_all FlowSpec.take_all].
    - intros H. injection H as <- <-. cbn. rewrite app_nil_r. split; [reflexivity|apply same_refl].
    - inversion HO as [|? ? Hm HO']; subst.
      destruct (process_msg p c e r m) as [[r1 t1]| |] eqn:E1; cbn [rbind fst snd]; try discriminate.
      destruct (process_all p c e r1 l) as [[r2 t2]| |] eqn:E2; cbn [rbind fst snd]; try discriminate.
      intros H. injection H as <- <-. destruct (msg_flow _ _ _ _ _ o s ltac:(rewrite Hm; exact ES) E1) as [F1 S1]. rewrite F1. cbn [rbind].
      pose proof S1 as (Q1 & _). destruct (IH r1 r2 t2 (o ++ doings t1)) as [F2 S2]; [rewrite Q1; exact ES|rewrite Q1; exact HO'|exact E2|].
      rewrite F2, doings_app, app_assoc. split; [reflexivity|eapply same_trans; eassumption].
  Qed.
  Lemma enter_flow (e : E) now (r r' : rst) tr o : keyed (r_rcv r) -> enter_stage p c e now r = Ok (r', tr) ->
    exists s y, stage_at p (r_state r + 1) = Some s /\ begin e s (now_at r o) = Ok y /\ take_all e s y (mslice (r_rcv r) (r_state r + 1)) = Ok (now_at r' (o ++ doings tr)) /\
      r_state r' = r_state r + 1 /\ r_term r' = r_term r /\ r_loc r' = LStage.
  Proof.
    intros HK. unfold enter_stage. set (k := r_state r + 1). destruct (stage_at p k) as [s|] eqn:ES; [|discriminate].
    unfold flush_snd_buf. destruct (try_send_all c _) as [o1| |] eqn:E1; cbn [rbind fst snd]; try discriminate.
    apply try_send_all_spec in E1. destruct E1 as [E1 _].
    assert (O1 : doings o1 = []) by (rewrite E1; cbn [set_stage r_snd r_state]; induction (mslice (r_snd r) k) as [|x l IH]; [reflexivity|exact IH]).
    match goal with |- context [set_snd ?x ?y] => set (r2 := set_snd x y) end.
    destruct (run_step c e s r2) as [[r3 t3]| |] eqn:E3; cbn [rbind fst snd]; try discriminate.
    assert (I3 : begin e s (now_at r o) = Ok (now_at r3 (o ++ doings t3)) /\ same r2 r3).
    { revert E3. unfold run_step, FlowSpec.begin, call. change (r_abandon r2) with (r_abandon r). change (r_k r2) with (r_k r). cbn [now_at fl_ab fl_k fl_acts].
      assert (TR : Ok (r2, []) = Ok (r3, t3) -> Ok (now_at r o) = Ok (now_at r3 (o ++ doings t3)) /\ same r2 r3).
      { intros H. injection H as <- <-. cbn. rewrite app_nil_r. split; [reflexivity|apply same_refl]. }
      destruct (sg_step s) as [f|]; [|destruct (r_abandon r); exact TR]. destruct (r_abandon r) eqn:HA; [exact TR|].
      unfold perform. destruct (f c e (r_k r)) as [[kd' acts]| |] eqn:EF; cbn [rbind fst snd]; try discriminate.
      destruct (do_actions c (set_k r2 kd') acts) as [[r4 t4]| |] eqn:E4; cbn [rbind fst snd]; try discriminate.
      intros H. injection H as <- <-. destruct (acts_done c (fun _ _ _ _ => True) _ _ _ _ E4) as (O4 & K4 & A4 & S4). split; [|exact S4].
      unfold now_at. rewrite K4, A4. cbn [set_k r_k r_abandon]. change (r_abandon r2) with (r_abandon r). rewrite HA. cbn [orb].
      assert (OD : forall st, doings (OStep st :: t4) = acts) by (intros st; exact O4). rewrite OD. reflexivity. }
    destruct I3 as [I3 S3].
    destruct (process_all p c e r3 (mslice (r_rcv r3) k)) as [[r4 t4]| |] eqn:E4; cbn [rbind fst snd]; try discriminate.
    destruct S3 as (Q1 & _ & Q3 & Q4 & _). change (r_state r2) with k in Q1. change (r_rcv r2) with (r_rcv r) in Q3. change (r_term r2) with (r_term r) in Q4.
    destruct (msgs_flow e s (mslice (r_rcv r3) k) r3 r4 t4 (o ++ doings t3)) as [I4 S4]; [rewrite Q1; exact ES|rewrite Q1, Q3; apply HK|exact E4|].
    intros H. injection H as <- <-. exists s, (now_at r3 (o ++ doings t3)). split; [reflexivity|]. split; [exact I3|]. rewrite <- Q3. destruct S4 as (R1 & _ & _ & R4 & _). split; [|split; [|split; [|reflexivity]]].
    - change (doings (OEnter k now :: o1 ++ t3 ++ t4)) with (doings (o1 ++ t3 ++ t4)). rewrite !doings_app, O1. cbn [app]. rewrite app_assoc. exact I4.
    - cbn. rewrite R1. exact Q1.
    - cbn. rewrite R4. exact Q4.
  Qed.

  Section Closed.
    Variables (e0 : E) (B : Z).
    Hypothesis CL : closed_upto p c B.
    Hypothesis NL : no_last_proc p.
    Lemma take_env s j e x m : stage_at p j = Some s -> j <= B -> take e s x m = take e0 s x m.
    Proof.
      intros ES LE. destruct (CL j s ES LE) as [_ HP]. unfold FlowSpec.take. destruct (fl_ab x) eqn:HA; [reflexivity|]. destruct (sg_proc s) as [f|]; [|reflexivity].
      destruct (sg_type s (m_dto m)); [|reflexivity]. destruct (sg_unm s (m_dto m)); [|reflexivity|reflexivity]. destruct (_ && _); [|reflexivity].
      destruct (sg_valid s _ _) as [[|]| |]; cbn [rbind]; try reflexivity. unfold call. rewrite HA, (HP f eq_refl e e0). reflexivity.
    Qed.
    Lemma take_all_env s j e l : stage_at p j = Some s -> j <= B -> forall x, take_all e s x l = take_all e0 s x l.
    Proof. intros ES LE. induction l as [|m l IH]; intros x; [reflexivity|]. cbn. rewrite (take_env s j) by assumption. destruct (take e0 s x m); cbn [rbind]; [apply IH|reflexivity|reflexivity]. Qed.
    Lemma begin_env s j e x : stage_at p j = Some s -> j <= B -> begin e s x = begin e0 s x.
    Proof. intros ES LE. destruct (CL j s ES LE) as [HS _]. unfold FlowSpec.begin, call. destruct (sg_step s) as [f|]; [|reflexivity]. rewrite (HS f eq_refl e e0). reflexivity. Qed.

    Variable k0 : K.
    Definition msgs (tr : list obs) (k : Z) : list message := for_op k (handled tr).
    Definition finv (r : rst) (tr : list obs) : Prop := r_state r <= B ->
      exists x, through e0 (Z.to_nat (r_state r + 1)) k0 (msgs tr) = Ok x /\ fl_ab x = r_abandon r /\ fl_acts x = doings tr /\ r_k r = if r_term r then p_cleanup p (fl_k x) else fl_k x.
    Lemma finv_enter (e : E) now rcvd r tr r' t' : Inv p c rcvd r tr -> Inv p c rcvd r' (tr ++ t') -> r_term r = false -> finv r tr -> enter_stage p c e now r = Ok (r', t') -> finv r' (tr ++ t').
    Proof.
      intros HI HI' HT HF HE HB. destruct (enter_flow e now r r' t' (doings tr) (iv_keyed _ _ _ _ _ HI) HE) as (s & y & ES & EB & ET & ER & EM & EL).
      pose proof (iv_range _ _ _ _ _ HI) as [RG _]. destruct (HF ltac:(lia)) as (x & X1 & X2 & X3 & X4). rewrite HT in X4.
      assert (NX : now_at r (doings tr) = x) by (unfold now_at; destruct x; cbn in *; subst; reflexivity). rewrite NX in EB.
      rewrite (begin_env s _ _ _ ES) in EB by lia. rewrite (take_all_env s _ _ _ ES) in ET by lia.
      exists (now_at r' (doings tr ++ doings t')). split; [|split; [reflexivity|split; [cbn; symmetry; apply doings_app|]]].
      - replace (Z.to_nat (r_state r' + 1)) with (S (Z.to_nat (r_state r + 1))) by lia. cbn [FlowSpec.through].
        rewrite (through_ext e0 k0 (msgs (tr ++ t')) (msgs tr)).
        + rewrite X1. cbn [rbind]. rewrite Z2Nat.id by lia. rewrite ES, EB. cbn [rbind].
          assert (EQ : msgs (tr ++ t') (r_state r + 1) = mslice (r_rcv r) (r_state r + 1)).
          { pose proof (iv_rcv _ _ _ _ _ HI (r_state r + 1)) as Y1. pose proof (iv_rcv _ _ _ _ _ HI' (r_state r + 1)) as Y2.
            destruct (iv_rcv_future _ _ _ _ _ HI (r_state r + 1)) as [Z1 Z2]; [lia|]. rewrite Z1, Z2 in Y1. cbn [app] in Y1.
            rewrite (iv_rcv_past _ _ _ _ _ HI') in Y2 by lia.
            assert (PA : for_op (r_state r + 1) (dropped (tr ++ t')) = []) by (pose proof (iv_loc _ _ _ _ _ HI') as LO; rewrite EL in LO; rewrite <- ER; apply (iv_rcv_now _ _ _ _ _ HI'), LO).
            rewrite PA in Y2. cbn [app] in Y2. rewrite app_nil_r in Y2. unfold msgs. congruence. }
          rewrite EQ. exact ET.
        + intros k Hk. unfold msgs. rewrite handled_app, for_op_app.
          assert (Z0 : for_op k (handled t') = []); [|rewrite Z0, app_nil_r; reflexivity].
          pose proof (iv_rcv _ _ _ _ _ HI k) as Y1. pose proof (iv_rcv _ _ _ _ _ HI' k) as Y2. rewrite (iv_rcv_past _ _ _ _ _ HI) in Y1 by lia. rewrite (iv_rcv_past _ _ _ _ _ HI') in Y2 by lia.
          rewrite handled_app, dropped_app, !for_op_app in Y2. rewrite Y1 in Y2. apply (f_equal (@length _)) in Y2. rewrite !app_length in Y2.
          destruct (for_op k (handled t')); [reflexivity|cbn in Y2; lia].
      - rewrite EM, HT. reflexivity.
    Qed.
    Lemma quiet_finv r tr (r' : rst) t' : finv r tr -> r_state r' = r_state r -> r_abandon r' = r_abandon r -> r_k r' = r_k r -> r_term r' = r_term r -> handled t' = [] -> doings t' = [] -> finv r' (tr ++ t').
    Proof.
      intros HF E1 E2 E3 E4 EH ED HB. destruct (HF ltac:(lia)) as (x & X1 & X2 & X3 & X4). exists x. rewrite E1, E2, E3, E4, doings_app, ED, app_nil_r.
      split; [|auto]. rewrite <- X1. apply through_ext. intros k _. unfold msgs. rewrite handled_app, EH, app_nil_r. reflexivity.
    Qed.
    Lemma step_finv rcvd r tr ev r' t' : Inv p c rcvd r tr -> finv r tr -> step p c r ev = Ok (r', t') -> finv r' (tr ++ t').
    Proof.
      intros HI HF E1. pose proof (iv_loc _ _ _ _ _ HI) as HL. pose proof (iv_range _ _ _ _ _ HI) as HR. destruct ev as [e now|e m]; cbn [step] in E1.
      - pose proof (tick_inv p c e now rcvd r tr r' t' HI E1) as HI'. unfold tick in E1.
        assert (LT : r_term r = false -> loop_top p c e now r = Ok (r', t') -> finv r' (tr ++ t')).
        { intros HT. unfold loop_top. destruct (Z.ltb_spec (r_state r) (final p)) as [LT|GE].
          - destruct (_ <? _).
            + intros H. injection H as <- <-. apply (quiet_finv r); try reflexivity. exact HF.
            + eapply finv_enter; eassumption.
          - intros H. injection H as <- <-. intros HB. cbn in HB. destruct (HF HB) as (x & X1 & X2 & X3 & X4). rewrite HT in X4. exists x. cbn. rewrite doings_app. cbn. rewrite app_nil_r.
            split; [|split; [exact X2|split; [exact X3|congruence]]]. rewrite <- X1. apply through_ext. intros k _. unfold msgs. rewrite handled_app. cbn. rewrite app_nil_r. reflexivity. }
        destruct (r_loc r).
        + injection E1 as <- <-. apply (quiet_finv r); try reflexivity. exact HF.
        + apply LT; [apply HL|exact E1].
        + apply LT; [apply HL|exact E1].
        + eapply finv_enter; try eassumption. apply HL.
        + injection E1 as <- <-. apply (quiet_finv r); try reflexivity. exact HF.
      - unfold deliver in E1. destruct (_ || _) eqn:ED; [injection E1 as <- <-; apply (quiet_finv r); try reflexivity; exact HF|].
        destruct (Z.ltb_spec (r_state r) (m_op m)) as [LT|GE]; [injection E1 as <- <-; apply (quiet_finv r); try reflexivity; exact HF|].
        apply orb_false_iff in ED. rewrite Z.ltb_ge in ED. assert (EO : m_op m = r_state r) by lia. intros HB.
        destruct (stage_at p (m_op m)) as [s|] eqn:ES.
        + destruct (msg_flow e r r' m t' (doings tr) s ES E1) as [F1 S1]. pose proof S1 as (S1a & _ & _ & S1d & _). destruct (HF ltac:(lia)) as (x & X1 & X2 & X3 & X4).
          rewrite (take_env s _ _ _ _ ES) in F1 by lia.
          assert (PN : r_paused r = false) by (destruct ED as [_ ED]; rewrite EO, Z.eqb_refl in ED; exact ED).
          destruct (process_msg_spec p c e r m r' t' tr (iv_link _ _ _ _ _ HI) (eq_sym EO) PN E1) as (_ & _ & _ & HH & _).
          assert (UP : forall x', take e0 s x m = Ok x' -> through e0 (Z.to_nat (r_state r' + 1)) k0 (msgs (tr ++ t')) = Ok x').
          { pose proof (stage_at_range _ _ _ ES) as RG. intros x' EX. rewrite S1a. revert X1. replace (Z.to_nat (r_state r + 1)) with (S (Z.to_nat (r_state r))) by lia. cbn [FlowSpec.through].
            rewrite (through_ext e0 k0 (msgs (tr ++ t')) (msgs tr)).
            2:{ intros k Hk. unfold msgs. rewrite handled_app, for_op_app, HH. cbn. destruct (Z.eqb_spec (m_op m) k); [lia|]. apply app_nil_r. }
            destruct (through e0 (Z.to_nat (r_state r)) k0 (msgs tr)) as [z| |]; cbn [rbind]; try discriminate. rewrite Z2Nat.id by lia. rewrite <- EO, ES.
            destruct (begin e0 s z) as [y| |]; cbn [rbind]; try discriminate. intros X1. unfold msgs in *. rewrite handled_app, for_op_app, HH, take_all_app, X1. cbn. rewrite Z.eqb_refl. cbn. rewrite EX. reflexivity. }
          destruct (r_term r) eqn:HT.
          * destruct (r_loc r); try (destruct HL as (_ & _ & HL); discriminate HL). destruct HL as (FI & _). assert (NP : sg_proc s = None) by (apply NL; rewrite <- FI, <- EO; exact ES).
            assert (ID : r' = r /\ t' = [OHandle m]) by (revert E1; unfold process_msg; rewrite ES, NP; destruct (r_abandon r); intros E1; injection E1 as <- <-; auto).
            destruct ID as [-> ->]. exists x. split; [apply UP; unfold FlowSpec.take; rewrite NP; destruct (fl_ab x); reflexivity|]. rewrite HT, doings_app. cbn. rewrite app_nil_r. auto.
          * assert (NX : now_at r (doings tr) = x) by (unfold now_at; destruct x; cbn in *; subst; reflexivity). rewrite NX in F1.
            exists (now_at r' (doings tr ++ doings t')). split; [apply UP, F1|]. rewrite doings_app, S1d. auto.
        + revert E1. unfold process_msg. rewrite ES. destruct (r_abandon r) eqn:HA; [|discriminate]. intros E1. injection E1 as <- <-. exfalso.
          pose proof (iv_range _ _ _ _ _ HI). unfold stage_at in ES. destruct (Z.ltb_spec (m_op m) 0).
          * assert (EQ : r_state r = -1) by lia. destruct (HF ltac:(cbn in HB; lia)) as (x & X1 & X2 & _). rewrite EQ in X1. cbn in X1. injection X1 as <-. cbn in X2. congruence.
          * apply nth_error_None in ES. unfold final in *. lia.
    Qed.
    Lemma exec_finv evs : forall rcvd r tr r' t', Inv p c rcvd r tr -> finv r tr -> exec p c r evs = Ok (r', t') -> finv r' (tr ++ t').
    Proof.
      induction evs as [|ev evs IH]; intros rcvd r tr r' t' HI HF; cbn [exec].
      - intros H. injection H as <- <-. rewrite app_nil_r. exact HF.
      - destruct (step p c r ev) as [[r1 t1]| |] eqn:E1; cbn [rbind fst snd]; try discriminate.
        destruct (exec p c r1 evs) as [[r2 t2]| |] eqn:E2; cbn [rbind fst snd]; try discriminate.
        intros H. injection H as <- <-. destruct (step_inv p c _ _ _ _ _ _ HI E1) as [rc1 HI1]. rewrite app_assoc. eapply IH; [exact HI1| |exact E2]. eapply step_finv; eassumption.
    Qed.
    Lemma run_flow evs r tr : exec p c (new_run k0) evs = Ok (r, tr) -> finv r tr.
    Proof.
      intros H. apply (exec_finv evs [] (new_run k0) [] r tr (inv_new p c k0)); [|exact H]. intros _. exists (mkFlow k0 false []). repeat split.
    Qed.
  End Closed.
End FP.
