(** When messages are sent and when they are dropped. *)
From Coq Require Import ZArith List Lia Bool Sorted.
From Verif Require Import Bytes Res Dto DtoProofs Prot ProtSpec ProtProofs ProtProofs2 TimeSpec.
Import ListNotations.
Open Scope Z_scope.

Section Time.
  Context {D A K E V : Type}.
  Notation message := (message D). Notation rst := (rst D K). Notation obs := (obs D A V).
  Notation action := (action D V). Notation stage := (stage D A K E V). Notation event := (event D E).
  Variable p : protocol D A K E V.
  Variable c : info.
  Notation final := (final p). Notation elapsed := (elapsed p).

  (** ** Protocols that send only on entering a stage *)
  Definition takes (k : Z) : Prop := exists s, stage_at p k = Some s /\ sg_proc s <> None.
  Definition sends_only (P : Z -> Prop) (a : action) : Prop := match a with ASend _ op _ => P op | _ => True end.
  Definition prompt : Prop := forall k s, stage_at p k = Some s ->
    (forall f ci e kd kd' acts, sg_step s = Some f -> f ci e kd = Ok (kd', acts) -> Forall (sends_only (fun op => op = k /\ takes op)) acts) /\
    (forall f ci e kd arg kd' acts, sg_proc s = Some f -> f ci e kd arg = Ok (kd', acts) -> Forall (sends_only (fun op => op = k + 1 /\ takes op)) acts).

  Definition mobs (P Q : Z -> Prop) (o : obs) : Prop :=
    match o with OCreate m => P (m_op m) | OSent m => Q (m_op m) | _ => True end.
  Lemma actions_obs (P : Z -> Prop) l : forall (r r' : rst) (t : list obs), Forall (sends_only P) l -> do_actions c r l = Ok (r', t) ->
    r_state r' = r_state r /\ Forall (mobs P (fun op => P op /\ op <= r_state r)) t.
  Proof.
    induction l as [|a l IH]; intros r r' t F; cbn [do_actions].
    - intros H. injection H as <- <-. split; [reflexivity|constructor].
    - inversion F as [|? ? F1 F2]; subst.
      destruct (do_action c r a) as [[r1 t1]| |] eqn:E1; cbn [rbind fst snd]; try discriminate.
      destruct (do_actions c r1 l) as [[r2 t2]| |] eqn:E2; cbn [rbind fst snd]; try discriminate.
      intros H. injection H as <- <-. specialize (IH r1 r2 t2 F2 E2).
      assert (X : r_state r1 = r_state r /\ Forall (mobs P (fun op => P op /\ op <= r_state r)) t1).
      { destruct a as [i op d| |pc v]; cbn [do_action] in E1; cbn in F1.
        - unfold send in E1. cbv zeta in E1. destruct (Z.ltb_spec (r_state r) op) as [LT|GE].
          + injection E1 as <- <-. split; [reflexivity|]. repeat constructor. exact F1.
          + unfold try_send in E1. destruct (_ && _); cbn [rbind] in E1; [|discriminate]. injection E1 as <- <-.
            split; [reflexivity|]. repeat constructor; cbn; auto.
        - injection E1 as <- <-. split; [reflexivity|]. repeat constructor.
        - injection E1 as <- <-. split; [reflexivity|]. repeat constructor. }
      destruct X as [X1 X2]. destruct IH as [I1 I2]. rewrite X1 in I1, I2. split; [exact I1|]. apply Forall_app. split; [exact X2|exact I2].
  Qed.
  Lemma process_obs e r m r' (t : list obs) : prompt -> m_op m = r_state r -> process_msg p c e r m = Ok (r', t) ->
    r_state r' = r_state r /\ Forall (mobs takes (fun _ => False)) t.
  Proof.
    intros PR EO H. unfold process_msg in H.
    assert (TR : r' = r -> t = [OHandle m] -> r_state r' = r_state r /\ Forall (mobs takes (fun _ => False)) t)
      by (intros -> ->; split; [reflexivity|repeat constructor]).
    destruct (r_abandon r); [inversion H; subst; exact (TR eq_refl eq_refl)|].
    destruct (stage_at p (m_op m)) as [s|] eqn:ES; [|discriminate H].
    destruct (sg_proc s) as [proc|] eqn:EP; [|inversion H; subst; exact (TR eq_refl eq_refl)].
    destruct (negb (sg_type s (m_dto m))); [inversion H; subst; exact (TR eq_refl eq_refl)|].
    destruct (sg_unm s (m_dto m)) as [arg| |]; [|inversion H; subst; exact (TR eq_refl eq_refl)|discriminate H].
    destruct ((0 <=? m_sender m) && (m_sender m <? i_members c)); [|inversion H; subst; exact (TR eq_refl eq_refl)].
    destruct (sg_valid s arg (m_sender m)) as [[|]| |]; cbn [rbind] in H; try discriminate H; [|inversion H; subst; exact (TR eq_refl eq_refl)].
    unfold perform in H. destruct (proc c e (r_k r) arg) as [[k acts]| |] eqn:EA; cbn [rbind fst snd] in H; try discriminate H.
    destruct (do_actions c (set_k r k) acts) as [[r1 t1]| |] eqn:EF; cbn [rbind fst snd] in H; try discriminate H.
    injection H as <- <-. pose proof (proj2 (PR _ _ ES) _ _ _ _ _ _ _ EP EA) as F.
    destruct (actions_obs _ _ _ _ _ F EF) as [X1 X2]. split; [exact X1|]. constructor; [exact I|]. constructor; [exact I|].
    eapply Forall_impl; [|exact X2]. intros o Ho. destruct o; cbn in *; try exact I; [tauto|]. lia.
  Qed.
  Lemma processes_obs e l : forall r r' (t : list obs), prompt -> Forall (fun m => m_op m = r_state r) l -> process_all p c e r l = Ok (r', t) ->
    r_state r' = r_state r /\ Forall (mobs takes (fun _ => False)) t.
  Proof.
    induction l as [|m l IH]; intros r r' t PR F; cbn [process_all].
    - intros H. injection H as <- <-. split; [reflexivity|constructor].
    - inversion F as [|? ? F1 F2]; subst.
      destruct (process_msg p c e r m) as [[r1 t1]| |] eqn:E1; cbn [rbind fst snd]; try discriminate.
      destruct (process_all p c e r1 l) as [[r2 t2]| |] eqn:E2; cbn [rbind fst snd]; try discriminate.
      intros H. injection H as <- <-. destruct (process_obs _ _ _ _ _ PR F1 E1) as [X1 X2].
      destruct (IH r1 r2 t2 PR) as [Y1 Y2]; [rewrite X1; exact F2|exact E2|]. split; [congruence|]. apply Forall_app. auto.
  Qed.

  Lemma in_for_op k (m : message) l : In m (for_op k l) -> m_op m = k /\ In m l.
  Proof. unfold for_op. rewrite filter_In, Z.eqb_eq. tauto. Qed.
  Lemma in_snd rcvd r tr k m : Inv p c rcvd r tr -> In m (mslice (r_snd r) k) -> m_op m = k /\ In m (created tr).
  Proof. intros HI H. apply in_for_op. rewrite (iv_snd _ _ _ _ _ HI k). apply in_or_app. right. exact H. Qed.
  Lemma in_rcv rcvd r tr k m : Inv p c rcvd r tr -> In m (mslice (r_rcv r) k) -> m_op m = k.
  Proof. intros HI H. apply (in_for_op k m rcvd). rewrite (iv_rcv _ _ _ _ _ HI k). apply in_or_app. right. apply in_or_app. right. exact H. Qed.

  Lemma enter_sends e now rcvd r tr r' t' : prompt -> Inv p c rcvd r tr -> Forall (mobs takes (fun _ => True)) tr ->
    enter_stage p c e now r = Ok (r', t') ->
    Forall (mobs takes (fun op => op = r_state r + 1 /\ takes op)) t'.
  Proof.
    intros PR HI FT. unfold enter_stage. destruct (stage_at p (r_state r + 1)) as [s|] eqn:ES; [|discriminate].
    unfold flush_snd_buf. cbn [set_stage r_state r_snd].
    destruct (try_send_all c (mslice (r_snd r) (r_state r + 1))) as [ox| |] eqn:EO; cbn [rbind fst snd]; try discriminate.
    destruct (try_send_all_spec c _ _ EO) as [-> _].
    set (r2 := set_snd (set_stage r (r_state r + 1) false) (mdel (r_snd r) (r_state r + 1))).
    destruct (run_step c e s r2) as [[r3 ty]| |] eqn:EY; cbn [rbind fst snd]; try discriminate.
    assert (Y : r_state r3 = r_state r + 1 /\ r_rcv r3 = r_rcv r /\ Forall (mobs takes (fun op => op = r_state r + 1 /\ takes op)) ty).
    { unfold run_step in EY. destruct (r_abandon r2); [injection EY as <- <-; repeat split; constructor|].
      destruct (sg_step s) as [f|] eqn:EF; [|injection EY as <- <-; repeat split; constructor].
      unfold perform in EY. destruct (f c e (r_k r2)) as [[k acts]| |] eqn:EA; cbn [rbind fst snd] in EY; try discriminate EY.
      destruct (do_actions c (set_k r2 k) acts) as [[r4 t4]| |] eqn:EX; cbn [rbind fst snd] in EY; try discriminate EY.
      injection EY as <- <-. pose proof (proj1 (PR _ _ ES) _ _ _ _ _ _ EF EA) as F.
      destruct (actions_obs _ _ _ _ _ F EX) as [X1 X2]. split; [exact X1|]. split.
      - destruct (do_actions_spec p c acts (set_k r2 k) r4 t4 (tr ++ [OEnter (r_state r + 1) now])) as (_ & _ & (_ & _ & X & _) & _).
        + destruct (iv_link _ _ _ _ _ HI) as (Z1 & Z2 & Z3). unfold link. rewrite stage_now_snoc, abandoned_app, terminated_app. cbn. rewrite !orb_false_r. auto.
        + exact EX.
        + exact X.
      - constructor; [exact I|]. eapply Forall_impl; [|exact X2]. intros o Ho. destruct o; cbn in *; tauto. }
    destruct Y as (Y1 & Y2 & Y3).
    destruct (process_all p c e r3 (mslice (r_rcv r3) (r_state r + 1))) as [[r4 tz]| |] eqn:EZ; cbn [rbind fst snd]; try discriminate.
    destruct (processes_obs e (mslice (r_rcv r3) (r_state r + 1)) r3 r4 tz PR) as [_ OZ]; [|exact EZ|].
    { rewrite Forall_forall. intros m Hm. rewrite Y1. rewrite Y2 in Hm. exact (in_rcv _ _ _ _ _ HI Hm). }
    intros H. injection H as _ <-. constructor; [exact I|]. rewrite !Forall_app. split; [|split; [exact Y3|]].
    - rewrite Forall_forall. intros o Ho. apply in_map_iff in Ho. destruct Ho as (m & <- & Hm). cbn.
      destruct (in_snd _ _ _ _ _ HI Hm) as [Q1 Q2]. split; [exact Q1|]. unfold created in Q2. apply in_flat_map in Q2. destruct Q2 as (o & O1 & O2).
      rewrite Forall_forall in FT. specialize (FT o O1). destruct o; cbn in O2; try contradiction. destruct O2 as [->|[]]. exact FT.
    - eapply Forall_impl; [|exact OZ]. intros o Ho. destruct o; cbn in *; tauto.
  Qed.
  (** In one event: only entering a stage sends, and only messages of that stage. *)
  Lemma step_sends rcvd r tr ev r' t' : prompt -> Inv p c rcvd r tr -> Forall (mobs takes (fun _ => True)) tr ->
    step p c r ev = Ok (r', t') ->
    Forall (mobs takes (fun op => op = r_state r + 1 /\ takes op /\ (r_loc r = LStart \/ r_loc r = LPause) /\ exists e now, ev = ETick e now)) t'.
  Proof.
    intros PR HI FT H. destruct ev as [e now|e m]; cbn [step] in H.
    - destruct (tick_cases p c _ _ _ _ _ _ _ HI H) as [(X1 & -> & ->)|[(X1 & X2 & X3 & X4)|[(X1 & X2 & -> & ->)|[(X1 & X2 & -> & ->)|(X1 & -> & ->)]]]];
        try (repeat constructor; fail).
      eapply Forall_impl; [|exact (enter_sends _ _ _ _ _ _ _ PR HI FT X4)]. intros o Ho. destruct o; cbn in *; try tauto.
      destruct Ho as [H1 H2]. split; [exact H1|]. split; [exact H2|]. split; [exact X1|eauto].
    - unfold deliver in H. destruct ((m_op m <? r_state r) || ((m_op m =? r_state r) && r_paused r)) eqn:ED; [injection H as <- <-; repeat constructor|].
      apply orb_false_iff in ED. rewrite Z.ltb_ge in ED. destruct ED as [GE ED].
      destruct (Z.ltb_spec (r_state r) (m_op m)) as [LT|LE]; [injection H as <- <-; constructor|].
      destruct (process_obs e r m r' t' PR ltac:(lia) H) as [_ X]. eapply Forall_impl; [|exact X]. intros o Ho. destruct o; cbn in *; tauto.
  Qed.
  Lemma exec_takes evs : forall rcvd r tr r' t', prompt -> Inv p c rcvd r tr -> Forall (mobs takes (fun _ => True)) tr ->
    exec p c r evs = Ok (r', t') -> Forall (mobs takes (fun _ => True)) (tr ++ t').
  Proof.
    induction evs as [|ev evs IH]; intros rcvd r tr r' t' PR HI FT; cbn [exec].
    - intros H. injection H as <- <-. rewrite app_nil_r. exact FT.
    - destruct (step p c r ev) as [[r1 t1]| |] eqn:E1; cbn [rbind fst snd]; try discriminate.
      destruct (exec p c r1 evs) as [[r2 t2]| |] eqn:E2; cbn [rbind fst snd]; try discriminate.
      intros H. injection H as <- <-. rewrite app_assoc.
      assert (HI1 : Inv p c (rcvd ++ received [ev]) r1 (tr ++ t1)).
      { eapply exec_inv; [exact HI|]. cbn [exec]. rewrite E1. cbn [rbind fst snd]. rewrite app_nil_r. reflexivity. }
      eapply IH; [exact PR|exact HI1| |exact E2].
      apply Forall_app. split; [exact FT|]. eapply Forall_impl; [|exact (step_sends _ _ _ _ _ _ PR HI FT E1)].
      intros o Ho. destruct o; cbn in *; tauto.
  Qed.

  (** ** Splitting a history *)
  Lemma timely_app a : forall b r r' t', timely p c r (a ++ b) -> exec p c r a = Ok (r', t') -> timely p c r a /\ timely p c r' b.
  Proof.
    induction a as [|ev a IH]; intros b r r' t'; cbn [exec app].
    - intros H X. injection X as <- <-. split; [exact I|exact H].
    - cbn [timely]. intros [H1 H2]. destruct (step p c r ev) as [[r1 t1]| |] eqn:E1; cbn [rbind fst snd]; try discriminate. cbn [fst] in *.
      destruct (exec p c r1 a) as [[r2 t2]| |] eqn:E2; cbn [rbind fst snd]; try discriminate.
      intros X. injection X as <- <-. destruct (IH b r1 r2 t2 H2 E2) as [I1 I2]. auto.
  Qed.
  Lemma punctual_app d a : forall b r r' t', punctual p c d r (a ++ b) -> exec p c r a = Ok (r', t') -> punctual p c d r a /\ punctual p c d r' b.
  Proof.
    induction a as [|ev a IH]; intros b r r' t'; cbn [exec app].
    - intros H X. injection X as <- <-. split; [exact I|exact H].
    - cbn [punctual]. intros [H1 H2]. destruct (step p c r ev) as [[r1 t1]| |] eqn:E1; cbn [rbind fst snd]; try discriminate. cbn [fst] in *.
      destruct (exec p c r1 a) as [[r2 t2]| |] eqn:E2; cbn [rbind fst snd]; try discriminate.
      intros X. injection X as <- <-. destruct (IH b r1 r2 t2 H2 E2) as [I1 I2]. auto.
  Qed.

  (** ** The sender: pauses begin on time *)
  Definition on_time (d : Z) (r : rst) : Prop := r_loc r = LPause -> r_wake r <= r_t r + d + pause.
  Lemma on_time_exec d evs : forall rcvd r tr r' t', Inv p c rcvd r tr -> tinv p r tr -> on_time d r -> timely p c r evs -> punctual p c d r evs ->
    exec p c r evs = Ok (r', t') -> on_time d r'.
  Proof.
    induction evs as [|ev evs IH]; intros rcvd r tr r' t' HI HV HO HT HP; cbn [exec].
    - intros H. injection H as <- <-. exact HO.
    - cbn [timely punctual] in HT, HP. destruct HT as [HW HT]. destruct HP as [HW2 HP].
      destruct (step p c r ev) as [[r1 t1]| |] eqn:E1; cbn [rbind fst snd]; try discriminate. cbn [fst] in HT, HP.
      destruct (exec p c r1 evs) as [[r2 t2]| |] eqn:E2; cbn [rbind fst snd]; try discriminate.
      intros H. injection H as <- <-.
      assert (X1 : exec p c r [ev] = Ok (r1, t1)) by (cbn [exec]; rewrite E1; cbn [rbind fst snd]; rewrite app_nil_r; reflexivity).
      pose proof (exec_inv p c [ev] _ _ _ _ _ HI X1) as HI1.
      assert (HV1 : tinv p r1 (tr ++ t1)).
      { eapply time_exec; [exact HI|exact HV| |exact X1]. cbn [timely]. split; [exact HW|]. rewrite E1. exact I. }
      eapply IH; [exact HI1|exact HV1| |exact HT|exact HP|exact E2].
      destruct ev as [e now|e m]; cbn [step] in E1.
      + destruct (tick_cases p c _ _ _ _ _ _ _ HI E1) as [(Y1 & -> & ->)|[(Y1 & Y2 & Y3 & Y4)|[(Y1 & Y2 & -> & ->)|[(Y1 & Y2 & -> & ->)|(Y1 & -> & ->)]]]].
        * intros Y. discriminate Y.
        * destruct (enter_inv p c _ _ _ _ _ _ _ HI Y2 Y4) as (_ & _ & LO & _). intros Y. congruence.
        * intros _. cbn [set_clock r_wake r_t]. rewrite Y1 in HW2. destruct HV as [_ LV]. rewrite Y1 in LV. destruct LV as (s0 & _ & L2 & L3). lia.
        * intros Y. discriminate Y.
        * exact HO.
      + destruct (deliver_same p c _ _ _ _ _ _ _ HI E1) as (ST & PA & LO & RT & RW & _). intros Y. rewrite LO in Y. rewrite RT, RW. exact (HO Y).
  Qed.

  (** ** The receiver: stages do not end early *)
  Fixpoint from (T : Z) (h : list (Z * event)) : Prop :=
    match h with [] => True | (t, ev) :: l => T <= t /\ (match ev with ETick _ now => now = t | _ => True end) /\ from t l end.
  Lemma clocked_from h T : clocked h -> (forall x, In x h -> T <= fst x) -> from T h.
  Proof.
    intros [HS HC]. revert T HC. induction h as [|[t ev] h IH]; intros T HC HT; [exact I|]. cbn [from].
    apply StronglySorted_inv in HS. destruct HS as [HS HF]. split; [exact (HT (t, ev) (or_introl eq_refl))|]. split.
    - destruct ev as [e now|e m]; [|exact I]. apply (HC t e now). left. reflexivity.
    - apply IH; [exact HS| |].
      + intros t' e now X. apply (HC t' e now). right. exact X.
      + intros x X. rewrite Forall_forall in HF. exact (HF x X).
  Qed.
  Definition behind (r : rst) (tr : list obs) (T : Z) : Prop := forall s, start_of tr = Some s ->
    (0 <= r_state r -> s + elapsed (r_state r) <= T) /\ (r_paused r = true -> s + elapsed (r_state r + 1) <= T).
  Lemma behind_exec a : forall T t ev b rcvd r tr r' t', Inv p c rcvd r tr -> tinv p r tr -> behind r tr T -> timely p c r (untimed a) ->
    from T (a ++ (t, ev) :: b) -> exec p c r (untimed a) = Ok (r', t') -> behind r' (tr ++ t') t.
  Proof.
    induction a as [|[ta ea] a IH]; intros T t ev b rcvd r tr r' t' HI HV HB HT HF; cbn [untimed map snd exec].
    - intros H. injection H as <- <-. rewrite app_nil_r. cbn in HF. intros s Hs. destruct (HB s Hs) as [B1 B2]. split; intros X; [specialize (B1 X)|specialize (B2 X)]; lia.
    - cbn [untimed map snd timely] in HT. destruct HT as [HW HT]. cbn [app from] in HF. destruct HF as (F1 & F2 & F3).
      destruct (step p c r ea) as [[r1 t1]| |] eqn:E1; cbn [rbind fst snd]; try discriminate. cbn [fst] in HT.
      destruct (exec p c r1 (map snd a)) as [[r2 t2]| |] eqn:E2; cbn [rbind fst snd]; try discriminate.
      intros H. injection H as <- <-. rewrite app_assoc.
      assert (X1 : exec p c r [ea] = Ok (r1, t1)) by (cbn [exec]; rewrite E1; cbn [rbind fst snd]; rewrite app_nil_r; reflexivity).
      pose proof (exec_inv p c [ea] _ _ _ _ _ HI X1) as HI1.
      assert (HV1 : tinv p r1 (tr ++ t1)).
      { eapply time_exec; [exact HI|exact HV| |exact X1]. cbn [timely]. split; [exact HW|]. rewrite E1. exact I. }
      eapply (IH ta t ev b); [exact HI1|exact HV1| |exact HT|exact F3|exact E2].
      destruct ea as [e now|e m]; cbn [step] in E1.
      + subst now. pose proof (iv_loc _ _ _ _ _ HI) as HL.
        destruct (tick_cases p c _ _ _ _ _ _ _ HI E1) as [(Y1 & -> & ->)|[(Y1 & Y2 & Y3 & Y4)|[(Y1 & Y2 & -> & ->)|[(Y1 & Y2 & -> & ->)|(Y1 & -> & ->)]]]].
        * rewrite Y1 in HL. destruct HL as (L1 & L2 & _). intros s _. cbn [set_clock r_state r_paused]. rewrite L1, L2. split; [lia|discriminate].
        * destruct (enter_inv p c _ _ _ _ _ _ _ HI Y2 Y4) as (HI2 & ST & LO & _ & (t3 & -> & _)).
          pose proof (iv_loc _ _ _ _ _ HI2) as HL2. rewrite LO in HL2. destruct HL2 as (_ & PA & _).
          intros s Hs. rewrite PA. split; [|discriminate]. intros _. rewrite ST. destruct HV1 as [AV _].
          specialize (AV tr (OEnter (r_state r + 1) ta) t3 eq_refl). cbn in AV. destruct AV as (s0 & S1 & S2).
          rewrite start_of_app, S1 in Hs. injection Hs as <-. assert (0 <= pause) by (unfold pause, ms; lia).
          destruct (r_state r + 1 =? 0); lia.
        * intros s Hs. cbn [set_clock set_stage r_state r_paused]. rewrite start_of_app in Hs. destruct HV as [_ LV]. rewrite Y1 in LV. destruct LV as (s0 & L1 & L2 & L3).
          rewrite L1 in Hs. injection Hs as <-. destruct (HB s0 L1) as [B1 _]. split; [intros X; specialize (B1 X); lia|]. intros _. lia.
        * intros s Hs. cbn [r_state r_paused]. rewrite start_of_app in Hs.
          assert (X : start_of tr = Some s) by (destruct (start_of tr); [exact Hs|discriminate Hs]).
          destruct (HB s X) as [B1 B2]. split; intros Y; [specialize (B1 Y)|specialize (B2 Y)]; lia.
        * rewrite app_nil_r. intros s Hs. destruct (HB s Hs) as [B1 B2]. split; intros Y; [specialize (B1 Y)|specialize (B2 Y)]; lia.
      + destruct (deliver_same p c _ _ _ _ _ _ _ HI E1) as (ST & PA & LO & RT & RW & _ & _ & _ & O1).
        destruct (tobs_other p tr t1) as [_ N3]. { intros o Ho. specialize (O1 o Ho). destruct o; tauto. }
        intros s Hs. rewrite start_of_app, N3 in Hs. assert (X : start_of tr = Some s) by (destruct (start_of tr); [exact Hs|discriminate Hs]).
        rewrite ST, PA. destruct (HB s X) as [B1 B2]. split; intros Y; [specialize (B1 Y)|specialize (B2 Y)]; lia.
  Qed.

  Lemma elapsed_mono j k : 0 <= j <= k -> elapsed j <= elapsed k.
  Proof.
    intros [J K0]. unfold ProtSpec.elapsed. replace (Z.to_nat k) with (Z.to_nat j + Z.to_nat (k - j))%nat by lia.
    generalize (Z.to_nat j) as n. generalize (Z.to_nat (k - j)) as m. clear. intros m n. revert n.
    induction (p_stages p) as [|s l IH]; intros n; [rewrite !firstn_nil; reflexivity|].
    assert (P : 0 <= stage_timeout s) by (unfold stage_timeout, state_timeout, step_timeout, ms; destruct (sg_proc s); lia).
    destruct n as [|n].
    - cbn [firstn fold_right Nat.add]. clear IH. generalize (s :: l). intros l0. revert l0. induction m as [|m IH]; intros l0; [cbn; lia|].
      destruct l0 as [|x l0]; [cbn; lia|]. cbn [firstn fold_right]. specialize (IH l0).
      assert (0 <= stage_timeout x) by (unfold stage_timeout, state_timeout, step_timeout, ms; destruct (sg_proc x); lia). lia.
    - cbn [Nat.add firstn fold_right]. specialize (IH n). lia.
  Qed.

  (** ** The start *)
  Lemma start_unique k h t s : happens p c k h t (OStart s) -> clocked h -> s = t.
  Proof.
    intros (a & ev & b & r & tr & r' & os & -> & EX & ES & IN) [_ HC]. destruct ev as [e now|e m]; cbn [step] in ES.
    - rewrite <- (HC t e now) by (apply in_elt). pose proof (run_inv p c _ _ _ _ EX) as HI.
      destruct (tick_cases p c _ _ _ _ _ _ _ HI ES) as [(Y1 & -> & ->)|[(Y1 & Y2 & Y3 & Y4)|[(Y1 & Y2 & -> & ->)|[(Y1 & Y2 & -> & ->)|(Y1 & -> & ->)]]]].
      + destruct IN as [X|[]]. injection X as <-. reflexivity.
      + destruct (enter_obs p c _ _ _ _ _ _ (iv_link _ _ _ _ _ HI) Y4) as (t3 & -> & O3). destruct IN as [X|X]; [discriminate X|]. destruct (O3 _ X).
      + destruct IN as [X|[]]. discriminate X.
      + destruct IN as [X|[]]. discriminate X.
      + destruct IN.
    - pose proof (run_inv p c _ _ _ _ EX) as HI. destruct (deliver_same p c _ _ _ _ _ _ _ HI ES) as (_ & _ & _ & _ & _ & _ & _ & _ & O1).
      destruct (O1 _ IN).
  Qed.
  Lemma exec_app a : forall b r r1 t1 r2 t2, exec p c r a = Ok (r1, t1) -> exec p c r1 b = Ok (r2, t2) -> exec p c r (a ++ b) = Ok (r2, t1 ++ t2).
  Proof.
    induction a as [|ev a IH]; intros b r r1 t1 r2 t2; cbn [exec app].
    - intros H X. injection H as <- <-. exact X.
    - destruct (step p c r ev) as [[r3 t3]| |]; cbn [rbind fst snd]; try discriminate.
      destruct (exec p c r3 a) as [[r4 t4]| |] eqn:E2; cbn [rbind fst snd]; try discriminate.
      intros H X. injection H as <- <-. rewrite (IH b r3 r4 t4 r2 t2 E2 X). cbn [rbind fst snd]. rewrite app_assoc. reflexivity.
  Qed.
  Lemma start_in (tr : list obs) s : start_of tr = Some s -> In (OStart s) tr.
  Proof. induction tr as [|o tr IH]; [discriminate|]. cbn. destruct o; intros H; try (right; apply IH, H). left. congruence. Qed.
  (** What a prefix's trace contains happens in the history. *)
  Lemma in_happens k a : forall b r tr o, exec p c (new_run k) (untimed a) = Ok (r, tr) -> In o tr -> exists t, happens p c k (a ++ b) t o.
  Proof.
    induction a as [|[t ev] a IH] using rev_ind; intros b r tr o EX IN.
    - cbn in EX. injection EX as <- <-. destruct IN.
    - unfold untimed in EX. rewrite map_app in EX. cbn [map snd] in EX.
      assert (X : exists r1 t1 r2 t2, exec p c (new_run k) (untimed a) = Ok (r1, t1) /\ step p c r1 ev = Ok (r2, t2) /\ tr = t1 ++ t2).
      { clear - EX. fold (untimed a) in EX. revert EX. generalize (new_run (D := D) k) as r0. revert tr. induction (untimed a) as [|e0 l IH]; intros tr r0; cbn [exec app].
        - destruct (step p c r0 ev) as [[r3 t3]| |] eqn:E1; cbn [rbind fst snd]; try discriminate. intros H. injection H as <- <-.
          exists r0, [], r3, t3. rewrite app_nil_r. auto.
        - destruct (step p c r0 e0) as [[r3 t3]| |] eqn:E1; cbn [rbind fst snd]; try discriminate.
          destruct (exec p c r3 (l ++ [ev])) as [[r4 t4]| |] eqn:E2; cbn [rbind fst snd]; try discriminate.
          intros H. injection H as <- <-. destruct (IH t4 r3 E2) as (r1 & t1 & r2 & t2 & Q1 & Q2 & ->).
          rewrite Q1. cbn [rbind fst snd]. exists r1, (t3 ++ t1), r2, t2. rewrite app_assoc. auto. }
      destruct X as (r1 & t1 & r2 & t2 & X1 & X2 & ->). rewrite <- app_assoc. apply in_app_iff in IN. destruct IN as [IN|IN].
      + apply (IH ([(t, ev)] ++ b) r1 t1 o X1 IN).
      + exists t, a, ev, b, r1, t1, r2, t2. auto.
  Qed.

  Lemma exec_split a : forall b r r2 t, exec p c r (a ++ b) = Ok (r2, t) ->
    exists r1 t1 t2, exec p c r a = Ok (r1, t1) /\ exec p c r1 b = Ok (r2, t2) /\ t = t1 ++ t2.
  Proof.
    induction a as [|ev a IH]; intros b r r2 t; cbn [exec app].
    - intros X. exists r, [], t. auto.
    - destruct (step p c r ev) as [[r3 t3]| |]; cbn [rbind fst snd]; try discriminate.
      destruct (exec p c r3 (a ++ b)) as [[r4 t4]| |] eqn:E2; cbn [rbind fst snd]; try discriminate.
      intros H. injection H as <- <-. destruct (IH b r3 r4 t4 E2) as (r1 & t1 & t2 & Q1 & Q2 & ->). rewrite Q1. cbn [rbind fst snd].
      exists r1, (t3 ++ t1), t2. rewrite app_assoc. auto.
  Qed.
  Lemma happens_prefix k h t o : happens p c k h t o -> exists a b r tr, h = a ++ b /\ exec p c (new_run k) (untimed a) = Ok (r, tr) /\ In o tr.
  Proof.
    intros (a & ev & b & r & tr & r' & os & -> & EX & ES & IN). exists (a ++ [(t, ev)]), b, r', (tr ++ os). split; [rewrite <- app_assoc; reflexivity|].
    split; [|apply in_or_app; right; exact IN]. unfold untimed. rewrite map_app. eapply exec_app; [exact EX|]. cbn [map snd exec]. rewrite ES. cbn [rbind fst snd].
    rewrite app_nil_r. reflexivity.
  Qed.
  Lemma two_happen k h t1 o1 t2 o2 : happens p c k h t1 o1 -> happens p c k h t2 o2 ->
    exists a b r tr, h = a ++ b /\ exec p c (new_run k) (untimed a) = Ok (r, tr) /\ In o1 tr /\ In o2 tr.
  Proof.
    intros H1 H2. apply happens_prefix in H1, H2. destruct H1 as (a1 & b1 & r1 & tr1 & -> & E1 & I1). destruct H2 as (a2 & b2 & r2 & tr2 & EH & E2 & I2).
    apply app_eq_app in EH. destruct EH as (l & [(-> & ->)|(-> & ->)]).
    - exists (a2 ++ l), b1, r1, tr1. split; [reflexivity|]. split; [exact E1|]. split; [exact I1|].
      unfold untimed in E1, E2. rewrite map_app in E1. apply exec_split in E1. destruct E1 as (r3 & t3 & t4 & Q1 & _ & ->). rewrite E2 in Q1. injection Q1 as <- <-.
      apply in_or_app. left. exact I2.
    - exists (a1 ++ l), b2, r2, tr2. split; [rewrite app_assoc; reflexivity|]. split; [exact E2|]. split; [|exact I2].
      unfold untimed in E1, E2. rewrite map_app in E2. apply exec_split in E2. destruct E2 as (r3 & t3 & t4 & Q1 & _ & ->). rewrite E1 in Q1. injection Q1 as <- <-.
      apply in_or_app. left. exact I1.
  Qed.
  Lemma timely_prefix k a b r tr : timely p c (new_run k) (untimed (a ++ b)) -> exec p c (new_run k) (untimed a) = Ok (r, tr) -> timely p c (new_run k) (untimed a).
  Proof. intros H X. unfold untimed in *. rewrite map_app in H. exact (proj1 (timely_app _ _ _ _ _ H X)). Qed.
  Lemma the_start (tr : list obs) s : always (tobs p) tr -> In (OStart s) tr -> start_of tr = Some s.
  Proof.
    intros AV IN. apply in_split in IN. destruct IN as (a & b & ->). specialize (AV a _ b eq_refl). cbn in AV. rewrite start_of_app, AV. reflexivity.
  Qed.
  Lemma start_once k h s s' t t' : timely p c (new_run k) (untimed h) -> happens p c k h t (OStart s) -> happens p c k h t' (OStart s') -> s = s'.
  Proof.
    intros HT H1 H2. destruct (two_happen _ _ _ _ _ _ H1 H2) as (a & b & r & tr & -> & EX & I1 & I2).
    pose proof (timely_prefix _ _ _ _ _ HT EX) as HA. destruct (time_run p c _ _ _ _ HA EX) as [AV _].
    pose proof (the_start _ _ AV I1) as Q1. pose proof (the_start _ _ AV I2) as Q2. congruence.
  Qed.

  (** ** Sending and dropping *)
  Lemma sent_by k h d t m s t0 : prompt -> clocked h -> timely p c (new_run k) (untimed h) -> punctual p c d (new_run k) (untimed h) -> 0 <= d ->
    happens p c k h t0 (OStart s) -> happens p c k h t (OSent m) ->
    takes (m_op m) /\ s + elapsed (m_op m) + (if m_op m =? 0 then 0 else pause) <= t <= s + elapsed (m_op m) + pause + 2 * d.
  Proof.
    intros PR HC HT HP HD HS HM. pose proof HM as (a & ev & b & r & tr & r' & os & E0 & EX & ES & IN). subst h.
    pose proof (run_inv p c _ _ _ _ EX) as HI.
    assert (FT : Forall (mobs takes (fun _ => True)) tr).
    { change tr with ([] ++ tr). eapply exec_takes; [exact PR|apply (inv_new p c k)|constructor|exact EX]. }
    pose proof (step_sends _ _ _ _ _ _ PR HI FT ES) as F. rewrite Forall_forall in F. specialize (F _ IN). cbn in F.
    destruct F as (F1 & F2 & F3 & e & now & ->). split; [exact F2|].
    assert (now = t) as -> by (apply (proj2 HC t e now), in_elt).
    pose proof (timely_prefix _ _ _ _ _ HT EX) as HTa. pose proof (time_run p c _ _ _ _ HTa EX) as TV.
    unfold untimed in HT, HP. rewrite map_app in HT, HP.
    destruct (timely_app _ _ _ _ _ HT EX) as [_ HTb]. destruct (punctual_app _ _ _ _ _ _ HP EX) as [HPa HPb].
    assert (OT : on_time d r).
    { eapply (on_time_exec d); [apply (inv_new p c k)| |intros X; discriminate X|exact HTa|exact HPa|exact EX].
      split; [|reflexivity]. intros x o y X. destruct x; discriminate X. }
    cbn [map snd timely punctual] in HTb, HPb. destruct HTb as [W1 _]. destruct HPb as [W2 _].
    destruct TV as [AV LV]. pose proof (iv_loc _ _ _ _ _ HI) as HL.
    assert (SS : forall s1, start_of tr = Some s1 -> s1 = s).
    { intros s1 X. destruct (in_happens k a ((t, ETick e t) :: b) r tr _ EX (start_in _ _ X)) as [t1 Q].
      eapply start_once; [|exact Q|exact HS]. unfold untimed. rewrite map_app. exact HT. }
    assert (0 <= pause) by (unfold pause, ms; lia).
    destruct F3 as [F3|F3]; rewrite F3 in *.
    - destruct LV as [L1 L2]. apply SS in L1. destruct HL as (HL & _). rewrite F1, HL. change (-1 + 1) with 0. change (elapsed 0) with 0. rewrite Z.eqb_refl. lia.
    - destruct LV as (s1 & L1 & L2 & L3). apply SS in L1. specialize (OT F3). rewrite F1. destruct (Z.eqb_spec (r_state r + 1) 0); lia.
  Qed.
  Lemma dropped_after k h t m : clocked h -> timely p c (new_run k) (untimed h) -> happens p c k h t (ODrop m) -> 0 <= m_op m ->
    exists s, happens p c k h s (OStart s) /\ s + elapsed (m_op m + 1) <= t /\ m_op m < final.
  Proof.
    intros HC HT (a & ev & b & r & tr & r' & os & E0 & EX & ES & IN) HO. subst h. pose proof (run_inv p c _ _ _ _ EX) as HI.
    pose proof (timely_prefix _ _ _ _ _ HT EX) as HTa. pose proof (time_run p c _ _ _ _ HTa EX) as TV.
    assert (CS : (m_op m < r_state r \/ (m_op m = r_state r /\ r_paused r = true))).
    { destruct ev as [e now|e m']; cbn [step] in ES.
      - exfalso. destruct (tick_cases p c _ _ _ _ _ _ _ HI ES) as [(Y1 & -> & ->)|[(Y1 & Y2 & Y3 & Y4)|[(Y1 & Y2 & -> & ->)|[(Y1 & Y2 & -> & ->)|(Y1 & -> & ->)]]]].
        + destruct IN as [X|[]]. discriminate X.
        + destruct (enter_obs p c _ _ _ _ _ _ (iv_link _ _ _ _ _ HI) Y4) as (t3 & -> & O3). destruct IN as [X|X]; [discriminate X|]. destruct (O3 _ X).
        + destruct IN as [X|[]]. discriminate X.
        + destruct IN as [X|[]]. discriminate X.
        + destruct IN.
      - unfold deliver in ES. destruct ((m_op m' <? r_state r) || ((m_op m' =? r_state r) && r_paused r)) eqn:ED.
        + injection ES as <- <-. destruct IN as [X|[]]. injection X as ->. apply orb_true_iff in ED. rewrite andb_true_iff, Z.ltb_lt, Z.eqb_eq in ED. exact ED.
        + exfalso. apply orb_false_iff in ED. destruct ED as [GE _]. rewrite Z.ltb_ge in GE. destruct (Z.ltb_spec (r_state r) (m_op m')) as [LT|LE]; [injection ES as <- <-; destruct IN|].
          destruct (proc_obs p c _ _ _ _ _ _ (iv_link _ _ _ _ _ HI) ES) as [_ O1]. destruct (O1 _ IN). }
    assert (ST : exists s, start_of tr = Some s).
    { destruct TV as [_ LV]. pose proof (iv_loc _ _ _ _ _ HI) as HL. destruct (r_loc r).
      - destruct HL as (X1 & X2 & _). destruct CS as [X|[X Y]]; [lia|congruence].
      - destruct LV; eauto.
      - destruct LV as (s & ? & _). eauto.
      - destruct LV as (s & ? & _). eauto.
      - exact LV. }
    destruct ST as [s ST]. destruct (in_happens k a ((t, ev) :: b) r tr _ EX (start_in _ _ ST)) as [t1 Q].
    pose proof (start_unique _ _ _ _ Q HC) as E1. subst t1. exists s. split; [exact Q|].
    assert (BH : behind r tr t).
    { change tr with ([] ++ tr). eapply (behind_exec a (match a ++ (t, ev) :: b with (t9, _) :: _ => t9 | [] => t end)); [apply (inv_new p c k)| | |exact HTa| |exact EX].
      - split; [|reflexivity]. intros x o y X. destruct x; discriminate X.
      - intros s9 X. discriminate X.
      - apply clocked_from; [exact HC|]. destruct HC as [HC _]. destruct (a ++ (t, ev) :: b) as [|[t9 ev9] l]; [intros x []|].
        apply StronglySorted_inv in HC. destruct HC as [_ HC]. rewrite Forall_forall in HC. intros x [<-|X]; [cbn; lia|exact (HC x X)]. }
    destruct (BH s ST) as [B1 B2]. pose proof (iv_range _ _ _ _ _ HI) as RG. destruct CS as [CS|[CS PA]].
    - specialize (B1 ltac:(lia)). pose proof (elapsed_mono (m_op m + 1) (r_state r) ltac:(lia)). split; lia.
    - specialize (B2 PA). rewrite CS. split; [exact B2|]. pose proof (iv_loc _ _ _ _ _ HI) as HL. destruct (r_loc r); try (destruct HL as (? & X & _); congruence). lia.
  Qed.
End Time.
