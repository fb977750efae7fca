From Coq Require Import ZArith List Lia Bool Permutation Arith.
From Verif Require Import Bytes Res Dto DtoProofs Prot ProtSpec ProtProofs ProtProofs2.
Import ListNotations.
Open Scope Z_scope.

Section More.
  Context {D A K E V : Type}.
  Notation message := (message D). Notation rst := (rst D K). Notation obs := (obs D A V).
  Notation action := (action D V). Notation stage := (stage D A K E V). Notation event := (event D E).
  Variable p : protocol D A K E V.
  Variable c : info.
  Notation final := (final p).

  (** ** Broadcast *)
  Lemma send_created (r : rst) i op d (r' : rst) (tr : list obs) : send c r i op d = Ok (r', tr) -> created tr = [make_msg c i op d].
  Proof.
    unfold send, try_send. cbn [m_rcpt make_msg]. destruct (r_state r <? op); [intros H; injection H as <- <-; reflexivity|].
    destruct ((0 <=? i) && (i <? i_queues c)); cbn [rbind]; [|discriminate]. intros H; injection H as <- <-; reflexivity.
  Qed.
  Lemma do_sends op d l : forall (r r' : rst) (tr : list obs), do_actions c r (map (fun i => ASend i op d) l) = Ok (r', tr) ->
    created tr = map (fun i => make_msg c i op d) l.
  Proof.
    induction l as [|i l IH]; intros r r' tr; cbn [map do_actions do_action].
    - intros H. injection H as <- <-. reflexivity.
    - destruct (send c r i op d) as [[r1 t1]| |] eqn:E1; cbn [rbind fst snd]; try discriminate.
      destruct (do_actions c r1 (map (fun i0 => ASend i0 op d) l)) as [[r2 t2]| |] eqn:E2; cbn [rbind fst snd]; try discriminate.
      intros H. injection H as <- <-. rewrite created_app, (send_created _ _ _ _ _ _ E1), (IH _ _ _ E2). reflexivity.
  Qed.
  Lemma multicast_eq l op (d : D) : multicast (V := V) l c op d = map (fun i => ASend i op d) (filter (fun i => negb (i =? i_guest c)) l).
  Proof.
    unfold multicast. induction l as [|i l IH]; [reflexivity|]. cbn. rewrite IH. unfold send1. destruct (i =? i_guest c); reflexivity.
  Qed.
  Lemma broadcast_eq op (d : D) : broadcast (V := V) c op d = map (fun i => ASend i op d) (filter (fun i => negb (i =? i_guest c)) (upto (i_members c - 1))).
  Proof.
    rewrite <- multicast_eq. unfold broadcast, multicast, upto. replace (Z.to_nat (i_members c - 1 + 1)) with (Z.to_nat (i_members c)) by lia.
    generalize (seq 0 (Z.to_nat (i_members c))). induction l as [|x l IH]; [reflexivity|]. cbn. rewrite IH. reflexivity.
  Qed.

  (** ** After abandonment *)
  Definition quiet (o : obs) : Prop :=
    match o with OStep _ | OProc _ _ | OCreate _ | OOutput _ _ | OAbandon => False | _ => True end.
  Lemma ab_process e r m r' tr : r_abandon r = true -> process_msg p c e r m = Ok (r', tr) -> r' = r /\ tr = [OHandle m].
  Proof. intros HA. unfold process_msg. rewrite HA. intros H. injection H as <- <-. auto. Qed.
  Lemma ab_process_all (e : E) l : forall r r' tr, r_abandon r = true -> process_all p c e r l = Ok (r', tr) -> r' = r /\ tr = map OHandle l.
  Proof.
    induction l as [|m l IH]; intros r r' tr HA; cbn [process_all].
    - intros H. injection H as <- <-. auto.
    - destruct (process_msg p c e r m) as [[r1 t1]| |] eqn:E1; cbn [rbind fst snd]; try discriminate.
      destruct (process_all p c e r1 l) as [[r2 t2]| |] eqn:E2; cbn [rbind fst snd]; try discriminate.
      intros H. injection H as <- <-. destruct (ab_process _ _ _ _ _ HA E1) as [-> ->]. destruct (IH _ _ _ HA E2) as [-> ->]. auto.
  Qed.
  Lemma ab_step r (ev : event) r' tr : r_abandon r = true -> step p c r ev = Ok (r', tr) -> r_abandon r' = true /\ Forall quiet tr.
  Proof.
    intros HA. destruct ev as [e now|e m]; cbn [step].
    - assert (EN : enter_stage p c e now r = Ok (r', tr) -> r_abandon r' = true /\ Forall quiet tr).
      { unfold enter_stage. destruct (stage_at p (r_state r + 1)) as [s|]; [|discriminate].
        unfold flush_snd_buf. destruct (try_send_all c _) as [ox| |] eqn:EO; cbn [rbind fst snd]; try discriminate.
        destruct (try_send_all_spec c _ _ EO) as [-> _]. unfold run_step.
        match goal with |- context [r_abandon ?x] => change (r_abandon x) with (r_abandon r) end. rewrite HA. cbn [rbind fst snd].
        match goal with |- context [process_all p c e ?x ?y] => destruct (process_all p c e x y) as [[r4 tz]| |] eqn:EZ end; cbn [rbind fst snd]; try discriminate.
        apply ab_process_all in EZ; [|exact HA]. destruct EZ as [-> ->]. intros H. injection H as <- <-. split; [exact HA|].
        constructor; [exact I|]. apply Forall_forall. intros o Ho. cbn [app] in Ho. apply in_app_or in Ho.
        destruct Ho as [Ho|Ho]; apply in_map_iff in Ho; destruct Ho as (m & <- & _); exact I. }
      unfold tick, loop_top. destruct (r_loc r).
      + intros H. injection H as <- <-. split; [exact HA|repeat constructor].
      + destruct (r_state r <? final); [destruct (-1 <? r_state r)|]; [|exact EN|]; intros H; injection H as <- <-; (split; [exact HA|repeat constructor]).
      + destruct (r_state r <? final); [destruct (-1 <? r_state r)|]; [|exact EN|]; intros H; injection H as <- <-; (split; [exact HA|repeat constructor]).
      + exact EN.
      + intros H. injection H as <- <-. split; [exact HA|repeat constructor].
    - unfold deliver. destruct ((m_op m <? r_state r) || ((m_op m =? r_state r) && r_paused r)).
      { intros H. injection H as <- <-. split; [exact HA|repeat constructor]. }
      destruct (r_state r <? m_op m).
      { intros H. injection H as <- <-. split; [exact HA|repeat constructor]. }
      intros H. destruct (ab_process _ _ _ _ _ HA H) as [-> ->]. split; [exact HA|repeat constructor].
  Qed.
  Lemma ab_exec evs : forall r r' tr, r_abandon r = true -> exec p c r evs = Ok (r', tr) -> r_abandon r' = true /\ Forall quiet tr.
  Proof.
    induction evs as [|ev evs IH]; intros r r' tr HA; cbn [exec].
    - intros H. injection H as <- <-. split; [exact HA|constructor].
    - destruct (step p c r ev) as [[r1 t1]| |] eqn:E1; cbn [rbind fst snd]; try discriminate.
      destruct (exec p c r1 evs) as [[r2 t2]| |] eqn:E2; cbn [rbind fst snd]; try discriminate.
      intros H. injection H as <- <-. destruct (ab_step _ _ _ _ HA E1) as [HA1 Q1]. destruct (IH _ _ _ HA1 E2) as [HA2 Q2].
      split; [exact HA2|apply Forall_app; auto].
  Qed.
  Lemma quiet_created tr : Forall quiet tr -> created tr = [].
  Proof. induction 1 as [|o tr H _ IH]; [reflexivity|]. destruct o; cbn in *; try contradiction; exact IH. Qed.

  Lemma exec_app evs1 : forall evs2 r r' tr, exec p c r (evs1 ++ evs2) = Ok (r', tr) ->
    exists r1 t1 t2, exec p c r evs1 = Ok (r1, t1) /\ exec p c r1 evs2 = Ok (r', t2) /\ tr = t1 ++ t2.
  Proof.
    induction evs1 as [|ev evs1 IH]; intros evs2 r r' tr; cbn [app exec].
    - intros H. exists r, [], tr. auto.
    - destruct (step p c r ev) as [[r1 t1]| |] eqn:E1; cbn [rbind fst snd]; try discriminate.
      destruct (exec p c r1 (evs1 ++ evs2)) as [[r2 t2]| |] eqn:E2; cbn [rbind fst snd]; try discriminate.
      intros H. injection H as <- <-. destruct (IH _ _ _ _ E2) as (r3 & t3 & t4 & X1 & X2 & ->).
      exists r3, (t1 ++ t3), t4. rewrite X1. cbn [rbind fst snd]. split; [reflexivity|]. split; [exact X2|]. apply app_assoc.
  Qed.

  (** ** Protocols in which abandoning is all a step does when it abandons *)
  Notation tidy := (tidy p).

  Definition calm (a : list obs) (o : obs) : Prop :=
    match o with
    | OCreate m => abandoned_in a = false /\ m_op m <= fst (stage_now a) + 1
    | OSent _ | OOutput _ _ | OAbandon => abandoned_in a = false
    | _ => True
    end.

  Lemma calm_send (r : rst) i op d (r' : rst) (tr pre : list obs) : link r pre -> r_abandon r = false -> op <= r_state r + 1 -> send c r i op d = Ok (r', tr) -> alw calm pre tr.
  Proof.
    intros HL HA HO. destruct HL as (L1 & L2 & L3). unfold send, try_send. cbn [m_rcpt make_msg].
    destruct (r_state r <? op).
    - intros H. injection H as <- <-. apply alw_cons; [|apply alw_nil]. cbn. rewrite L1, L2. cbn. auto.
    - destruct ((0 <=? i) && (i <? i_queues c)); cbn [rbind]; [|discriminate]. intros H. injection H as <- <-.
      apply alw_cons; [cbn; rewrite L1, L2; cbn; auto|]. apply alw_cons; [|apply alw_nil]. cbn. rewrite abandoned_app, L2, HA. reflexivity.
  Qed.
  Lemma calm_actions (l : list action) : forall (r r' : rst) (tr pre : list obs), link r pre -> r_abandon r = false -> Forall (okact (r_state r)) l ->
    do_actions c r l = Ok (r', tr) -> alw calm pre tr /\ r_abandon r' = false.
  Proof.
    induction l as [|a l IH]; intros r r' tr pre HL HA HF; cbn [do_actions].
    - intros H. injection H as <- <-. split; [apply alw_nil|exact HA].
    - destruct (do_action c r a) as [[r1 t1]| |] eqn:E1; cbn [rbind fst snd]; try discriminate.
      destruct (do_actions c r1 l) as [[r2 t2]| |] eqn:E2; cbn [rbind fst snd]; try discriminate.
      intros H. injection H as <- <-. inversion HF as [|? ? Ha HF']; subst.
      assert (X : alw calm pre t1 /\ link r1 (pre ++ t1) /\ r_abandon r1 = false /\ r_state r1 = r_state r).
      { destruct a as [i op d| |pc v]; cbn [do_action okact] in *; [|contradiction|].
        - destruct (send_spec p c _ _ _ _ _ _ _ HL E1) as (X1 & _ & (X2 & _) & _ & _ & X3 & _).
          split; [eapply calm_send; eassumption|]. split; [exact X1|]. split; [congruence|exact X2].
        - injection E1 as <- <-. split; [|split; [apply link_act; [exact HL|exact I|discriminate]|auto]].
          apply alw_cons; [|apply alw_nil]. cbn. destruct HL as (_ & -> & _). exact HA. }
      destruct X as (C1 & L1 & HA1 & ST). rewrite <- ST in HF'. destruct (IH _ _ _ _ L1 HA1 HF' E2) as [C2 HA2].
      split; [apply alw_app; assumption|exact HA2].
  Qed.

  Lemma calm_process (e : E) (r : rst) m (r' : rst) (tr pre : list obs) : tidy -> link r pre -> r_state r = m_op m -> process_msg p c e r m = Ok (r', tr) ->
    alw calm pre tr /\ r_abandon r' = r_abandon r.
  Proof.
    intros HT HL HS. unfold process_msg.
    assert (TR : forall r0 t0, Ok (r, [OHandle m : obs]) = Ok (r0, t0) -> alw calm pre t0 /\ r_abandon r0 = r_abandon r).
    { intros r0 t0 H. injection H as <- <-. split; [apply alw_cons; [exact I|apply alw_nil]|reflexivity]. }
    destruct (r_abandon r) eqn:HA; [apply TR|].
    destruct (stage_at p (m_op m)) as [s|] eqn:ES; [|discriminate].
    destruct (sg_proc s) as [proc|] eqn:EP; [|apply TR].
    destruct (negb (sg_type s (m_dto m))); [apply TR|].
    destruct (sg_unm s (m_dto m)) as [arg| |]; [|apply TR|discriminate].
    destruct ((0 <=? m_sender m) && (m_sender m <? i_members c)); [|apply TR].
    destruct (sg_valid s arg (m_sender m)) as [[|]| |]; cbn [rbind]; try discriminate; [|apply TR].
    unfold perform. destruct (proc c e (r_k r) arg) as [[k acts]| |] eqn:EF; cbn [rbind fst snd]; try discriminate.
    destruct (do_actions c (set_k r k) acts) as [[r1 t1]| |] eqn:EA; cbn [rbind fst snd]; try discriminate.
    intros H. injection H as <- <-.
    assert (HL2 : link (set_k r k) ((pre ++ [OHandle m]) ++ [OProc m arg])) by (apply (link_other r); [apply link_other; [exact HL|exact I]|exact I]).
    destruct (HT _ _ ES) as [_ TP]. pose proof (TP _ _ _ _ _ _ _ EP EF) as FA. rewrite <- HS in FA.
    destruct (calm_actions acts (set_k r k) _ _ _ HL2 HA FA EA) as [C1 HA1]. split; [|exact HA1].
    apply alw_cons; [exact I|]. apply alw_cons; [exact I|exact C1].
  Qed.
  Lemma calm_process_all (e : E) l : forall (r r' : rst) (tr pre : list obs), tidy -> link r pre -> r_paused r = false -> Forall (fun m => m_op m = r_state r) l ->
    process_all p c e r l = Ok (r', tr) -> alw calm pre tr /\ r_abandon r' = r_abandon r.
  Proof.
    induction l as [|m l IH]; intros r r' tr pre HT HL HP HF; cbn [process_all].
    - intros H. injection H as <- <-. split; [apply alw_nil|reflexivity].
    - inversion HF as [|? ? Hm HF']; subst.
      destruct (process_msg p c e r m) as [[r1 t1]| |] eqn:E1; cbn [rbind fst snd]; try discriminate.
      destruct (process_all p c e r1 l) as [[r2 t2]| |] eqn:E2; cbn [rbind fst snd]; try discriminate.
      intros H. injection H as <- <-. destruct (calm_process _ _ _ _ _ _ HT HL (eq_sym Hm) E1) as [C1 A1].
      destruct (process_msg_spec p c _ _ _ _ _ _ HL (eq_sym Hm) HP E1) as (L1 & _ & (S1 & S2 & _) & _).
      rewrite <- S1 in HF'. destruct (IH _ _ _ _ HT L1 ltac:(congruence) HF' E2) as [C2 A2].
      split; [apply alw_app; assumption|congruence].
  Qed.

  (** No message is held for a stage beyond the next; once abandoned, none at all. *)
  Definition jinv (r : rst) (tr : list obs) : Prop :=
    always calm tr /\ (r_abandon r = true -> forall op, mslice (r_snd r) op = []).
  Lemma calm_created tr rcvd r : Inv p c rcvd r tr -> always calm tr -> forall m, In m (created tr) -> m_op m <= r_state r + 1.
  Proof.
    intros HI HC m Hm. unfold created in Hm. apply in_flat_map in Hm. destruct Hm as (o & Ho & Hm).
    destruct o as [| | | | | | |m0| | | |]; cbn in Hm; try contradiction. destruct Hm as [->|[]].
    apply in_split in Ho. destruct Ho as (a & b & ->). destruct (HC _ _ _ eq_refl) as [_ X].
    destruct (iv_link _ _ _ _ _ HI) as (L1 & _).
    assert (M : fst (stage_now a) <= fst (stage_now (a ++ OCreate m :: b))).
    { clear - HI. pose proof (iv_alw _ _ _ _ _ HI) as HW. change (OCreate m :: b) with ([OCreate m] ++ b) in *. rewrite app_assoc in *.
      assert (S0 : stage_now (a ++ [OCreate m]) = stage_now a) by (rewrite stage_now_snoc; reflexivity). rewrite <- S0.
      clear HI S0. revert HW. generalize (a ++ [OCreate m : obs]) as x. induction b as [|o b IH] using rev_ind; intros x HW; [rewrite app_nil_r; lia|].
      rewrite app_assoc, stage_now_snoc. rewrite app_assoc in HW.
      assert (HW2 : always (okobs p c) (x ++ b)). { intros u v w Ew. apply (HW u v (w ++ [o])). rewrite Ew, <- app_assoc. reflexivity. }
      specialize (IH _ HW2). specialize (HW (x ++ b) o [] eq_refl). cbn in HW.
      destruct o; try exact IH; cbn [okobs] in HW; destruct HW as (HW & _); [cbn; lia|rewrite HW in IH; exact IH]. }
    rewrite L1 in M. cbn in M. lia.
  Qed.

  Lemma jinv_step rcvd r tr ev r' t' : tidy -> Inv p c rcvd r tr -> jinv r tr -> step p c r ev = Ok (r', t') -> jinv r' (tr ++ t').
  Proof.
    intros HT HI [HC HJ]. destruct ev as [e now|e m]; cbn [step]; intros HS.
    - pose proof (tick_inv p c _ _ _ _ _ _ _ HI HS) as HI1.
      destruct (tick_cases p c _ _ _ _ _ _ _ HI HS) as [(X1 & -> & ->)|[(X1 & X2 & X3 & X4)|[(X1 & X2 & -> & ->)|[(X1 & X2 & -> & ->)|(X1 & -> & ->)]]]].
      + split; [apply always_app; [exact HC|apply alw_cons; [exact I|apply alw_nil]]|exact HJ].
      + clear HS. revert X4. unfold enter_stage. set (k := r_state r + 1). destruct (stage_at p k) as [s|] eqn:ES; [|discriminate].
        unfold flush_snd_buf. cbn [set_stage r_state r_snd].
        destruct (try_send_all c (mslice (r_snd r) k)) as [ox| |] eqn:EO; cbn [rbind fst snd]; try discriminate.
        destruct (try_send_all_spec c _ _ EO) as [-> _].
        set (r2 := set_snd (set_stage r k false) (mdel (r_snd r) k)).
        set (pre1 := tr ++ [OEnter k now]). destruct (iv_link _ _ _ _ _ HI) as (L1 & L2 & L3).
        assert (LK : link r2 pre1).
        { unfold link, pre1. rewrite stage_now_snoc, abandoned_app, terminated_app. cbn. rewrite !orb_false_r. auto. }
        assert (PF : Forall act_obs (map (OSent (A := A) (V := V)) (mslice (r_snd r) k)) /\ ~ In OAbandon (map (OSent (A := A) (V := V)) (mslice (r_snd r) k))).
        { split; [apply Forall_forall|]; [intros o Ho; apply in_map_iff in Ho; destruct Ho as (m & <- & _); exact I|].
          rewrite in_map_iff. intros (m & X & _). discriminate. }
        destruct PF as [PF PN].
        assert (CX : alw calm pre1 (map OSent (mslice (r_snd r) k))).
        { destruct (r_abandon r) eqn:HA; [rewrite (HJ eq_refl); apply alw_nil|].
          intros a o b E0. assert (IN : In o (map (OSent (A := A) (V := V)) (mslice (r_snd r) k))) by (rewrite E0; apply in_elt).
          apply in_map_iff in IN. destruct IN as (m & <- & _). cbn.
          assert (LA : link r2 (pre1 ++ a)).
          { apply link_acts; [exact LK| |].
            - rewrite E0 in PF. apply Forall_app in PF. apply PF.
            - intros Y. apply PN. rewrite E0. apply in_or_app. tauto. }
          destruct LA as (_ & -> & _). exact HA. }
        assert (LX : link r2 (pre1 ++ map OSent (mslice (r_snd r) k))) by (apply link_acts; assumption).
        destruct (run_step c e s r2) as [[r3 ty]| |] eqn:EY; cbn [rbind fst snd]; try discriminate.
        assert (EMP : forall op, mslice (mdel (r_snd r) k) op = []).
        { intros op. rewrite mslice_mdel. destruct (Z.eqb_spec k op) as [|NE]; [reflexivity|].
          destruct (Z.le_gt_cases op (r_state r)) as [LE|GT]; [apply (iv_snd_past _ _ _ _ _ HI op LE)|].
          destruct (mslice (r_snd r) op) as [|m l] eqn:EM; [reflexivity|].
          pose proof (iv_snd _ _ _ _ _ HI op) as X. rewrite EM in X.
          assert (IN : In m (for_op op (created tr))) by (rewrite X; apply in_elt). apply filter_In in IN. destruct IN as [IN EQ]. apply Z.eqb_eq in EQ.
          pose proof (calm_created _ _ _ HI HC m IN). unfold k in NE. lia. }
        assert (Y : alw calm (pre1 ++ map OSent (mslice (r_snd r) k)) ty /\ link r3 ((pre1 ++ map OSent (mslice (r_snd r) k)) ++ ty) /\ same r2 r3 /\
                    (r_abandon r3 = true -> forall op, mslice (r_snd r3) op = [])).
        { unfold run_step in EY. destruct (r_abandon r2) eqn:HA.
          { injection EY as <- <-. split; [apply alw_nil|]. split; [rewrite app_nil_r; exact LX|]. split; [apply same_refl|intros _; exact EMP]. }
          destruct (sg_step s) as [f|] eqn:EF.
          2:{ injection EY as <- <-. split; [apply alw_nil|]. split; [rewrite app_nil_r; exact LX|]. split; [apply same_refl|intros _; exact EMP]. }
          unfold perform in EY. destruct (f c e (r_k r2)) as [[kd acts]| |] eqn:EK; cbn [rbind fst snd] in EY; try discriminate.
          destruct (do_actions c (set_k r2 kd) acts) as [[r1 t1]| |] eqn:EA; cbn [rbind fst snd] in EY; try discriminate. injection EY as <- <-.
          assert (LS : link (set_k r2 kd) ((pre1 ++ map OSent (mslice (r_snd r) k)) ++ [OStep (r_state r2)])) by (apply (link_other r2); [exact LX|exact I]).
          destruct (do_actions_spec p c _ _ _ _ _ LS EA) as (M1 & _ & M2 & _ & _).
          rewrite <- app_assoc in M1.
          destruct (HT _ _ ES) as [TS _]. destruct (TS _ _ _ _ _ _ EF EK) as [->|FA].
          - cbn [do_actions do_action rbind fst snd] in EA. injection EA as <- <-. split; [|split; [exact M1|split; [exact M2|intros _; exact EMP]]].
            apply alw_cons; [exact I|]. apply alw_cons; [|apply alw_nil]. unfold calm. destruct LS as (_ & LS & _). etransitivity; [exact LS|exact HA].
          - destruct (calm_actions acts (set_k r2 kd) _ _ _ LS HA FA EA) as [C1 HA1].
            split; [apply alw_cons; [exact I|exact C1]|]. split; [exact M1|]. split; [exact M2|]. congruence. }
        destruct Y as (CY & LY & SY & JY). pose proof SY as (Y1 & Y2 & Y3 & _).
        destruct (process_all p c e r3 (mslice (r_rcv r3) k)) as [[r4 tz]| |] eqn:EZ; cbn [rbind fst snd]; try discriminate.
        assert (KR : Forall (fun m => m_op m = r_state r3) (mslice (r_rcv r3) k)) by (rewrite Y1, Y3; exact (iv_keyed _ _ _ _ _ HI k)).
        destruct (calm_process_all _ _ _ _ _ _ HT LY ltac:(rewrite Y2; reflexivity) KR EZ) as [CZ AZ].
        intros H. injection H as <- <-. split.
        * change (tr ++ OEnter k now :: map OSent (mslice (r_snd r) k) ++ ty ++ tz) with (tr ++ [OEnter k now] ++ map OSent (mslice (r_snd r) k) ++ ty ++ tz).
          rewrite !app_assoc. fold pre1. apply always_app; [|exact CZ]. apply always_app; [|exact CY]. apply always_app; [|exact CX]. apply always_app; [exact HC|]. apply alw_cons; [exact I|apply alw_nil].
        * cbn [set_clock set_rcv r_abandon r_snd]. rewrite AZ. intros HA. 
          apply ab_process_all in EZ; [|exact HA]. destruct EZ as [-> _]. exact (JY HA).
      + split; [apply always_app; [exact HC|apply alw_cons; [exact I|apply alw_nil]]|exact HJ].
      + split; [apply always_app; [exact HC|apply alw_cons; [exact I|apply alw_nil]]|exact HJ].
      + rewrite app_nil_r. split; assumption.
    - unfold deliver in HS. destruct ((m_op m <? r_state r) || ((m_op m =? r_state r) && r_paused r)) eqn:ED.
      { injection HS as <- <-. split; [apply always_app; [exact HC|apply alw_cons; [exact I|apply alw_nil]]|exact HJ]. }
      apply orb_false_iff in ED. rewrite Z.ltb_ge in ED. destruct ED as [GE ED].
      destruct (Z.ltb_spec (r_state r) (m_op m)) as [LT|LE].
      { injection HS as <- <-. rewrite app_nil_r. split; assumption. }
      assert (EQ : r_state r = m_op m) by lia. destruct (calm_process _ _ _ _ _ _ HT (iv_link _ _ _ _ _ HI) EQ HS) as [C1 A1].
      split; [apply always_app; assumption|]. rewrite A1. intros HA. destruct (ab_process _ _ _ _ _ HA HS) as [-> _]. auto.
  Qed.
  Lemma step_inv rcvd r tr ev r' t' : Inv p c rcvd r tr -> step p c r ev = Ok (r', t') ->
    exists rcvd', Inv p c rcvd' r' (tr ++ t').
  Proof.
    intros HI. destruct ev as [e now|e m]; cbn [step]; intros H; eexists.
    - eapply tick_inv; eassumption.
    - eapply deliver_inv; eassumption.
  Qed.
  Lemma calm_exec evs : tidy -> forall rcvd r tr r' t', Inv p c rcvd r tr -> jinv r tr -> exec p c r evs = Ok (r', t') -> always calm (tr ++ t').
  Proof.
    intros HT. induction evs as [|ev evs IH]; intros rcvd r tr r' t' HI HJ; cbn [exec].
    - intros H. injection H as <- <-. rewrite app_nil_r. apply HJ.
    - destruct (step p c r ev) as [[r1 t1]| |] eqn:E1; cbn [rbind fst snd]; try discriminate.
      destruct (exec p c r1 evs) as [[r2 t2]| |] eqn:E2; cbn [rbind fst snd]; try discriminate.
      intros H. injection H as <- <-. rewrite app_assoc. destruct (step_inv _ _ _ _ _ _ HI E1) as [rc1 HI1].
      eapply IH; [exact HI1| |exact E2]. eapply jinv_step; eassumption.
  Qed.
  Lemma calm_run k evs r tr : tidy -> exec p c (new_run k) evs = Ok (r, tr) -> always calm tr.
  Proof.
    intros HT H. apply (calm_exec evs HT [] (new_run k) [] r tr (inv_new p c k)); [|exact H]. split; [|discriminate].
    intros a o b X. destruct a; discriminate.
  Qed.

  (** ** After termination *)
  Notation no_last_proc := (no_last_proc p).
  Definition idle (a : list obs) (o : obs) : Prop :=
    terminated_in a = true -> match o with OHandle _ | ODrop _ => True | _ => False end.
  Lemma idle_before pre (t : list obs) : terminated_in pre = false -> (forall o, In o t -> match o with OTerm _ => False | _ => True end) -> alw idle pre t.
  Proof.
    intros HP HO a o b E0 HT. rewrite terminated_app, HP in HT. cbn in HT. unfold terminated_in in HT. apply existsb_exists in HT.
    destruct HT as (x & Hx & Tx). specialize (HO x). rewrite E0 in HO. specialize (HO ltac:(apply in_or_app; auto)). destruct x; cbn in *; try discriminate. contradiction.
  Qed.
  Lemma idle_exec evs : no_last_proc -> forall rcvd r tr r' t', Inv p c rcvd r tr -> exec p c r evs = Ok (r', t') ->
    alw idle tr t' /\ (r_loc r = LEnd -> r_loc r' = LEnd /\ r_k r' = r_k r).
  Proof.
    intros HN. induction evs as [|ev evs IH]; intros rcvd r tr r' t' HI; cbn [exec].
    - intros H. injection H as <- <-. split; [apply alw_nil|auto].
    - destruct (step p c r ev) as [[r1 t1]| |] eqn:E1; cbn [rbind fst snd]; try discriminate.
      destruct (exec p c r1 evs) as [[r2 t2]| |] eqn:E2; cbn [rbind fst snd]; try discriminate.
      intros H. injection H as <- <-. destruct (step_inv _ _ _ _ _ _ HI E1) as [rc1 HI1].
      destruct (IH _ _ _ _ _ HI1 E2) as [A2 B2].
      assert (X : alw idle tr t1 /\ (r_loc r = LEnd -> r_loc r1 = LEnd /\ r_k r1 = r_k r)).
      { destruct (iv_link _ _ _ _ _ HI) as (_ & _ & LT). pose proof (iv_loc _ _ _ _ _ HI) as HL.
        destruct ev as [e now|e m]; cbn [step] in E1.
        - destruct (tick_cases p c _ _ _ _ _ _ _ HI E1) as [(X1 & -> & ->)|[(X1 & X2 & X3 & X4)|[(X1 & X2 & -> & ->)|[(X1 & X2 & -> & ->)|(X1 & -> & ->)]]]].
          + rewrite X1 in HL. split; [|congruence]. apply idle_before; [rewrite LT; apply HL|intros o [<-|[]]; exact I].
          + split; [|intros Y; destruct X1; congruence]. apply idle_before; [congruence|].
            destruct (enter_obs p c _ _ _ _ _ _ (iv_link _ _ _ _ _ HI) X4) as (t3 & -> & O3). intros o [<-|Ho]; [exact I|]. specialize (O3 o Ho). destruct o; exact I || exact O3.
          + rewrite X1 in HL. split; [|congruence]. apply idle_before; [rewrite LT; apply HL|intros o [<-|[]]; exact I].
          + split; [|intros Y; destruct X1; congruence]. apply alw_cons; [|apply alw_nil]. intros Y. exfalso. rewrite LT in Y.
            destruct X1 as [X1|X1]; rewrite X1 in HL; intuition congruence.
          + split; [apply alw_nil|auto].
        - destruct (r_term r) eqn:HT.
          + assert (HE : r_state r = final /\ r_paused r = false) by (destruct (r_loc r); intuition congruence). destruct HE as [HE HP].
            unfold deliver in E1. destruct ((m_op m <? r_state r) || ((m_op m =? r_state r) && r_paused r)) eqn:ED.
            { injection E1 as <- <-. split; [apply alw_cons; [intros _; exact I|apply alw_nil]|auto]. }
            apply orb_false_iff in ED. rewrite Z.ltb_ge in ED. destruct ED as [GE ED].
            destruct (Z.ltb_spec (r_state r) (m_op m)) as [L0|L0].
            { injection E1 as <- <-. split; [apply alw_nil|auto]. }
            assert (X : r1 = r /\ t1 = [OHandle m]).
            { unfold process_msg in E1. destruct (r_abandon r); [injection E1 as <- <-; auto|].
              destruct (stage_at p (m_op m)) as [s|] eqn:ES; [|discriminate].
              replace (m_op m) with final in ES by lia. rewrite (HN s ES) in E1. injection E1 as <- <-. auto. }
            destruct X as [-> ->]. split; [apply alw_cons; [intros _; exact I|apply alw_nil]|auto].
          + destruct (deliver_same p c _ _ _ _ _ _ _ HI E1) as (_ & _ & LO & _ & _ & _ & _ & _ & O1).
            split; [|intros Y; rewrite Y in HL; intuition congruence]. apply idle_before; [congruence|]. intros o Ho. specialize (O1 o Ho). destruct o; exact I || exact O1. }
      destruct X as [A1 B1]. split; [apply alw_app; assumption|]. intros HE. destruct (B1 HE) as [HE1 K1]. destruct (B2 HE1) as [HE2 K2]. split; congruence.
  Qed.
End More.
