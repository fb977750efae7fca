(** When no run of a protocol panics. *)
From Coq Require Import ZArith List Lia Bool.
From Verif Require Import Bytes Res Dto DtoProofs Prot ProtSpec ProtProofs ProtProofs2 ProtProofs3.
Import ListNotations.
Open Scope Z_scope.

Section Safe.
  Context {D A K E V : Type}.
  Notation message := (message D). Notation rst := (rst D K). Notation obs := (obs D A V).
  Notation action := (action D V). Notation stage := (stage D A K E V). Notation event := (event D E).
  Variable p : protocol D A K E V.
  Variable c : info.
  Notation final := (final p).
  Variable GE : E -> Prop.
  Variable GM : message -> Prop.
  (** What holds of the run's data after the step of stage k, unless abandoned. *)
  Variable S : Z -> K -> Prop.

  Definition okr (i : Z) : Prop := 0 <= i < i_queues c.
  Definition okrcpt (acts : list action) : Prop := Forall (fun a => match a with ASend i _ _ => okr i | _ => True end) acts.
  Definition keeps (k : Z) (acts : list action) (kd' : K) : Prop := okrcpt acts /\ (In AAbandon acts \/ S k kd').
  Definition step_safe : Prop := forall k s, stage_at p k = Some s -> forall kd e, S (k - 1) kd -> GE e ->
    match sg_step s with Some f => exists kd' acts, f c e kd = Ok (kd', acts) /\ keeps k acts kd' | None => S k kd end.
  Definition proc_safe : Prop := forall k s f, stage_at p k = Some s -> sg_proc s = Some f ->
    forall m e kd, GM m -> m_op m = k -> GE e -> S k kd -> sg_type s (m_dto m) = true ->
    sg_unm s (m_dto m) = Err \/ exists a, sg_unm s (m_dto m) = Ok a /\
      (0 <= m_sender m < i_members c -> sg_valid s a (m_sender m) = Ok false \/
        (sg_valid s a (m_sender m) = Ok true /\ exists kd' acts, f c e kd a = Ok (kd', acts) /\ keeps k acts kd')).

  Definition sinv (r : rst) : Prop :=
    (r_abandon r = false -> r_loc r <> LEnd -> S (r_state r) (r_k r)) /\
    (forall op, Forall (fun m => okr (m_rcpt m)) (mslice (r_snd r) op)) /\
    (forall op, Forall (fun m => GM m /\ 0 <= m_op m <= final) (mslice (r_rcv r) op)).

  Lemma acts_safe acts : forall r, okrcpt acts -> (forall op, Forall (fun m : message => okr (m_rcpt m)) (mslice (r_snd r) op)) ->
    exists (r' : rst) (tr : list obs), do_actions (A := A) c r acts = Ok (r', tr) /\ same r r' /\ r_k r' = r_k r /\
      (r_abandon r = true \/ In AAbandon acts -> r_abandon r' = true) /\ (forall op, Forall (fun m : message => okr (m_rcpt m)) (mslice (r_snd r') op)).
  Proof.
    induction acts as [|a acts IH]; intros r HO HF; cbn [do_actions].
    - exists r, []. split; [reflexivity|]. split; [apply same_refl|]. split; [reflexivity|]. split; [intros [X|[]]; exact X|exact HF].
    - inversion HO as [|? ? Ha HO']; subst.
      assert (X : exists (r1 : rst) (t1 : list obs), do_action (A := A) c r a = Ok (r1, t1) /\ same r r1 /\ r_k r1 = r_k r /\
        (r_abandon r = true \/ a = AAbandon -> r_abandon r1 = true) /\ (forall op, Forall (fun m : message => okr (m_rcpt m)) (mslice (r_snd r1) op))).
      { destruct a as [i op d| |pc v]; cbn [do_action].
        - unfold send, try_send. cbn [m_rcpt make_msg]. destruct (r_state r <? op).
          + eexists _, _. split; [reflexivity|]. split; [unfold same; cbn; tauto|]. split; [reflexivity|]. split; [intros [X|X]; [exact X|discriminate]|].
            intros op'. cbn [set_snd r_snd]. rewrite mslice_mset. destruct (op =? op'); [|apply HF]. apply Forall_app. split; [apply HF|]. constructor; [exact Ha|constructor].
          + unfold okr in Ha. destruct (Z.leb_spec 0 i); [|lia]. destruct (Z.ltb_spec i (i_queues c)); [|lia]. cbn [andb rbind].
            eexists _, _. split; [reflexivity|]. split; [apply same_refl|]. split; [reflexivity|]. split; [intros [X|X]; [exact X|discriminate]|exact HF].
        - eexists _, _. split; [reflexivity|]. split; [unfold same; cbn; tauto|]. split; [reflexivity|]. split; [intros _; reflexivity|exact HF].
        - eexists _, _. split; [reflexivity|]. split; [apply same_refl|]. split; [reflexivity|]. split; [intros [X|X]; [exact X|discriminate]|exact HF]. }
      destruct X as (r1 & t1 & -> & S1 & K1 & A1 & F1). cbn [rbind fst snd].
      destruct (IH r1 HO' F1) as (r2 & t2 & -> & S2 & K2 & A2 & F2). cbn [rbind fst snd].
      eexists _, _. split; [reflexivity|]. split; [eapply same_trans; eassumption|]. split; [congruence|]. split; [|exact F2].
      intros [X|[X|X]]; apply A2; [left; apply A1; tauto|left; apply A1; auto|right; exact X].
  Qed.

  Lemma msg_safe (e : E) (r : rst) m : proc_safe -> no_last_proc p -> GE e -> GM m -> 0 <= m_op m <= final -> sinv r -> r_state r = m_op m ->
    (r_loc r = LEnd -> r_state r = final) ->
    exists r' tr, process_msg p c e r m = Ok (r', tr) /\ sinv r' /\ same r r'.
  Proof.
    intros HP HN He Hm HO (I1 & I2 & I3) HS HL. unfold process_msg.
    assert (TR : exists r' (tr : list obs), Ok (r, [OHandle m : obs]) = Ok (r', tr) /\ sinv r' /\ same r r').
    { eexists _, _. split; [reflexivity|]. split; [split; [exact I1|split; [exact I2|exact I3]]|apply same_refl]. }
    destruct (r_abandon r) eqn:HA; [exact TR|].
    assert (ES : exists s, stage_at p (m_op m) = Some s).
    { unfold stage_at. destruct (Z.ltb_spec (m_op m) 0); [lia|]. destruct (nth_error (p_stages p) (Z.to_nat (m_op m))) eqn:EN; [eauto|].
      apply nth_error_None in EN. unfold Prot.final in HO. lia. }
    destruct ES as [s ES]. rewrite ES. destruct (sg_proc s) as [f|] eqn:EP; [|exact TR].
    assert (NE : r_loc r <> LEnd). { intros X. specialize (HL X). rewrite HS in HL. rewrite HL in ES. rewrite (HN s ES) in EP. discriminate. }
    destruct (sg_type s (m_dto m)) eqn:ET; cbn [negb]; [|exact TR].
    pose proof (I1 eq_refl NE) as HK. rewrite HS in HK.
    destruct (HP _ _ _ ES EP m e (r_k r) Hm eq_refl He HK ET) as [EU|(a & EU & X)]; rewrite EU; [exact TR|].
    destruct ((0 <=? m_sender m) && (m_sender m <? i_members c)) eqn:ER; [|exact TR].
    apply andb_true_iff in ER. rewrite Z.leb_le, Z.ltb_lt in ER.
    destruct (X ER) as [EV|(EV & kd' & acts & EF & HR & HK')]; rewrite EV; cbn [rbind]; [exact TR|].
    unfold perform. rewrite EF. cbn [rbind fst snd].
    destruct (acts_safe acts (set_k r kd') HR I2) as (r1 & t1 & -> & S1 & K1 & A1 & F1). cbn [rbind fst snd].
    pose proof S1 as (Q1 & Q2 & Q3 & Q4 & Q5 & Q6 & Q7).
    eexists _, _. split; [reflexivity|]. split; [|exact S1]. split; [|split; [exact F1|rewrite Q3; exact I3]].
    intros HB _. rewrite K1, Q1. cbn [set_k r_k r_state]. rewrite HS. destruct HK' as [HK'|HK']; [|exact HK'].
    specialize (A1 (or_intror HK')). congruence.
  Qed.
  Lemma msgs_safe (e : E) l : forall r : rst, proc_safe -> no_last_proc p -> GE e -> Forall (fun m => GM m /\ 0 <= m_op m <= final) l ->
    Forall (fun m => m_op m = r_state r) l -> sinv r -> (r_loc r = LEnd -> r_state r = final) ->
    exists r' tr, process_all p c e r l = Ok (r', tr) /\ sinv r' /\ same r r'.
  Proof.
    induction l as [|m l IH]; intros r HP HN He HG HO HI HL; cbn [process_all].
    - eexists _, _. split; [reflexivity|]. split; [exact HI|apply same_refl].
    - inversion HG as [|? ? [Hm HR] HG']; inversion HO as [|? ? Hop HO']; subst.
      destruct (msg_safe e r m HP HN He Hm HR HI (eq_sym Hop) HL) as (r1 & t1 & -> & I1 & S1). cbn [rbind fst snd].
      pose proof S1 as (Q1 & Q2 & Q3 & Q4 & Q5 & Q6 & Q7).
      destruct (IH r1 HP HN He HG') as (r2 & t2 & -> & I2 & S2); [rewrite Q1; exact HO'|exact I1|intros X; rewrite Q1; apply HL; congruence|]. cbn [rbind fst snd].
      eexists _, _. split; [reflexivity|]. split; [exact I2|]. eapply same_trans; eassumption.
  Qed.
  Lemma try_send_all_safe l : Forall (fun m : message => okr (m_rcpt m)) l -> try_send_all (A := A) (V := V) c l = Ok (map OSent l).
  Proof.
    induction 1 as [|m l Hm _ IH]; [reflexivity|]. cbn [try_send_all]. unfold try_send. unfold okr in Hm.
    destruct (Z.leb_spec 0 (m_rcpt m)); [|lia]. destruct (Z.ltb_spec (m_rcpt m) (i_queues c)); [|lia]. cbn [andb rbind]. rewrite IH. reflexivity.
  Qed.

  Lemma enter_safe (e : E) now (r : rst) : step_safe -> proc_safe -> no_last_proc p -> GE e -> sinv r -> keyed (r_rcv r) ->
    -1 <= r_state r < final -> r_loc r <> LEnd ->
    exists r' tr, enter_stage p c e now r = Ok (r', tr) /\ sinv r'.
  Proof.
    intros HST HP HN He (I1 & I2 & I3) HK HR HL. unfold enter_stage. set (k := r_state r + 1).
    assert (ES : exists s, stage_at p k = Some s).
    { unfold stage_at. destruct (Z.ltb_spec k 0); [unfold k in *; lia|]. destruct (nth_error (p_stages p) (Z.to_nat k)) eqn:EN; [eauto|].
      apply nth_error_None in EN. unfold Prot.final, k in *. lia. }
    destruct ES as [s ES]. rewrite ES. unfold flush_snd_buf. cbn [set_stage r_state r_snd]. rewrite try_send_all_safe by apply I2. cbn [rbind fst snd].
    set (r2 := set_snd (set_stage r k false) (mdel (r_snd r) k)).
    assert (F2 : forall op, Forall (fun m : message => okr (m_rcpt m)) (mslice (r_snd r2) op)).
    { intros op. cbn [r2 set_snd r_snd]. rewrite mslice_mdel. destruct (k =? op); [constructor|apply I2]. }
    assert (X : exists r3 t3, run_step c e s r2 = Ok (r3, t3) /\ sinv r3 /\ same r2 r3).
    { unfold run_step. change (r_abandon r2) with (r_abandon r). destruct (r_abandon r) eqn:HA.
      { eexists _, _. split; [reflexivity|]. split; [|apply same_refl]. split; [cbn; congruence|]. split; [exact F2|exact I3]. }
      pose proof (HST k s ES (r_k r) e) as X. replace (k - 1) with (r_state r) in X by (unfold k; lia). specialize (X (I1 eq_refl HL) He).
      destruct (sg_step s) as [f|].
      - destruct X as (kd' & acts & EF & HO & HK'). unfold perform. change (r_k r2) with (r_k r). rewrite EF. cbn [rbind fst snd].
        destruct (acts_safe acts (set_k r2 kd') HO F2) as (r3 & t3 & -> & S1 & K1 & A1 & F3). cbn [rbind fst snd].
        pose proof S1 as (Q1 & Q2 & Q3 & Q4 & Q5 & Q6 & Q7).
        eexists _, _. split; [reflexivity|]. split; [|exact S1]. split; [|split; [exact F3|rewrite Q3; exact I3]].
        intros HB _. rewrite K1, Q1. cbn [set_k r_k r_state r2 set_snd set_stage]. destruct HK' as [HK'|HK']; [|exact HK'].
        specialize (A1 (or_intror HK')). congruence.
      - eexists _, _. split; [reflexivity|]. split; [|apply same_refl]. split; [intros _ _; exact X|]. split; [exact F2|exact I3]. }
    destruct X as (r3 & t3 & -> & I4 & S3). cbn [rbind fst snd]. pose proof S3 as (Q1 & Q2 & Q3 & Q4 & Q5 & Q6 & Q7).
    destruct (msgs_safe e (mslice (r_rcv r3) k) r3 HP HN He) as (r4 & t4 & -> & I5 & S4).
    - rewrite Q3. apply I3.
    - rewrite Q3, Q1. apply HK.
    - exact I4.
    - intros X. exfalso. apply HL. rewrite <- X. symmetry. apply S3.
    - cbn [rbind fst snd]. eexists _, _. split; [reflexivity|]. destruct I5 as (J1 & J2 & J3).
      pose proof S4 as (P1 & P2 & P3 & P4 & P5 & P6 & P7). split; [|split; [exact J2|]].
      + cbn. intros HB _. apply J1; [exact HB|]. intros X. apply HL. rewrite <- X. symmetry. etransitivity; [apply S4|apply S3].
      + intros op. cbn [set_clock set_rcv r_rcv]. rewrite mslice_mdel. destruct (k =? op); [constructor|apply J3].
  Qed.

  Lemma exec_safe evs : step_safe -> proc_safe -> no_last_proc p -> p_stages p <> [] ->
    Forall (fun ev => match ev with ETick e _ => GE e | EMsg e m => GE e /\ GM m /\ 0 <= m_op m <= final end) evs ->
    forall rcvd r tr, Inv p c rcvd r tr -> sinv r -> exists r' t', exec p c r evs = Ok (r', t') /\ sinv r'.
  Proof.
    intros HST HP HN NE. induction evs as [|ev evs IH]; intros HF rcvd r tr HI HS; cbn [exec].
    - eauto.
    - inversion HF as [|? ? He HF']; subst.
      assert (X : exists r1 t1, step p c r ev = Ok (r1, t1) /\ sinv r1).
      { pose proof (iv_loc _ _ _ _ _ HI) as HL. pose proof (iv_range _ _ _ _ _ HI) as HR. pose proof (iv_keyed _ _ _ _ _ HI) as HK.
        assert (NN : 0 <= final) by (unfold Prot.final; destruct (p_stages p); [congruence|cbn [length]; lia]).
        pose proof HS as (S1 & S2 & S3).
        destruct ev as [e now|e m]; cbn [step].
        - assert (EN : r_state r < final -> r_loc r <> LEnd -> exists r1 t1, enter_stage p c e now r = Ok (r1, t1) /\ sinv r1).
          { intros. apply enter_safe; auto; lia. }
          unfold tick, loop_top. destruct (r_loc r) eqn:LO.
          + eexists _, _. split; [reflexivity|]. split; [cbn; intros; apply S1; congruence|auto].
          + destruct (Z.ltb_spec (r_state r) final); [|lia]. destruct (Z.ltb_spec (-1) (r_state r)); [lia|]. apply EN; [assumption|discriminate].
          + destruct (Z.ltb_spec (r_state r) final).
            * destruct (Z.ltb_spec (-1) (r_state r)); [|lia]. eexists _, _. split; [reflexivity|]. split; [cbn; intros; apply S1; congruence|auto].
            * eexists _, _. split; [reflexivity|]. split; [cbn; congruence|auto].
          + apply EN; [lia|discriminate].
          + eexists _, _. split; [reflexivity|exact HS].
        - destruct He as (He & Hm & HO). unfold deliver. destruct ((m_op m <? r_state r) || ((m_op m =? r_state r) && r_paused r)) eqn:ED.
          { eexists _, _. split; [reflexivity|exact HS]. }
          apply orb_false_iff in ED. rewrite Z.ltb_ge in ED. destruct ED as [GE0 ED].
          destruct (Z.ltb_spec (r_state r) (m_op m)) as [LT|LE].
          { eexists _, _. split; [reflexivity|]. split; [exact S1|]. split; [exact S2|]. intros op. cbn [set_rcv r_rcv]. rewrite mslice_mset.
            destruct (m_op m =? op); [|apply S3]. apply Forall_app. split; [apply S3|]. constructor; [auto|constructor]. }
          assert (EQ : r_state r = m_op m) by lia.
          destruct (msg_safe e r m HP HN He Hm HO HS EQ) as (r1 & t1 & E1 & I1 & _); [intros X; rewrite X in HL; tauto|]. eauto. }
      destruct X as (r1 & t1 & E1 & I1). rewrite E1. cbn [rbind fst snd].
      destruct (step_inv p c _ _ _ _ _ _ HI E1) as [rc1 HI1].
      destruct (IH HF' _ _ _ HI1 I1) as (r2 & t2 & -> & I2). cbn [rbind fst snd]. eauto.
  Qed.
  Lemma run_safe k0 evs : step_safe -> proc_safe -> no_last_proc p -> p_stages p <> [] -> S (-1) k0 ->
    Forall (fun ev => match ev with ETick e _ => GE e | EMsg e m => GE e /\ GM m /\ 0 <= m_op m <= final end) evs ->
    exists r t, exec p c (new_run k0) evs = Ok (r, t).
  Proof.
    intros HST HP HN NE HS HF. destruct (exec_safe evs HST HP HN NE HF [] (new_run k0) [] (inv_new p c k0)) as (r & t & X & _); [|eauto].
    split; [intros _ _; exact HS|]. split; intros op; constructor.
  Qed.
End Safe.
