(** Invariants relating the stage, the run's data, abandonment and the outputs. *)
From Coq Require Import ZArith List Lia Bool.
From Verif Require Import Bytes Res Dto DtoProofs Prot ProtSpec ProtProofs ProtProofs2 ProtProofs3.
Import ListNotations.
Open Scope Z_scope.

Section Out.
  Context {D A K E V : Type}.
  Notation message := (message D). Notation rst := (rst D K). Notation obs := (obs D A V).
  Notation action := (action D V). Notation event := (event D E).
  Variable p : protocol D A K E V.
  Variable c : info.
  Variable Q : Z -> K -> bool -> list (Z * V) -> Prop.

  Definition acts_out (acts : list action) : list (Z * V) :=
    flat_map (fun a => match a with AOutput pc v => [(pc, v)] | _ => [] end) acts.
  Definition has_ab (acts : list action) : bool := existsb (fun a => match a with AAbandon => true | _ => false end) acts.

  Definition step_out : Prop := forall k s, stage_at p k = Some s -> forall kd o, Q (k - 1) kd false o ->
    match sg_step s with
    | Some f => forall e kd' acts, f c e kd = Ok (kd', acts) -> Q k kd' (has_ab acts) (o ++ acts_out acts)
    | None => Q k kd false o
    end.
  Definition skip_out : Prop := forall k kd o, Q k kd true o -> Q (k + 1) kd true o.
  Definition proc_out : Prop := forall k s f, stage_at p k = Some s -> sg_proc s = Some f ->
    forall e kd o a kd' acts, Q k kd false o -> f c e kd a = Ok (kd', acts) -> Q k kd' (has_ab acts) (o ++ acts_out acts).
  Definition clean_out : Prop := forall kd b o, Q (final p) kd b o -> Q (final p) (p_cleanup p kd) b o.

  Definition oinv (r : rst) (o : list (Z * V)) : Prop := Q (r_state r) (r_k r) (r_abandon r) o.

  Lemma acts_outs (acts : list action) : forall (r r' : rst) (tr : list obs), do_actions c r acts = Ok (r', tr) ->
    outputs_of tr = acts_out acts /\ r_k r' = r_k r /\ r_abandon r' = r_abandon r || has_ab acts /\ same r r'.
  Proof.
    induction acts as [|a acts IH]; intros r r' tr; cbn [do_actions].
    - intros H. injection H as <- <-. rewrite orb_false_r. repeat (split; [reflexivity|]). apply same_refl.
    - destruct (do_action c r a) as [[r1 t1]| |] eqn:E1; cbn [rbind fst snd]; try discriminate.
      destruct (do_actions c r1 acts) as [[r2 t2]| |] eqn:E2; cbn [rbind fst snd]; try discriminate.
      intros H. injection H as <- <-. destruct (IH _ _ _ E2) as (O2 & K2 & A2 & S2).
      assert (X : outputs_of t1 = acts_out [a] /\ r_k r1 = r_k r /\ r_abandon r1 = r_abandon r || has_ab [a] /\ same r r1).
      { destruct a as [i op d| |pc v]; cbn [do_action] in E1.
        - unfold send, try_send in E1. destruct (r_state r <? op).
          + injection E1 as <- <-. cbn. rewrite orb_false_r. repeat (split; [reflexivity|]). unfold same; cbn; tauto.
          + destruct (_ && _); [|discriminate]. cbn [rbind] in E1. injection E1 as <- <-. cbn. rewrite orb_false_r.
            repeat (split; [reflexivity|]). apply same_refl.
        - injection E1 as <- <-. cbn. rewrite orb_true_r. repeat (split; [reflexivity|]). unfold same; cbn; tauto.
        - injection E1 as <- <-. cbn. rewrite orb_false_r. repeat (split; [reflexivity|]). apply same_refl. }
      destruct X as (O1 & K1 & A1 & S1). unfold outputs_of in *. rewrite flat_map_app, O1, O2.
      split; [change (a :: acts) with ([a] ++ acts); unfold acts_out; rewrite flat_map_app; reflexivity|].
      split; [congruence|]. split; [|eapply same_trans; eassumption].
      rewrite A2, A1, <- orb_assoc. f_equal. unfold has_ab. cbn. rewrite orb_false_r. reflexivity.
  Qed.

  Lemma msg_out (e : E) (r r' : rst) m tr o : proc_out -> oinv r o -> r_state r = m_op m ->
    process_msg p c e r m = Ok (r', tr) -> oinv r' (o ++ outputs_of tr) /\ same r r'.
  Proof.
    intros HP HI HS. unfold process_msg. destruct (r_abandon r) eqn:HA.
    { intros H. injection H as <- <-. cbn. rewrite app_nil_r. split; [exact HI|apply same_refl]. }
    assert (TR : Ok (r, [OHandle m : obs]) = Ok (r', tr) -> oinv r' (o ++ outputs_of tr) /\ same r r').
    { intros H. injection H as <- <-. cbn. rewrite app_nil_r. split; [exact HI|apply same_refl]. }
    destruct (stage_at p (m_op m)) as [s|] eqn:ES; [|discriminate].
    destruct (sg_proc s) as [f|] eqn:EP; [|exact TR].
    destruct (negb _); [exact TR|]. destruct (sg_unm s (m_dto m)) as [a| |]; [|exact TR|discriminate].
    destruct (_ && _); [|exact TR]. destruct (sg_valid s a (m_sender m)) as [[|]| |]; cbn [rbind]; try discriminate; [|exact TR].
    unfold perform. destruct (f c e (r_k r) a) as [[kd' acts]| |] eqn:EF; cbn [rbind fst snd]; try discriminate.
    destruct (do_actions c (set_k r kd') acts) as [[r1 t1]| |] eqn:E1; cbn [rbind fst snd]; try discriminate.
    intros H. injection H as <- <-. destruct (acts_outs _ _ _ _ E1) as (O1 & K1 & A1 & S1).
    cbn. change (flat_map _ t1) with (outputs_of t1). rewrite O1. split; [|exact S1].
    unfold oinv in *. rewrite K1, A1. destruct S1 as (-> & _). cbn [set_k r_k r_state r_abandon]. rewrite HA. cbn [orb].
    rewrite HA in HI. rewrite HS in *. eapply HP; eassumption.
  Qed.
  Lemma msgs_out (e : E) l : forall (r r' : rst) tr o, proc_out -> oinv r o -> Forall (fun m => m_op m = r_state r) l ->
    process_all p c e r l = Ok (r', tr) -> oinv r' (o ++ outputs_of tr) /\ same r r'.
  Proof.
    induction l as [|m l IH]; intros r r' tr o HP HI HO; cbn [process_all].
    - intros H. injection H as <- <-. cbn. rewrite app_nil_r. split; [exact HI|apply same_refl].
    - inversion HO as [|? ? Hm HO']; subst.
      destruct (process_msg p c e r m) as [[r1 t1]| |] eqn:E1; cbn [rbind fst snd]; try discriminate.
      destruct (process_all p c e r1 l) as [[r2 t2]| |] eqn:E2; cbn [rbind fst snd]; try discriminate.
      intros H. injection H as <- <-. destruct (msg_out _ _ _ _ _ _ HP HI (eq_sym Hm) E1) as [I1 S1].
      assert (HO1 : Forall (fun x => m_op x = r_state r1) l) by (destruct S1 as (-> & _); exact HO').
      destruct (IH _ _ _ _ HP I1 HO1 E2) as [I2 S2].
      unfold outputs_of in *. rewrite flat_map_app, app_assoc. split; [exact I2|eapply same_trans; eassumption].
  Qed.

  Lemma enter_out (e : E) now (r r' : rst) tr o : step_out -> skip_out -> proc_out -> keyed (r_rcv r) -> oinv r o ->
    enter_stage p c e now r = Ok (r', tr) -> oinv r' (o ++ outputs_of tr).
  Proof.
    intros HST HSK HP HK HI. unfold enter_stage. set (k := r_state r + 1).
    destruct (stage_at p k) as [s|] eqn:ES; [|discriminate].
    unfold flush_snd_buf. destruct (try_send_all c _) as [o1| |] eqn:E1; cbn [rbind fst snd]; try discriminate.
    apply try_send_all_spec in E1. destruct E1 as [E1 _].
    assert (O1 : outputs_of o1 = []).
    { rewrite E1. cbn [set_stage r_snd r_state]. induction (mslice (r_snd r) k) as [|x l IH]; [reflexivity|exact IH]. }
    match goal with |- context [set_snd ?x ?y] => set (r2 := set_snd x y) end.
    destruct (run_step c e s r2) as [[r3 t3]| |] eqn:E3; cbn [rbind fst snd]; try discriminate.
    assert (I3 : oinv r3 (o ++ outputs_of t3) /\ same r2 r3).
    { revert E3. unfold run_step. change (r_abandon r2) with (r_abandon r). change (r_k r2) with (r_k r).
      unfold oinv in HI. destruct (r_abandon r) eqn:HA.
      { intros H. injection H as <- <-. cbn [outputs_of flat_map]. rewrite app_nil_r. split; [|apply same_refl].
        unfold oinv. change (r_abandon r2) with (r_abandon r). change (r_k r2) with (r_k r). rewrite HA. apply HSK, HI. }
      pose proof (HST k s ES (r_k r) o) as X. replace (k - 1) with (r_state r) in X by (unfold k; lia). specialize (X HI).
      destruct (sg_step s) as [f|].
      - unfold perform. destruct (f c e (r_k r)) as [[kd' acts]| |] eqn:EF; cbn [rbind fst snd]; try discriminate.
        destruct (do_actions c (set_k r2 kd') acts) as [[r4 t4]| |] eqn:E4; cbn [rbind fst snd]; try discriminate.
        intros H. injection H as <- <-. destruct (acts_outs _ _ _ _ E4) as (O4 & K4 & A4 & S4).
        cbn. change (flat_map _ t4) with (outputs_of t4). rewrite O4. split; [|exact S4]. unfold oinv. rewrite K4, A4.
        destruct S4 as (-> & _). cbn [set_k r_k r_state r_abandon]. change (r_abandon r2) with (r_abandon r). rewrite HA. cbn [orb].
        eapply X. exact EF.
      - intros H. injection H as <- <-. cbn [outputs_of flat_map]. rewrite app_nil_r. split; [|apply same_refl].
        unfold oinv. change (r_abandon r2) with (r_abandon r). rewrite HA. exact X. }
    destruct I3 as [I3 S3].
    destruct (process_all p c e r3 (mslice (r_rcv r3) k)) as [[r4 t4]| |] eqn:E4; cbn [rbind fst snd]; try discriminate.
    assert (HO : Forall (fun m => m_op m = r_state r3) (mslice (r_rcv r3) k)).
    { destruct S3 as (Q1 & _ & Q3 & _). rewrite Q3, Q1. apply HK. }
    intros H. injection H as <- <-. destruct (msgs_out _ _ _ _ _ _ HP I3 HO E4) as [I4 S4].
    change (OEnter k now :: o1 ++ t3 ++ t4) with ([OEnter k now : obs] ++ o1 ++ t3 ++ t4).
    unfold outputs_of in *. rewrite !flat_map_app, O1. cbn [flat_map app]. rewrite app_assoc. exact I4.
  Qed.

  Lemma exec_out evs : step_out -> skip_out -> proc_out -> clean_out ->
    forall rcvd r tr o r' t', Inv p c rcvd r tr -> oinv r o -> exec p c r evs = Ok (r', t') -> oinv r' (o ++ outputs_of t').
  Proof.
    intros HST HSK HP HC. induction evs as [|ev evs IH]; intros rcvd r tr o r' t' HI HQ; cbn [exec].
    - intros H. injection H as <- <-. cbn. rewrite app_nil_r. exact HQ.
    - destruct (step p c r ev) as [[r1 t1]| |] eqn:E1; cbn [rbind fst snd]; try discriminate.
      destruct (exec p c r1 evs) as [[r2 t2]| |] eqn:E2; cbn [rbind fst snd]; try discriminate.
      intros H. injection H as <- <-. destruct (step_inv p c _ _ _ _ _ _ HI E1) as [rc1 HI1].
      unfold outputs_of in *. rewrite flat_map_app, app_assoc. eapply IH; [exact HI1| |exact E2]. clear IH E2 HI1.
      pose proof (iv_keyed _ _ _ _ _ HI) as HK. pose proof (iv_loc _ _ _ _ _ HI) as HL. pose proof (iv_range _ _ _ _ _ HI) as HR.
      destruct ev as [e now|e m]; cbn [step] in E1.
      + unfold tick in E1.
        assert (LT : loop_top p c e now r = Ok (r1, t1) -> oinv r1 (o ++ flat_map (fun o0 : obs => match o0 with OOutput pc v => [(pc, v)] | _ => [] end) t1)).
        { unfold loop_top. destruct (Z.ltb_spec (r_state r) (final p)) as [LT|GE].
          - destruct (_ <? _).
            + intros H. injection H as <- <-. cbn. rewrite app_nil_r. exact HQ.
            + apply enter_out; assumption.
          - intros H. injection H as <- <-. cbn. rewrite app_nil_r. unfold oinv in *. cbn.
            assert (EQ : r_state r = final p \/ r_state r <> final p) by lia. destruct EQ as [EQ|NE].
            + rewrite EQ in *. apply HC, HQ.
            + lia. }
        destruct (r_loc r); try (apply LT; exact E1).
        * injection E1 as <- <-. cbn. rewrite app_nil_r. exact HQ.
        * eapply enter_out; eassumption.
        * injection E1 as <- <-. cbn. rewrite app_nil_r. exact HQ.
      + unfold deliver in E1. destruct (_ || _) eqn:ED.
        { injection E1 as <- <-. cbn. rewrite app_nil_r. exact HQ. }
        destruct (Z.ltb_spec (r_state r) (m_op m)).
        { injection E1 as <- <-. cbn. rewrite app_nil_r. exact HQ. }
        apply orb_false_iff in ED. rewrite Z.ltb_ge in ED.
        eapply msg_out; [exact HP|exact HQ| |exact E1]. lia.
  Qed.
  Lemma run_out k0 evs r tr : step_out -> skip_out -> proc_out -> clean_out -> Q (-1) k0 false [] ->
    exec p c (new_run k0) evs = Ok (r, tr) -> Q (r_state r) (r_k r) (r_abandon r) (outputs_of tr).
  Proof.
    intros H1 H2 H3 H4 H5 H. apply (exec_out evs H1 H2 H3 H4 [] (new_run k0) [] [] r tr (inv_new p c k0)); [exact H5|exact H].
  Qed.
End Out.
