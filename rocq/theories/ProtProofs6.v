(** Invariants relating the stage, the run's data, abandonment and everything the
    steps and processors did, when all environments satisfy a condition. *)
From Coq Require Import ZArith List Lia Bool.
From Verif Require Import Bytes Res Dto DtoProofs Prot ProtSpec ProtProofs ProtProofs2 ProtProofs3.
Import ListNotations.
Open Scope Z_scope.

Section Acts.
  Context {D A K E V : Type}.
  Notation message := (message D). Notation rst := (rst D K). Notation obs := (obs D A V).
  Notation action := (action D V). Notation event := (event D E).
  Variable p : protocol D A K E V.
  Variable c : info.
  Variable Env : E -> Prop.
  Variable Q : Z -> K -> bool -> list action -> Prop.
  (** What was done, read off a trace. *)
  Definition acts_of (tr : list obs) : list action :=
    flat_map (fun o => match o with
      | OCreate m => [ASend (m_rcpt m) (m_op m) (m_dto m)] | OAbandon => [AAbandon] | OOutput pc v => [AOutput pc v] | _ => [] end) tr.

  Definition has_ab (acts : list action) : bool := existsb (fun a => match a with AAbandon => true | _ => false end) acts.

  Definition step_acts : Prop := forall k s, stage_at p k = Some s -> forall kd o, Q (k - 1) kd false o ->
    match sg_step s with
    | Some f => forall e kd' acts, Env e -> f c e kd = Ok (kd', acts) -> Q k kd' (has_ab acts) (o ++ acts)
    | None => Q k kd false o
    end.
  Definition skip_acts : Prop := forall k kd o, Q k kd true o -> Q (k + 1) kd true o.
  Definition proc_acts : Prop := forall k s f, stage_at p k = Some s -> sg_proc s = Some f ->
    forall e kd o a kd' acts, Env e -> Q k kd false o -> f c e kd a = Ok (kd', acts) -> Q k kd' (has_ab acts) (o ++ acts).
  Definition clean_acts : Prop := forall kd b o, Q (final p) kd b o -> Q (final p) (p_cleanup p kd) b o.

  Definition ainv (r : rst) (o : list action) : Prop := Q (r_state r) (r_k r) (r_abandon r) o.

  Lemma acts_done (acts : list action) : forall (r r' : rst) (tr : list obs), do_actions c r acts = Ok (r', tr) ->
    acts_of tr = acts /\ r_k r' = r_k r /\ r_abandon r' = r_abandon r || has_ab acts /\ same r r'.
  Proof.
    induction acts as [|a acts IH]; intros r r' tr; cbn [do_actions].
    - intros H. injection H as <- <-. rewrite orb_false_r. repeat (split; [reflexivity|]). apply same_refl.
    - destruct (do_action c r a) as [[r1 t1]| |] eqn:E1; cbn [rbind fst snd]; try discriminate.
      destruct (do_actions c r1 acts) as [[r2 t2]| |] eqn:E2; cbn [rbind fst snd]; try discriminate.
      intros H. injection H as <- <-. destruct (IH _ _ _ E2) as (O2 & K2 & A2 & S2).
      assert (X : acts_of t1 = [a] /\ r_k r1 = r_k r /\ r_abandon r1 = r_abandon r || has_ab [a] /\ same r r1).
      { destruct a as [i op d| |pc v]; cbn [do_action] in E1.
        - unfold send, try_send in E1. destruct (r_state r <? op).
          + injection E1 as <- <-. cbn. rewrite orb_false_r. repeat (split; [reflexivity|]). unfold same; cbn; tauto.
          + destruct (_ && _); [|discriminate]. cbn [rbind] in E1. injection E1 as <- <-. cbn. rewrite orb_false_r.
            repeat (split; [reflexivity|]). apply same_refl.
        - injection E1 as <- <-. cbn. rewrite orb_true_r. repeat (split; [reflexivity|]). unfold same; cbn; tauto.
        - injection E1 as <- <-. cbn. rewrite orb_false_r. repeat (split; [reflexivity|]). apply same_refl. }
      destruct X as (O1 & K1 & A1 & S1). unfold acts_of in *. rewrite flat_map_app, O1, O2.
      split; [reflexivity|].
      split; [congruence|]. split; [|eapply same_trans; eassumption].
      rewrite A2, A1, <- orb_assoc. f_equal. unfold has_ab. cbn. rewrite orb_false_r. reflexivity.
  Qed.

  Lemma msg_acts (e : E) (r r' : rst) m tr o : proc_acts -> Env e -> ainv r o -> r_state r = m_op m ->
    process_msg p c e r m = Ok (r', tr) -> ainv r' (o ++ acts_of tr) /\ same r r'.
  Proof.
    intros HP HE HI HS. unfold process_msg. destruct (r_abandon r) eqn:HA.
    { intros H. injection H as <- <-. cbn. rewrite app_nil_r. split; [exact HI|apply same_refl]. }
    assert (TR : Ok (r, [OHandle m : obs]) = Ok (r', tr) -> ainv r' (o ++ acts_of tr) /\ same r r').
    { intros H. injection H as <- <-. cbn. rewrite app_nil_r. split; [exact HI|apply same_refl]. }
    destruct (stage_at p (m_op m)) as [s|] eqn:ES; [|discriminate].
    destruct (sg_proc s) as [f|] eqn:EP; [|exact TR].
    destruct (negb _); [exact TR|]. destruct (sg_unm s (m_dto m)) as [a| |]; [|exact TR|discriminate].
    destruct (_ && _); [|exact TR]. destruct (sg_valid s a (m_sender m)) as [[|]| |]; cbn [rbind]; try discriminate; [|exact TR].
    unfold perform. destruct (f c e (r_k r) a) as [[kd' acts]| |] eqn:EF; cbn [rbind fst snd]; try discriminate.
    destruct (do_actions c (set_k r kd') acts) as [[r1 t1]| |] eqn:E1; cbn [rbind fst snd]; try discriminate.
    intros H. injection H as <- <-. destruct (acts_done _ _ _ _ E1) as (O1 & K1 & A1 & S1).
    cbn. change (flat_map _ t1) with (acts_of t1). rewrite O1. split; [|exact S1].
    unfold ainv in *. rewrite K1, A1. destruct S1 as (-> & _). cbn [set_k r_k r_state r_abandon]. rewrite HA. cbn [orb].
    rewrite HA in HI. rewrite HS in *. eapply HP; eassumption.
  Qed.
  Lemma msgs_acts (e : E) l : forall (r r' : rst) tr o, proc_acts -> Env e -> ainv r o -> Forall (fun m => m_op m = r_state r) l ->
    process_all p c e r l = Ok (r', tr) -> ainv r' (o ++ acts_of tr) /\ same r r'.
  Proof.
    induction l as [|m l IH]; intros r r' tr o HP HE HI HO; cbn [process_all].
    - intros H. injection H as <- <-. cbn. rewrite app_nil_r. split; [exact HI|apply same_refl].
    - inversion HO as [|? ? Hm HO']; subst.
      destruct (process_msg p c e r m) as [[r1 t1]| |] eqn:E1; cbn [rbind fst snd]; try discriminate.
      destruct (process_all p c e r1 l) as [[r2 t2]| |] eqn:E2; cbn [rbind fst snd]; try discriminate.
      intros H. injection H as <- <-. destruct (msg_acts _ _ _ _ _ _ HP HE HI (eq_sym Hm) E1) as [I1 S1].
      assert (HO1 : Forall (fun x => m_op x = r_state r1) l) by (destruct S1 as (-> & _); exact HO').
      destruct (IH _ _ _ _ HP HE I1 HO1 E2) as [I2 S2].
      unfold acts_of in *. rewrite flat_map_app, app_assoc. split; [exact I2|eapply same_trans; eassumption].
  Qed.

  Lemma enter_acts (e : E) now (r r' : rst) tr o : step_acts -> skip_acts -> proc_acts -> Env e -> keyed (r_rcv r) -> ainv r o ->
    enter_stage p c e now r = Ok (r', tr) -> ainv r' (o ++ acts_of tr).
  Proof.
    intros HST HSK HP HE HK HI. unfold enter_stage. set (k := r_state r + 1).
    destruct (stage_at p k) as [s|] eqn:ES; [|discriminate].
    unfold flush_snd_buf. destruct (try_send_all c _) as [o1| |] eqn:E1; cbn [rbind fst snd]; try discriminate.
    apply try_send_all_spec in E1. destruct E1 as [E1 _].
    assert (O1 : acts_of o1 = []).
    { rewrite E1. cbn [set_stage r_snd r_state]. induction (mslice (r_snd r) k) as [|x l IH]; [reflexivity|exact IH]. }
    match goal with |- context [set_snd ?x ?y] => set (r2 := set_snd x y) end.
    destruct (run_step c e s r2) as [[r3 t3]| |] eqn:E3; cbn [rbind fst snd]; try discriminate.
    assert (I3 : ainv r3 (o ++ acts_of t3) /\ same r2 r3).
    { revert E3. unfold run_step. change (r_abandon r2) with (r_abandon r). change (r_k r2) with (r_k r).
      unfold ainv in HI. destruct (r_abandon r) eqn:HA.
      { intros H. injection H as <- <-. cbn [acts_of flat_map]. rewrite app_nil_r. split; [|apply same_refl].
        unfold ainv. change (r_abandon r2) with (r_abandon r). change (r_k r2) with (r_k r). rewrite HA. apply HSK, HI. }
      pose proof (HST k s ES (r_k r) o) as X. replace (k - 1) with (r_state r) in X by (unfold k; lia). specialize (X HI).
      destruct (sg_step s) as [f|].
      - unfold perform. destruct (f c e (r_k r)) as [[kd' acts]| |] eqn:EF; cbn [rbind fst snd]; try discriminate.
        destruct (do_actions c (set_k r2 kd') acts) as [[r4 t4]| |] eqn:E4; cbn [rbind fst snd]; try discriminate.
        intros H. injection H as <- <-. destruct (acts_done _ _ _ _ E4) as (O4 & K4 & A4 & S4).
        cbn. change (flat_map _ t4) with (acts_of t4). rewrite O4. split; [|exact S4]. unfold ainv. rewrite K4, A4.
        destruct S4 as (-> & _). cbn [set_k r_k r_state r_abandon]. change (r_abandon r2) with (r_abandon r). rewrite HA. cbn [orb].
        eapply X; [exact HE|exact EF].
      - intros H. injection H as <- <-. cbn [acts_of flat_map]. rewrite app_nil_r. split; [|apply same_refl].
        unfold ainv. change (r_abandon r2) with (r_abandon r). rewrite HA. exact X. }
    destruct I3 as [I3 S3].
    destruct (process_all p c e r3 (mslice (r_rcv r3) k)) as [[r4 t4]| |] eqn:E4; cbn [rbind fst snd]; try discriminate.
    assert (HO : Forall (fun m => m_op m = r_state r3) (mslice (r_rcv r3) k)).
    { destruct S3 as (Q1 & _ & Q3 & _). rewrite Q3, Q1. apply HK. }
    intros H. injection H as <- <-. destruct (msgs_acts _ _ _ _ _ _ HP HE I3 HO E4) as [I4 S4].
    change (OEnter k now :: o1 ++ t3 ++ t4) with ([OEnter k now : obs] ++ o1 ++ t3 ++ t4).
    unfold acts_of in *. rewrite !flat_map_app, O1. cbn [flat_map app]. rewrite app_assoc. exact I4.
  Qed.

  Definition env_of (ev : event) : E := match ev with ETick e _ | EMsg e _ => e end.
  Lemma exec_acts evs : step_acts -> skip_acts -> proc_acts -> clean_acts -> Forall (fun ev => Env (env_of ev)) evs ->
    forall rcvd r tr o r' t', Inv p c rcvd r tr -> ainv r o -> exec p c r evs = Ok (r', t') -> ainv r' (o ++ acts_of t').
  Proof.
    intros HST HSK HP HC HF. induction HF as [|ev evs HE HF IH]; intros rcvd r tr o r' t' HI HQ; cbn [exec].
    - intros H. injection H as <- <-. cbn. rewrite app_nil_r. exact HQ.
    - destruct (step p c r ev) as [[r1 t1]| |] eqn:E1; cbn [rbind fst snd]; try discriminate.
      destruct (exec p c r1 evs) as [[r2 t2]| |] eqn:E2; cbn [rbind fst snd]; try discriminate.
      intros H. injection H as <- <-. destruct (step_inv p c _ _ _ _ _ _ HI E1) as [rc1 HI1].
      unfold acts_of at 1. rewrite flat_map_app, app_assoc. fold (acts_of t1) (acts_of t2). eapply IH; [exact HI1| |exact E2]. clear IH E2 HI1.
      pose proof (iv_keyed _ _ _ _ _ HI) as HK. pose proof (iv_loc _ _ _ _ _ HI) as HL. pose proof (iv_range _ _ _ _ _ HI) as HR.
      destruct ev as [e now|e m]; cbn [step] in E1; cbn [env_of] in HE.
      + unfold tick in E1.
        assert (LT : loop_top p c e now r = Ok (r1, t1) -> ainv r1 (o ++ acts_of t1)).
        { unfold loop_top. destruct (Z.ltb_spec (r_state r) (final p)) as [LT|GE].
          - destruct (_ <? _).
            + intros H. injection H as <- <-. cbn. rewrite app_nil_r. exact HQ.
            + apply enter_acts; assumption.
          - intros H. injection H as <- <-. cbn. rewrite app_nil_r. unfold ainv in *. cbn.
            assert (EQ : r_state r = final p \/ r_state r <> final p) by lia. destruct EQ as [EQ|NE].
            + rewrite EQ in *. apply HC, HQ.
            + lia. }
        destruct (r_loc r); try (apply LT; exact E1).
        * injection E1 as <- <-. cbn. rewrite app_nil_r. exact HQ.
        * eapply enter_acts; eassumption.
        * injection E1 as <- <-. cbn. rewrite app_nil_r. exact HQ.
      + unfold deliver in E1. destruct (_ || _) eqn:ED.
        { injection E1 as <- <-. cbn. rewrite app_nil_r. exact HQ. }
        destruct (Z.ltb_spec (r_state r) (m_op m)).
        { injection E1 as <- <-. cbn. rewrite app_nil_r. exact HQ. }
        apply orb_false_iff in ED. rewrite Z.ltb_ge in ED.
        eapply msg_acts; [exact HP|exact HE|exact HQ| |exact E1]. lia.
  Qed.
  Lemma run_acts k0 evs r tr : step_acts -> skip_acts -> proc_acts -> clean_acts -> Forall (fun ev => Env (env_of ev)) evs -> Q (-1) k0 false [] ->
    exec p c (new_run k0) evs = Ok (r, tr) -> Q (r_state r) (r_k r) (r_abandon r) (acts_of tr).
  Proof.
    intros H1 H2 H3 H4 HF H5 H. apply (exec_acts evs H1 H2 H3 H4 HF [] (new_run k0) [] [] r tr (inv_new p c k0)); [exact H5|exact H].
  Qed.
End Acts.
