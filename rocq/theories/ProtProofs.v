From Coq Require Import ZArith List Lia Bool Permutation Arith.
From Verif Require Import Bytes Res Dto DtoProofs Prot ProtSpec.
Import ListNotations.
Open Scope Z_scope.

(** ** Maps of slices *)
Lemma mget_mdel {V} (m : list (Z * V)) k k' : mget (mdel m k) k' = if k =? k' then None else mget m k'.
Proof.
  induction m as [|[a b] m IH]; cbn; [destruct (k =? k'); reflexivity|].
  destruct (Z.eqb_spec a k) as [->|NE]; cbn.
  - rewrite IH. destruct (Z.eqb_spec k k'); reflexivity.
  - rewrite IH. destruct (Z.eqb_spec a k') as [->|]; destruct (Z.eqb_spec k k'); try reflexivity. congruence.
Qed.
Lemma mslice_mset {V} (m : list (Z * list V)) k v k' : mslice (mset m k v) k' = if k =? k' then v else mslice m k'.
Proof. unfold mslice. rewrite mget_mset. destruct (k =? k'); reflexivity. Qed.
Lemma mslice_mdel {V} (m : list (Z * list V)) k k' : mslice (mdel m k) k' = if k =? k' then [] else mslice m k'.
Proof. unfold mslice. rewrite mget_mdel. destruct (k =? k'); reflexivity. Qed.

(** ** Projections *)
Section Proj.
  Context {D A V E : Type}.
  Notation message := (message D). Notation obs := (obs D A V).
  Lemma handled_app (a b : list obs) : handled (a ++ b) = handled a ++ handled b. Proof. apply flat_map_app. Qed.
  Lemma dropped_app (a b : list obs) : dropped (a ++ b) = dropped a ++ dropped b. Proof. apply flat_map_app. Qed.
  Lemma created_app (a b : list obs) : created (a ++ b) = created a ++ created b. Proof. apply flat_map_app. Qed.
  Lemma sent_app (a b : list obs) : sent (a ++ b) = sent a ++ sent b. Proof. apply flat_map_app. Qed.
  Lemma entered_app (a b : list obs) : entered (a ++ b) = entered a ++ entered b. Proof. apply flat_map_app. Qed.
  Lemma stepped_app (a b : list obs) : stepped (a ++ b) = stepped a ++ stepped b. Proof. apply flat_map_app. Qed.
  Lemma for_op_app k (a b : list message) : for_op k (a ++ b) = for_op k a ++ for_op k b. Proof. apply filter_app. Qed.
  Lemma abandoned_app (a b : list obs) : abandoned_in (a ++ b) = abandoned_in a || abandoned_in b. Proof. apply existsb_app. Qed.
  Lemma terminated_app (a b : list obs) : terminated_in (a ++ b) = terminated_in a || terminated_in b. Proof. apply existsb_app. Qed.
  Lemma stage_now_snoc (a : list obs) o : stage_now (a ++ [o]) =
    match o with OEnter k _ => (k, false) | OPause k => (k, true) | _ => stage_now a end.
  Proof. unfold stage_now. rewrite fold_left_app. cbn. destruct o; reflexivity. Qed.

  Definition alw (P : list obs -> obs -> Prop) (pre tr : list obs) : Prop :=
    forall a o b, tr = a ++ o :: b -> P (pre ++ a) o.
  Lemma alw_nil (P : list obs -> obs -> Prop) pre : alw P pre [].
  Proof. intros a o b H. destruct a; discriminate. Qed.
  Lemma alw_cons (P : list obs -> obs -> Prop) pre o tr : P pre o -> alw P (pre ++ [o]) tr -> alw P pre (o :: tr).
  Proof.
    intros H1 H2 a x b E0. destruct a as [|y a]; cbn in E0.
    - injection E0 as <- <-. rewrite app_nil_r. exact H1.
    - injection E0 as <- E1. specialize (H2 a x b E1). rewrite <- app_assoc in H2. exact H2.
  Qed.
  Lemma alw_app (P : list obs -> obs -> Prop) pre t1 t2 : alw P pre t1 -> alw P (pre ++ t1) t2 -> alw P pre (t1 ++ t2).
  Proof.
    revert pre. induction t1 as [|o t1 IH]; intros pre H1 H2; cbn.
    - rewrite app_nil_r in H2. exact H2.
    - apply alw_cons.
      + specialize (H1 [] o t1 eq_refl). rewrite app_nil_r in H1. exact H1.
      + apply IH.
        * intros a x b ->. specialize (H1 (o :: a) x b eq_refl). rewrite <- app_assoc. exact H1.
        * rewrite <- app_assoc. exact H2.
  Qed.
  Lemma alw_imp (P Q : list obs -> obs -> Prop) pre tr : (forall a o, P a o -> Q a o) -> alw P pre tr -> alw Q pre tr.
  Proof. intros H X a o b H0. apply H, (X _ _ _ H0). Qed.

  (** What actions can leave in the trace. *)
  Definition act_obs (o : obs) : Prop :=
    match o with OCreate _ | OSent _ | OAbandon | OOutput _ _ => True | _ => False end.
  Lemma act_handled tr : Forall act_obs tr -> handled tr = [].
  Proof. induction 1 as [|o tr H _ IH]; [reflexivity|]. destruct o; cbn in *; try contradiction; exact IH. Qed.
  Lemma act_dropped tr : Forall act_obs tr -> dropped tr = [].
  Proof. induction 1 as [|o tr H _ IH]; [reflexivity|]. destruct o; cbn in *; try contradiction; exact IH. Qed.
  Lemma act_entered tr : Forall act_obs tr -> entered tr = [].
  Proof. induction 1 as [|o tr H _ IH]; [reflexivity|]. destruct o; cbn in *; try contradiction; exact IH. Qed.
  Lemma act_stepped tr : Forall act_obs tr -> stepped tr = [].
  Proof. induction 1 as [|o tr H _ IH]; [reflexivity|]. destruct o; cbn in *; try contradiction; exact IH. Qed.
End Proj.

Section Inv.
  Context {D A K E V : Type}.
  Notation message := (message D). Notation rst := (rst D K). Notation obs := (obs D A V).
  Notation action := (action D V). Notation stage := (stage D A K E V). Notation event := (event D E).
  Variable p : protocol D A K E V.
  Variable c : info.
  Notation final := (final p).

  (** What is asserted of every occurrence in a trace. *)
  Definition okobs (a : list obs) (o : obs) : Prop :=
    match o with
    | OStart _ => stage_now a = (-1, false)
    | OEnter k _ => k = fst (stage_now a) + 1 /\ k <= final /\ terminated_in a = false
    | OStep k => stage_now a = (k, false) /\ abandoned_in a = false /\ terminated_in a = false /\
                 for_op k (handled a) = [] /\ Forall (fun j => j < k) (stepped a)
    | OPause k => stage_now a = (k, false) /\ k < final /\ terminated_in a = false
    | OHandle m => stage_now a = (m_op m, false)
    | OProc m arg => stage_now a = (m_op m, false) /\ abandoned_in a = false /\
                   (exists s, stage_at p (m_op m) = Some s /\ sg_proc s <> None /\ sg_type s (m_dto m) = true /\
                      sg_unm s (m_dto m) = Ok arg /\ 0 <= m_sender m < i_members c /\ sg_valid s arg (m_sender m) = Ok true) /\
                   exists b, a = b ++ [OHandle m]
    | ODrop m => m_op m < fst (stage_now a) \/ stage_now a = (m_op m, true)
    | OCreate m => m_sender m = i_guest c /\ m_pc m = i_pc c /\ m_run m = i_id c
    | OSent m => m_op m <= fst (stage_now a) /\ 0 <= m_rcpt m < i_queues c
    | OAbandon => True
    | OOutput _ _ => True
    | OTerm _ => stage_now a = (final, false) /\ terminated_in a = false
    end.

  (** Trace and state agree. *)
  Definition link (r : rst) (pre : list obs) : Prop :=
    stage_now pre = (r_state r, r_paused r) /\ abandoned_in pre = r_abandon r /\ terminated_in pre = r_term r.

  (** Parts of the state that actions and processors leave alone. *)
  Definition same (r r' : rst) : Prop :=
    r_state r' = r_state r /\ r_paused r' = r_paused r /\ r_rcv r' = r_rcv r /\ r_term r' = r_term r /\
    r_loc r' = r_loc r /\ r_t r' = r_t r /\ r_wake r' = r_wake r.
  Lemma same_refl r : same r r. Proof. unfold same. tauto. Qed.
  Lemma same_trans r1 r2 r3 : same r1 r2 -> same r2 r3 -> same r1 r3.
  Proof. unfold same. intuition congruence. Qed.

  (** How the send buffer moves while stage [st] lasts. *)
  Definition sndrel (st : Z) (b : list (Z * list message)) (tr : list obs) (b' : list (Z * list message)) : Prop :=
    forall op, (op <= st -> mslice b' op = mslice b op /\ for_op op (created tr) = for_op op (sent tr)) /\
               (st < op -> mslice b' op = mslice b op ++ for_op op (created tr) /\ for_op op (sent tr) = []).
  Lemma sndrel_nil st b tr : created tr = [] -> sent tr = [] -> sndrel st b tr b.
  Proof. intros H1 H2 op. rewrite H1, H2. cbn. rewrite app_nil_r. tauto. Qed.
  Lemma sndrel_trans st b1 t1 b2 t2 b3 : sndrel st b1 t1 b2 -> sndrel st b2 t2 b3 -> sndrel st b1 (t1 ++ t2) b3.
  Proof.
    intros H1 H2 op. specialize (H1 op). specialize (H2 op). destruct H1 as [A1 B1], H2 as [A2 B2].
    rewrite created_app, sent_app, !for_op_app. split; intros H.
    - destruct (A2 H) as [X Y]. destruct (A1 H) as [X1 Y1]. split; congruence.
    - destruct (B1 H) as [X1 Y1]. destruct (B2 H) as [X2 Y2]. rewrite X2, X1, Y1, Y2, <- app_assoc. tauto.
  Qed.

  Lemma link_act r pre o : link r pre -> act_obs o -> o <> OAbandon -> link r (pre ++ [o]).
  Proof.
    intros (H1 & H2 & H3) Ho Hn. unfold link. rewrite stage_now_snoc, abandoned_app, terminated_app.
    destruct o; cbn in *; try contradiction; rewrite ?orb_false_r; auto.
  Qed.

  Lemma send_spec r i op d r' tr pre : link r pre -> send c r i op d = Ok (r', tr) ->
    link r' (pre ++ tr) /\ alw okobs pre tr /\ same r r' /\ Forall act_obs tr /\
    sndrel (r_state r) (r_snd r) tr (r_snd r') /\ r_abandon r' = r_abandon r /\ ~ In OAbandon tr /\ r_k r' = r_k r.
  Proof.
    intros HL. unfold send. destruct (Z.ltb_spec (r_state r) op) as [LT|GE].
    - intros H. injection H as <- <-. split; [|split; [|split; [|split; [|split]]]].
      + apply (link_act _ _ (OCreate (make_msg c i op d))) in HL; [|exact I|discriminate]. unfold link in *. cbn. exact HL.
      + apply alw_cons; [cbn; tauto|apply alw_nil].
      + unfold same; cbn; tauto.
      + repeat constructor.
      + intros op'. cbn. rewrite mslice_mset. destruct (Z.eqb_spec op op') as [<-|NE]; split; intros HH; try lia; rewrite ?app_nil_r; tauto.
      + cbn. intuition discriminate.
    - unfold try_send. cbn [m_rcpt make_msg]. destruct ((0 <=? i) && (i <? i_queues c)) eqn:EQ; [|discriminate].
      cbn [rbind]. intros H. injection H as <- <-. apply andb_true_iff in EQ. rewrite Z.leb_le, Z.ltb_lt in EQ.
      pose proof (link_act _ _ (OCreate (make_msg c i op d)) HL I ltac:(discriminate)) as HL2.
      split; [|split; [|split; [|split; [|split]]]].
      + apply (link_act _ _ (OSent (make_msg c i op d))) in HL2; [|exact I|discriminate]. rewrite <- app_assoc in HL2. exact HL2.
      + apply alw_cons; [cbn; tauto|]. apply alw_cons; [|apply alw_nil].
        destruct HL2 as (HS & _). cbn [okobs]. rewrite HS. cbn. lia.
      + apply same_refl.
      + repeat constructor.
      + intros op'. cbn. destruct (Z.eqb_spec op op') as [<-|NE]; split; intros HH; try lia; rewrite ?app_nil_r; tauto.
      + cbn. intuition discriminate.
  Qed.

  Lemma do_actions_spec l : forall r r' tr pre, link r pre -> do_actions c r l = Ok (r', tr) ->
    link r' (pre ++ tr) /\ alw okobs pre tr /\ same r r' /\ Forall act_obs tr /\
    sndrel (r_state r) (r_snd r) tr (r_snd r').
  Proof.
    induction l as [|a l IH]; intros r r' tr pre HL; cbn [do_actions].
    - intros H. injection H as <- <-. rewrite app_nil_r. split; [exact HL|]. split; [apply alw_nil|]. split; [apply same_refl|].
      split; [constructor|]. apply sndrel_nil; reflexivity.
    - destruct (do_action c r a) as [[r1 t1]| |] eqn:E1; cbn [rbind fst snd]; try discriminate.
      destruct (do_actions c r1 l) as [[r2 t2]| |] eqn:E2; cbn [rbind fst snd]; try discriminate.
      intros H. injection H as <- <-.
      assert (S1 : link r1 (pre ++ t1) /\ alw okobs pre t1 /\ same r r1 /\ Forall act_obs t1 /\ sndrel (r_state r) (r_snd r) t1 (r_snd r1)).
      { destruct a as [i op d| |pc v]; cbn [do_action] in E1.
        - destruct (send_spec _ _ _ _ _ _ _ HL E1) as (X1 & X2 & X3 & X4 & X5 & _). tauto.
        - injection E1 as <- <-. split; [|split; [|split; [|split]]].
          + destruct HL as (H1 & H2 & H3). unfold link. rewrite stage_now_snoc, abandoned_app, terminated_app. cbn. rewrite orb_true_r, orb_false_r. tauto.
          + apply alw_cons; [exact I|apply alw_nil].
          + unfold same; cbn; tauto.
          + repeat constructor.
          + apply sndrel_nil; reflexivity.
        - injection E1 as <- <-. split; [|split; [|split; [|split]]].
          + apply link_act; [exact HL|exact I|discriminate].
          + apply alw_cons; [exact I|apply alw_nil].
          + apply same_refl.
          + repeat constructor.
          + apply sndrel_nil; reflexivity. }
      destruct S1 as (L1 & A1 & SM1 & F1 & R1).
      destruct (IH _ _ _ _ L1 E2) as (L2 & A2 & SM2 & F2 & R2).
      split; [rewrite app_assoc; exact L2|]. split; [apply alw_app; assumption|]. split; [eapply same_trans; eassumption|].
      split; [apply Forall_app; split; assumption|]. eapply sndrel_trans; [exact R1|]. destruct SM1 as (-> & _) in R2. exact R2.
  Qed.

  Lemma perform_spec r x r' tr pre : link r pre -> perform c r x = Ok (r', tr) ->
    link r' (pre ++ tr) /\ alw okobs pre tr /\ same r r' /\ Forall act_obs tr /\
    sndrel (r_state r) (r_snd r) tr (r_snd r').
  Proof.
    intros HL. unfold perform. destruct x as [[k acts]| |]; cbn [rbind fst snd]; try discriminate. intros H.
    destruct (do_actions_spec acts (set_k r k) r' tr pre HL H) as (X1 & X2 & X3 & X4 & X5).
    split; [exact X1|]. split; [exact X2|]. split; [exact X3|]. split; [exact X4|exact X5].
  Qed.

  Lemma link_other r pre o : link r pre ->
    match o with OStart _ | OHandle _ | OProc _ _ | ODrop _ | OStep _ => True | _ => False end -> link r (pre ++ [o]).
  Proof.
    intros (H1 & H2 & H3) Ho. unfold link. rewrite stage_now_snoc, abandoned_app, terminated_app.
    destruct o; cbn in *; try contradiction; rewrite ?orb_false_r; auto.
  Qed.

  (** Summary of a segment of the trace produced within one stage. *)
  Definition seg (r : rst) (pre : list obs) (r' : rst) (tr : list obs) (hd : list message) (st : list Z) : Prop :=
    link r' (pre ++ tr) /\ alw okobs pre tr /\ same r r' /\
    handled tr = hd /\ dropped tr = [] /\ entered tr = [] /\ stepped tr = st /\
    sndrel (r_state r) (r_snd r) tr (r_snd r').

  Lemma process_msg_spec e r m r' tr pre : link r pre -> r_state r = m_op m -> r_paused r = false ->
    process_msg p c e r m = Ok (r', tr) -> seg r pre r' tr [m] [].
  Proof.
    intros HL HS HP.
    assert (SN : stage_now pre = (m_op m, false)) by (destruct HL as (-> & _); rewrite HS, HP; reflexivity).
    assert (TR : forall r0 t0, Ok (r, [OHandle m : obs]) = Ok (r0, t0) -> seg r pre r0 t0 [m] []).
    { intros r0 t0 H. injection H as <- <-. split; [apply link_other; [exact HL|exact I]|].
      split; [apply alw_cons; [exact SN|apply alw_nil]|]. split; [apply same_refl|].
      repeat (split; [reflexivity|]). apply sndrel_nil; reflexivity. }
    unfold process_msg. destruct (r_abandon r) eqn:AB; [apply TR|].
    destruct (stage_at p (m_op m)) as [s|] eqn:ES; [|discriminate].
    destruct (sg_proc s) as [proc|] eqn:EP; [|apply TR].
    destruct (sg_type s (m_dto m)) eqn:ET; cbn [negb]; [|apply TR].
    destruct (sg_unm s (m_dto m)) as [arg| |] eqn:EU; [|apply TR|discriminate].
    destruct ((0 <=? m_sender m) && (m_sender m <? i_members c)) eqn:ER; [|apply TR].
    apply andb_true_iff in ER. rewrite Z.leb_le, Z.ltb_lt in ER.
    destruct (sg_valid s arg (m_sender m)) as [v| |] eqn:EV; cbn [rbind]; try discriminate.
    destruct v; [|apply TR].
    destruct (perform c r (proc c e (r_k r) arg)) as [[r1 t1]| |] eqn:EF; cbn [rbind fst snd]; try discriminate.
    intros H. injection H as <- <-.
    assert (HL1 : link r (pre ++ [OHandle m])) by (apply link_other; [exact HL|exact I]).
    assert (HL2 : link r ((pre ++ [OHandle m]) ++ [OProc m arg])) by (apply link_other; [exact HL1|exact I]).
    destruct (perform_spec _ _ _ _ _ HL2 EF) as (L1 & A1 & SM & F & R).
    split; [rewrite <- !app_assoc in L1; exact L1|].
    split.
    { apply alw_cons; [exact SN|]. apply alw_cons.
      - cbn [okobs]. rewrite stage_now_snoc. split; [exact SN|]. split.
        + destruct HL1 as (_ & -> & _). exact AB.
        + split; [exists s; rewrite EP; repeat (split; [assumption || discriminate|]); exact EV|]. exists pre. reflexivity.
      - exact A1. }
    split; [exact SM|].
    change (OHandle m :: OProc m arg :: t1) with ([OHandle m; OProc m arg] ++ t1).
    rewrite handled_app, dropped_app, entered_app, stepped_app, (act_handled t1), (act_dropped t1), (act_entered t1), (act_stepped t1) by exact F.
    repeat (split; [reflexivity|]). apply (sndrel_trans _ _ [OHandle m; OProc m arg] (r_snd r)); [apply sndrel_nil; reflexivity|exact R].
  Qed.

  Lemma seg_trans r pre r1 t1 h1 s1 r2 t2 h2 s2 :
    seg r pre r1 t1 h1 s1 -> seg r1 (pre ++ t1) r2 t2 h2 s2 -> seg r pre r2 (t1 ++ t2) (h1 ++ h2) (s1 ++ s2).
  Proof.
    intros (A1 & A2 & A3 & A4 & A5 & A6 & A7 & A8) (B1 & B2 & B3 & B4 & B5 & B6 & B7 & B8).
    split; [rewrite app_assoc; exact B1|]. split; [apply alw_app; assumption|]. split; [eapply same_trans; eassumption|].
    rewrite handled_app, dropped_app, entered_app, stepped_app, A4, A5, A6, A7, B4, B5, B6, B7.
    repeat (split; [reflexivity|]). eapply sndrel_trans; [exact A8|]. destruct A3 as (-> & _) in B8. exact B8.
  Qed.
  Lemma seg_nil r pre : link r pre -> seg r pre r [] [] [].
  Proof.
    intros HL. split; [rewrite app_nil_r; exact HL|]. split; [apply alw_nil|]. split; [apply same_refl|].
    repeat (split; [reflexivity|]). apply sndrel_nil; reflexivity.
  Qed.

  Lemma process_all_spec e l : forall r r' tr pre, link r pre -> Forall (fun m => m_op m = r_state r) l -> r_paused r = false ->
    process_all p c e r l = Ok (r', tr) -> seg r pre r' tr l [].
  Proof.
    induction l as [|m l IH]; intros r r' tr pre HL HF HP; cbn [process_all].
    - intros H. injection H as <- <-. apply seg_nil, HL.
    - inversion HF as [|? ? Hm HF']; subst.
      destruct (process_msg p c e r m) as [[r1 t1]| |] eqn:E1; cbn [rbind fst snd]; try discriminate.
      destruct (process_all p c e r1 l) as [[r2 t2]| |] eqn:E2; cbn [rbind fst snd]; try discriminate.
      intros H. injection H as <- <-.
      pose proof (process_msg_spec _ _ _ _ _ _ HL (eq_sym Hm) HP E1) as S1.
      pose proof S1 as (L1 & _ & (ST & PA & _) & _).
      apply (seg_trans _ _ _ _ [m] [] _ _ l [] S1). apply IH; [exact L1| |congruence|exact E2].
      rewrite ST. exact HF'.
  Qed.

  Lemma run_step_spec (e : E) (s : stage) r r' tr pre : link r pre -> r_paused r = false -> r_term r = false ->
    for_op (r_state r) (handled pre) = [] -> Forall (fun j => j < r_state r) (stepped pre) ->
    run_step c e s r = Ok (r', tr) ->
    seg r pre r' tr [] (if r_abandon r then [] else match sg_step s with None => [] | Some _ => [r_state r] end).
  Proof.
    intros HL HP HT HH HS. unfold run_step. destruct (r_abandon r) eqn:AB.
    { intros H. injection H as <- <-. apply seg_nil, HL. }
    destruct (sg_step s) as [f|]; [|intros H; injection H as <- <-; apply seg_nil, HL].
    destruct (perform c r (f c e (r_k r))) as [[r1 t1]| |] eqn:EF; cbn [rbind fst snd]; try discriminate.
    intros H. injection H as <- <-.
    assert (HL1 : link r (pre ++ [OStep (r_state r)])) by (apply link_other; [exact HL|exact I]).
    destruct (perform_spec _ _ _ _ _ HL1 EF) as (L1 & A1 & SM & F & R).
    split; [rewrite <- app_assoc in L1; exact L1|].
    split.
    { apply alw_cons; [|exact A1]. cbn [okobs]. destruct HL as (H1 & H2 & H3). rewrite H1, H2, H3, HP. tauto. }
    split; [exact SM|].
    change (OStep (r_state r) :: t1) with ([OStep (r_state r)] ++ t1).
    rewrite handled_app, dropped_app, entered_app, stepped_app, (act_handled t1), (act_dropped t1), (act_entered t1), (act_stepped t1) by exact F.
    repeat (split; [reflexivity|]). apply (sndrel_trans _ _ [OStep (r_state r)] (r_snd r)); [apply sndrel_nil; reflexivity|exact R].
  Qed.

  Lemma try_send_all_spec l o : try_send_all (D := D) (A := A) (V := V) c l = Ok o ->
    o = map OSent l /\ Forall (fun m => 0 <= m_rcpt m < i_queues c) l.
  Proof.
    revert o. induction l as [|m l IH]; intros o; cbn [try_send_all].
    - intros H. injection H as <-. split; [reflexivity|constructor].
    - unfold try_send at 1. destruct ((0 <=? m_rcpt m) && (m_rcpt m <? i_queues c)) eqn:EQ; cbn [rbind]; [|discriminate].
      destruct (try_send_all c l) as [o1| |] eqn:E1; cbn [rbind]; try discriminate. intros H. injection H as <-.
      destruct (IH o1 eq_refl) as [-> F]. split; [reflexivity|]. constructor; [|exact F].
      apply andb_true_iff in EQ. rewrite Z.leb_le, Z.ltb_lt in EQ. lia.
  Qed.
  Lemma map_sent_proj (l : list message) : sent (map (OSent (A := A) (V := V)) l) = l /\ created (map (OSent (A := A) (V := V)) l) = [] /\
    Forall act_obs (map (OSent (A := A) (V := V)) l).
  Proof.
    induction l as [|m l (I1 & I2 & I3)]; cbn; [repeat split; constructor|].
    unfold sent, created in *. rewrite I1, I2. repeat split. constructor; [exact I|exact I3].
  Qed.

  (** ** The invariant *)
  Definition keyed (b : list (Z * list message)) : Prop := forall op, Forall (fun m => m_op m = op) (mslice b op).

  Record Inv (rcvd : list message) (r : rst) (tr : list obs) : Prop := mkInv {
    iv_link : link r tr;
    iv_alw : always okobs tr;
    iv_entered : entered tr = upto (r_state r);
    iv_range : -1 <= r_state r <= final;
    iv_loc : match r_loc r with
             | LFresh => r_state r = -1 /\ r_paused r = false /\ r_term r = false
             | LStart => r_state r = -1 /\ r_paused r = false /\ r_term r = false
             | LStage => 0 <= r_state r /\ r_paused r = false /\ r_term r = false
             | LPause => 0 <= r_state r < final /\ r_paused r = true /\ r_term r = false
             | LEnd => r_state r = final /\ r_paused r = false /\ r_term r = true
             end;
    iv_rcv : forall op, for_op op rcvd = for_op op (handled tr) ++ for_op op (dropped tr) ++ mslice (r_rcv r) op;
    iv_rcv_past : forall op, op <= r_state r -> mslice (r_rcv r) op = [];
    iv_rcv_future : forall op, r_state r < op -> for_op op (handled tr) = [] /\ for_op op (dropped tr) = [];
    iv_rcv_now : r_paused r = false -> for_op (r_state r) (dropped tr) = [];
    iv_keyed : keyed (r_rcv r);
    iv_snd : forall op, for_op op (created tr) = for_op op (sent tr) ++ mslice (r_snd r) op;
    iv_snd_past : forall op, op <= r_state r -> mslice (r_snd r) op = [];
    iv_snd_future : forall op, r_state r < op -> for_op op (sent tr) = [];
    iv_stepped : Forall (fun j => j <= r_state r) (stepped tr);
  }.

  Lemma always_alw (P : list obs -> obs -> Prop) tr : always P tr <-> alw P [] tr.
  Proof. reflexivity. Qed.
  Lemma always_app (P : list obs -> obs -> Prop) t1 t2 : always P t1 -> alw P t1 t2 -> always P (t1 ++ t2).
  Proof. intros H1 H2. apply always_alw, alw_app; [exact H1|exact H2]. Qed.

  Lemma link_acts r t : forall pre, link r pre -> Forall act_obs t -> ~ In OAbandon t -> link r (pre ++ t).
  Proof.
    induction t as [|o t IH]; intros pre HL HF HN; [rewrite app_nil_r; exact HL|].
    inversion HF; subst. change (o :: t) with ([o] ++ t). rewrite app_assoc. apply IH; [|assumption|cbn in HN; tauto].
    apply link_act; [exact HL|assumption|cbn in HN; intros ->; tauto].
  Qed.
  Lemma for_op_other k k' l : Forall (fun m : message => m_op m = k) l -> k <> k' -> for_op k' l = [].
  Proof.
    intros H NE. induction H as [|m l Hm _ IH]; [reflexivity|]. unfold for_op in *. cbn. rewrite IH. destruct (Z.eqb_spec (m_op m) k'); [congruence|reflexivity].
  Qed.
  Lemma for_op_self k l : Forall (fun m : message => m_op m = k) l -> for_op k l = l.
  Proof. intros H. induction H as [|m l Hm _ IH]; [reflexivity|]. unfold for_op in *. cbn. rewrite IH, Hm, Z.eqb_refl. reflexivity. Qed.
  Lemma for_op_forall k (l : list message) : Forall (fun m => m_op m = k) (for_op k l).
  Proof. apply Forall_forall. intros m H. apply filter_In in H. apply Z.eqb_eq, H. Qed.
  Lemma upto_next k : -1 <= k -> upto (k + 1) = upto k ++ [k + 1].
  Proof.
    intros H. unfold upto. replace (Z.to_nat (k + 1 + 1)) with (S (Z.to_nat (k + 1))) by lia. rewrite seq_S, map_app. cbn.
    rewrite Z2Nat.id by lia. reflexivity.
  Qed.
  Lemma stage_at_range k s : stage_at p k = Some s -> 0 <= k <= final.
  Proof.
    unfold stage_at, Prot.final. destruct (Z.ltb_spec k 0); [discriminate|]. intros HS.
    assert (L : (Z.to_nat k < length (p_stages p))%nat) by (apply nth_error_Some; congruence). lia.
  Qed.
  Lemma inv_snd_keyed rcvd r tr : Inv rcvd r tr -> keyed (r_snd r).
  Proof.
    intros HI op. destruct (Z.le_gt_cases op (r_state r)) as [L|L].
    - rewrite (iv_snd_past _ _ _ HI op L). constructor.
    - pose proof (iv_snd _ _ _ HI op) as X. rewrite (iv_snd_future _ _ _ HI op) in X by lia. cbn in X. rewrite <- X. apply for_op_forall.
  Qed.

  Lemma deliver_inv (e : E) rcvd r tr m r' t' : Inv rcvd r tr -> deliver p c e r m = Ok (r', t') -> Inv (rcvd ++ [m]) r' (tr ++ t').
  Proof.
    intros HI. unfold deliver. destruct ((m_op m <? r_state r) || ((m_op m =? r_state r) && r_paused r)) eqn:ED.
    - intros H. injection H as <- <-.
      assert (CASE : m_op m < r_state r \/ (m_op m = r_state r /\ r_paused r = true)).
      { apply orb_true_iff in ED. rewrite andb_true_iff, Z.ltb_lt, Z.eqb_eq in ED. exact ED. }
      destruct HI. constructor; auto.
      + apply link_other; [assumption|exact I].
      + apply always_app; [assumption|]. apply alw_cons; [|apply alw_nil]. cbn [okobs]. destruct iv_link0 as (-> & _). cbn.
        destruct CASE as [C|[-> ->]]; auto.
      + rewrite entered_app. cbn. rewrite app_nil_r. assumption.
      + intros op. rewrite handled_app, dropped_app, !for_op_app, iv_rcv0. cbn [handled dropped flat_map app for_op filter]. rewrite !app_nil_r.
        destruct (Z.eqb_spec (m_op m) op) as [<-|NE]; [|rewrite !app_nil_r; reflexivity].
        rewrite (iv_rcv_past0 (m_op m)) by lia. rewrite !app_nil_r, <- app_assoc. reflexivity.
      + intros op Hop. rewrite handled_app, dropped_app, !for_op_app. destruct (iv_rcv_future0 op Hop) as [-> ->].
        cbn. destruct (Z.eqb_spec (m_op m) op); [lia|]. tauto.
      + intros HP. rewrite dropped_app, for_op_app, (iv_rcv_now0 HP). cbn. destruct (Z.eqb_spec (m_op m) (r_state r)); [|reflexivity].
        destruct CASE as [C|[_ C]]; [lia|congruence].
      + intros op. rewrite created_app, sent_app, !for_op_app. cbn. rewrite !app_nil_r. apply iv_snd0.
      + intros op Hop. rewrite sent_app, for_op_app, iv_snd_future0 by exact Hop. reflexivity.
      + rewrite stepped_app. cbn. rewrite app_nil_r. assumption.
    - apply orb_false_iff in ED. rewrite Z.ltb_ge in ED. destruct ED as [GE ED].
      destruct (Z.ltb_spec (r_state r) (m_op m)) as [LT|LE].
      + intros H. injection H as <- <-. rewrite app_nil_r. destruct HI. constructor; auto; cbn [r_rcv set_rcv r_state r_paused r_snd].
        * intros op. rewrite for_op_app, iv_rcv0, mslice_mset. cbn. destruct (Z.eqb_spec (m_op m) op) as [<-|NE]; [|rewrite app_nil_r; reflexivity].
          rewrite !app_assoc. reflexivity.
        * intros op Hop. rewrite mslice_mset. cbn in Hop. destruct (Z.eqb_spec (m_op m) op); [lia|]. auto.
        * intros op. rewrite mslice_mset. destruct (Z.eqb_spec (m_op m) op) as [<-|]; [|apply iv_keyed0].
          apply Forall_app. split; [apply iv_keyed0|constructor; [reflexivity|constructor]].
      + assert (EQ : r_state r = m_op m) by lia.
        assert (HP : r_paused r = false) by (rewrite <- EQ, Z.eqb_refl in ED; exact ED).
        intros H. destruct HI. destruct (process_msg_spec _ _ _ _ _ _ iv_link0 EQ HP H) as (S1 & S2 & S3 & S4 & S5 & S6 & S7 & S8).
        pose proof S3 as (E1 & E2 & E3 & E4 & E5 & E6 & E7).
        constructor.
        * exact S1.
        * apply always_app; assumption.
        * rewrite entered_app, S6, app_nil_r, E1. assumption.
        * rewrite E1. assumption.
        * rewrite E1, E2, E4, E5. exact iv_loc0.
        * intros op. rewrite handled_app, dropped_app, S4, S5, app_nil_r, !for_op_app, iv_rcv0, E3. cbn.
          destruct (Z.eqb_spec (m_op m) op) as [<-|NE]; [|rewrite !app_nil_r; reflexivity].
          rewrite <- EQ. rewrite (iv_rcv_now0 HP), (iv_rcv_past0 (r_state r)) by lia. rewrite !app_nil_r. reflexivity.
        * intros op Hop. rewrite E3. apply iv_rcv_past0. lia.
        * intros op Hop. rewrite E1 in Hop. rewrite handled_app, dropped_app, S4, S5, app_nil_r, for_op_app. destruct (iv_rcv_future0 op Hop) as [-> ->].
          cbn. destruct (Z.eqb_spec (m_op m) op); [lia|]. tauto.
        * intros _. rewrite dropped_app, S5, app_nil_r, E1. auto.
        * rewrite E3. assumption.
        * intros op. rewrite created_app, sent_app, !for_op_app, iv_snd0. specialize (S8 op). destruct S8 as [A1 A2].
          destruct (Z.le_gt_cases op (r_state r)) as [L|L].
          -- destruct (A1 L) as [-> ->]. rewrite (iv_snd_past0 op L), !app_nil_r. reflexivity.
          -- destruct (A2 ltac:(lia)) as [-> ->]. rewrite (iv_snd_future0 op) by lia. reflexivity.
        * intros op Hop. rewrite E1 in Hop. destruct (S8 op) as [A1 _]. rewrite (proj1 (A1 Hop)). auto.
        * intros op Hop. rewrite E1 in Hop. rewrite sent_app, for_op_app, iv_snd_future0 by exact Hop. destruct (S8 op) as [_ A2]. rewrite (proj2 (A2 Hop)). reflexivity.
        * rewrite stepped_app, S7, app_nil_r, E1. assumption.
  Qed.

  Lemma enter_inv (e : E) now rcvd r tr r' t' : Inv rcvd r tr -> r_term r = false ->
    enter_stage p c e now r = Ok (r', t') ->
    Inv rcvd r' (tr ++ t') /\ r_state r' = r_state r + 1 /\ r_loc r' = LStage /\
    (exists s, stage_at p (r_state r + 1) = Some s /\ r_t r' = r_t r + stage_timeout s /\ r_wake r' = r_t r') /\
    (exists t1, t' = OEnter (r_state r + 1) now :: t1 /\ entered t1 = [] /\
       stepped t1 = if r_abandon r then [] else
         match stage_at p (r_state r + 1) with Some s => match sg_step s with Some _ => [r_state r + 1] | None => [] end | None => [] end).
  Proof.
    intros HI HT. unfold enter_stage. set (k := r_state r + 1). destruct (stage_at p k) as [s|] eqn:ES; [|discriminate].
    pose proof (stage_at_range _ _ ES) as RK.
    set (r1 := set_stage r k false).
    assert (L1 : link r1 (tr ++ [OEnter k now])).
    { destruct HI. destruct iv_link0 as (X1 & X2 & X3). unfold link. rewrite stage_now_snoc, abandoned_app, terminated_app. cbn. rewrite !orb_false_r. auto. }
    unfold flush_snd_buf. change (r_snd r1) with (r_snd r). change (r_state r1) with k.
    destruct (try_send_all c (mslice (r_snd r) k)) as [o| |] eqn:EO; cbn [rbind fst snd]; try discriminate.
    destruct (try_send_all_spec _ _ EO) as [-> FQ]. destruct (map_sent_proj (mslice (r_snd r) k)) as (PS & PC & PF).
    set (tx := map OSent (mslice (r_snd r) k)) in *. set (r2 := set_snd r1 (mdel (r_snd r) k)).
    pose proof (inv_snd_keyed _ _ _ HI) as KS.
    assert (NA : ~ In (OAbandon : obs) tx). { unfold tx. rewrite in_map_iff. intros (x & X & _). discriminate. }
    assert (L2 : link r2 ((tr ++ [OEnter k now]) ++ tx)) by (apply (link_acts r1); assumption).
    assert (A2 : alw okobs (tr ++ [OEnter k now]) tx).
    { intros a o b E0. assert (IN : In o tx) by (rewrite E0; apply in_elt). unfold tx in IN. apply in_map_iff in IN. destruct IN as (m & <- & IN).
      assert (LA : link r1 ((tr ++ [OEnter k now]) ++ a)).
      { apply link_acts; [exact L1| |].
        - rewrite E0 in PF. apply Forall_app in PF. apply PF.
        - intros X. apply NA. rewrite E0. apply in_or_app. tauto. }
      cbn [okobs]. destruct LA as (-> & _). cbn. rewrite Forall_forall in FQ. specialize (FQ m IN).
      pose proof (KS k) as KK. rewrite Forall_forall in KK. rewrite (KK m IN). lia. }
    destruct (run_step c e s r2) as [[r3 ty]| |] eqn:EY; cbn [rbind fst snd]; try discriminate.
    destruct HI.
    destruct (iv_rcv_future0 k ltac:(lia)) as [HK DK].
    assert (HK' : for_op (r_state r2) (handled ((tr ++ [OEnter k now]) ++ tx)) = []).
    { rewrite !handled_app, (act_handled tx PF), !for_op_app. cbn. rewrite !app_nil_r. exact HK. }
    assert (SK' : Forall (fun j => j < r_state r2) (stepped ((tr ++ [OEnter k now]) ++ tx))).
    { rewrite !stepped_app, (act_stepped tx PF). cbn. rewrite !app_nil_r. eapply Forall_impl; [|exact iv_stepped0]. cbn. intros. lia. }
    pose proof (run_step_spec _ _ _ _ _ _ L2 eq_refl HT HK' SK' EY) as SY.
    destruct (process_all p c e r3 (mslice (r_rcv r3) k)) as [[r4 tz]| |] eqn:EZ; cbn [rbind fst snd]; try discriminate.
    pose proof SY as (LY & _ & SMY & _). pose proof SMY as (Y1 & Y2 & Y3 & Y4 & Y5 & Y6 & Y7).
    assert (KR : Forall (fun m => m_op m = r_state r3) (mslice (r_rcv r3) k)).
    { rewrite Y1, Y3. exact (iv_keyed0 k). }
    pose proof (process_all_spec _ _ _ _ _ _ LY KR ltac:(rewrite Y2; reflexivity) EZ) as SZ.
    pose proof (seg_trans _ _ _ _ _ _ _ _ _ _ SY SZ) as (B1 & B2 & B3 & B4 & B5 & B6 & B7 & B8).
    cbn [app] in B4. rewrite Y3 in B4. change (r_rcv r2) with (r_rcv r) in B4. rewrite app_nil_r in B7.
    pose proof B3 as (Z1 & Z2 & Z3 & Z4 & Z5 & Z6 & Z7).
    change (r_state r2) with k in *. change (r_paused r2) with false in *. change (r_term r2) with (r_term r) in *.
    change (r_rcv r2) with (r_rcv r) in *. change (r_snd r2) with (mdel (r_snd r) k) in *. change (r_abandon r2) with (r_abandon r) in *.
    intros H. injection H as <- <-.
    assert (TRE : tr ++ OEnter k now :: tx ++ ty ++ tz = ((tr ++ [OEnter k now]) ++ tx) ++ (ty ++ tz)) by (rewrite <- !app_assoc; reflexivity).
    remember (ty ++ tz) as tyz eqn:Etyz. clear Etyz.
    split.
    { rewrite TRE. constructor; cbn [set_clock set_rcv r_state r_paused r_loc r_term r_rcv r_snd r_abandon r_k].
      - destruct B1 as (X1 & X2 & X3). unfold link. cbn [set_clock set_rcv r_state r_paused r_loc r_term r_rcv r_snd r_abandon r_k]. auto.
      - apply always_app; [|exact B2]. apply always_app; [|exact A2]. apply always_app; [exact iv_alw0|]. apply alw_cons; [|apply alw_nil].
        destruct iv_link0 as (X1 & X2 & X3). cbn [okobs]. rewrite X1, X3. cbn. unfold k in *. repeat split; lia || assumption.
      - rewrite !entered_app, B6, (act_entered tx PF), Z1, iv_entered0. cbn. rewrite !app_nil_r. unfold k. rewrite upto_next by lia. reflexivity.
      - rewrite Z1. lia.
      - rewrite Z1, Z2, Z4. repeat split; [lia|exact HT].
      - intros op. rewrite !handled_app, !dropped_app, B4, B5, (act_handled tx PF), (act_dropped tx PF), !for_op_app, iv_rcv0, mslice_mdel, Z3. cbn. rewrite !app_nil_r.
        destruct (Z.eqb_spec k op) as [<-|NE].
        + rewrite HK, DK. cbn. rewrite (for_op_self k (mslice (r_rcv r) k)) by apply iv_keyed0. rewrite app_nil_r. reflexivity.
        + rewrite (for_op_other k op (mslice (r_rcv r) k)) by (try apply iv_keyed0; exact NE). rewrite app_nil_r. reflexivity.
      - intros op Hop. rewrite mslice_mdel, Z3. destruct (Z.eqb_spec k op); [reflexivity|]. apply iv_rcv_past0. lia.
      - intros op Hop. rewrite Z1 in Hop. rewrite !handled_app, !dropped_app, B4, B5, (act_handled tx PF), (act_dropped tx PF), !for_op_app. cbn. rewrite !app_nil_r.
        destruct (iv_rcv_future0 op ltac:(lia)) as [-> ->]. rewrite (for_op_other k op (mslice (r_rcv r) k)) by (try apply iv_keyed0; lia). tauto.
      - intros _. rewrite Z1, !dropped_app, B5, (act_dropped tx PF). cbn. rewrite !app_nil_r. exact DK.
      - intros op. rewrite mslice_mdel, Z3. destruct (Z.eqb_spec k op); [constructor|apply iv_keyed0].
      - intros op. rewrite !created_app, !sent_app. rewrite PS, PC, !for_op_app, iv_snd0. cbn [created sent flat_map for_op filter app]. rewrite !app_nil_r.
        destruct (B8 op) as [C1 C2]. rewrite mslice_mdel in C1, C2.
        destruct (Z.lt_total op k) as [L|[->|L]].
        + destruct (Z.eqb_spec k op); [lia|]. destruct (C1 ltac:(lia)) as [-> ->]. rewrite (iv_snd_past0 op) by lia.
          rewrite (for_op_other k op (mslice (r_snd r) k)) by (try apply KS; lia). rewrite !app_nil_r. reflexivity.
        + rewrite Z.eqb_refl in C1. destruct (C1 ltac:(lia)) as [-> ->]. rewrite (for_op_self k (mslice (r_snd r) k)) by apply KS. rewrite (iv_snd_future0 k) by lia. cbn [app]. rewrite app_nil_r. reflexivity.
        + destruct (Z.eqb_spec k op); [lia|]. destruct (C2 L) as [-> ->]. rewrite (iv_snd_future0 op) by lia.
          rewrite (for_op_other k op (mslice (r_snd r) k)) by (try apply KS; lia). cbn. reflexivity.
      - intros op Hop. rewrite Z1 in Hop. destruct (B8 op) as [C1 _]. rewrite mslice_mdel in C1. rewrite (proj1 (C1 Hop)).
        destruct (Z.eqb_spec k op); [reflexivity|]. apply iv_snd_past0. lia.
      - intros op Hop. rewrite Z1 in Hop. rewrite !sent_app, PS, !for_op_app, (iv_snd_future0 op) by lia. cbn.
        rewrite (for_op_other k op (mslice (r_snd r) k)) by (try apply KS; lia). destruct (B8 op) as [_ C2]. rewrite (proj2 (C2 Hop)). reflexivity.
      - rewrite !stepped_app, (act_stepped tx PF), Z1, B7. cbn. rewrite !app_nil_r. apply Forall_app. split.
        + eapply Forall_impl; [|exact iv_stepped0]. cbn. intros. lia.
        + destruct (r_abandon r); [constructor|]. destruct (sg_step s); [constructor; [lia|constructor]|constructor]. }
    cbn [set_clock set_rcv r_state r_paused r_loc r_term r_rcv r_snd r_abandon r_k r_t r_wake].
    split; [exact Z1|]. split; [reflexivity|]. split.
    { exists s. split; [reflexivity|]. split; reflexivity. }
    exists (tx ++ tyz). split; [reflexivity|]. rewrite entered_app, stepped_app, B6, B7, (act_entered tx PF), (act_stepped tx PF). split; reflexivity.
  Qed.

  Lemma tick_inv (e : E) now rcvd r tr r' t' : Inv rcvd r tr -> tick p c e now r = Ok (r', t') -> Inv rcvd r' (tr ++ t').
  Proof.
    intros HI. pose proof (iv_loc _ _ _ HI) as HL. unfold tick, loop_top. destruct (r_loc r) eqn:EL.
    - intros H. injection H as <- <-. destruct HI. constructor; auto; cbn [set_clock r_state r_paused r_loc r_term r_rcv r_snd r_abandon r_k].
      + apply (link_other r); [assumption|exact I].
      + apply always_app; [assumption|]. apply alw_cons; [|apply alw_nil]. cbn [okobs]. destruct iv_link0 as (-> & _). destruct HL as (-> & -> & _). reflexivity.
      + rewrite entered_app. cbn. rewrite app_nil_r. assumption.
      + intros op. rewrite handled_app, dropped_app. cbn. rewrite !app_nil_r. apply iv_rcv0.
      + intros op Hop. rewrite handled_app, dropped_app. cbn. rewrite !app_nil_r. apply iv_rcv_future0, Hop.
      + intros HP. rewrite dropped_app. cbn. rewrite app_nil_r. auto.
      + intros op. rewrite created_app, sent_app. cbn. rewrite !app_nil_r. apply iv_snd0.
      + intros op Hop. rewrite sent_app. cbn. rewrite app_nil_r. auto.
      + rewrite stepped_app. cbn. rewrite app_nil_r. assumption.
    - destruct HL as (HS & HP & HT). destruct (Z.ltb_spec (r_state r) final) as [LT|GE].
      + destruct (Z.ltb_spec (-1) (r_state r)); [lia|]. intros HE. apply (enter_inv e now rcvd r tr r' t' HI HT HE).
      + intros H. injection H as <- <-. destruct HI. constructor; auto; cbn [r_state r_paused r_loc r_term r_rcv r_snd r_abandon r_k].
        * destruct iv_link0 as (X1 & X2 & X3). unfold link. rewrite stage_now_snoc, abandoned_app, terminated_app. cbn. rewrite orb_false_r, orb_true_r. auto.
        * apply always_app; [assumption|]. apply alw_cons; [|apply alw_nil]. cbn [okobs]. destruct iv_link0 as (-> & _ & ->). rewrite HP. split; [|exact HT]. f_equal. lia.
        * rewrite entered_app. cbn. rewrite app_nil_r. assumption.
        * repeat split; lia || assumption.
        * intros op. rewrite handled_app, dropped_app. cbn. rewrite !app_nil_r. apply iv_rcv0.
        * intros op Hop. rewrite handled_app, dropped_app. cbn. rewrite !app_nil_r. apply iv_rcv_future0, Hop.
        * intros HP0. rewrite dropped_app. cbn. rewrite app_nil_r. auto.
        * intros op. rewrite created_app, sent_app. cbn. rewrite !app_nil_r. apply iv_snd0.
        * intros op Hop. rewrite sent_app. cbn. rewrite app_nil_r. auto.
        * rewrite stepped_app. cbn. rewrite app_nil_r. assumption.
    - destruct HL as (HS & HP & HT). destruct (Z.ltb_spec (r_state r) final) as [LT|GE].
      + destruct (Z.ltb_spec (-1) (r_state r)); [|lia]. intros H0. injection H0 as <- <-.
        destruct HI. constructor; auto; cbn [set_clock set_stage r_state r_paused r_loc r_term r_rcv r_snd r_abandon r_k].
        * destruct iv_link0 as (X1 & X2 & X3). unfold link. rewrite stage_now_snoc, abandoned_app, terminated_app. cbn. rewrite !orb_false_r. auto.
        * apply always_app; [assumption|]. apply alw_cons; [|apply alw_nil]. cbn [okobs]. destruct iv_link0 as (-> & _ & ->). rewrite HP. auto.
        * rewrite entered_app. cbn. rewrite app_nil_r. assumption.
        * repeat split; lia || assumption.
        * intros op. rewrite handled_app, dropped_app. cbn. rewrite !app_nil_r. apply iv_rcv0.
        * intros op Hop. rewrite handled_app, dropped_app. cbn. rewrite !app_nil_r. apply iv_rcv_future0, Hop.
        * discriminate.
        * intros op. rewrite created_app, sent_app. cbn. rewrite !app_nil_r. apply iv_snd0.
        * intros op Hop. rewrite sent_app. cbn. rewrite app_nil_r. auto.
        * rewrite stepped_app. cbn. rewrite app_nil_r. assumption.
      + intros H. injection H as <- <-. destruct HI. constructor; auto; cbn [r_state r_paused r_loc r_term r_rcv r_snd r_abandon r_k].
        * destruct iv_link0 as (X1 & X2 & X3). unfold link. rewrite stage_now_snoc, abandoned_app, terminated_app. cbn. rewrite orb_false_r, orb_true_r. auto.
        * apply always_app; [assumption|]. apply alw_cons; [|apply alw_nil]. cbn [okobs]. destruct iv_link0 as (-> & _ & ->). rewrite HP. split; [|exact HT]. f_equal. lia.
        * rewrite entered_app. cbn. rewrite app_nil_r. assumption.
        * repeat split; lia || assumption.
        * intros op. rewrite handled_app, dropped_app. cbn. rewrite !app_nil_r. apply iv_rcv0.
        * intros op Hop. rewrite handled_app, dropped_app. cbn. rewrite !app_nil_r. apply iv_rcv_future0, Hop.
        * intros HP0. rewrite dropped_app. cbn. rewrite app_nil_r. auto.
        * intros op. rewrite created_app, sent_app. cbn. rewrite !app_nil_r. apply iv_snd0.
        * intros op Hop. rewrite sent_app. cbn. rewrite app_nil_r. auto.
        * rewrite stepped_app. cbn. rewrite app_nil_r. assumption.
    - destruct HL as (HS & HP & HT). intros H. apply (enter_inv e now rcvd r tr r' t' HI HT H).
    - intros H. injection H as <- <-. rewrite app_nil_r. exact HI.
  Qed.

  Lemma inv_new k : Inv [] (new_run (D := D) k) [].
  Proof.
    constructor; cbn; auto.
    - unfold link. auto.
    - intros a o b H. destruct a; discriminate.
    - unfold Prot.final. lia.
    - intros op. constructor.
  Qed.

  Lemma exec_inv evs : forall rcvd r tr r' t', Inv rcvd r tr -> exec p c r evs = Ok (r', t') -> Inv (rcvd ++ received evs) r' (tr ++ t').
  Proof.
    induction evs as [|ev evs IH]; intros rcvd r tr r' t' HI; cbn [exec].
    - intros H. injection H as <- <-. rewrite !app_nil_r. exact HI.
    - destruct (step p c r ev) as [[r1 t1]| |] eqn:E1; cbn [rbind fst snd]; try discriminate.
      destruct (exec p c r1 evs) as [[r2 t2]| |] eqn:E2; cbn [rbind fst snd]; try discriminate.
      intros H. injection H as <- <-. destruct ev as [e now|e m]; cbn [step] in E1.
      + rewrite app_assoc. change (received (ETick e now :: evs)) with (received evs). eapply IH; [|exact E2]. eapply tick_inv; eassumption.
      + rewrite app_assoc. change (received (EMsg e m :: evs)) with ([m] ++ received evs). rewrite app_assoc. eapply IH; [|exact E2]. eapply deliver_inv; eassumption.
  Qed.
  Lemma run_inv k evs r t : exec p c (new_run k) evs = Ok (r, t) -> Inv (received evs) r t.
  Proof. intros H. apply (exec_inv evs [] _ [] _ _ (inv_new k) H). Qed.
End Inv.
