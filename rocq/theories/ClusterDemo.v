(** Executions of two nodes put together from executions of one run in each. *)
From Coq Require Import ZArith List Lia Bool Permutation Sorted.
From Coq Require Import Init.Byte.
From Verif Require Import Params Bytes Res Secp Dto Dss Prot ProtSpec ProtProofs TimeSpec TimeProofs DkgProt KMap Firewall FwSpec FwProofs NetSpec Outputs Node NodeSpec NodeRun NodeProofs NodeProofs2 NodeProofs3 NodeProofs4 NodeProofs5 NodeProofs6 NodeProofs7 ObjSpec ObjProofs ObjProofs2 ObjProofs3 ReachSpec ReachProofs SignSpec HonestSpec
  HonestDemo PropsSign PropsNode PropsObj Cluster ClusterSpec ClusterProofs ClusterProofs2 ClusterProofs3 ClusterProofs4 DeliverSpec PropsCluster2.
From Verif Require Net NetProofs.
Import ListNotations.
Open Scope Z_scope.

Section LiftMsg.
  Context {G : Type}.
  Variable ky : kyber G.
  Variable keccak : bytes -> bytes.
  Variable pshash : Z -> Z -> bytes.
  Variable su : setup.
  Notation nexec := (nexec ky keccak pshash su). Notation nstep := (nstep ky keccak pshash su).
  Notation hist := (run_history ky keccak pshash su).
  Notation message := (message payload).
  Variables (k : key) (j : nat) (gen : G) (nonce : Z) (ord : Z -> list (Z * Z) -> list (Z * Z)).
  Notation q := (qkey (k_pc k) (k_guest k)).
  (** The firewall forwards for the run, nothing waits in its queue, and the consumer of the queue holds nothing. *)
  Definition at_ease (n : node (G := G)) : Prop :=
    f_drop (n_fw n) = false /\ known (n_fw n) (k_pc k) (k_guest k) = true /\ kget (f_state (n_fw n)) k = Some fw_forwarding /\
    kslice (n_qs n) q = [] /\ kget (n_cons n) q = None /\ kget (n_table n) k = Some j.
  Definition fits (m : message) : Prop := key_of m = k /\ 0 <= m_op m < Z.of_nat (length (p_stages (the_prot ky keccak pshash (k_pc k)))).
  Definition lift_ev (x : Z * event payload env) : list (nevent (G := G)) :=
    match snd x with ETick _ _ => [VTick (fst x) j nonce ord] | EMsg _ m => [VIn (fst x) m; VTake (fst x) (k_pc k) (k_guest k) gen; VDeliver (fst x) (k_pc k) (k_guest k) nonce ord] end.
  Definition calm_fw (o : fobs payload) : Prop := match o with FIn _ _ | FPass _ _ => True | _ => False end.

  Hypothesis PC : 0 <= k_pc k < 2.
  Hypothesis GU : is_guest su (k_guest k) = true.

  Lemma in_step n t m : at_ease n -> fits m -> nstep n (VIn t m) = Ok (set_qs n (kset (n_qs n) q [m]), [NFw (FIn t m); NFw (FPass t m); NQueued m]).
  Proof.
    intros (A1 & A2 & A3 & A4 & A5 & A6) (B1 & B2). assert (E : m_pc m = k_pc k /\ m_rcpt m = k_guest k /\ m_run m = k_run k) by (rewrite <- B1; auto). destruct E as (E1 & E2 & E3).
    assert (EK : fw_key m = k) by exact B1.
    cbn [Node.nstep]. unfold firewall, fstep, fw_process, fw_message_valid. rewrite A1, E1, E2, A2. cbn [negb orb]. rewrite EK, A3. change (fw_forwarding =? fw_buffering) with false. change (fw_forwarding =? fw_forwarding) with true. cbn [rbind fst snd].
    cbn [receive_all rbind fst snd]. replace (set_fw n (n_fw n)) with n by (destruct n; reflexivity). unfold receive. rewrite E1, E2, Z.abs_eq by lia.
    destruct (Z.leb_spec nprots (k_pc k)) as [X|_]; [unfold nprots in X; lia|]. destruct (Z.ltb_spec (k_pc k) 0); [lia|].
    destruct (Z.leb_spec 0 (m_op m)); [|lia]. destruct (Z.ltb_spec (m_op m) (Z.of_nat (length (p_stages (the_prot ky keccak pshash (k_pc k)))))); [|lia]. cbn [andb negb].
    rewrite GU, A4. cbn [andb length Z.of_nat]. change (0 <? rcv_buf_max) with true. reflexivity.
  Qed.
  Lemma take_step1 n t m : at_ease n -> fits m ->
    nstep (set_qs n (kset (n_qs n) q [m])) (VTake t (k_pc k) (k_guest k) gen) = Ok (set_cons (set_qs n (kset (kset (n_qs n) q [m]) q [])) (kset (n_cons n) q (j, m)), [NTake m]).
  Proof.
    intros (A1 & A2 & A3 & A4 & A5 & A6) (B1 & B2). assert (E1 : m_pc m = k_pc k) by (rewrite <- B1; reflexivity). assert (EK : fw_key m = k) by exact B1.
    cbn [Node.nstep]. unfold consumer_take. cbn [set_qs n_cons n_qs]. rewrite A5, kslice_kset, key_eqb_refl, E1. destruct (Z.ltb_spec (k_pc k) 0); [lia|].
    unfold ensure_run. cbn [set_qs n_table]. rewrite EK, A6. reflexivity.
  Qed.
  Definition delivered (n : node (G := G)) (m : message) r tr : node (G := G) :=
    set_cons (moved (set_cons (set_qs n (kset (kset (n_qs n) q [m]) q [])) (kset (n_cons n) q (j, m))) j k r tr) (kdel (kset (n_cons n) q (j, m)) q).
  Lemma msg_lift n t m r r' tr : at_ease n -> fits m -> nth_error (n_heap n) j = Some (k, r) ->
    step (the_prot ky keccak pshash (k_pc k)) (run_info su k) r (EMsg (env_for su n k nonce ord) m) = Ok (r', tr) ->
    nexec n [VIn t m; VTake t (k_pc k) (k_guest k) gen; VDeliver t (k_pc k) (k_guest k) nonce ord] = Ok (delivered n m r' tr, [NFw (FIn t m); NFw (FPass t m); NQueued m] ++ [NTake m] ++ map (NRun k) tr) /\
    hist n [VIn t m; VTake t (k_pc k) (k_guest k) gen; VDeliver t (k_pc k) (k_guest k) nonce ord] j = [(t, EMsg (env_for su n k nonce ord) m)].
  Proof.
    intros HA HF HN HS. pose proof (in_step n t m HA HF) as S1. pose proof (take_step1 n t m HA HF) as S2.
    set (n2 := set_cons (set_qs n (kset (kset (n_qs n) q [m]) q [])) (kset (n_cons n) q (j, m))) in *.
    assert (C2 : kget (n_cons n2) q = Some (j, m)) by (cbn; rewrite key_eqb_refl; reflexivity).
    assert (S3 : nstep n2 (VDeliver t (k_pc k) (k_guest k) nonce ord) = Ok (delivered n m r' tr, map (NRun k) tr)).
    { cbn [Node.nstep]. unfold consumer_deliver. rewrite C2. change (n_heap n2) with (n_heap n). rewrite HN. change (env_for su n2 k nonce ord) with (env_for su n k nonce ord). cbn [step] in HS. rewrite HS. reflexivity. }
    split.
    - cbn [Node.nexec]. rewrite S1. cbn [rbind fst snd]. rewrite S2. cbn [rbind fst snd]. rewrite S3. cbn [rbind fst snd]. rewrite app_nil_r. reflexivity.
    - cbn [run_history event_of_run]. rewrite S1. cbn [fst]. rewrite S2. cbn [fst app]. change (n_heap n2) with (n_heap n). rewrite HN. change (mkKey (k_pc k) (k_guest k) []) with q. rewrite C2, Nat.eqb_refl, S3. reflexivity.
  Qed.
  Lemma ease_delivered n m r tr : at_ease n -> at_ease (delivered n m r tr).
  Proof.
    intros (A1 & A2 & A3 & A4 & A5 & A6). unfold delivered. repeat (split; [assumption|]). split; [cbn [set_cons moved set_outs set_heap set_qs n_qs]; rewrite kslice_kset, key_eqb_refl; reflexivity|].
    split; [cbn [set_cons n_cons]; rewrite kget_kdel_same; reflexivity|exact A6].
  Qed.
  Lemma ease_moved n r tr : at_ease n -> at_ease (moved n j k r tr). Proof. exact (fun H => H). Qed.

  (** A whole history of a run. *)
  Lemma run_lift h : forall n r r' tr, let p := the_prot ky keccak pshash (k_pc k) in let c := run_info su k in let e := env_for su n k nonce ord in
    at_ease n -> nth_error (n_heap n) j = Some (k, r) -> (forall t e' now, In (t, ETick e' now) h -> e' = e /\ now = t) -> (forall t e' m, In (t, EMsg e' m) h -> e' = e /\ fits m) ->
    exec p c r (untimed h) = Ok (r', tr) -> timely p c r (untimed h) ->
    exists n' o, nexec n (flat_map lift_ev h) = Ok (n', o) /\ hist n (flat_map lift_ev h) j = h /\ at_ease n' /\
      n_heap n' = put (n_heap n) j (k, r') /\ n_outs n' = push_all (n_outs n) k tr /\ n_docs n' = n_docs n /\ n_reqs n' = n_reqs n /\ n_fw n' = n_fw n /\
      run_trace k o = tr /\ Forall calm_fw (fw_trace o) /\ (length (queued_to (k_pc k) (k_guest k) o) <= length h)%nat /\ (forall pc a b, sent_to pc a b o = if (k_pc k =? pc) && (k_guest k =? a) then filter (fun m => m_rcpt m =? b) (sent tr) else []).
  Proof.
    assert (RT : forall t, run_trace k (map (NRun k) t) = t) by (intros t; induction t as [|x t IH]; [reflexivity|]; cbn [map run_trace flat_map]; rewrite key_eqb_refl; unfold run_trace in IH; cbn [app]; rewrite IH; reflexivity).
    assert (NQ : forall t, queued_to (k_pc k) (k_guest k) (map (NRun k) t) = []) by (intros t; induction t as [|x t IH]; [reflexivity|exact IH]).
    assert (ST : forall pc a b t, sent_to pc a b (map (NRun k) t) = if (k_pc k =? pc) && (k_guest k =? a) then filter (fun m => m_rcpt m =? b) (sent t) else []).
    { intros pc a b t. induction t as [|x t IH]; [destruct (_ && _); reflexivity|]. cbn [map sent_to flat_map sent]. unfold sent_to in IH. rewrite IH. destruct x; try reflexivity. cbn [app].
      destruct ((k_pc k =? pc) && (k_guest k =? a)); cbn [andb]; [|reflexivity]. cbn [filter app]. fold (sent t). destruct (m_rcpt m =? b); reflexivity. }
    assert (SNT : forall a b : list (obs payload arg output), sent (a ++ b) = sent a ++ sent b) by (intros; apply flat_map_app).
    assert (STO : forall pc a b x y, sent_to pc a b (x ++ y) = sent_to pc a b x ++ sent_to pc a b y) by (intros; apply flat_map_app).
    assert (RTO : forall x y, run_trace k (x ++ y) = run_trace k x ++ run_trace k y) by (intros; apply flat_map_app).
    assert (FWO : forall x y, fw_trace (x ++ y) = fw_trace x ++ fw_trace y) by (intros; apply flat_map_app).
    induction h as [|[t ev] h IH]; intros n r r' tr p c e HA HN HT HM.
    - cbn. intros E _. injection E as <- <-. exists n, []. rewrite put_id by exact HN. cbn. repeat (split; [reflexivity || assumption|]). split; [constructor|]. split; [lia|]. intros pc a b. destruct (_ && _); reflexivity.
    - cbn [untimed map snd exec timely]. destruct (step p c r ev) as [[r1 t1]| |] eqn:E1; cbn [rbind fst snd]; try discriminate.
      destruct (exec p c r1 (map snd h)) as [[r2 t2]| |] eqn:E2; cbn [rbind fst snd]; try discriminate. intros EX [T1 T2]. injection EX as <- <-.
      assert (S1 : exists n1 o1, nexec n (lift_ev (t, ev)) = Ok (n1, o1) /\ hist n (lift_ev (t, ev)) j = [(t, ev)] /\ at_ease n1 /\ n_heap n1 = put (n_heap n) j (k, r1) /\ n_outs n1 = push_all (n_outs n) k t1 /\
        n_docs n1 = n_docs n /\ n_reqs n1 = n_reqs n /\ n_fw n1 = n_fw n /\ run_trace k o1 = t1 /\ Forall calm_fw (fw_trace o1) /\ (length (queued_to (k_pc k) (k_guest k) o1) <= 1)%nat /\
        (forall pc a b, sent_to pc a b o1 = if (k_pc k =? pc) && (k_guest k =? a) then filter (fun m => m_rcpt m =? b) (sent t1) else [])).
      { destruct ev as [e' now|e' m]; unfold lift_ev; cbn [snd fst].
        - destruct (HT t e' now) as [-> ->]; [left; reflexivity|].
          destruct (ticks_lift ky keccak pshash su nonce ord j k [t] n r r1 t1 HN) as [X1 X2]; [cbn [map exec]; fold p c e; rewrite E1; cbn [rbind fst snd]; rewrite app_nil_r; reflexivity|cbn [map timely]; fold p c e; rewrite E1; split; [exact T1|exact I]|].
          cbn [map] in X1, X2. exists (moved n j k r1 t1), (map (NRun k) t1). split; [exact X1|]. split; [exact X2|]. split; [exact HA|]. repeat (split; [reflexivity|]). split; [apply RT|].
          split; [rewrite fw_none; constructor|]. split; [rewrite NQ; cbn; lia|]. intros; apply ST.
        - destruct (HM t e' m) as [-> HF]; [left; reflexivity|]. destruct (msg_lift n t m r r1 t1 HA HF HN E1) as [X1 X2]. eexists _, _. split; [exact X1|]. split; [exact X2|]. split; [apply ease_delivered, HA|].
          repeat (split; [reflexivity|]). split; [cbn [app run_trace flat_map]; apply RT|]. split; [cbn [app]; change (fw_trace (NFw (FIn t m) :: NFw (FPass t m) :: NQueued m :: NTake m :: map (NRun k) t1)) with (FIn t m :: FPass t m :: fw_trace (map (NRun k) t1)); rewrite fw_none; repeat constructor|].
          split; [cbn [app queued_to flat_map]; fold (queued_to (k_pc k) (k_guest k) (map (NRun k) t1)); rewrite NQ; destruct (for_queue _ _ _); cbn; lia|]. intros. exact (ST pc a b t1). }
      destruct S1 as (n1 & o1 & A1 & A2 & A3 & A4 & A5 & A6 & A7 & A8 & A9 & A10 & A11 & A12).
      assert (EE : env_for su n1 k nonce ord = e) by (unfold e, env_for; rewrite A6; reflexivity).
      destruct (IH n1 r1 r2 t2) as (n2 & o2 & B1 & B2 & B3 & B4 & B5 & B6 & B7 & B8 & B9 & B10 & B11 & B12).
      { exact A3. } { rewrite A4, put_nth, Nat.eqb_refl. rewrite (proj2 (Nat.ltb_lt _ _)); [reflexivity|]. apply nth_error_Some. congruence. }
      { rewrite EE. intros t' e' now H. apply HT. right. exact H. } { rewrite EE. intros t' e' m H. apply (HM t'). right. exact H. } { exact E2. } { exact T2. }
      cbn [flat_map]. exists n2, (o1 ++ o2). split; [eapply nexec_two; eassumption|]. split; [rewrite (hist_app _ _ _ _ _ _ _ _ _ _ A1), A2, B2; reflexivity|]. split; [exact B3|].
      split; [rewrite B4, A4, put_put; reflexivity|]. split; [rewrite B5, A5, push_all_app; reflexivity|]. split; [congruence|]. split; [congruence|]. split; [congruence|].
      split; [rewrite RTO; congruence|]. split; [rewrite FWO; apply Forall_app; split; assumption|]. split; [rewrite queued_app, app_length; cbn [length]; lia|].
      intros pc a b. rewrite STO, A12, B12, SNT, filter_app. destruct (_ && _); reflexivity.
  Qed.
End LiftMsg.

(** * Two processes *)
Section Duo.
  Context {G : Type}.
  Variable ky : kyber G.
  Variable keccak : bytes -> bytes.
  Variable pshash : Z -> Z -> bytes.
  Variables p0 p1 : place.
  Variable home : Z -> option nat.
  Notation places := [p0; p1].
  Notation message := (message payload). Notation nevent := (nevent (G := G)). Notation node := (node (G := G)).
  Notation cobs := (cobs (G := G)). Notation cluster := (cluster (G := G)).
  Notation step_node := (step_node ky keccak pshash places).
  Notation cstep := (cstep ky keccak pshash places home).
  Notation cexec := (cexec ky keccak pshash places home).
  Notation nexec p := (nexec ky keccak pshash (pl_su p)). Notation nstep p := (nstep ky keccak pshash (pl_su p)).

  (** What is put in lanes is what runs send. *)
  Definition puts_right (tr : list cobs) : Prop := forall l, put_in (lane_events l tr) = sent_to (l_pc l) (l_from l) (l_to l) (trace_at (l_at l) tr).
  Lemma puts_app a b : puts_right a -> puts_right b -> puts_right (a ++ b).
  Proof. intros A B l. rewrite levents_app, put_in_app, trace_app, A, B. unfold sent_to. rewrite flat_map_app. reflexivity. Qed.
  Lemma node_puts c i org ev c' o : step_node c i org ev = Some (c', o) -> puts_right o.
  Proof.
    unfold Cluster.step_node. destruct (nth_error places i) as [p|]; [|discriminate]. destruct (nth_error (c_nodes c) i) as [[n|]|]; try discriminate.
    destruct (_ <? _); [discriminate|]. destruct (nstep p n ev) as [[n1 o1]| |]; cbn [fst snd]; try discriminate.
    - destruct (send_all _ _ _) as [c2 o2] eqn:E2. cbn [fst snd]. intros E. injection E as <- <-. destruct (send_all_eff _ _ _ _ _ E2) as (_ & _ & A3 & _ & _ & A6). intros l. destruct (A6 l) as (_ & B2 & _).
      change (XNode i org ev o1 :: o2) with ([XNode i org ev o1] ++ o2). rewrite levents_app, put_in_app, trace_app. destruct (A3 (l_at l)) as [_ ->]. rewrite B2, sel_sends. cbn [lane_events trace_at put_in flat_map app]. rewrite app_nil_r.
      destruct (Nat.eqb i (l_at l)); [rewrite app_nil_r|]; reflexivity.
    - intros E. assert (EO : o = [XDown i org ev]) by (destruct org; [injection E as _ <-|discriminate|injection E as _ <-]; reflexivity). subst o. intros l. reflexivity.
  Qed.
  Lemma lane_puts now l ev os : (forall m, ev <> Net.EvSend m) -> puts_right [XLane now l ev os].
  Proof. intros H l'. cbn [lane_events trace_at flat_map sent_to]. destruct (lane_eqb l l'); [|reflexivity]. destruct ev as [m| |]; [destruct (H m eq_refl)|reflexivity..]. Qed.
  Lemma step_puts c ev c' o : cstep c ev = Some (c', o) -> puts_right o.
  Proof.
    destruct ev as [i e|now l ok|now l ok|now s]; cbn [Cluster.cstep].
    - apply node_puts.
    - destruct (alive _ _); [|discriminate]. intros E. injection E as <- <-. apply lane_puts. discriminate.
    - destruct (alive _ _); [|discriminate]. destruct (step_lane c now l (Net.EvGo ok)) as [c1 o1] eqn:E1. apply step_lane_eff in E1. destruct E1 as (_ & _ & -> & _). cbn [fst snd].
      destruct (call_in _) as [[m [|]]|].
      + destruct (home _) as [j|]; [|discriminate]. destruct (step_node c1 _ _ _) as [[c2 o2]|] eqn:E2; [|discriminate]. cbn [fst snd]. intros E. injection E as <- <-.
        apply (puts_app [_] o2); [apply lane_puts; discriminate|exact (node_puts _ _ _ _ _ _ E2)].
      + intros E. injection E as <- <-. apply lane_puts. discriminate.
      + intros E. injection E as <- <-. apply lane_puts. discriminate.
    - destruct (nth_error _ s) as [[l m]|]; [|discriminate]. destruct (home _) as [j|]; [|discriminate]. apply node_puts.
  Qed.
  Lemma exec_puts evs : forall c c' o, cexec c evs = Some (c', o) -> puts_right o.
  Proof.
    induction evs as [|ev evs IH]; intros c c' o; cbn [Cluster.cexec]; [intros E; injection E as <- <-; intros l; reflexivity|].
    destruct (cstep c ev) as [[c1 o1]|] eqn:E1; [|discriminate]. cbn [fst snd]. destruct (cexec c1 evs) as [[c2 o2]|] eqn:E2; [|discriminate]. cbn [fst snd]. intros E. injection E as <- <-.
    apply puts_app; [exact (step_puts _ _ _ _ E1)|exact (IH _ _ _ E2)].
  Qed.
  Lemma in_puts tr t l m os : In (XLane t l (Net.EvSend m) os) tr -> In m (put_in (lane_events (G := G) l tr)).
  Proof.
    intros HI. unfold put_in, lane_events. apply in_flat_map. exists (Net.EvSend m). split; [|left; reflexivity]. apply in_flat_map. eexists. split; [exact HI|]. cbn. rewrite lane_eqb_refl. left. reflexivity.
  Qed.
  Lemma calls_app lat l a b : calls_within (G := G) (fun _ => True) lat l a -> calls_within (fun _ => True) lat l b -> calls_within (fun _ => True) lat l (a ++ b).
  Proof.
    intros A B t m os P H. apply in_app_or in H. destruct H as [H|H]; [destruct (A t m os P H) as (t1 & ok & o1 & X1 & X2 & X3)|destruct (B t m os P H) as (t1 & ok & o1 & X1 & X2 & X3)]; exists t1, ok, o1; (split; [exact X1|]); (split; [apply in_or_app; auto|exact X3]).
  Qed.

  Variables (l01 l10 : lane) (lat : Z).
  Hypothesis L01 : l_at l01 = 0%nat /\ home (l_to l01) = Some 1%nat.
  Hypothesis L10 : l_at l10 = 1%nat /\ home (l_to l10) = Some 0%nat.
  Notation sent01 := (sent_to (l_pc l01) (l_from l01) (l_to l01)). Notation sent10 := (sent_to (l_pc l10) (l_from l10) (l_to l10)).
  (** A queue that is empty, not connected yet or after a call that succeeded. *)
  Definition idle (b : bool) (s : Net.nq message) : Prop := if b then exists x, s = Net.mkNq [] (Net.LPost true) x false Net.KIdle else s = Net.nq0.
  Definition to_call (b : bool) : list (bool * bool) := if b then [(false, true)] else [(false, true); (true, true); (false, true); (false, true)].
  Definition at_call (m : message) : Net.nq message := Net.mkNq [] Net.LCall (Some m) false Net.KIdle.
  Lemma calls_next b s m : idle b s -> let s1 := fst (Net.nexec s [Net.EvSend m]) in
    fst (Net.nexec s1 (map net_ev (to_call b))) = at_call m /\ called_with true (snd (Net.nexec s1 (map net_ev (to_call b)))) = [].
  Proof. destruct b; [intros [x ->]|intros ->]; split; reflexivity. Qed.

  Definition standing (c : cluster) (n0 n1 : node) (b : bool) : Prop := c_nodes c = [Some n0; Some n1] /\ idle b (c_lanes c l01) /\ idle b (c_lanes c l10).
  Record seg (c : cluster) (evs : list (cevent (G := G))) (c' : cluster) (tr : list cobs) (E0 E1 : list nevent) (O0 O1 : list nobs) : Prop := mkSeg {
    sg_exec : cexec c evs = Some (c', tr);
    sg_e0 : events_at 0 tr = E0; sg_e1 : events_at 1 tr = E1; sg_t0 : trace_at 0 tr = O0; sg_t1 : trace_at 1 tr = O1;
    sg_via : forall j org t m os, In (XNode j org (VIn t m) os) tr -> exists l, org = Via l;
    sg_calls : calls_within (fun _ => True) lat l01 tr /\ calls_within (fun _ => True) lat l10 tr }.
  Lemma seg_app c evs c1 tr E0 E1 O0 O1 evs' c2 tr' E0' E1' O0' O1' : seg c evs c1 tr E0 E1 O0 O1 -> seg c1 evs' c2 tr' E0' E1' O0' O1' ->
    seg c (evs ++ evs') c2 (tr ++ tr') (E0 ++ E0') (E1 ++ E1') (O0 ++ O0') (O1 ++ O1').
  Proof.
    intros [A1 A2 A3 A4 A5 A6 [A7 A8]] [B1 B2 B3 B4 B5 B6 [B7 B8]]. constructor.
    - exact (cexec_app _ _ _ _ _ _ _ _ _ _ _ _ _ A1 B1).
    - rewrite events_app. congruence. - rewrite events_app. congruence. - rewrite trace_app. congruence. - rewrite trace_app. congruence.
    - intros j org t m os H. apply in_app_or in H. destruct H as [H|H]; eauto.
    - split; apply calls_app; assumption.
  Qed.
  Lemma unput s tr l : only_sends tr -> put_in (lane_events (G := G) l tr) = [] -> forall s', Net.nexec s (lane_events l tr) = (s', lane_trace l tr) -> s' = s.
  Proof. intros A B s' E. rewrite (A l), B in E. injection E as <- _. reflexivity. Qed.
  Definition no_in (x : nat * nevent) : Prop := match snd x with VIn _ _ => False | _ => True end.
  Lemma quiet_own prs : forall c c' tr, cexec c (owns prs) = Some (c', tr) -> Forall (due p0 p1) prs -> Forall no_in prs -> forall j org t m os, ~ In (XNode j org (VIn t m) os) tr.
  Proof.
    induction prs as [|[i ev] l IH]; intros c c' tr A1 HD HV j org t m os H; cbn [owns map Cluster.cexec fst snd] in A1; [injection A1 as _ <-; destruct H|].
    inversion HD as [|? ? D1 D2]; subst. inversion HV as [|? ? V1 V2]; subst.
    destruct (cstep c (COwn i ev)) as [[c1 o1]|] eqn:E1; [|discriminate]. cbn [fst snd] in A1. destruct (cexec c1 _) as [[c2 o2]|] eqn:E2; [|discriminate]. injection A1 as <- <-. apply in_app_or in H. destruct H as [H|H].
    - cbn [Cluster.cstep] in E1. unfold Cluster.step_node in E1. destruct (nth_error places i) as [p|]; [|discriminate]. destruct (nth_error (c_nodes c) i) as [[n|]|]; try discriminate.
      destruct (_ <? _); [discriminate|]. destruct (nstep p n ev) as [[n1 oo]| |]; cbn [fst snd] in E1; try discriminate.
      + destruct (send_all _ _ _) as [c3 o3] eqn:E3. cbn [fst snd] in E1. injection E1 as <- <-. destruct (send_all_eff _ _ _ _ _ E3) as (_ & _ & _ & _ & A5 & _). destruct H as [H|H]; [|destruct (A5 _ _ _ _ H)].
        injection H as _ _ -> _. destruct V1.
      + injection E1 as <- <-. destruct H as [H|[]]. discriminate.
    - exact (IH _ _ _ E2 D2 V2 _ _ _ _ _ H).
  Qed.

  (** Own steps that send nothing to the other process. *)
  Lemma quiet_seg prs c n0 n1 b n0' n1' o0 o1 : standing c n0 n1 b -> Forall (due p0 p1) prs -> Forall no_in prs -> nexec p0 n0 (pick 0 prs) = Ok (n0', o0) -> nexec p1 n1 (pick 1 prs) = Ok (n1', o1) ->
    sent01 o0 = [] -> sent10 o1 = [] -> exists c' tr, seg c (owns prs) c' tr (pick 0 prs) (pick 1 prs) o0 o1 /\ standing c' n0' n1' b.
  Proof.
    intros (S1 & S2 & S3) HD HV E0 E1 Q0 Q1. destruct (owns_run ky keccak pshash p0 p1 home prs c n0 n1 n0' n1' o0 o1 S1 HD E0 E1) as (c' & tr & A1 & A2 & A3 & A4 & A5 & A6 & A7 & A8 & A9).
    pose proof (exec_puts _ _ _ _ A1) as PU.
    assert (P01 : put_in (lane_events l01 tr) = []) by (rewrite PU; destruct L01 as [-> _]; rewrite A5; exact Q0).
    assert (P10 : put_in (lane_events l10 tr) = []) by (rewrite PU; destruct L10 as [-> _]; rewrite A6; exact Q1).
    exists c', tr. split.
    - constructor; try assumption.
      + intros j org t m os H. destruct (quiet_own prs c c' tr A1 HD HV j org t m os H).
      + split; intros t m os _ H; apply in_puts in H; [rewrite P01 in H|rewrite P10 in H]; destruct H.
    - split; [exact A2|]. rewrite (unput _ _ _ A7 P01 _ (A8 l01)), (unput _ _ _ A7 P10 _ (A8 l10)). auto.
  Qed.

  (** Each process sends one message to the other, both come in, and the processes go on. *)
  Definition round_evs (b : bool) (S : list (nat * nevent)) (T : Z) (C : list (nat * nevent)) : list (cevent (G := G)) :=
    owns S ++ map (lane_ev T l01) (to_call b) ++ map (lane_ev T l10) (to_call b) ++ [CGo T l01 true] ++ [CGo T l10 true] ++ owns C.
  Lemma round_seg b S T C TS c n0 n1 a0 a1 v0 v1 k0 k1 oa0 oa1 ov0 ov1 ok0 ok1 m0 m1 : standing c n0 n1 b -> Forall (due p0 p1) S -> Forall no_in S -> Forall (due p0 p1) C -> Forall no_in C ->
    nexec p0 n0 (pick 0 S) = Ok (a0, oa0) -> nexec p1 n1 (pick 1 S) = Ok (a1, oa1) -> sent01 oa0 = [m0] -> sent10 oa1 = [m1] ->
    nstep p1 a1 (VIn (T + pl_skew p1) m0) = Ok (v1, ov1) -> nstep p0 a0 (VIn (T + pl_skew p0) m1) = Ok (v0, ov0) -> pl_begin p0 <= T + pl_skew p0 -> pl_begin p1 <= T + pl_skew p1 ->
    nexec p0 v0 (pick 0 C) = Ok (k0, ok0) -> nexec p1 v1 (pick 1 C) = Ok (k1, ok1) -> sent01 (ov0 ++ ok0) = [] -> sent10 (ov1 ++ ok1) = [] ->
    cclock places TS (round_evs b S T C) -> T <= TS + lat ->
    exists c' tr, seg c (round_evs b S T C) c' tr (pick 0 S ++ VIn (T + pl_skew p0) m1 :: pick 0 C) (pick 1 S ++ VIn (T + pl_skew p1) m0 :: pick 1 C) (oa0 ++ ov0 ++ ok0) (oa1 ++ ov1 ++ ok1) /\ standing c' k0 k1 true.
  Proof.
    intros ST DS VS DC VC NA0 NA1 S01 S10 NV1 NV0 B0 B1 NC0 NC1 Z01 Z10 CL LT. pose proof ST as (S1 & S2 & S3).
    assert (Z0 : sent01 ov0 = [] /\ sent01 ok0 = []) by (apply app_eq_nil; rewrite <- Z01; unfold sent_to; rewrite flat_map_app; reflexivity).
    assert (Z1 : sent10 ov1 = [] /\ sent10 ok1 = []) by (apply app_eq_nil; rewrite <- Z10; unfold sent_to; rewrite flat_map_app; reflexivity).
    assert (NE : l01 <> l10) by (intros E; destruct L01 as [X _], L10 as [Y _]; rewrite E in X; congruence).
    destruct (owns_run ky keccak pshash p0 p1 home S c n0 n1 a0 a1 oa0 oa1 S1 DS NA0 NA1) as (cS & tS & A1 & A2 & A3 & A4 & A5 & A6 & A7 & A8 & A9).
    pose proof (exec_puts _ _ _ _ A1) as PU.
    assert (P01 : put_in (lane_events l01 tS) = [m0]) by (rewrite PU; destruct L01 as [-> _]; rewrite A5; exact S01).
    assert (P10 : put_in (lane_events l10 tS) = [m1]) by (rewrite PU; destruct L10 as [-> _]; rewrite A6; exact S10).
    assert (Q01 : c_lanes cS l01 = fst (Net.nexec (c_lanes c l01) [Net.EvSend m0])) by (pose proof (A8 l01) as X; rewrite (A7 l01), P01 in X; cbn [map] in X; rewrite X; reflexivity).
    assert (Q10 : c_lanes cS l10 = fst (Net.nexec (c_lanes c l10) [Net.EvSend m1])) by (pose proof (A8 l10) as X; rewrite (A7 l10), P10 in X; cbn [map] in X; rewrite X; reflexivity).
    destruct (calls_next b _ m0 S2) as [R01 U01]. destruct (calls_next b _ m1 S3) as [R10 U10]. cbv zeta in R01, U01, R10, U10. rewrite <- Q01 in R01, U01. rewrite <- Q10 in R10, U10.
    destruct (lane_run ky keccak pshash p0 p1 home T l01 (to_call b) cS) as (cL & tL & C1 & C2 & C3 & C4 & C5 & C6 & C7); [unfold alive; rewrite A2; destruct L01 as [-> _]; reflexivity|exact U01|].
    assert (K01 : c_lanes cL l01 = at_call m0) by (pose proof (C6 l01) as X; rewrite C4 in X; rewrite <- R01, X; reflexivity).
    assert (K10 : c_lanes cL l10 = c_lanes cS l10) by (pose proof (C6 l10) as X; rewrite (C5 l10) in X by congruence; injection X as <- _; reflexivity).
    destruct (lane_run ky keccak pshash p0 p1 home T l10 (to_call b) cL) as (cM & tM & D1 & D2 & D3 & D4 & D5 & D6 & D7); [unfold alive; rewrite C2, A2; destruct L10 as [-> _]; reflexivity|rewrite K10; exact U10|].
    assert (M10 : c_lanes cM l10 = at_call m1) by (pose proof (D6 l10) as X; rewrite D4, K10 in X; rewrite <- R10, X; reflexivity).
    assert (M01 : c_lanes cM l01 = at_call m0) by (pose proof (D6 l01) as X; rewrite (D5 l01) in X by congruence; injection X as <- _; exact K01).
    assert (NM : c_nodes cM = [Some a0; Some a1]) by congruence.
    destruct (call_step ky keccak pshash p0 p1 home cM T l01 1 p1 a1 m0 v1 ov1) as (cN & s1 & F1 & F2 & F3 & F4 & F5 & F6); [rewrite NM; discriminate|unfold alive; rewrite NM; destruct L01 as [-> _]; reflexivity|apply L01|reflexivity|rewrite NM; reflexivity|rewrite M01; reflexivity|exact B1|exact NV1|].
    rewrite NM in F2. cbn [put] in F2.
    assert (N01 : c_lanes cN l01 = Net.mkNq [] (Net.LPost true) (Some m0) false Net.KIdle /\ c_lanes cN l10 = at_call m1).
    { destruct (F6 l01) as [X Y]. destruct (F6 l10) as [X' Y'].
      assert (LE : lane_events l01 s1 = [] /\ lane_events l10 s1 = []) by (rewrite (F3 l01), (F3 l10), Y, Y', !sel_sends; destruct L01 as [-> _], L10 as [-> _]; cbn [Nat.eqb]; rewrite (proj1 Z1); split; reflexivity).
      destruct LE as [LE1 LE2].
      change (XLane T l01 (Net.EvGo true) [Net.NCall m0 true] :: XNode 1 (Via l01) (VIn (T + pl_skew p1) m0) ov1 :: s1) with ([XLane T l01 (Net.EvGo true) [Net.NCall m0 true]] ++ [XNode 1 (Via l01) (VIn (T + pl_skew p1) m0) ov1] ++ s1) in X, X'.
      rewrite !levents_app, LE1 in X. rewrite !levents_app, LE2 in X'. cbn [lane_events flat_map] in X, X'. rewrite lane_eqb_refl, M01 in X. destruct (lane_eqb_spec l01 l10); [contradiction|]. rewrite M10 in X'. cbn [app Net.nexec Net.nstep Net.ngo at_call Net.n_loc fst snd] in X, X'.
      injection X as <- _. injection X' as <- _. split; reflexivity. }
    destruct N01 as [N01 N10].
    destruct (call_step ky keccak pshash p0 p1 home cN T l10 0 p0 a0 m1 v0 ov0) as (cQ & s0 & I1 & I2 & I3 & I4 & I5 & I6); [rewrite F2; discriminate|unfold alive; rewrite F2; destruct L10 as [-> _]; reflexivity|apply L10|reflexivity|rewrite F2; reflexivity|rewrite N10; reflexivity|exact B0|exact NV0|].
    rewrite F2 in I2. cbn [put] in I2.
    assert (O01 : c_lanes cQ l01 = Net.mkNq [] (Net.LPost true) (Some m0) false Net.KIdle /\ c_lanes cQ l10 = Net.mkNq [] (Net.LPost true) (Some m1) false Net.KIdle).
    { destruct (I6 l01) as [X Y]. destruct (I6 l10) as [X' Y'].
      assert (LE : lane_events l01 s0 = [] /\ lane_events l10 s0 = []) by (rewrite (I3 l01), (I3 l10), Y, Y', !sel_sends; destruct L01 as [-> _], L10 as [-> _]; cbn [Nat.eqb]; rewrite (proj1 Z0); split; reflexivity).
      destruct LE as [LE1 LE2].
      change (XLane T l10 (Net.EvGo true) [Net.NCall m1 true] :: XNode 0 (Via l10) (VIn (T + pl_skew p0) m1) ov0 :: s0) with ([XLane T l10 (Net.EvGo true) [Net.NCall m1 true]] ++ [XNode 0 (Via l10) (VIn (T + pl_skew p0) m1) ov0] ++ s0) in X, X'.
      rewrite !levents_app, LE1 in X. rewrite !levents_app, LE2 in X'. cbn [lane_events flat_map] in X, X'. destruct (lane_eqb_spec l10 l01); [congruence|]. rewrite N01 in X. rewrite lane_eqb_refl, N10 in X'. cbn [app Net.nexec Net.nstep Net.ngo at_call Net.n_loc fst snd] in X, X'.
      injection X as <- _. injection X' as <- _. split; reflexivity. }
    destruct O01 as [O01 O10].
    destruct (quiet_seg C cQ v0 v1 true k0 k1 ok0 ok1) as (cR & tR & SG & SR); [split; [exact I2|]; split; [exists (Some m0); exact O01|exists (Some m1); exact O10]|assumption|assumption|assumption|assumption|apply Z0|apply Z1|].
    assert (X1 : cexec cM [CGo T l01 true] = Some (cN, XLane T l01 (Net.EvGo true) [Net.NCall m0 true] :: XNode 1 (Via l01) (VIn (T + pl_skew p1) m0) ov1 :: s1)) by (cbn [Cluster.cexec]; rewrite F1; cbn [fst snd]; rewrite app_nil_r; reflexivity).
    assert (X0 : cexec cN [CGo T l10 true] = Some (cQ, XLane T l10 (Net.EvGo true) [Net.NCall m1 true] :: XNode 0 (Via l10) (VIn (T + pl_skew p0) m1) ov0 :: s0)) by (cbn [Cluster.cexec]; rewrite I1; cbn [fst snd]; rewrite app_nil_r; reflexivity).
    pose proof (cexec_app _ _ _ _ _ _ _ _ _ _ _ _ _ X0 (sg_exec _ _ _ _ _ _ _ _ SG)) as Y1. pose proof (cexec_app _ _ _ _ _ _ _ _ _ _ _ _ _ X1 Y1) as Y2.
    pose proof (cexec_app _ _ _ _ _ _ _ _ _ _ _ _ _ D1 Y2) as Y3. pose proof (cexec_app _ _ _ _ _ _ _ _ _ _ _ _ _ C1 Y3) as Y4. pose proof (cexec_app _ _ _ _ _ _ _ _ _ _ _ _ _ A1 Y4) as Y5. clear Y1 Y2 Y3 Y4.
    assert (E0 : forall l j (a d : cobs), events_at j (a :: d :: l) = events_at j [a; d] ++ events_at j l) by (intros; apply (events_app j [a; d] l)).
    assert (E1 : forall l j (a d : cobs), trace_at j (a :: d :: l) = trace_at j [a; d] ++ trace_at j l) by (intros; apply (trace_app j [a; d] l)).
    eexists cR, _. split; [|exact SR]. constructor.
    - exact Y5.
    - rewrite !events_app, A3. destruct (C3 0%nat) as [-> _]. destruct (D3 0%nat) as [-> _]. rewrite (sg_e0 _ _ _ _ _ _ _ _ SG). rewrite (E0 s1), (E0 s0). destruct (F4 0%nat) as [-> _]. destruct (I4 0%nat) as [-> _]. reflexivity.
    - rewrite !events_app, A4. destruct (C3 1%nat) as [-> _]. destruct (D3 1%nat) as [-> _]. rewrite (sg_e1 _ _ _ _ _ _ _ _ SG). rewrite (E0 s1), (E0 s0). destruct (F4 1%nat) as [-> _]. destruct (I4 1%nat) as [-> _]. reflexivity.
    - rewrite !trace_app, A5. destruct (C3 0%nat) as [_ ->]. destruct (D3 0%nat) as [_ ->]. rewrite (sg_t0 _ _ _ _ _ _ _ _ SG). rewrite (E1 s1), (E1 s0). destruct (F4 0%nat) as [_ ->]. destruct (I4 0%nat) as [_ ->]. cbn. rewrite !app_nil_r. reflexivity.
    - rewrite !trace_app, A6. destruct (C3 1%nat) as [_ ->]. destruct (D3 1%nat) as [_ ->]. rewrite (sg_t1 _ _ _ _ _ _ _ _ SG). rewrite (E1 s1), (E1 s0). destruct (F4 1%nat) as [_ ->]. destruct (I4 1%nat) as [_ ->]. cbn. rewrite !app_nil_r. reflexivity.
    - intros j org t m os H. repeat (apply in_app_or in H; destruct H as [H|H]).
      + exfalso. destruct (quiet_own S c cS tS A1 DS VS j org t m os H).
      + destruct (C7 _ _ _ _ H).
      + destruct (D7 _ _ _ _ H).
      + destruct H as [H|[H|H]]; [discriminate|injection H as _ <- _ _ _; eauto|destruct (F5 _ _ _ _ H)].
      + destruct H as [H|[H|H]]; [discriminate|injection H as _ <- _ _ _; eauto|destruct (I5 _ _ _ _ H)].
      + exact (sg_via _ _ _ _ _ _ _ _ SG _ _ _ _ _ H).
    - pose proof (exec_puts _ _ _ _ Y5) as PY. pose proof (exec_times _ _ _ _ _ _ _ _ _ _ _ CL Y5) as TY. split; intros t m os _ H.
      + pose proof (TY _ _ _ _ H) as TT. apply in_puts in H. rewrite PY in H. destruct L01 as [EL _]. rewrite EL in H. rewrite !trace_app, A5 in H. destruct (C3 0%nat) as [_ EC]. destruct (D3 0%nat) as [_ ED]. rewrite EC, ED, (sg_t0 _ _ _ _ _ _ _ _ SG) in H. rewrite (E1 s1), (E1 s0) in H.
        destruct (F4 0%nat) as [_ EF]. destruct (I4 0%nat) as [_ EI]. rewrite EF, EI in H. cbn [trace_at flat_map Nat.eqb app] in H. rewrite !app_nil_r in H. unfold sent_to in H. rewrite flat_map_app in H. fold (sent01 oa0) (sent01 (ov0 ++ ok0)) in H. rewrite S01, Z01 in H. destruct H as [<-|[]].
        exists T, true, [Net.NCall m0 true]. split; [lia|]. split; [|left; reflexivity]. do 3 (apply in_or_app; right). apply in_or_app. left. left. reflexivity.
      + pose proof (TY _ _ _ _ H) as TT. apply in_puts in H. rewrite PY in H. destruct L10 as [EL _]. rewrite EL in H. rewrite !trace_app, A6 in H. destruct (C3 1%nat) as [_ EC]. destruct (D3 1%nat) as [_ ED]. rewrite EC, ED, (sg_t1 _ _ _ _ _ _ _ _ SG) in H. rewrite (E1 s1), (E1 s0) in H.
        destruct (F4 1%nat) as [_ EF]. destruct (I4 1%nat) as [_ EI]. rewrite EF, EI in H. cbn [trace_at flat_map Nat.eqb app] in H. rewrite !app_nil_r in H. unfold sent_to in H. rewrite flat_map_app in H. fold (sent10 oa1) (sent10 (ov1 ++ ok1)) in H. rewrite S10, Z10 in H. destruct H as [<-|[]].
        exists T, true, [Net.NCall m1 true]. split; [lia|]. split; [|left; reflexivity]. do 4 (apply in_or_app; right). apply in_or_app. left. left. reflexivity.
  Qed.
End Duo.

(** * The log of a run, in parts *)
Section Parts.
  Context {G : Type}.
  Variables (p : protocol payload arg (kd G) env output) (c : info).
  Notation log := (timed_log p c).
  Lemma log_app a : forall b r r1 t1, exec p c r (untimed a) = Ok (r1, t1) -> log r (a ++ b) = log r a ++ log r1 b.
  Proof.
    induction a as [|[t ev] a IH]; intros b r r1 t1; cbn [untimed map snd exec app timed_log fst]; [intros E; injection E as <- _; reflexivity|].
    destruct (step p c r ev) as [[r2 t2]| |]; cbn [rbind fst snd]; try discriminate. destruct (exec p c r2 (map snd a)) as [[r3 t3]| |] eqn:E3; cbn [rbind fst snd]; try discriminate.
    intros E. injection E as <- _. rewrite (IH b _ _ _ E3), app_assoc. reflexivity.
  Qed.
  Lemma log_trace a : forall r r1 t1, exec p c r (untimed a) = Ok (r1, t1) -> t1 = map snd (log r a).
  Proof.
    induction a as [|[t ev] a IH]; intros r r1 t1; cbn [untimed map snd exec timed_log fst]; [intros E; injection E as _ <-; reflexivity|].
    destruct (step p c r ev) as [[r2 t2]| |]; cbn [rbind fst snd]; try discriminate. destruct (exec p c r2 (map snd a)) as [[r3 t3]| |] eqn:E3; cbn [rbind fst snd]; try discriminate.
    intros E. injection E as _ <-. rewrite map_app, map_map. cbn [snd]. rewrite map_id, <- (IH _ _ _ E3). reflexivity.
  Qed.
  Lemma log_times a : forall r x, In x (log r a) -> In (fst x) (map fst a).
  Proof.
    induction a as [|[t ev] a IH]; intros r x; cbn [timed_log map fst snd]; [intros []|]. destruct (step p c r ev) as [y| |]; [|intros []..]. intros H. apply in_app_or in H. destruct H as [H|H]; [left|right; exact (IH _ _ H)].
    apply in_map_iff in H. destruct H as (o & <- & _). reflexivity.
  Qed.
  Lemma parts {X} (P : X -> bool) a : forall b a' b', a ++ b = a' ++ b' -> forallb P a = true -> forallb P a' = true -> forallb (fun x => negb (P x)) b = true -> forallb (fun x => negb (P x)) b' = true -> a = a' /\ b = b'.
  Proof.
    induction a as [|x a IH]; intros b [|y a'] b' E HA HA' HB HB'; cbn [app forallb] in *; auto.
    - exfalso. subst b. cbn [forallb] in HB. apply andb_true_iff in HA'. destruct HA' as [Y _]. rewrite Y in HB. discriminate.
    - exfalso. subst b'. cbn [forallb] in HB'. apply andb_true_iff in HA. destruct HA as [Y _]. rewrite Y in HB'. discriminate.
    - injection E as <- E. apply andb_true_iff in HA, HA'. destruct (IH _ _ _ E (proj2 HA) (proj2 HA') HB HB') as [-> ->]. auto.
  Qed.
  Lemma sends_app a b : HonestDemo.sends_of (a ++ b) = HonestDemo.sends_of a ++ HonestDemo.sends_of b. Proof. apply flat_map_app. Qed.
  Lemma log_sends T a b r r1 t1 S1 S2 : exec p c r (untimed a) = Ok (r1, t1) -> HonestDemo.sends_of (log r (a ++ b)) = S1 ++ S2 ->
    forallb (fun x => fst x <=? T) a = true -> forallb (fun x => negb (fst x <=? T)) b = true -> forallb (fun x => fst x <=? T) S1 = true -> forallb (fun x => negb (fst x <=? T)) S2 = true ->
    HonestDemo.sends_of (log r a) = S1 /\ HonestDemo.sends_of (log r1 b) = S2.
  Proof.
    intros EX ES HA HB H1 H2. rewrite (log_app _ b _ _ _ EX), sends_app in ES. apply (parts (fun x => fst x <=? T)) in ES; try assumption.
    - apply forallb_forall. intros [t m] H. apply sends_in in H. apply log_times in H. apply in_map_iff in H. destruct H as (x & E & HX). rewrite forallb_forall in HA. specialize (HA _ HX). cbn [fst] in *. rewrite E in HA. exact HA.
    - apply forallb_forall. intros [t m] H. apply sends_in in H. apply log_times in H. apply in_map_iff in H. destruct H as (x & E & HX). rewrite forallb_forall in HB. specialize (HB _ HX). cbn [fst] in *. rewrite E in HB. exact HB.
  Qed.
End Parts.

(** * Two members sign *)
Section Members.
  Variable keccak : bytes -> bytes.
  Variable pshash : Z -> Z -> bytes.
  Variables nonce long : Z -> dks.
  Variables q0 q1 : point.
  Notation ky := (acct_ky nonce).
  Notation prot := (dss_prot ky keccak pshash).
  Notation message := (message payload).
  Definition mem_su (i : Z) : setup := duo_su long q0 q1 i.
  Definition mem_key (i : Z) : key := mkKey pc_dss i duo_id.
  Definition mem_c (i : Z) : info := run_info (mem_su i) (mem_key i).
  Definition mem_pre (i : Z) : list (nevent (G := acct)) :=
    let k := mem_key i in let t := -10 * ms in let g := acct_new i in
    [VRequest t [x61] 0 (Some 10); VGo t 0 i; VGuest t 0 i g; VFw t k 0; VFw (-5 * ms) k 0; VGuest (-5 * ms) 0 i g; VFw 0 k 0; VGuest 0 0 i g].
  Definition mem_post (i : Z) : list (nevent (G := acct)) := let t := 660 * ms in [VGuest t 0 i (acct_new i); VWait t 0; VGo t 0 i; VGo t 0 i].
  Definition mem_lift (i : Z) := lift_ev (mem_key i) 0 (acct_new i) 9 oid.
  Definition mem_place (i : Z) : place := mkPlace (mem_su i) (-20 * ms) (-20 * ms) 0.
  Definition mem_lane (i : Z) : lane := mkLane (Z.to_nat i) pc_dss i (1 - i).
  Definition mem_k0 (i : Z) : kd acct := sig_k [q0; q1] i.
  Notation st0 i := (start_node (G := acct) (mem_su i) (-20 * ms) (-20 * ms)).
  Notation nexec i := (nexec ky keccak pshash (mem_su i)).
  Notation fits i := (fits ky keccak pshash (mem_key i)).
  Notation ease i := (at_ease (mem_key i) 0).

  (** Node [i], when its run is in state [r] and still goes through [h], in which it sends [S]. *)
  Definition going (i : Z) (n : node (G := acct)) (r : rst payload (kd acct)) (h : list (Z * event payload env)) (S : list (Z * message)) : Prop :=
    ease i n /\ nth_error (n_heap n) 0 = Some (mem_key i, r) /\ env_for (mem_su i) n (mem_key i) 9 oid = duo_env long i /\
    (exists r' tr, exec prot (mem_c i) r (untimed h) = Ok (r', tr)) /\ timely prot (mem_c i) r (untimed h) /\ HonestDemo.sends_of (timed_log prot (mem_c i) r h) = S /\
    (forall t e now, In (t, ETick e now) h -> e = duo_env long i /\ now = t) /\ (forall t e m, In (t, EMsg e m) h -> e = duo_env long i /\ fits i m) /\
    (exists n2 o2 n3 o3, nexec i n (flat_map (mem_lift i) h) = Ok (n2, o2) /\ nexec i n2 (mem_post i) = Ok (n3, o3) /\ sent_to pc_dss i (1 - i) o3 = []).
  Lemma advance T i n r a b S1 S2 : i = 0 \/ i = 1 -> going i n r (a ++ b) (S1 ++ S2) ->
    forallb (fun x => fst x <=? T) a = true -> forallb (fun x => negb (fst x <=? T)) b = true -> forallb (fun x => fst x <=? T) S1 = true -> forallb (fun x => negb (fst x <=? T)) S2 = true ->
    exists n' r' o, nexec i n (flat_map (mem_lift i) a) = Ok (n', o) /\ going i n' r' b S2 /\ forall d, sent_to pc_dss i d o = filter (fun m => m_rcpt m =? d) (map snd S1).
  Proof.
    intros Hi (A1 & A2 & A3 & (rf & tf & A4) & A5 & A6 & A7 & A8 & (ne & oe & nf & of & A9 & A10)) HA HB HS1 HS2. unfold untimed in A4, A5. rewrite map_app in A4, A5. apply exec_split in A4. destruct A4 as (r1 & t1 & t2 & X1 & X2 & ET).
    destruct (timely_app _ _ _ _ _ _ _ A5 X1) as [T1 T2].
    destruct (log_sends prot (mem_c i) T a b r r1 t1 S1 S2 X1 A6 HA HB HS1 HS2) as [L1 L2].
    assert (GU : is_guest (mem_su i) (k_guest (mem_key i)) = true) by (unfold is_guest; cbn; rewrite Z.eqb_refl; reflexivity).
    destruct (run_lift ky keccak pshash (mem_su i) (mem_key i) 0 (acct_new i) 9 oid ltac:(cbn; unfold pc_dss; lia) GU a n r r1 t1) as (n' & o & B1 & B2 & B3 & B4 & B5 & B6 & B7 & B8 & B9 & B10 & B11 & B12); [exact A1|exact A2| | |exact X1|exact T1|].
    { intros t e now H. rewrite A3. apply A7. apply in_or_app. left. exact H. } { intros t e m H. rewrite A3. apply (A8 t). apply in_or_app. left. exact H. }
    exists n', r1, o. split; [exact B1|]. split.
    - split; [exact B3|]. split; [rewrite B4, put_nth, Nat.eqb_refl; rewrite (proj2 (Nat.ltb_lt _ _)); [reflexivity|]; apply nth_error_Some; congruence|]. split; [rewrite <- A3; unfold env_for; rewrite B6; reflexivity|].
      split; [eexists _, _; exact X2|]. split; [exact T2|]. split; [exact L2|]. split; [intros t e now H; apply A7; apply in_or_app; right; exact H|]. split; [intros t e m H; apply (A8 t); apply in_or_app; right; exact H|].
      rewrite flat_map_app in A9. apply nexec_cut in A9. destruct A9 as (ng & og & oh & X3 & X4 & _). assert (EQ : Ok (ng, og) = Ok (n', o)) by (rewrite <- X3; exact B1). injection EQ as -> _. exists ne, oh, nf, of. auto.
    - intros d. rewrite B12. cbn [mem_key k_pc k_guest]. rewrite !Z.eqb_refl. cbn [andb]. rewrite (log_trace _ _ _ _ _ _ X1), sends_sent, L1. reflexivity.
  Qed.

  Notation places := [mem_place 0; mem_place 1].
  Notation seg := (seg ky keccak pshash (mem_place 0) (mem_place 1) duo_home (mem_lane 0) (mem_lane 1) (10 * ms)).
  Notation standing := (standing (G := acct) (mem_lane 0) (mem_lane 1)).
  Definition both (t : Z) : list (nat * nevent (G := acct)) := [(0%nat, VTick t 0 9 oid); (1%nat, VTick t 0 9 oid)].
  Definition wakes (i : Z) (ts : list Z) : list (Z * event payload env) := map (two_wake (duo_env long) i) ts.
  Lemma pick_both j ts : j = 0%nat \/ j = 1%nat -> forall i, pick j (flat_map both (map (fun t => t * ms) ts)) = flat_map (mem_lift i) (wakes i ts).
  Proof. intros Hj i. induction ts as [|t ts IH]; [reflexivity|]. cbn [map flat_map wakes]. change (pick j (both (t * ms) ++ flat_map both (map (fun t => t * ms) ts))) with (pick j (both (t * ms) ++ flat_map both (map (fun t => t * ms) ts))).
    unfold pick. rewrite flat_map_app. fold (pick j (flat_map both (map (fun t => t * ms) ts))). rewrite IH. destruct Hj as [->| ->]; reflexivity. Qed.
  Lemma L0 : l_at (mem_lane 0) = 0%nat /\ duo_home (l_to (mem_lane 0)) = Some 1%nat. Proof. split; reflexivity. Qed.
  Lemma L1 : l_at (mem_lane 1) = 1%nat /\ duo_home (l_to (mem_lane 1)) = Some 0%nat. Proof. split; reflexivity. Qed.
  (** Both runs wake up and send nothing. *)
  Lemma both_quiet T ts c b n0 n1 r0 r1 h0 h1 S0 S1 : standing c n0 n1 b -> going 0 n0 r0 (wakes 0 ts ++ h0) S0 -> going 1 n1 r1 (wakes 1 ts ++ h1) S1 ->
    forallb (fun t => (0 <=? t) && (t * ms <=? T)) ts = true -> forallb (fun x => negb (fst x <=? T)) h0 = true -> forallb (fun x => negb (fst x <=? T)) h1 = true ->
    forallb (fun x => negb (fst x <=? T)) S0 = true -> forallb (fun x => negb (fst x <=? T)) S1 = true ->
    exists c' tr n0' n1' r0' r1' o0 o1, seg c (owns (flat_map both (map (fun t => t * ms) ts))) c' tr (flat_map (mem_lift 0) (wakes 0 ts)) (flat_map (mem_lift 1) (wakes 1 ts)) o0 o1 /\ standing c' n0' n1' b /\
      going 0 n0' r0' h0 S0 /\ going 1 n1' r1' h1 S1.
  Proof.
    intros ST G0 G1 HT H0 H1 HS0 HS1.
    assert (HW : forall i, forallb (fun x => fst x <=? T) (wakes i ts) = true).
    { intros i. apply forallb_forall. intros x H. unfold wakes in H. apply in_map_iff in H. destruct H as (t & <- & H). rewrite forallb_forall in HT. specialize (HT _ H). apply andb_true_iff in HT. exact (proj2 HT). }
    destruct (advance T 0 n0 r0 (wakes 0 ts) h0 [] S0 ltac:(auto) G0 (HW 0) H0 eq_refl HS0) as (n0' & r0' & o0 & A1 & A2 & A3).
    destruct (advance T 1 n1 r1 (wakes 1 ts) h1 [] S1 ltac:(auto) G1 (HW 1) H1 eq_refl HS1) as (n1' & r1' & o1 & B1 & B2 & B3).
    rewrite <- (pick_both 0 ts ltac:(auto) 0) in A1. rewrite <- (pick_both 1 ts ltac:(auto) 1) in B1.
    destruct (quiet_seg ky keccak pshash (mem_place 0) (mem_place 1) duo_home (mem_lane 0) (mem_lane 1) (10 * ms) L0 L1 (flat_map both (map (fun t => t * ms) ts)) c n0 n1 b n0' n1' o0 o1 ST) as (c' & tr & X1 & X2); [| |exact A1|exact B1|exact (A3 1)|exact (B3 0)|].
    - apply Forall_forall. intros x H. apply in_flat_map in H. destruct H as (t & H & HX). apply in_map_iff in H. destruct H as (u & <- & H). rewrite forallb_forall in HT. specialize (HT _ H). apply andb_true_iff in HT. destruct HT as [HT _]. apply Z.leb_le in HT.
      destruct HX as [<-|[<-|[]]]; cbn; unfold ms; lia.
    - apply Forall_forall. intros x H. apply in_flat_map in H. destruct H as (t & H & HX). destruct HX as [<-|[<-|[]]]; exact I.
    - rewrite (pick_both 0 ts ltac:(auto) 0), (pick_both 1 ts ltac:(auto) 1) in X1. exists c', tr, n0', n1', r0', r1', o0, o1. auto.
  Qed.
  (** Both runs send a message to the other, which comes in and is processed. *)
  Definition round_at (b : bool) (t T : Z) : list (cevent (G := acct)) :=
    round_evs (mem_lane 0) (mem_lane 1) b (both t) T
      [(0%nat, VTake T pc_dss 0 (acct_new 0)); (0%nat, VDeliver T pc_dss 0 9 oid); (1%nat, VTake T pc_dss 1 (acct_new 1)); (1%nat, VDeliver T pc_dss 1 9 oid)].
  Lemma both_round t c b n0 n1 r0 r1 m0 m1 h0 h1 S0 S1 : let T := t + 10 * ms in standing c n0 n1 b -> 0 <= t -> m_rcpt m0 = 1 -> m_rcpt m1 = 0 ->
    going 0 n0 r0 ((t, ETick (duo_env long 0) t) :: (T, EMsg (duo_env long 0) m1) :: h0) ((t, m0) :: S0) -> going 1 n1 r1 ((t, ETick (duo_env long 1) t) :: (T, EMsg (duo_env long 1) m0) :: h1) ((t, m1) :: S1) ->
    forallb (fun x => negb (fst x <=? T)) h0 = true -> forallb (fun x => negb (fst x <=? T)) h1 = true -> forallb (fun x => negb (fst x <=? T)) S0 = true -> forallb (fun x => negb (fst x <=? T)) S1 = true ->
    exists c' tr n0' n1' r0' r1' o0 o1, seg c (round_at b t T) c' tr (flat_map (mem_lift 0) [(t, ETick (duo_env long 0) t); (T, EMsg (duo_env long 0) m1)]) (flat_map (mem_lift 1) [(t, ETick (duo_env long 1) t); (T, EMsg (duo_env long 1) m0)]) o0 o1 /\
      standing c' n0' n1' true /\ going 0 n0' r0' h0 S0 /\ going 1 n1' r1' h1 S1.
  Proof.
    intros T ST LT M0 M1 G0 G1 H0 H1 HS0 HS1.
    assert (LM : 0 < ms) by reflexivity. assert (LE : forall x : Z, negb (x <=? T) = true -> negb (x <=? t) = true) by (intros x; rewrite !negb_true_iff, !Z.leb_gt; unfold T; lia).
    assert (LF : forall X (l : list (Z * X)), forallb (fun x => negb (fst x <=? T)) l = true -> forallb (fun x => negb (fst x <=? t)) l = true) by (intros X l H; rewrite forallb_forall in *; intros x HX; apply LE, (H _ HX)).
    assert (TT : (t <=? t) = true /\ negb (T <=? t) = true /\ (T <=? T) = true) by (rewrite negb_true_iff, Z.leb_gt, !Z.leb_le; unfold T; lia). destruct TT as (TA & TB & TC).
    assert (STEP : forall i n r m m' h S, i = 0 \/ i = 1 -> m_rcpt m' = 1 - i -> going i n r ((t, ETick (duo_env long i) t) :: (T, EMsg (duo_env long i) m) :: h) ((t, m') :: S) ->
      forallb (fun x => negb (fst x <=? T)) h = true -> forallb (fun x => negb (fst x <=? T)) S = true ->
      exists a v k r' oa ov ok, nexec i n [VTick t 0 9 oid] = Ok (a, oa) /\ sent_to pc_dss i (1 - i) oa = [m'] /\ nstep ky keccak pshash (mem_su i) a (VIn (T + 0) m) = Ok (v, ov) /\
        nexec i v [VTake T pc_dss i (acct_new i); VDeliver T pc_dss i 9 oid] = Ok (k, ok) /\ sent_to pc_dss i (1 - i) (ov ++ ok) = [] /\ going i k r' h S).
    { intros i n r m m' h S Hi MM GG HH HS. destruct (advance t i n r [(t, ETick (duo_env long i) t)] ((T, EMsg (duo_env long i) m) :: h) [(t, m')] S Hi GG) as (a & ra & oa & A1 & A2 & A3).
      { cbn [forallb fst]. rewrite TA. reflexivity. } { cbn [forallb fst]. rewrite TB. apply LF, HH. } { cbn [forallb fst]. rewrite TA. reflexivity. } { apply LF, HS. }
      destruct (advance T i a ra [(T, EMsg (duo_env long i) m)] h [] S Hi A2) as (k & rk & o & B1 & B2 & B3); [cbn [forallb fst]; rewrite TC; reflexivity|exact HH|reflexivity|exact HS|].
      cbn [flat_map mem_lift lift_ev fst snd app mem_key k_pc k_guest] in A1, B1. change [VIn T m; VTake T pc_dss i (acct_new i); VDeliver T pc_dss i 9 oid] with ([VIn T m] ++ [VTake T pc_dss i (acct_new i); VDeliver T pc_dss i 9 oid]) in B1.
      apply nexec_cut in B1. destruct B1 as (v & ov & ok & C1 & C2 & ->). cbn [Node.nexec] in C1. destruct (nstep ky keccak pshash (mem_su i) a (VIn T m)) as [[v' ov']| |] eqn:EV; cbn [rbind fst snd] in C1; try discriminate. injection C1 as <- <-. rewrite app_nil_r in B3.
      exists a, v', k, rk, oa, ov', ok. split; [exact A1|]. split; [rewrite A3; cbn [map snd filter]; rewrite MM, Z.eqb_refl; reflexivity|]. split; [rewrite Z.add_0_r; exact EV|]. split; [exact C2|]. split; [exact (B3 (1 - i))|exact B2]. }
    destruct (STEP 0 n0 r0 m1 m0 h0 S0 ltac:(auto) M0 G0 H0 HS0) as (a0 & v0 & k0 & r0' & oa0 & ov0 & ok0 & A1 & A2 & A3 & A4 & A5 & A6).
    destruct (STEP 1 n1 r1 m0 m1 h1 S1 ltac:(auto) M1 G1 H1 HS1) as (a1 & v1 & k1 & r1' & oa1 & ov1 & ok1 & B1 & B2 & B3 & B4 & B5 & B6).
    destruct (round_seg ky keccak pshash (mem_place 0) (mem_place 1) duo_home (mem_lane 0) (mem_lane 1) (10 * ms) L0 L1 b (both t) T
      [(0%nat, VTake T pc_dss 0 (acct_new 0)); (0%nat, VDeliver T pc_dss 0 9 oid); (1%nat, VTake T pc_dss 1 (acct_new 1)); (1%nat, VDeliver T pc_dss 1 9 oid)] t
      c n0 n1 a0 a1 v0 v1 k0 k1 oa0 oa1 ov0 ov1 ok0 ok1 m0 m1 ST) as (c' & tr & X1 & X2); try assumption.
    - repeat constructor; cbn; lia.
    - repeat constructor.
    - repeat constructor; cbn; unfold T; lia.
    - repeat constructor.
    - cbn [mem_place pl_begin pl_skew]. unfold T. lia.
    - cbn [mem_place pl_begin pl_skew]. unfold T. lia.
    - destruct b; cbn; unfold T; repeat split; lia.
    - unfold T. lia.
    - exists c', tr, k0, k1, r0', r1'. eexists _, _. split; [|split; [exact X2|split; [exact A6|exact B6]]].
      cbn [mem_place pl_skew] in X1. rewrite Z.add_0_r in X1. exact X1.
  Qed.

  (** *** The node of a member, from the request to its return *)
  Definition mem_reqs (i : Z) : list request := [mkReq (Some 10) duo_id 0 RRun [(i, GTerm 0)]].
  Lemma mem_before i : i = 0 \/ i = 1 -> exists n1 o1, nexec i (st0 i) (mem_pre i) = Ok (n1, o1) /\ ease i n1 /\ n_heap n1 = [(mem_key i, new_run (mem_k0 i))] /\ n_outs n1 = [] /\
    kget (n_docs n1) (dkey i duo_id) = Some 10 /\ n_reqs n1 = mem_reqs i /\ queued_to pc_dss i o1 = [] /\ (forall pc a b, sent_to pc a b o1 = []) /\ phase (mem_key i) (fw_trace o1) = Some 2.
  Proof.
    intros [->| ->].
    - eexists _, _. split; [lazy; reflexivity|]. split; [repeat split|]. do 6 (split; [reflexivity|]). lazy; reflexivity.
    - eexists _, _. split; [lazy; reflexivity|]. split; [repeat split|]. do 6 (split; [reflexivity|]). lazy; reflexivity.
  Qed.
  Lemma mem_after i n r s sg : i = 0 \/ i = 1 -> n_heap n = [(mem_key i, r)] -> r_term r = true -> n_reqs n = mem_reqs i -> n_outs n = push_output (push_output [] (mkKey pc_dkg i duo_id) s) (mem_key i) (VSig sg) ->
    exists n4 o4, nexec i n (mem_post i) = Ok (n4, o4) /\ In (NPop (mem_key i) (Some (VSig sg))) o4 /\ (length (queued_to pc_dss i o4) <= 2)%nat /\ (forall pc a b, sent_to pc a b o4 = []).
  Proof.
    intros Hi H1 H2 H3 H4. destruct n as [x1 x2 x3 x4 x5 x6 x7 x8]. cbn [n_heap n_reqs n_outs] in *. subst. destruct r; cbn in H2; subst.
    destruct Hi as [->| ->]; (eexists _, _; split; [lazy; reflexivity|]; split; [lazy; tauto|]; split; [lazy; lia|intros; reflexivity]).
  Qed.
  Definition mem_evs (i : Z) (h : list (Z * event payload env)) : list (nevent (G := acct)) := mem_pre i ++ flat_map (mem_lift i) h ++ mem_post i.
  Definition no_vin (l : list (nevent (G := acct))) : Prop := forall t m, ~ In (VIn t m) l.
  Lemma cut_pre (p l : list (nevent (G := acct))) : no_vin p -> forall a t m b, p ++ l = a ++ VIn t m :: b -> exists a', a = p ++ a' /\ l = a' ++ VIn t m :: b.
  Proof.
    induction p as [|x p IH]; intros NV a t m b E; [exists a; auto|]. destruct a as [|y a]; cbn [app] in E.
    - exfalso. injection E as -> _. apply (NV t m). left. reflexivity.
    - injection E as <- E. destruct (IH (fun t m H => NV t m (or_intror H)) _ _ _ _ E) as (a' & -> & ->). exists a'. auto.
  Qed.
  Lemma cut_lift i l : no_vin l -> forall h a t m b, flat_map (mem_lift i) h ++ l = a ++ VIn t m :: b ->
    exists h1 e h2, h = h1 ++ (t, EMsg e m) :: h2 /\ a = flat_map (mem_lift i) h1 /\ b = VTake t pc_dss i (acct_new i) :: VDeliver t pc_dss i 9 oid :: flat_map (mem_lift i) h2 ++ l.
  Proof.
    intros NV. induction h as [|[t0 ev] h IH]; intros a t m b E; cbn [flat_map app] in E.
    - exfalso. apply (NV t m). rewrite E. apply in_elt.
    - destruct ev as [e now|e m0]; unfold mem_lift, lift_ev in E; cbn [fst snd mem_key k_pc k_guest app] in E; fold (mem_lift i) in E.
      + destruct a as [|y a]; [discriminate|]. cbn [app] in E. injection E as <- E. destruct (IH _ _ _ _ E) as (h1 & e1 & h2 & -> & -> & ->). exists ((t0, ETick e now) :: h1), e1, h2. auto.
      + destruct a as [|y a]; cbn [app] in E; [injection E as <- <- E; subst b; exists [], e, h; auto|]. injection E as <- E.
        destruct a as [|y a]; [discriminate|]. cbn [app] in E. injection E as <- E. destruct a as [|y a]; [discriminate|]. cbn [app] in E. injection E as <- E.
        destruct (IH _ _ _ _ E) as (h1 & e1 & h2 & -> & -> & ->). exists ((t0, EMsg e m0) :: h1), e1, h2. auto.
  Qed.
  Lemma fold_calm k l : Forall calm_fw l -> forall s : option Z, fold_left (fun s (o : fobs payload) => match o with FSet _ k' _ => if key_eqb k' k then Some 0 else s | FPhase _ k' q => if key_eqb k' k then Some q else s | _ => s end) l s = s.
  Proof. induction 1 as [|o l H _ IH]; intros s; [reflexivity|]. cbn [fold_left]. rewrite IH. destruct o; (reflexivity || destruct H). Qed.
  Lemma phase_calm k a b : Forall calm_fw b -> phase k (a ++ b) = phase k a.
  Proof. intros H. unfold phase. rewrite fold_left_app. apply fold_calm, H. Qed.
  Lemma mem_no_vin i : no_vin (mem_pre i) /\ no_vin (mem_post i).
  Proof. split; intros t m H; repeat (destruct H as [H|H]; [discriminate|]); destruct H. Qed.

  Lemma member i h r tr s sg : i = 0 \/ i = 1 -> (forall t e now, In (t, ETick e now) h -> e = duo_env long i /\ now = t) -> (forall t e m, In (t, EMsg e m) h -> e = duo_env long i /\ fits i m) ->
    exec prot (mem_c i) (new_run (mem_k0 i)) (untimed h) = Ok (r, tr) -> timely prot (mem_c i) (new_run (mem_k0 i)) (untimed h) -> r_term r = true -> outputs_of tr = [(pc_dkg, s); (pc_dss, VSig sg)] ->
    (length h <= 100)%nat -> In (OStart 0) tr ->
    exists n o, nexec i (st0 i) (mem_evs i h) = Ok (n, o) /\ In (NPop (mem_key i) (Some (VSig sg))) o /\ lives ky keccak pshash (mem_su i) (st0 i) (mem_evs i h) 0 (mem_key i) (mem_k0 i) h /\
      In (NRun (mem_key i) (OStart 0)) o /\ has_room pc_dss i o /\ (forall b, sent_to pc_dss i b o = filter (fun m => m_rcpt m =? b) (sent tr)) /\
      forall a t m b, mem_evs i h = a ++ VIn t m :: b ->
        (exists na oa, nexec i (st0 i) a = Ok (na, oa) /\ phase (key_of m) (fw_trace oa) = Some 2) /\
        exists b' n' o', b = VTake t pc_dss i (acct_new i) :: VDeliver t pc_dss i 9 oid :: b' /\ nexec i (st0 i) (a ++ VIn t m :: [VTake t pc_dss i (acct_new i); VDeliver t pc_dss i 9 oid]) = Ok (n', o') /\ held_for (key_of m) n' = [] /\ waiting_for (key_of m) n' = [].
  Proof.
    intros Hi HT HM EX TI RT OU LH OS. destruct (mem_before i Hi) as (n1 & o1 & A1 & A2 & A3 & A4 & A5 & A6 & A7 & A8 & A9).
    assert (GU : is_guest (mem_su i) (k_guest (mem_key i)) = true) by (unfold is_guest; cbn; rewrite Z.eqb_refl; reflexivity).
    assert (EE : env_for (mem_su i) n1 (mem_key i) 9 oid = duo_env long i) by (unfold env_for; cbn [mem_key k_guest k_run]; rewrite A5; reflexivity).
    assert (HN : nth_error (n_heap n1) 0 = Some (mem_key i, new_run (mem_k0 i))) by (rewrite A3; reflexivity).
    pose proof (run_lift ky keccak pshash (mem_su i) (mem_key i) 0 (acct_new i) 9 oid ltac:(cbn; unfold pc_dss; lia) GU) as RL. cbv zeta in RL.
    destruct (RL h n1 (new_run (mem_k0 i)) r tr A2 HN) as (n2 & o2 & B1 & B2 & B3 & B4 & B5 & B6 & B7 & B8 & B9 & B10 & B11 & B12); [rewrite EE; exact HT|rewrite EE; exact HM|exact EX|exact TI|].
    destruct (mem_after i n2 r s sg Hi) as (n3 & o3 & C1 & C2 & C3 & C4); [rewrite B4, A3; reflexivity|exact RT|rewrite B7; exact A6|rewrite B5, A4, push_outputs, OU; reflexivity|].
    fold (mem_lift i) in B1, B2. destruct (mem_no_vin i) as [NV1 NV2].
    assert (NE : nexec i (st0 i) (mem_evs i h) = Ok (n3, o1 ++ o2 ++ o3)) by (unfold mem_evs; eapply nexec_two; [exact A1|]; eapply nexec_two; eassumption).
    exists n3, (o1 ++ o2 ++ o3). split; [exact NE|]. split; [apply in_or_app; right; apply in_or_app; right; exact C2|]. split; [split|].
    - unfold mem_evs. rewrite (hist_app _ _ _ _ _ _ _ _ _ _ A1), (hist_app _ _ _ _ _ _ _ _ _ _ B1), B2, (hist_calm _ _ _ _ (mem_pre i) 0), (hist_calm _ _ _ _ (mem_post i) 0) by (repeat constructor). rewrite app_nil_r. reflexivity.
    - exists (firstn 7 (mem_pre i)), (VGuest 0 0 i (acct_new i)), (flat_map (mem_lift i) h ++ mem_post i).
      clear - Hi. destruct Hi as [->| ->]; (eexists _, _, _, _; split; [reflexivity|]; split; [lazy; reflexivity|]; split; [lazy; reflexivity|]; split; reflexivity).
    - split; [|split; [|split]].
      + apply in_or_app. right. apply in_or_app. left. apply in_run_trace. rewrite B9. exact OS.
      + intros a b E. assert (L : (length (queued_to pc_dss i (o1 ++ o2 ++ o3)) <= 102)%nat) by (rewrite !queued_app, !app_length, A7; cbn [length]; cbn [mem_key k_pc k_guest] in B11; lia). rewrite E, queued_app, app_length in L. lia.
      + intros b. unfold sent_to. rewrite !flat_map_app. change (sent_to pc_dss i b o1 ++ sent_to pc_dss i b o2 ++ sent_to pc_dss i b o3 = filter (fun m => m_rcpt m =? b) (sent tr)). rewrite A8, B12, C4. cbn [mem_key k_pc k_guest]. rewrite !Z.eqb_refl. cbn [andb app]. apply app_nil_r.
      + intros a t m b E. unfold mem_evs in E. destruct (cut_pre _ _ NV1 _ _ _ _ E) as (a' & -> & E'). destruct (cut_lift i _ NV2 _ _ _ _ _ E') as (h1 & e & h2 & EH & -> & ->).
        assert (HF : fits i m) by (apply (HM t e m); rewrite EH; apply in_elt). assert (KE : key_of m = mem_key i) by apply HF. rewrite KE.
        subst h. unfold untimed in EX, TI. rewrite map_app in EX, TI. pose proof EX as EX'. apply exec_split in EX'. destruct EX' as (r1 & t1 & t2 & X1 & X2 & ET). destruct (timely_app _ _ _ _ _ _ _ TI X1) as [T1 _].
        split.
        * destruct (RL h1 n1 (new_run (mem_k0 i)) r1 t1 A2 HN) as (n4 & o4 & D1 & _ & _ & _ & _ & _ & _ & _ & _ & D10 & _); [rewrite EE; intros; apply HT; apply in_or_app; left; assumption|rewrite EE; intros; apply (HM t0); apply in_or_app; left; assumption|exact X1|exact T1|].
          exists n4, (o1 ++ o4). split; [eapply nexec_two; eassumption|]. unfold fw_trace. rewrite flat_map_app. change (phase (mem_key i) (fw_trace o1 ++ fw_trace o4) = Some 2). rewrite phase_calm by exact D10. exact A9.
        * cbn [map snd] in EX, TI. change (map snd h1 ++ EMsg e m :: map snd h2) with (map snd h1 ++ [EMsg e m] ++ map snd h2) in EX, TI. rewrite app_assoc in EX, TI. apply exec_split in EX. destruct EX as (r3 & t3 & t4 & Y1 & _ & _).
          destruct (timely_app _ _ _ _ _ _ _ TI Y1) as [T3 _].
          destruct (RL (h1 ++ [(t, EMsg e m)]) n1 (new_run (mem_k0 i)) r3 t3 A2 HN) as (n4 & o4 & D1 & _ & D3 & _).
          { rewrite EE. intros t' e' now H. apply HT. apply in_app_or in H. destruct H as [H|[H|[]]]; [apply in_or_app; left; exact H|discriminate]. }
          { rewrite EE. intros t' e' m' H. apply (HM t'). apply in_app_or in H. destruct H as [H|[H|[]]]; [apply in_or_app; left; exact H|rewrite <- H; apply in_elt]. }
          { unfold untimed. rewrite map_app. exact Y1. } { unfold untimed. rewrite map_app. exact T3. }
          rewrite flat_map_app in D1. cbn [flat_map app] in D1. unfold lift_ev at 2 in D1. cbn [fst snd mem_key k_pc k_guest] in D1. rewrite app_nil_r in D1.
          eexists _, n4, (o1 ++ o4). split; [reflexivity|]. split; [rewrite <- app_assoc; eapply nexec_two; [exact A1|exact D1]|].
          destruct D3 as (_ & _ & _ & D3 & D4 & _). unfold held_for, waiting_for. unfold qkey in D3, D4. cbn [mem_key k_pc k_guest] in D3, D4 |- *. rewrite D3, D4. split; reflexivity.
  Qed.
  Lemma mem_orders i h ord : drawn (mem_evs i h) ord -> ord = oid.
  Proof.
    intros H. assert (X : exists ev, In ev (mem_evs i h) /\ ((exists t pc g no, ev = VDeliver t pc g no ord) \/ exists t j no, ev = VTick t j no ord)) by (destruct H as [(t & pc & g & no & H)|(t & j & no & H)]; eexists; (split; [exact H|]); [left|right]; repeat eexists).
    clear H. destruct X as (ev & H & E). unfold mem_evs in H. apply in_app_or in H. destruct H as [H|H].
    { exfalso. repeat (destruct H as [<-|H]; [destruct E as [(? & ? & ? & ? & E)|(? & ? & ? & E)]; discriminate E|]). destruct H. }
    apply in_app_or in H. destruct H as [H|H].
    - apply in_flat_map in H. destruct H as ([t [e now|e m]] & _ & H); unfold mem_lift, lift_ev in H; cbn [fst snd] in H; repeat (destruct H as [<-|H]; [destruct E as [(? & ? & ? & ? & E)|(? & ? & ? & E)]; (discriminate E || (injection E; intros; subst; reflexivity))|]); destruct H.
    - exfalso. repeat (destruct H as [<-|H]; [destruct E as [(? & ? & ? & ? & E)|(? & ? & ? & E)]; discriminate E|]). destruct H.
  Qed.
  Lemma mem_requests i h : requests_for (mem_key i) (mem_evs i h) = 1%nat.
  Proof.
    unfold requests_for, mem_evs. rewrite !filter_app, !app_length. assert (E : filter (is_request (mem_key i)) (flat_map (mem_lift i) h) = []).
    { induction h as [|[t [e now|e m]] h IH]; [reflexivity|exact IH|exact IH]. }
    rewrite E. reflexivity.
  Qed.

  (** *** The two of them *)
  Variable W : Z -> deal_dto.
  Variable w : Z -> part_dto.
  Definition mem_h (i : Z) : list (Z * event payload env) := sig_hist duo_id long W i (w (1 - i)).
  Definition mem_s (i : Z) : list (Z * message) := two_sends pc_dss duo_id W i ++ [(555 * ms, sig_msg duo_id i (w i))].
  Notation tick i t := (t * ms, ETick (duo_env long i) (t * ms)).
  Notation msg i t m := (t * ms + 10 * ms, EMsg (duo_env long i) m).
  Definition mem_m (i op : Z) (d : payload) : message := two_msg pc_dss duo_id i op d.
  Definition d1 (i : Z) := mem_m i 1 (PWire (WDeal (W i))).
  Definition d2 (i : Z) := mem_m i 2 (PResp (a_resp i (1 - i))).
  Definition d3 (i : Z) := mem_m i 5 (PWire (WCommits (mkCommitsD i [] [] []))).
  Definition d4 (i : Z) := sig_msg duo_id i (w i).
  Lemma mem_phases i : mem_h i = wakes i [0; 0; 25] ++ tick i 30 :: msg i 30 (d1 (1 - i)) :: wakes i [100] ++ tick i 105 :: msg i 105 (d2 (1 - i)) :: wakes i [175; 180; 250; 255; 275] ++
    tick i 280 :: msg i 280 (d3 (1 - i)) :: wakes i [350; 355; 425; 430; 500; 505; 525; 530; 550] ++ tick i 555 :: msg i 555 (d4 (1 - i)) :: wakes i [625; 630; 650] ++ [].
  Proof. reflexivity. Qed.
  Lemma mem_sends i : mem_s i = [(30 * ms, d1 i); (105 * ms, d2 i); (280 * ms, d3 i); (555 * ms, d4 i)]. Proof. reflexivity. Qed.
  Lemma mem_ticks i t e now : In (t, ETick e now) (mem_h i) -> e = duo_env long i /\ now = t.
  Proof. rewrite mem_phases. intros H. cbn [wakes map app In] in H. repeat (destruct H as [H|H]; [discriminate H || (injection H as <- <- <-; split; reflexivity)|]). destruct H. Qed.
  Lemma mem_msgs i t e m : i = 0 \/ i = 1 -> In (t, EMsg e m) (mem_h i) -> e = duo_env long i /\ fits i m.
  Proof.
    intros Hi. rewrite mem_phases. intros H. cbn [wakes map app In] in H.
    destruct Hi as [->| ->]; (repeat (destruct H as [H|H]; [discriminate H || (injection H as _ <- <-; split; [reflexivity|split; [reflexivity|lazy; split; [discriminate|reflexivity]]])|])); destruct H.
  Qed.
  Definition pairs (a b : list (nevent (G := acct))) : list (nat * nevent (G := acct)) := flat_map (fun x => [(0%nat, fst x); (1%nat, snd x)]) (combine a b).
  Definition all_evs : list (cevent (G := acct)) :=
    owns (pairs (mem_pre 0) (mem_pre 1)) ++ owns (flat_map both (map (fun t => t * ms) [0; 0; 25])) ++ round_at false (30 * ms) (30 * ms + 10 * ms) ++
    owns (flat_map both (map (fun t => t * ms) [100])) ++ round_at true (105 * ms) (105 * ms + 10 * ms) ++ owns (flat_map both (map (fun t => t * ms) [175; 180; 250; 255; 275])) ++ round_at true (280 * ms) (280 * ms + 10 * ms) ++
    owns (flat_map both (map (fun t => t * ms) [350; 355; 425; 430; 500; 505; 525; 530; 550])) ++ round_at true (555 * ms) (555 * ms + 10 * ms) ++ owns (flat_map both (map (fun t => t * ms) [625; 630; 650])) ++ owns (pairs (mem_post 0) (mem_post 1)).
  Lemma all_clock : cclock places (-20 * ms) all_evs.
  Proof. vm_compute. repeat (split; [intros X; discriminate X|]). exact I. Qed.
  Lemma pairs_due a b : forallb (fun x => -20 * ms <=? ntime x) (a ++ b) = true -> Forall (due (mem_place 0) (mem_place 1)) (pairs a b).
  Proof.
    intros H. apply Forall_forall. intros x HX. unfold pairs in HX. apply in_flat_map in HX. destruct HX as ([u v] & H1 & H2). rewrite forallb_forall in H.
    pose proof (in_combine_l _ _ _ _ H1) as Hu. pose proof (in_combine_r _ _ _ _ H1) as Hv.
    destruct H2 as [<-|[<-|[]]]; cbn [fst snd]; [specialize (H u (in_or_app _ _ _ (or_introl Hu)))|specialize (H v (in_or_app _ _ _ (or_intror Hv)))]; apply Z.leb_le in H; exact H.
  Qed.
  Lemma pairs_quiet a b : no_vin a -> no_vin b -> Forall no_in (pairs a b).
  Proof.
    intros HA HB. apply Forall_forall. intros x HX. unfold pairs in HX. apply in_flat_map in HX. destruct HX as ([u v] & H1 & H2).
    pose proof (in_combine_l _ _ _ _ H1) as Hu. pose proof (in_combine_r _ _ _ _ H1) as Hv.
    destruct H2 as [<-|[<-|[]]]; unfold no_in; cbn [fst snd]; [destruct u; try exact I; exact (HA _ _ Hu)|destruct v; try exact I; exact (HB _ _ Hv)].
  Qed.
  Lemma together r L s sg :
    (forall i, i = 0 \/ i = 1 -> logged prot (mem_c i) (new_run (mem_k0 i)) (mem_h i) (r i) (L i) /\ HonestDemo.sends_of (L i) = mem_s i /\ r_term (r i) = true /\ outputs_of (map snd (L i)) = [(pc_dkg, s i); (pc_dss, VSig (sg i))]) ->
    exists c tr O0 O1, seg (start_cluster places) all_evs c tr (mem_evs 0 (mem_h 0)) (mem_evs 1 (mem_h 1)) O0 O1.
  Proof.
    intros HL.
    assert (GO : forall i, i = 0 \/ i = 1 -> exists n1 o1, nexec i (st0 i) (mem_pre i) = Ok (n1, o1) /\ (forall pc a b, sent_to pc a b o1 = []) /\ going i n1 (new_run (mem_k0 i)) (mem_h i) (mem_s i)).
    { intros i Hi. destruct (mem_before i Hi) as (n1 & o1 & A1 & A2 & A3 & A4 & A5 & A6 & A7 & A8 & A9). exists n1, o1. split; [exact A1|]. split; [exact A8|]. destruct (HL i Hi) as ((X1 & X2 & X3 & X4 & X5) & Y2 & Y3 & Y4).
      assert (EE : env_for (mem_su i) n1 (mem_key i) 9 oid = duo_env long i) by (unfold env_for; cbn [mem_key k_guest k_run]; rewrite A5; reflexivity).
      split; [exact A2|]. split; [rewrite A3; reflexivity|]. split; [exact EE|]. split; [eexists _, _; exact X1|]. split; [exact X2|]. split; [rewrite <- X4; exact Y2|].
      split; [exact (mem_ticks i)|]. split; [intros t e m; exact (mem_msgs i t e m Hi)|].
      assert (GU : is_guest (mem_su i) (k_guest (mem_key i)) = true) by (unfold is_guest; cbn; rewrite Z.eqb_refl; reflexivity).
      destruct (run_lift ky keccak pshash (mem_su i) (mem_key i) 0 (acct_new i) 9 oid ltac:(cbn; unfold pc_dss; lia) GU (mem_h i) n1 (new_run (mem_k0 i)) (r i) (map snd (L i)) A2 ltac:(rewrite A3; reflexivity)) as (n2 & o2 & B1 & B2 & B3 & B4 & B5 & B6 & B7 & B8 & B9);
        [rewrite EE; exact (mem_ticks i)|rewrite EE; intros t e m; exact (mem_msgs i t e m Hi)|exact X1|exact X2|].
      destruct (mem_after i n2 (r i) (s i) (sg i) Hi ltac:(rewrite B4, A3; reflexivity) Y3 ltac:(rewrite B7; exact A6) ltac:(rewrite B5, A4, push_outputs, Y4; reflexivity)) as (n3 & o3 & C1 & C2 & C3 & C4).
      exists n2, o2, n3, o3. split; [exact B1|]. split; [exact C1|apply C4]. }
    destruct (GO 0 ltac:(auto)) as (n0 & o0 & A1 & A2 & A3). destruct (GO 1 ltac:(auto)) as (n1 & o1 & B1 & B2 & B3). clear GO HL. rewrite mem_phases, mem_sends in A3, B3. change (1 - 0) with 1 in A3. change (1 - 1) with 0 in B3.
    destruct (mem_no_vin 0) as [V1 V2]. destruct (mem_no_vin 1) as [V3 V4].
    destruct (quiet_seg ky keccak pshash (mem_place 0) (mem_place 1) duo_home (mem_lane 0) (mem_lane 1) (10 * ms) L0 L1 (pairs (mem_pre 0) (mem_pre 1)) (start_cluster places) (st0 0) (st0 1) false n0 n1 o0 o1) as (c1 & t1 & G1 & ST1);
      [repeat split|apply pairs_due; reflexivity|apply pairs_quiet; assumption|exact A1|exact B1|apply A2|apply B2|].
    destruct (both_quiet (25 * ms) _ _ _ _ _ _ _ _ _ _ _ ST1 A3 B3) as (c2 & t2 & n02 & n12 & r02 & r12 & o02 & o12 & G2 & ST2 & A4 & B4); [reflexivity..|].
    destruct (both_round (30 * ms) _ _ _ _ _ _ (d1 0) (d1 1) _ _ _ _ ST2 ltac:(lazy; discriminate) eq_refl eq_refl A4 B4) as (c3 & t3 & n03 & n13 & r03 & r13 & o03 & o13 & G3 & ST3 & A5 & B5); [reflexivity..|].
    destruct (both_quiet (100 * ms) _ _ _ _ _ _ _ _ _ _ _ ST3 A5 B5) as (c4 & t4 & n04 & n14 & r04 & r14 & o04 & o14 & G4 & ST4 & A6 & B6); [reflexivity..|].
    destruct (both_round (105 * ms) _ _ _ _ _ _ (d2 0) (d2 1) _ _ _ _ ST4 ltac:(lazy; discriminate) eq_refl eq_refl A6 B6) as (c5 & t5 & n05 & n15 & r05 & r15 & o05 & o15 & G5 & ST5 & A7 & B7); [reflexivity..|].
    destruct (both_quiet (275 * ms) _ _ _ _ _ _ _ _ _ _ _ ST5 A7 B7) as (c6 & t6 & n06 & n16 & r06 & r16 & o06 & o16 & G6 & ST6 & A8 & B8); [reflexivity..|].
    destruct (both_round (280 * ms) _ _ _ _ _ _ (d3 0) (d3 1) _ _ _ _ ST6 ltac:(lazy; discriminate) eq_refl eq_refl A8 B8) as (c7 & t7 & n07 & n17 & r07 & r17 & o07 & o17 & G7 & ST7 & A9 & B9); [reflexivity..|].
    destruct (both_quiet (550 * ms) _ _ _ _ _ _ _ _ _ _ _ ST7 A9 B9) as (c8 & t8 & n08 & n18 & r08 & r18 & o08 & o18 & G8 & ST8 & A10 & B10); [reflexivity..|].
    destruct (both_round (555 * ms) _ _ _ _ _ _ (d4 0) (d4 1) _ _ _ _ ST8 ltac:(lazy; discriminate) eq_refl eq_refl A10 B10) as (c9 & t9 & n09 & n19 & r09 & r19 & o09 & o19 & G9 & ST9 & A11 & B11); [reflexivity..|].
    destruct (both_quiet (650 * ms) _ _ _ _ _ _ _ _ _ _ _ ST9 A11 B11) as (c10 & t10 & n010 & n110 & r010 & r110 & o010 & o110 & G10 & ST10 & A12 & B12); [reflexivity..|].
    destruct A12 as (_ & _ & _ & _ & _ & _ & _ & _ & (na & oa & nb & ob & E1 & E2 & E3)). cbn in E1. injection E1 as <- _.
    destruct B12 as (_ & _ & _ & _ & _ & _ & _ & _ & (nc & oc & nd & od & F1 & F2 & F3)). cbn in F1. injection F1 as <- _.
    destruct (quiet_seg ky keccak pshash (mem_place 0) (mem_place 1) duo_home (mem_lane 0) (mem_lane 1) (10 * ms) L0 L1 (pairs (mem_post 0) (mem_post 1)) c10 _ _ _ nb nd ob od ST10) as (c11 & t11 & G11 & ST11);
      [apply pairs_due; reflexivity|apply pairs_quiet; assumption|exact E2|exact F2|exact E3|exact F3|].
    pose proof (seg_app _ _ _ _ _ _ _ _ _ _ _ _ _ _ _ _ _ _ _ _ _ _ _ _ G10 G11) as S10.
    pose proof (seg_app _ _ _ _ _ _ _ _ _ _ _ _ _ _ _ _ _ _ _ _ _ _ _ _ G9 S10) as S9.
    pose proof (seg_app _ _ _ _ _ _ _ _ _ _ _ _ _ _ _ _ _ _ _ _ _ _ _ _ G8 S9) as S8.
    pose proof (seg_app _ _ _ _ _ _ _ _ _ _ _ _ _ _ _ _ _ _ _ _ _ _ _ _ G7 S8) as S7.
    pose proof (seg_app _ _ _ _ _ _ _ _ _ _ _ _ _ _ _ _ _ _ _ _ _ _ _ _ G6 S7) as S6.
    pose proof (seg_app _ _ _ _ _ _ _ _ _ _ _ _ _ _ _ _ _ _ _ _ _ _ _ _ G5 S6) as S5.
    pose proof (seg_app _ _ _ _ _ _ _ _ _ _ _ _ _ _ _ _ _ _ _ _ _ _ _ _ G4 S5) as S4.
    pose proof (seg_app _ _ _ _ _ _ _ _ _ _ _ _ _ _ _ _ _ _ _ _ _ _ _ _ G3 S4) as S3.
    pose proof (seg_app _ _ _ _ _ _ _ _ _ _ _ _ _ _ _ _ _ _ _ _ _ _ _ _ G2 S3) as S2.
    pose proof (seg_app _ _ _ _ _ _ _ _ _ _ _ _ _ _ _ _ _ _ _ _ _ _ _ _ G1 S2) as S1.
    eexists c11, _, _, _. exact S1.
  Qed.
End Members.
