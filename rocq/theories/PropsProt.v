(** Property theorems C44-C52: one run of a protocol, for every protocol, every
    interleaving of timer wake-ups and arriving messages, and every guest. *)
From Coq Require Import ZArith List Lia Bool Permutation Arith.
From Verif Require Import Bytes Res Dto DtoProofs Prot ProtSpec ProtProofs ProtProofs2 ProtProofs3 ProtToy.
Import ListNotations.
Open Scope Z_scope.

Section Props.
Context {D A K E V : Type}.
Variable p : protocol D A K E V.
Variable c : info.
Variable k0 : K.
Notation obs := (obs D A V).

(** ** C44 *)
(** Per stage: received = taken up, then dropped, then waiting, in this order;
    nothing waits for a stage already entered, and nothing of a stage not yet
    entered is taken up or dropped. *)
Theorem C44_messages_conserved : forall (evs : list (event D E)) r tr, exec p c (new_run k0) evs = Ok (r, tr) ->
  (forall op, for_op op (received evs) = for_op op (handled tr) ++ for_op op (dropped tr) ++ mslice (r_rcv r) op) /\
  (forall op, op <= fst (stage_now tr) -> mslice (r_rcv r) op = []) /\
  (forall op, fst (stage_now tr) < op -> for_op op (handled tr) = [] /\ for_op op (dropped tr) = []).
Proof.
  intros evs r tr H. apply run_inv in H. destruct (iv_link _ _ _ _ _ H) as (-> & _).
  split; [apply H|]. split; cbn; apply H.
Qed.
(** All stages together, the stages being those of the protocol (the receiving
    side ensures this, C57); when the run is over nothing is waiting. *)
Theorem C44_messages_conserved_overall : forall (evs : list (event D E)) r tr, exec p c (new_run k0) evs = Ok (r, tr) ->
  (forall m, In m (received evs) -> 0 <= m_op m <= final p) ->
  Permutation (received evs) (handled tr ++ dropped tr ++ flat_map (mslice (r_rcv r)) (upto (final p))) /\
  (terminated_in tr = true -> Permutation (received evs) (handled tr ++ dropped tr)).
Proof.
  intros evs r tr H HO. pose proof (conserved p c _ _ _ _ H HO) as P. split; [exact P|]. intros HT.
  pose proof (run_inv p c _ _ _ _ H) as HI. destruct (iv_link _ _ _ _ _ HI) as (_ & _ & L). rewrite L in HT.
  rewrite (buffered_empty p c _ _ _ _ H HT), app_nil_r in P. exact P.
Qed.
(** A message is dropped only when it is late. *)
Theorem C44_only_late_dropped : forall (evs : list (event D E)) r tr, exec p c (new_run k0) evs = Ok (r, tr) ->
  always (fun a (o : obs) => match o with ODrop m => m_op m < fst (stage_now a) \/ stage_now a = (m_op m, true) | _ => True end) tr.
Proof.
  intros evs r tr H. apply run_inv in H. intros a o b E0. pose proof (iv_alw _ _ _ _ _ H a o b E0) as X.
  destruct o; try exact I. exact X.
Qed.

(** ** C45 *)
Theorem C45_processed_in_stage : forall (evs : list (event D E)) r tr, exec p c (new_run k0) evs = Ok (r, tr) ->
  always (fun a (o : obs) => match o with
    | OHandle m => stage_now a = (m_op m, false)
    | OProc m _ => stage_now a = (m_op m, false) /\ exists b, a = b ++ [OHandle m]
    | _ => True end) tr.
Proof.
  intros evs r tr H. apply run_inv in H. intros a o b E0. pose proof (iv_alw _ _ _ _ _ H a o b E0) as X.
  destruct o; try exact I; [exact X|]. cbn in X. tauto.
Qed.
(** Messages of one stage are taken up in the order in which they arrived, none
    overtaking another: what is taken up is a prefix of what arrived. *)
Theorem C45_arrival_order : forall (evs : list (event D E)) r tr, exec p c (new_run k0) evs = Ok (r, tr) ->
  forall op, exists rest, for_op op (received evs) = for_op op (handled tr) ++ rest.
Proof. intros evs r tr H op. apply run_inv in H. rewrite (iv_rcv _ _ _ _ _ H op). eauto. Qed.

(** ** C46 *)
Theorem C46_stages_in_order : forall (evs : list (event D E)) r tr, exec p c (new_run k0) evs = Ok (r, tr) ->
  entered tr = upto (fst (stage_now tr)) /\
  always (fun a (o : obs) => match o with
    | OStep k => stage_now a = (k, false) /\ for_op k (handled a) = [] /\ Forall (fun j => j < k) (stepped a)
    | _ => True end) tr.
Proof.
  intros evs r tr H. apply run_inv in H. destruct (iv_link _ _ _ _ _ H) as (-> & _). split; [apply H|].
  intros a o b E0. pose proof (iv_alw _ _ _ _ _ H a o b E0) as X. destruct o; try exact I. cbn in X. tauto.
Qed.
(** Not abandoned: the steps executed are exactly those of the stages entered;
    terminated: these are all stages. *)
Theorem C46_all_stages : forall (evs : list (event D E)) r tr, exec p c (new_run k0) evs = Ok (r, tr) ->
  (abandoned_in tr = false -> stepped tr = filter (has_step p) (upto (fst (stage_now tr)))) /\
  (terminated_in tr = true -> entered tr = upto (final p)).
Proof.
  intros evs r tr H. pose proof (run_inv p c _ _ _ _ H) as HI. destruct (iv_link _ _ _ _ _ HI) as (-> & -> & ->). split.
  - cbn. apply (steps_run p c _ _ _ _ H).
  - intros HT. rewrite (iv_entered _ _ _ _ _ HI). f_equal. pose proof (iv_loc _ _ _ _ _ HI) as L. destruct (r_loc r); intuition congruence.
Qed.

(** ** C47 *)
Theorem C47_schedule : forall (evs : list (event D E)) r tr,
  timely p c (new_run k0) evs -> exec p c (new_run k0) evs = Ok (r, tr) ->
  always (fun a (o : obs) => match o with
    | OEnter k now => exists s, start_of a = Some s /\ s + elapsed p k + (if k =? 0 then 0 else pause) <= now
    | OTerm now => exists s, start_of a = Some s /\ s + protocol_timeout p <= now
    | _ => True end) tr /\
  (r_loc r = LStage -> exists s, start_of tr = Some s /\ r_wake r = s + elapsed p (fst (stage_now tr) + 1)).
Proof.
  intros evs r tr HT H. destruct (time_run p c _ _ _ _ HT H) as [H1 H2]. split.
  - intros a o b E0. pose proof (H1 a o b E0) as X. destruct o; try exact I; [exact X|]. cbn in X. rewrite elapsed_total in X. exact X.
  - intros HL. rewrite HL in H2. destruct H2 as (s & S1 & S2 & S3). apply run_inv in H. destruct (iv_link _ _ _ _ _ H) as (-> & _).
    exists s. split; [exact S1|]. cbn. congruence.
Qed.

(** ** C48 *)
Theorem C48_terminates : forall (evs : list (event D E)) r tr, p_stages p <> [] -> exec p c (new_run k0) evs = Ok (r, tr) ->
  (terminated_in tr = true <-> (2 * length (p_stages p) + 1 <= ticks evs)%nat).
Proof. intros evs r tr. apply ticks_run. Qed.

(** ** C49 *)
Theorem C49_sent_in_stage : forall (evs : list (event D E)) r tr, exec p c (new_run k0) evs = Ok (r, tr) ->
  always (fun a (o : obs) => match o with OSent m => m_op m <= fst (stage_now a) | _ => True end) tr /\
  (forall op, for_op op (created tr) = for_op op (sent tr) ++ mslice (r_snd r) op) /\
  (forall op, op <= fst (stage_now tr) -> for_op op (sent tr) = for_op op (created tr)) /\
  (forall op, fst (stage_now tr) < op -> for_op op (sent tr) = []).
Proof.
  intros evs r tr H. apply run_inv in H. destruct (iv_link _ _ _ _ _ H) as (-> & _). cbn [fst].
  split; [|split; [apply H|split; [|apply H]]].
  - intros a o b E0. pose proof (iv_alw _ _ _ _ _ H a o b E0) as X. destruct o; try exact I. cbn in X. tauto.
  - intros op LE. rewrite (iv_snd _ _ _ _ _ H op), (iv_snd_past _ _ _ _ _ H op LE), app_nil_r. reflexivity.
Qed.

(** ** C50 *)
Theorem C50_broadcast : forall (r r' : rst D K) (tr : list obs) op d, do_actions c r (broadcast c op d) = Ok (r', tr) ->
  (forall m, In m (created tr) -> m_sender m = i_guest c /\ m_pc m = i_pc c /\ m_run m = i_id c /\ m_op m = op /\ m_dto m = d) /\
  NoDup (map m_rcpt (created tr)) /\
  (forall i, In i (map m_rcpt (created tr)) <-> 0 <= i < i_members c /\ i <> i_guest c).
Proof.
  intros r r' tr op d H. rewrite broadcast_eq in H. apply do_sends in H. rewrite H. split; [|rewrite map_map; cbn; rewrite map_id; split].
  - intros m Hm. apply in_map_iff in Hm. destruct Hm as (i & <- & _). cbn. auto.
  - apply NoDup_filter, nodup_upto.
  - intros i. rewrite filter_In, in_upto, negb_true_iff, Z.eqb_neq. lia.
Qed.
Theorem C50_multicast : forall (r r' : rst D K) (tr : list obs) idxs op d, do_actions c r (multicast idxs c op d) = Ok (r', tr) ->
  (forall m, In m (created tr) -> m_sender m = i_guest c /\ m_pc m = i_pc c /\ m_run m = i_id c /\ m_op m = op /\ m_dto m = d) /\
  map m_rcpt (created tr) = filter (fun i => negb (i =? i_guest c)) idxs.
Proof.
  intros r r' tr idxs op d H. rewrite multicast_eq in H. apply do_sends in H. rewrite H. split; [|rewrite map_map; apply map_id].
  intros m Hm. apply in_map_iff in Hm. destruct Hm as (i & <- & _). cbn. auto.
Qed.
(** Every message a run ever makes carries the guest, the protocol and the run id. *)
Theorem C50_headers : forall (evs : list (event D E)) r tr, exec p c (new_run k0) evs = Ok (r, tr) ->
  always (fun a (o : obs) => match o with OCreate m => m_sender m = i_guest c /\ m_pc m = i_pc c /\ m_run m = i_id c | _ => True end) tr.
Proof.
  intros evs r tr H. apply run_inv in H. intros a o b E0. pose proof (iv_alw _ _ _ _ _ H a o b E0) as X.
  destruct o; try exact I. exact X.
Qed.

(** ** C51 *)
(** Once a step has abandoned the run: no step, processor, new message or output,
    whatever happens next; messages sent are only those queued before. *)
Theorem C51_abandonment_final : forall (evs1 evs2 : list (event D E)) r1 t1 r2 t2,
  exec p c (new_run k0) evs1 = Ok (r1, t1) -> abandoned_in t1 = true -> exec p c r1 evs2 = Ok (r2, t2) ->
  Forall (fun o : obs => match o with OStep _ | OProc _ _ | OCreate _ | OOutput _ _ | OAbandon => False | _ => True end) t2 /\
  (forall op, mslice (r_snd r1) op = for_op op (sent t2) ++ mslice (r_snd r2) op).
Proof.
  intros evs1 evs2 r1 t1 r2 t2 H1 HA H2. apply run_inv in H1. destruct (iv_link _ _ _ _ _ H1) as (_ & L & _). rewrite L in HA.
  destruct (ab_exec p c _ _ _ _ HA H2) as [_ Q]. split; [exact Q|]. intros op.
  pose proof (exec_inv p c _ _ _ _ _ _ H1 H2) as HI. pose proof (iv_snd _ _ _ _ _ HI op) as X.
  rewrite created_app, (quiet_created _ Q), app_nil_r, sent_app, for_op_app, (iv_snd _ _ _ _ _ H1 op), <- app_assoc in X.
  apply app_inv_head in X. exact X.
Qed.
(** In protocols in which abandoning is all a step does when it abandons, and
    which do not send more than one stage ahead, nothing at all is sent any more;
    DKG and DSS are such protocols (C51_dkg_dss in PropsDkg.v). *)
Theorem C51_nothing_sent : forall (evs : list (event D E)) r tr, tidy p -> exec p c (new_run k0) evs = Ok (r, tr) ->
  always (fun a (o : obs) => abandoned_in a = true ->
    match o with OStep _ | OProc _ _ | OCreate _ | OSent _ | OOutput _ _ | OAbandon => False | _ => True end) tr.
Proof.
  intros evs r tr HT H. pose proof (calm_run p c _ _ _ _ HT H) as Q. apply run_inv in H. intros a o b E0 HA.
  pose proof (iv_alw _ _ _ _ _ H a o b E0) as X. pose proof (Q a o b E0) as Y.
  destruct o; try exact I; cbn in X, Y; intuition congruence.
Qed.

(** ** C52 *)
Theorem C52_nothing_after_termination : forall (evs : list (event D E)) r tr, no_last_proc p -> exec p c (new_run k0) evs = Ok (r, tr) ->
  always (fun a (o : obs) => terminated_in a = true -> match o with OHandle _ | ODrop _ => True | _ => False end) tr.
Proof.
  intros evs r tr HN H. apply always_alw. apply (idle_exec p c evs HN [] (new_run k0) [] r tr (inv_new p c k0) H).
Qed.
(** The data cleanup leaves is not changed any more. *)
Theorem C52_data_untouched : forall (evs1 evs2 : list (event D E)) r1 t1 r2 t2, no_last_proc p ->
  exec p c (new_run k0) evs1 = Ok (r1, t1) -> terminated_in t1 = true -> exec p c r1 evs2 = Ok (r2, t2) -> r_k r2 = r_k r1.
Proof.
  intros evs1 evs2 r1 t1 r2 t2 HN H1 HT H2. apply run_inv in H1. destruct (iv_link _ _ _ _ _ H1) as (_ & _ & L). rewrite L in HT.
  assert (LE : r_loc r1 = LEnd). { pose proof (iv_loc _ _ _ _ _ H1) as X. destruct (r_loc r1); intuition congruence. }
  apply (idle_exec p c evs2 HN _ r1 t1 r2 t2 H1 H2). exact LE.
Qed.
End Props.

(** ** Examples: the runs of ProtToy.v *)
Ltac run := vm_compute; reflexivity.
(** C44, C45: of eight messages, one waits for its stage, two are refused by the
    checks, two are processed, two come too late. *)
Example C44_C45_ex :
  (exists r, exec toy toy_info (new_run 0) toy_evs = Ok (r, toy_trace toy_evs)) /\
  map m_dto (received toy_evs) = [7; 13; 5; 0; 101; 6; 6; 6] /\
  map m_dto (handled (toy_trace toy_evs)) = [7; 13; 5; 101; 0; 6] /\
  map m_dto (dropped (toy_trace toy_evs)) = [6; 6] /\
  flat_map (fun o => match o with OProc m a => [(m_op m, a)] | _ => [] end) (toy_trace toy_evs) = [(1, 7); (1, 101)].
Proof. split; [eexists; run|]. repeat split; run. Qed.
Example C44_overall_ex : forall m, In m (received toy_evs) -> (0 <= m_op m /\ m_op m <= final toy)%Z.
Proof. cbn. intros m H. repeat (destruct H as [<-|H]; [cbn; lia|]). destruct H. Qed.
(** A message waiting, in the middle of the run. *)
Example C44_waiting_ex : exists r tr, exec toy toy_info (new_run 0) (firstn 3 toy_evs) = Ok (r, tr) /\
  map m_dto (mslice (r_rcv r) 1) = [7; 13] /\ terminated_in tr = false.
Proof. eexists _, _. split; [run|]. split; run. Qed.
Example C46_ex : entered (toy_trace toy_evs) = [0; 1; 2] /\ stepped (toy_trace toy_evs) = [0; 2] /\
  terminated_in (toy_trace toy_evs) = true /\ abandoned_in (toy_trace toy_evs) = false.
Proof. repeat split; run. Qed.
Example C47_ex : timely toy toy_info (new_run 0) toy_evs /\ protocol_timeout toy = 125 * ms /\
  In (OTerm (1000 + 126 * ms)) (toy_trace toy_evs) /\ start_of (toy_trace toy_evs) = Some 1000.
Proof.
  split; [|split; [run|split; [|run]]].
  - vm_compute. repeat split; discriminate.
  - vm_compute. do 26 (try (left; reflexivity); right); try (left; reflexivity).
Qed.
Example C48_ex : p_stages toy <> [] /\ ticks toy_evs = 7%nat /\ terminated_in (toy_trace toy_evs) = true /\
  terminated_in (toy_trace (firstn 13 toy_evs)) = false.
Proof. repeat split; try run. discriminate. Qed.
Example C49_ex : exists r tr, exec toy toy_info (new_run 0) (firstn 4 toy_evs) = Ok (r, tr) /\
  map m_rcpt (created tr) = [0; 2] /\ sent tr = [] /\ map m_rcpt (mslice (r_snd r) 1) = [0; 2] /\
  map m_rcpt (for_op 1 (sent (toy_trace toy_evs))) = [0; 2].
Proof. eexists _, _. split; [run|]. repeat split; run. Qed.
Example C50_ex : exists r' tr, do_actions (A := Z) (K := Z) (V := Z) toy_info (new_run 0) (broadcast toy_info 1 5) = Ok (r', tr) /\
  map m_rcpt (created tr) = [0; 2].
Proof. eexists _, _. split; [run|]. run. Qed.
Example C50_multi_ex : exists r' tr, do_actions (A := Z) (K := Z) (V := Z) toy_info (new_run 0) (multicast [2; 1; 0; 2] toy_info 1 5) = Ok (r', tr) /\
  map m_rcpt (created tr) = [2; 0; 2].
Proof. eexists _, _. split; [run|]. run. Qed.
(** Messages queued by a step that then abandons are still sent. *)
Example C51_ex : exists r1 t1 r2 t2,
  exec toy_untidy toy_info (new_run 0) [ETick tt 0; ETick tt 1] = Ok (r1, t1) /\ abandoned_in t1 = true /\
  exec toy_untidy toy_info r1 [EMsg tt (toy_msg 0 1 5); ETick tt (30 * ms); ETick tt (40 * ms)] = Ok (r2, t2) /\
  map m_rcpt (sent t2) = [0; 2] /\ r_k r2 = 0.
Proof. eexists _, _, _, _. split; [run|]. split; [run|]. split; [run|]. split; run. Qed.
Lemma toy_multicast_ok k op l : op <= k + 1 -> forall ci d, Forall (okact (V := Z) k) (multicast (D := Z) l ci op d).
Proof. intros H ci d. unfold multicast, send1. induction l as [|i l IH]; cbn; [constructor|]. destruct (i =? i_guest ci); [exact IH|constructor; assumption]. Qed.
Example C51_tidy_ex : tidy toy /\ abandoned_in (toy_trace toy_evs_odd) = true.
Proof.
  split; [|run]. intros k s HS. unfold stage_at in HS. destruct (Z.ltb_spec k 0); [discriminate|].
  destruct (Z.to_nat k) as [|[|[|n]]] eqn:EK; cbn [nth_error toy p_stages] in HS; [| | |destruct n; discriminate]; injection HS as <-; cbn [toy_stage sg_step sg_proc]; split; intros; try discriminate.
  - injection H0 as <-. injection H1 as <- <-. right. rewrite broadcast_eq, <- multicast_eq. apply toy_multicast_ok. lia.
  - injection H0 as <-. injection H1 as <- <-. destruct (100 <? arg); [exact (toy_multicast_ok k 2 [0; 2; 1] ltac:(lia) ci (kd + arg))|constructor].
  - injection H0 as <-. injection H1 as <- <-. destruct (Z.odd kd); [left; reflexivity|right; repeat constructor].
Qed.
Example C52_ex : no_last_proc toy /\ exists r1 t1 r2 t2, exec toy toy_info (new_run 0) (firstn 14 toy_evs) = Ok (r1, t1) /\
  terminated_in t1 = true /\ exec toy toy_info r1 (skipn 14 toy_evs) = Ok (r2, t2) /\ map m_dto (handled t2) = [6].
Proof.
  split; [intros s HS; injection HS as <-; reflexivity|]. eexists _, _, _, _. split; [run|]. split; [run|]. split; run.
Qed.

Print Assumptions C44_messages_conserved. Print Assumptions C44_messages_conserved_overall. Print Assumptions C44_only_late_dropped.
Print Assumptions C45_processed_in_stage. Print Assumptions C45_arrival_order.
Print Assumptions C46_stages_in_order. Print Assumptions C46_all_stages.
Print Assumptions C47_schedule. Print Assumptions C48_terminates. Print Assumptions C49_sent_in_stage.
Print Assumptions C50_broadcast. Print Assumptions C50_multicast. Print Assumptions C50_headers.
Print Assumptions C51_abandonment_final. Print Assumptions C51_nothing_sent.
Print Assumptions C52_nothing_after_termination. Print Assumptions C52_data_untouched.
