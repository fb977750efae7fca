(** Property theorem C118 (processes that start in time lose nothing between them). *)
From Coq Require Import ZArith List Lia Bool Permutation.
From Coq Require Import Init.Byte.
From Verif Require Import Params Bytes Res Secp Dto Dss Prot ProtSpec DkgProt KMap Firewall FwSpec NetSpec Outputs Node NodeSpec Cluster ClusterSpec ClusterProofs
  ClusterProofs2 PropsCluster Connect ConnectSpec PropsConnect ClockSpec.
From Verif Require Net NetProofs PropsNet.
Import ListNotations.
Open Scope Z_scope.

Lemma clocked_timed : forall {M} w t s k (l : list (Z * Net.nevent M)), clocked w t s k l -> timed w t s k (map snd l).
Proof.
  induction 1; cbn [map snd].
  - apply timed_nil.
  - apply (timed_send w t t'); assumption.
  - apply (timed_go w t t' x); assumption.
  - apply (timed_dial w t t' x c s o dials e ok ps); assumption.
Qed.
Lemma lane_clock_events : forall {G} l (tr : list (cobs (G := G))), map snd (lane_clock l tr) = lane_events l tr.
Proof.
  intros G l tr. unfold lane_clock, lane_events. induction tr as [|[i o ev os|now l' ev os|i o ev] tr IH]; cbn; try exact IH; [reflexivity|].
  destruct (lane_eqb l' l); cbn; rewrite ?IH; reflexivity.
Qed.
Lemma calls_only : forall (tr : list (Net.nobs (message payload))), called_with false tr = [] -> called_with true tr = called tr.
Proof.
  induction tr as [|o tr IH]; [reflexivity|]. intros H. destruct o as [m|m|m|m b| |]; cbn in *; try (apply IH, H).
  destruct b; cbn in *; [f_equal; apply IH, H|discriminate].
Qed.
(** What is put in a queue is accepted or refused, in order. *)
Lemma ngo_quiet : forall (s : Net.nq (message payload)) ok, accepted (snd (Net.ngo s ok)) = [] /\ refused (snd (Net.ngo s ok)) = [] /\
  (length (Net.n_q (fst (Net.ngo s ok))) <= length (Net.n_q s))%nat.
Proof.
  intros s ok. unfold Net.ngo, Net.nget, Net.nrecv. 
  assert (H : forall f : message payload -> Net.nobs (message payload), (forall m, accepted [f m] = [] /\ refused [f m] = []) ->
    accepted (map f (Net.held s)) = [] /\ refused (map f (Net.held s)) = []).
  { intros f Hf. unfold Net.held. destruct (Net.n_msg s) as [m|]; cbn [map]; [apply Hf|split; reflexivity]. }
  destruct (Net.n_loc s) as [| | | | | |[|]]; try (cbn; auto; fail).
  - destruct (Net.n_conn s); cbn; auto.
  - destruct (Net.n_pushed s); cbn; auto. destruct (Net.n_q s) eqn:E; cbn; rewrite ?E; cbn; auto.
  - destruct (Net.n_conn s); cbn [fst snd Net.n_q]; try (destruct (H (@Net.NDropped _) (fun m => conj eq_refl eq_refl)) as [-> ->]); auto.
  - destruct (Net.n_pushed s); cbn; auto. destruct (Net.n_q s) eqn:E; cbn; rewrite ?E; cbn; auto.
  - cbn [fst snd Net.n_q]. destruct (H (fun m => Net.NCall m ok) (fun m => conj eq_refl eq_refl)) as [-> ->]. auto.
  - destruct (Net.n_q s) eqn:E; cbn; rewrite ?E; cbn; auto.
  - destruct (Net.n_q s) eqn:E; cbn; rewrite ?E; cbn; auto.
Qed.
Lemma refused_app : forall (a b : list (Net.nobs (message payload))), refused (a ++ b) = refused a ++ refused b.
Proof. intros. apply flat_map_app. Qed.
(** What is put in a queue is accepted or refused. *)
Lemma put_is_taken : forall evs (s : Net.nq (message payload)), refused (snd (Net.nexec s evs)) = [] ->
  accepted (snd (Net.nexec s evs)) = put_in evs.
Proof.
  induction evs as [|ev evs IH]; intros s; [reflexivity|]. cbn [Net.nexec snd]. rewrite refused_app, NetProofs.accepted_app.
  intros H. apply app_eq_nil in H. destruct H as [H1 H2]. rewrite (IH _ H2). change (put_in (ev :: evs)) with (match ev with Net.EvSend m => [m] | _ => [] end ++ put_in evs).
  f_equal. destruct ev as [m|ok|ok]; cbn [Net.nstep].
  - cbn [Net.nstep] in H1. unfold Net.nsend in *. destruct (Z.of_nat (length (Net.n_q s)) <? Net.msg_max); [reflexivity|discriminate].
  - reflexivity.
  - apply ngo_quiet.
Qed.
Lemma few_accepted : forall evs (s : Net.nq (message payload)), Z.of_nat (length (Net.n_q s) + length (put_in evs)) <= 1000 ->
  refused (snd (Net.nexec s evs)) = [].
Proof.
  induction evs as [|ev evs IH]; intros s H; [reflexivity|]. cbn [Net.nexec snd]. rewrite refused_app.
  change (put_in (ev :: evs)) with (match ev with Net.EvSend m => [m] | _ => [] end ++ put_in evs) in H.
  destruct ev as [m|ok|ok]; cbn [Net.nstep] in *.
  - unfold Net.nsend, Net.msg_max. cbn [app length] in H. destruct (Z.ltb_spec (Z.of_nat (length (Net.n_q s))) 1000) as [L|L]; [|lia].
    cbn [fst snd]. change (refused [Net.NAccept m]) with (@nil (message payload)). cbn [app]. apply IH. cbn [Net.n_q]. rewrite app_length. cbn [length]. lia.
  - cbn [app length] in H. apply IH. unfold Net.ndial. destruct (Net.n_conn s), ok; cbn [Net.n_q fst]; lia.
  - destruct (ngo_quiet s ok) as (_ & -> & L). apply IH. cbn [app] in H. lia.
Qed.

Section Statements.
  Context {G : Type}.
  Variable ky : kyber G.
  Variable keccak : bytes -> bytes.
  Variable pshash : Z -> Z -> bytes.
  Variable places : list place.
  Variable home : Z -> option nat.
  Notation message := (message payload).
  Notation chistory := (chistory ky keccak pshash places home).
  Variables (t0 : Z) (evs : list (cevent (G := G))) (c : cluster (G := G)) (tr : list (cobs (G := G))).

  (** ** C118 *)
  (** The peer of a queue can be dialled from 2.4 s after the queue's start on, or earlier.  Then nothing is dropped
      for want of a connection, and if no call fails and the queue is never full, then what came in at the peer by this queue, the
      message about to be called, if any, and what is in the queue are what was sent, in order. *)
  Theorem C118_nothing_lost : forall l w D T t1, chistory t0 evs c tr ->
    clocked w t1 Net.nq0 None (lane_clock l tr) ->
    dials_within w D -> reachable_from w T -> T <= t1 + 2 * second + 400 * millisecond ->
    dropped_msgs (lane_trace l tr) = [] /\
    (refused (lane_trace l tr) = [] -> called_with false (lane_trace l tr) = [] ->
     exists h, (length h <= 1)%nat /\
       sent_to (l_pc l) (l_from l) (l_to l) (trace_at (l_at l) tr) = came_via l tr ++ h ++ Net.n_q (c_lanes c l)).
  Proof.
    intros l w D T t1 HC CL HD R HT. destruct (C97_queues _ _ _ _ _ _ _ _ _ l HC) as [E S].
    apply clocked_timed in CL. rewrite lane_clock_events in CL.
    pose proof (C115_prompt_peer_no_drops w D T t1 (lane_events l tr) HD R HT CL) as X. cbv zeta in X. rewrite E in X. cbn [fst snd] in X.
    destruct X as [X (h & Lh & Eh)]. split; [exact X|]. intros RF CF. exists h. split; [exact Lh|].
    destruct (C97_arrivals _ _ _ _ _ _ _ _ _ l HC) as (_ & _ & V & _). rewrite V, (calls_only _ CF), <- Eh, <- S.
    pose proof (put_is_taken (lane_events l tr) Net.nq0) as P. rewrite E in P. cbn [snd] in P. symmetry. apply P, RF.
  Qed.
  (** A queue for which at most 1000 messages are sent is never full. *)
  Theorem C118_few_messages : forall l, chistory t0 evs c tr ->
    Z.of_nat (length (sent_to (l_pc l) (l_from l) (l_to l) (trace_at (l_at l) tr))) <= 1000 -> refused (lane_trace l tr) = [].
  Proof.
    intros l HC L. destruct (C97_queues _ _ _ _ _ _ _ _ _ l HC) as [E S]. rewrite <- S in L.
    pose proof (few_accepted (lane_events l tr) Net.nq0 L) as P. rewrite E in P. exact P.
  Qed.
End Statements.

(** The processes of C97_ex, started 3 s before the request; each can be dialled from 2.3 s after the start on. *)
Definition early_places : list place := [mkPlace (pair_su 0) (-3000 * ms) (-3000 * ms) 0; mkPlace (pair_su 1) (-3000 * ms) (-3000 * ms) (2 * ms)].
Definition early_net := mkNetwork (fun _ => millisecond) (fun t => -700 * millisecond <=? t).
Definition early_evs : list (cevent (G := Z)) :=
  [CGo (-3000 * ms) (pair_lane 0) true; CDial (-490 * ms) (pair_lane 0) true; CGo (-490 * ms) (pair_lane 0) true] ++
  pair_own (-10) (fun i t => VRequest t [x61] 0 (Some 10)) ++ pair_own (-10) (fun i t => VGo t 0 i) ++ pair_own (-10) (fun i t => VGuest t 0 i i) ++ pair_own (-10) (fun i t => VFw t (pair_k i) 0) ++
  pair_own (-5) (fun i t => VFw t (pair_k i) 0) ++ pair_own (-5) (fun i t => VGuest t 0 i i) ++ pair_own 0 (fun i t => VFw t (pair_k i) 0) ++ pair_own 0 (fun i t => VGuest t 0 i i) ++
  flat_map (fun t => pair_own t (fun _ t => VTick t 0 9 pair_ord)) [0; 0; 25; 30; 100; 105; 175; 180; 250; 255; 275; 280] ++
  [CGo (300 * ms) (pair_lane 0) true; CGo (300 * ms) (pair_lane 0) true].
Local Notation early_run := (cexec pair_ky (fun b : bytes => b) (fun _ _ : Z => ([] : bytes)) early_places pair_home (start_cluster early_places) early_evs).
Definition early_msg : message payload := mkMsg 0 pc_dss 1 (run_id_for [x61] 0) 5 (PWire (WCommits (mkCommitsD 0 [] [] []))).
Definition early_facts (tr : list (cobs (G := Z))) := (lane_clock (pair_lane 0) tr, sent_to pc_dss 0 1 (trace_at 0 tr), came_via (pair_lane 0) tr,
  called_with false (lane_trace (pair_lane 0) tr)).
Lemma early_runs : match early_run with
  | Some (_, tr) => early_facts tr = ([(-3000 * ms, Net.EvGo true); (-490 * ms, Net.EvDial true); (-490 * ms, Net.EvGo true);
      (280 * ms, Net.EvSend early_msg); (300 * ms, Net.EvGo true); (300 * ms, Net.EvGo true)], [early_msg], [early_msg], [])
  | None => False end.
Proof. vm_compute. reflexivity. Qed.
Example C118_ex : exists c tr, chistory pair_ky (fun b : bytes => b) (fun _ _ : Z => ([] : bytes)) early_places pair_home (-3000 * ms) early_evs c tr /\
  clocked early_net (-3000 * ms) Net.nq0 None (lane_clock (pair_lane 0) tr) /\
  dials_within early_net millisecond /\ reachable_from early_net (-700 * millisecond) /\
  sent_to pc_dss 0 1 (trace_at 0 tr) = [early_msg] /\ came_via (pair_lane 0) tr = [early_msg] /\ called_with false (lane_trace (pair_lane 0) tr) = [].
Proof.
  pose proof early_runs as F. destruct early_run as [[c tr]|] eqn:E; [|contradiction]. exists c, tr.
  unfold early_facts in F. injection F as F1 F2 F3 F4. rewrite F1.
  split; [split; [|exact E]; clear; vm_compute; repeat (split; [intros X; discriminate X|]); exact I|].
  split; [|split; [|split; [intros t H; apply Z.leb_le, H|auto]]].
  - apply (clocked_go _ _ _ 150); [reflexivity|lia|]. cbn [Net.nstep Net.ngo Net.nq0 Net.n_loc existsb is_dial fst snd orb].
    refine (clocked_dial _ _ _ 150 _ _ None [-1000 * ms; -749 * ms; -498 * ms] (-497 * ms) true [PConn (-497 * ms)] _ _ _ _ _ _ _); [lia|vm_compute; reflexivity..|vm_compute; discriminate|vm_compute; discriminate|].
    apply (clocked_go _ _ _ 150); [lia|lia|]. cbn [Net.nstep Net.ndial Net.ngo Net.n_loc Net.n_conn existsb is_dial fst snd orb].
    apply clocked_send; [unfold ms; lia|]. apply (clocked_go _ _ _ 150); [unfold ms; lia|lia|]. apply (clocked_go _ _ _ 150); [lia|lia|]. apply clocked_nil.
  - intros t. unfold early_net. cbn [dial_takes]. unfold millisecond. lia.
Qed.
Print Assumptions C118_nothing_lost. Print Assumptions C118_few_messages.
