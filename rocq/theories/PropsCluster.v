(** Statements about several nodes that talk to each other. *)
From Coq Require Import ZArith List Lia Bool Permutation.
From Coq Require Import Init.Byte.
From Verif Require Import Params Bytes Res Secp Dto Dss Prot ProtSpec ProtProofs TimeSpec TimeProofs DkgProt KMap Firewall FwSpec FwProofs NetSpec Outputs Node NodeSpec NodeRun NodeProofs NodeProofs2 NodeProofs3
  ObjSpec ObjProofs ObjProofs2 ObjProofs3 ReachSpec ReachProofs ReachProofs2 Cluster ClusterSpec ClusterProofs ClusterProofs2.
From Verif Require Net NetProofs.
Import ListNotations.
Open Scope Z_scope.

Section Statements.
  Context {G : Type}.
  Variable ky : kyber G.
  Variable keccak : bytes -> bytes.
  Variable pshash : Z -> Z -> bytes.
  Variable places : list place.
  Variable home : Z -> option nat.
  Notation message := (message payload).
  Notation chistory := (chistory ky keccak pshash places home).
  Variables (t0 : Z) (evs : list (cevent (G := G))) (c : cluster (G := G)) (tr : list (cobs (G := G))).

  (** ** C97.  Each process goes through a history of a node by its own clock: all that is proved of a node holds of each process. *)
  Theorem C97_processes i p : chistory t0 evs c tr -> nth_error places i = Some p ->
    exists n, nhistory ky keccak pshash (pl_su p) (pl_until p) (pl_begin p) (events_at i tr) n (trace_at i tr) /\
      (nth_error (c_nodes c) i = Some None \/ nth_error (c_nodes c) i = Some (Some n)).
  Proof. intros HC. apply (cluster_node _ _ _ _ _ _ _ _ _ HC). Qed.

  (** Each outgoing queue goes through a history of a queue, and what is put in it is what the runs of its process, protocol
      and guest sent to its member, in this order: C67 to C69 hold of it. *)
  Theorem C97_queues l : chistory t0 evs c tr ->
    Net.nexec Net.nq0 (lane_events l tr) = (c_lanes c l, lane_trace l tr) /\
    put_in (lane_events l tr) = sent_to (l_pc l) (l_from l) (l_to l) (trace_at (l_at l) tr).
  Proof. intros HC. destruct (history_ci _ _ _ _ _ _ _ _ _ HC) as (T & CI1). split; [exact (ci_lane _ _ _ _ _ _ _ _ _ _ CI1 l)|exact (ci_sends _ _ _ _ _ _ _ _ _ _ CI1 l)]. Qed.

  (** What comes in by calls of a queue comes in at the process that listens for its member, and it is among what runs sent to that
      member: nothing is made up, altered or doubled.  What comes in by the calls that succeeded comes in in the order sent. *)
  Theorem C97_arrivals l : chistory t0 evs c tr -> let sent := sent_to (l_pc l) (l_from l) (l_to l) (trace_at (l_at l) tr) in
    (forall j org ev os, In (XNode j org ev os) tr -> org = Via l \/ org = Late l -> home (l_to l) = Some j /\ exists t m, ev = VIn t m) /\
    among (came_by l tr) sent /\ came_via l tr = called_with true (lane_trace l tr) /\ subseq (came_via l tr) sent.
  Proof.
    intros HC sent. destruct (history_ci _ _ _ _ _ _ _ _ _ HC) as (T & CI1). split; [|split; [exact (by_sent _ _ _ _ _ _ _ _ _ HC l)|]].
    - intros j org ev os HI HO. pose proof (ci_home _ _ _ _ _ _ _ _ _ _ CI1 _ _ _ _ HI) as X. destruct HO as [-> | ->]; exact X.
    - pose proof (ci_via _ _ _ _ _ _ _ _ _ _ CI1 l) as EV. cbn [sel flat_map] in EV. rewrite app_nil_r in EV. split; [exact EV|]. rewrite EV.
      eapply NetProofs.subseq_trans; [apply with_called|exact (calls_sent _ _ _ _ _ _ _ _ _ HC l)].
  Qed.

  (** From run to run.  If only process [i] has guest [a], the run [id] of member [b] is asked for at most once in process [j], and nothing
      comes in from outside for it in the name of [a], then what that run receives in the name of [a] is among what the run [id] of [a]
      sent to [b]; and it receives it in the order sent, if no call of that queue failed.  (The signal that removes a finished run is a
      message of a key generation from sender 0.) *)
  Theorem C97_run_to_run i j p q a b pc id x k0 h : chistory t0 evs c tr -> nth_error places i = Some p -> nth_error places j = Some q ->
    (forall i' p', nth_error places i' = Some p' -> In a (su_guests (pl_su p')) -> i' = i) ->
    NoDup (su_guests (pl_su q)) -> pc = pc_dss \/ (pc = pc_dkg /\ a <> 0) -> (requests_for (mkKey pc b id) (events_at j tr) <= 1)%nat ->
    lives ky keccak pshash (pl_su q) (start_node (pl_su q) (pl_until q) (pl_begin q)) (events_at j tr) x (mkKey pc b id) k0 h ->
    (forall m, In m (from_outside j tr) -> key_of m = mkKey pc b id -> m_sender m <> a) ->
    let got := filter (fun m => m_sender m =? a) (received (untimed h)) in
    let sent := filter (fun m => m_rcpt m =? b) (sent (run_trace (mkKey pc a id) (trace_at i tr))) in
    among got sent /\ (called_with false (lane_trace (mkLane i pc a b) tr) = [] -> subseq got sent).
  Proof.
    intros HC EP EQ ON ND PC RQ HL OUT got snt. destruct (cluster_node _ _ _ _ _ _ _ _ _ HC _ _ EP) as (n & HN & _). destruct (cluster_node _ _ _ _ _ _ _ _ _ HC _ _ EQ) as (n' & HN' & _).
    assert (S1 : subseq got (filter (fun m => bytes_eqb (m_run m) id) (came_by (mkLane i pc a b) tr))).
    { eapply NetProofs.subseq_trans; [|exact (arrivals_from _ _ _ _ _ _ _ _ _ HC i j a b pc id ON OUT)].
      refine (received_came _ _ _ _ _ _ _ _ _ _ _ _ _ _ HN' ND RQ _ _ HL).
      - destruct PC as [->|[-> _]]; discriminate.
      - destruct PC as [->|[-> NZ]]; [left; reflexivity|right]. intros m -> _. apply Z.eqb_neq. congruence. }
    assert (S2 : filter (fun m => bytes_eqb (m_run m) id) (sent_to pc a b (trace_at i tr)) = snt) by (eapply sent_by_run, HN). split.
    - eapply among_trans; [apply among_subseq, S1|]. rewrite <- S2. apply among_filter. exact (by_sent _ _ _ _ _ _ _ _ _ HC (mkLane i pc a b)).
    - intros NF. eapply NetProofs.subseq_trans; [exact S1|]. rewrite <- S2. apply subseq_filter. exact (via_order _ _ _ _ _ _ _ _ _ HC (mkLane i pc a b) NF).
  Qed.
  (** The same for the messages of one stage, if it is not the first: then it also holds of a key generation and sender 0. *)
  Theorem C97_stage_to_stage op i j p q a b pc id x k0 h : chistory t0 evs c tr -> nth_error places i = Some p -> nth_error places j = Some q ->
    (forall i' p', nth_error places i' = Some p' -> In a (su_guests (pl_su p')) -> i' = i) ->
    NoDup (su_guests (pl_su q)) -> pc = pc_dss \/ pc = pc_dkg -> op <> 0 -> (requests_for (mkKey pc b id) (events_at j tr) <= 1)%nat ->
    lives ky keccak pshash (pl_su q) (start_node (pl_su q) (pl_until q) (pl_begin q)) (events_at j tr) x (mkKey pc b id) k0 h ->
    (forall m, In m (from_outside j tr) -> key_of m = mkKey pc b id -> m_sender m <> a) ->
    let got := for_op op (filter (fun m => m_sender m =? a) (received (untimed h))) in
    let sent := for_op op (filter (fun m => m_rcpt m =? b) (sent (run_trace (mkKey pc a id) (trace_at i tr)))) in
    among got sent /\ (called_with false (lane_trace (mkLane i pc a b) tr) = [] -> subseq got sent).
  Proof.
    intros HC EP EQ ON ND PC NZ RQ HL OUT got snt. destruct (cluster_node _ _ _ _ _ _ _ _ _ HC _ _ EP) as (n & HN & _). destruct (cluster_node _ _ _ _ _ _ _ _ _ HC _ _ EQ) as (n' & HN' & _).
    assert (FF : forall l : list message, filter (fun m => (m_sender m =? a) && (m_op m =? op)) l = for_op op (filter (fun m => m_sender m =? a) l)).
    { intros l. unfold for_op. induction l as [|m l IH]; [reflexivity|]. cbn [filter]. destruct (m_sender m =? a); cbn [andb]; [|exact IH]. cbn [filter]. destruct (m_op m =? op); rewrite IH; reflexivity. }
    assert (S1 : subseq got (for_op op (filter (fun m => bytes_eqb (m_run m) id) (came_by (mkLane i pc a b) tr)))).
    { eapply NetProofs.subseq_trans; [|exact (subseq_filter (fun m => m_op m =? op) _ _ (arrivals_from _ _ _ _ _ _ _ _ _ HC i j a b pc id ON OUT))].
      change (filter (fun m => m_op m =? op)) with (@for_op payload op). unfold got. rewrite <- !FF.
      refine (received_came _ _ _ _ _ _ _ _ _ _ _ _ _ _ HN' ND RQ _ _ HL).
      - destruct PC as [->| ->]; discriminate.
      - right. intros m _ E0. apply andb_false_iff. right. apply Z.eqb_neq. congruence. }
    assert (S2 : for_op op (filter (fun m => bytes_eqb (m_run m) id) (sent_to pc a b (trace_at i tr))) = snt) by (unfold snt; apply f_equal; eapply sent_by_run, HN). split.
    - eapply among_trans; [apply among_subseq, S1|]. rewrite <- S2. unfold for_op. apply among_filter, among_filter. exact (by_sent _ _ _ _ _ _ _ _ _ HC (mkLane i pc a b)).
    - intros NF. eapply NetProofs.subseq_trans; [exact S1|]. rewrite <- S2. apply subseq_filter, subseq_filter. exact (via_order _ _ _ _ _ _ _ _ _ HC (mkLane i pc a b) NF).
  Qed.
End Statements.

(** Members 0 and 1 in two processes whose clocks differ by 2 ms; a signing run.  What the run of 0 sends to 1 goes by a call that
    succeeds; what the run of 1 sends to 0 by one that fails, and comes in later.  Both runs receive what the other sent. *)
Definition pair_ky : kyber Z := mkKyber Z
  (fun g => (g, Some [])) (fun g d => (g, Some None)) (fun g r => (g, None)) (fun g j => g) (fun g => g)
  (fun g => true) (fun g => [0; 1]) (fun g => (g, Some (mkCommits g [] [] []))) (fun g c => (g, None)) (fun g c => (g, None))
  (fun g r => g) (fun g => true) (fun g => Some (mkDks [] (mkPri 0 1))).
Definition pair_su (i : Z) : setup := mkSetup [i] [(1, 1); (1, 1)] 1 2 (fun _ => 3) (fun _ => None).
Definition pair_places : list place := [mkPlace (pair_su 0) (-20 * ms) (-20 * ms) 0; mkPlace (pair_su 1) (-20 * ms) (-20 * ms) (2 * ms)].
Definition pair_home (b : Z) : option nat := if b =? 0 then Some 0%nat else if b =? 1 then Some 1%nat else None.
Definition pair_ord : Z -> list (Z * Z) -> list (Z * Z) := fun _ l => l.
Definition pair_k (i : Z) : key := mkKey pc_dss i (run_id_for [x61] 0).
Definition pair_lane (i : Z) : lane := mkLane (Z.to_nat i) pc_dss i (1 - i).
Definition pair_own (t : Z) (f : Z -> Z -> nevent (G := Z)) : list (cevent (G := Z)) := [COwn 0 (f 0 (t * ms)); COwn 1 (f 1 (t * ms + 2 * ms))].
Definition pair_evs : list (cevent (G := Z)) :=
  pair_own (-10) (fun i t => VRequest t [x61] 0 (Some 10)) ++ pair_own (-10) (fun i t => VGo t 0 i) ++ pair_own (-10) (fun i t => VGuest t 0 i i) ++ pair_own (-10) (fun i t => VFw t (pair_k i) 0) ++
  pair_own (-5) (fun i t => VFw t (pair_k i) 0) ++ pair_own (-5) (fun i t => VGuest t 0 i i) ++ pair_own 0 (fun i t => VFw t (pair_k i) 0) ++ pair_own 0 (fun i t => VGuest t 0 i i) ++
  flat_map (fun t => pair_own t (fun _ t => VTick t 0 9 pair_ord)) [0; 0; 25; 30; 100; 105; 175; 180; 250; 255; 275; 280] ++
  flat_map (fun i => let t := 300 * ms in [CGo t (pair_lane i) true; CDial t (pair_lane i) true; CGo t (pair_lane i) true; CGo t (pair_lane i) true; CGo t (pair_lane i) (i =? 0)]) [0; 1] ++
  [CLate (310 * ms) 0] ++ pair_own 310 (fun i t => VTake t pc_dss i 1) ++ pair_own 310 (fun i t => VDeliver t pc_dss i 9 pair_ord).
Local Notation pair_run := (cexec pair_ky (fun b : bytes => b) (fun _ _ : Z => ([] : bytes)) pair_places pair_home (start_cluster pair_places) pair_evs).
Example C97_ex : exists c tr, let kk := (fun b : bytes => b) in let ph := (fun _ _ : Z => ([] : bytes)) in chistory pair_ky kk ph pair_places pair_home (-20 * ms) pair_evs c tr /\
  called_with false (lane_trace (pair_lane 0) tr) = [] /\ called_with false (lane_trace (pair_lane 1) tr) <> [] /\
  forall i, i = 0 \/ i = 1 -> let j := Z.to_nat (1 - i) in exists p q k0 h m,
    nth_error pair_places (Z.to_nat i) = Some p /\ nth_error pair_places j = Some q /\ (forall i' p', nth_error pair_places i' = Some p' -> In i (su_guests (pl_su p')) -> i' = Z.to_nat i) /\
    NoDup (su_guests (pl_su q)) /\ (requests_for (pair_k (1 - i)) (events_at j tr) <= 1)%nat /\
    lives pair_ky kk ph (pl_su q) (start_node (pl_su q) (pl_until q) (pl_begin q)) (events_at j tr) 0 (pair_k (1 - i)) k0 h /\
    (forall m, In m (from_outside j tr) -> key_of m = pair_k (1 - i) -> m_sender m <> i) /\
    came_by (pair_lane i) tr = [m] /\ filter (fun m => m_sender m =? i) (received (untimed h)) = [m] /\ filter (fun m => m_rcpt m =? 1 - i) (sent (run_trace (pair_k i) (trace_at (Z.to_nat i) tr))) = [m].
Proof.
  assert (X : match pair_run with Some _ => true | None => false end = true) by (vm_compute; reflexivity). destruct pair_run as [[c tr]|] eqn:E; [clear X|discriminate X]. exists c, tr. cbv zeta. split.
  { split; [|exact E]. clear. vm_compute. repeat (split; [intros X; discriminate X|]). exact I. }

  assert (ET : option_map snd pair_run = Some tr) by (rewrite E; reflexivity). clear E. vm_compute in ET. injection ET as <-. split; [vm_compute; reflexivity|]. split; [vm_compute; discriminate|].
  assert (ON : forall i, i = 0 \/ i = 1 -> forall i' p', nth_error pair_places i' = Some p' -> In i (su_guests (pl_su p')) -> i' = Z.to_nat i).
  { intros i Hi [|[|i']] p' EP HI; cbn in EP; [| |destruct i'; discriminate]; injection EP as <-; cbn in HI; destruct HI as [<-|[]]; reflexivity. }
  assert (ND : forall i : Z, NoDup [i]) by (intros i; constructor; [intros []|constructor]).
  intros i Hi. destruct Hi as [-> | ->].
  - eexists _, _, (new_kd (pair_su 1) (pair_k 1) 1), _, _. split; [reflexivity|]. split; [reflexivity|]. split; [exact (ON 0 (or_introl eq_refl))|]. split; [apply ND|]. split; [vm_compute; lia|].
    split; [split; [reflexivity|]|].
    { match goal with |- exists a ev b n tr n' o, ?l = _ /\ _ => exists (firstn 7 l), (nth 7 l (VUndrop 0)), (skipn 8 l) end. eexists _, _, _, _. split; [vm_compute; reflexivity|]. split; [vm_compute; reflexivity|]. split; [vm_compute; reflexivity|]. split; vm_compute; reflexivity. }
    split; [intros m HI; vm_compute in HI; destruct HI|]. split; [vm_compute; reflexivity|]. split; vm_compute; reflexivity.
  - eexists _, _, (new_kd (pair_su 0) (pair_k 0) 0), _, _. split; [reflexivity|]. split; [reflexivity|]. split; [exact (ON 1 (or_intror eq_refl))|]. split; [apply ND|]. split; [vm_compute; lia|].
    split; [split; [reflexivity|]|].
    { match goal with |- exists a ev b n tr n' o, ?l = _ /\ _ => exists (firstn 7 l), (nth 7 l (VUndrop 0)), (skipn 8 l) end. eexists _, _, _, _. split; [vm_compute; reflexivity|]. split; [vm_compute; reflexivity|]. split; [vm_compute; reflexivity|]. split; vm_compute; reflexivity. }
    split; [intros m HI; vm_compute in HI; destruct HI|]. split; [vm_compute; reflexivity|]. split; vm_compute; reflexivity.
Qed.

Print Assumptions C97_processes. Print Assumptions C97_queues. Print Assumptions C97_arrivals. Print Assumptions C97_run_to_run. Print Assumptions C97_stage_to_stage.
