(** Executions of two processes put together from executions of each. *)
From Coq Require Import ZArith List Lia Bool Permutation.
From Verif Require Import Params Bytes Res Dto Prot DkgProt KMap Firewall FwSpec NetSpec Outputs Node NodeSpec ReachSpec Cluster ClusterSpec ClusterProofs ClusterProofs2 ClusterProofs3.
From Verif Require Net NetProofs.
Import ListNotations.
Open Scope Z_scope.

Section Two.
  Context {G : Type}.
  Variable ky : kyber G.
  Variable keccak : bytes -> bytes.
  Variable pshash : Z -> Z -> bytes.
  Variables p0 p1 : place.
  Variable home : Z -> option nat.
  Notation places := [p0; p1].
  Notation message := (message payload). Notation nevent := (nevent (G := G)). Notation node := (node (G := G)).
  Notation cobs := (cobs (G := G)). Notation cluster := (cluster (G := G)).
  Notation step_node := (step_node ky keccak pshash places).
  Notation cstep := (cstep ky keccak pshash places home).
  Notation cexec := (cexec ky keccak pshash places home).
  Notation nexec p := (nexec ky keccak pshash (pl_su p)). Notation nstep p := (nstep ky keccak pshash (pl_su p)).
  Implicit Types (tr : list cobs) (c : cluster).

  Lemma cexec_app a : forall b c c1 o1 c2 o2, cexec c a = Some (c1, o1) -> cexec c1 b = Some (c2, o2) -> cexec c (a ++ b) = Some (c2, o1 ++ o2).
  Proof.
    induction a as [|ev a IH]; intros b c c1 o1 c2 o2; cbn [app Cluster.cexec].
    - intros E. injection E as <- <-. auto.
    - destruct (cstep c ev) as [[c3 o3]|]; [|discriminate]. cbn [fst snd]. destruct (cexec c3 a) as [[c4 o4]|] eqn:E4; [|discriminate]. cbn [fst snd]. intros E E2. injection E as <- <-.
      rewrite (IH _ _ _ _ _ _ E4 E2). cbn [fst snd]. rewrite app_assoc. reflexivity.
  Qed.
  (** Only sends, in every lane. *)
  Definition only_sends (o : list cobs) : Prop := forall l, lane_events l o = map Net.EvSend (put_in (lane_events l o)).
  Lemma send_all_only ls : forall c now c' o, send_all c now ls = (c', o) -> only_sends o.
  Proof.
    induction ls as [|[l1 m] ls IH]; intros c now c' o; cbn [send_all]; [intros E; injection E as <- <-; intros l; reflexivity|].
    destruct (step_lane c now l1 (Net.EvSend m)) as [c1 o1] eqn:E1. apply step_lane_eff in E1. destruct E1 as (_ & _ & -> & _). cbn [fst snd].
    destruct (send_all c1 now ls) as [c2 o2] eqn:E2. cbn [fst snd]. intros E. injection E as <- <-. intros l. specialize (IH _ _ _ _ E2 l).
    change (?x :: o2) with ([x] ++ o2). rewrite levents_app, put_in_app, map_app, <- IH. f_equal. cbn [lane_events flat_map]. destruct (lane_eqb l1 l); reflexivity.
  Qed.
  Lemma only_join a b : only_sends a -> only_sends b -> only_sends (a ++ b).
  Proof. intros A B l. rewrite levents_app, put_in_app, map_app, <- A, <- B. reflexivity. Qed.
  Lemma only_nil : only_sends []. Proof. intros l. reflexivity. Qed.

  Definition pick (i : nat) (prs : list (nat * nevent)) : list nevent := flat_map (fun x => if Nat.eqb (fst x) i then [snd x] else []) prs.
  Definition owns (prs : list (nat * nevent)) : list (cevent (G := G)) := map (fun x => COwn (fst x) (snd x)) prs.
  Definition due (x : nat * nevent) : Prop := match fst x with 0%nat => pl_begin p0 <= ntime (snd x) | 1%nat => pl_begin p1 <= ntime (snd x) | _ => False end.

  (** One step of a process. *)
  Lemma node_step c i p n org ev n' os : nth_error places i = Some p -> nth_error (c_nodes c) i = Some (Some n) -> pl_begin p <= ntime ev -> nstep p n ev = Ok (n', os) ->
    exists c' o, step_node c i org ev = Some (c', XNode i org ev os :: o) /\ c_nodes c' = put (c_nodes c) i (Some n') /\ c_stray c' = c_stray c /\ only_sends o /\
      (forall j, events_at j o = [] /\ trace_at j o = []) /\ (forall j org' ev' os', ~ In (XNode j org' ev' os') o) /\
      forall l, Net.nexec (c_lanes c l) (lane_events l o) = (c_lanes c' l, lane_trace l o) /\ put_in (lane_events l o) = sel l (sends_of i os).
  Proof.
    intros EP EN LE ES. unfold Cluster.step_node. rewrite EP, EN. destruct (Z.ltb_spec (ntime ev) (pl_begin p)); [lia|]. rewrite ES. cbn [fst snd].
    destruct (send_all _ _ _) as [c2 o2] eqn:E2. cbn [fst snd]. exists c2, o2. pose proof (send_all_only _ _ _ _ _ E2) as ON. destruct (send_all_eff _ _ _ _ _ E2) as (A1 & A2 & A3 & _ & A5 & A6).
    split; [reflexivity|]. split; [exact A1|]. split; [exact A2|]. split; [exact ON|]. split; [exact A3|]. split; [exact A5|]. intros l. destruct (A6 l) as (B1 & B2 & _). split; [exact B1|exact B2].
  Qed.

  (** Processes do steps of their own, in any order. *)
  Lemma owns_run prs : forall c n0 n1 n0' n1' o0 o1, c_nodes c = [Some n0; Some n1] -> Forall due prs -> nexec p0 n0 (pick 0 prs) = Ok (n0', o0) -> nexec p1 n1 (pick 1 prs) = Ok (n1', o1) ->
    exists c' tr, cexec c (owns prs) = Some (c', tr) /\ c_nodes c' = [Some n0'; Some n1'] /\
      events_at 0 tr = pick 0 prs /\ events_at 1 tr = pick 1 prs /\ trace_at 0 tr = o0 /\ trace_at 1 tr = o1 /\ only_sends tr /\
      (forall l, Net.nexec (c_lanes c l) (lane_events l tr) = (c_lanes c' l, lane_trace l tr)) /\ (forall j org ev os, In (XNode j org ev os) tr -> org = Own).
  Proof.
    induction prs as [|[i ev] prs IH]; intros c n0 n1 n0' n1' o0 o1 EN FD; cbn [pick flat_map fst snd owns map Cluster.cexec].
    - cbn. intros E0 E1. injection E0 as <- <-. injection E1 as <- <-. exists c, []. split; [reflexivity|]. split; [exact EN|]. repeat (split; [reflexivity|]). split; [exact only_nil|].
      split; [intros l; reflexivity|]. intros j org ev os [].
    - inversion FD as [|? ? D1 D2]; subst. cbn in D1. destruct i as [|[|i]]; [| |destruct D1]; cbn [Nat.eqb app].
      + intros E0 E1. cbn [Node.nexec] in E0. destruct (nstep p0 n0 ev) as [[m0 x0]| |] eqn:ES; cbn [rbind] in E0; try discriminate. cbn [fst snd] in E0.
        destruct (nexec p0 m0 _) as [[m0' x0']| |] eqn:EX; cbn [rbind fst snd] in E0; try discriminate. injection E0 as <- <-.
        destruct (node_step c 0 p0 n0 Own ev m0 x0 eq_refl ltac:(rewrite EN; reflexivity) D1 ES) as (c1 & o & S1 & S2 & S3 & S4 & S5 & S6 & S7).
        cbn [Cluster.cstep]. rewrite S1. cbn [fst snd]. rewrite EN in S2. cbn [put] in S2.
        destruct (IH _ _ _ _ _ _ _ S2 D2 EX E1) as (c' & tr & R1 & R2 & R3 & R4 & R5 & R6 & R7 & R8 & R9). unfold owns in R1. rewrite R1. cbn [fst snd].
        exists c', ((XNode 0 Own ev x0 :: o) ++ tr). split; [reflexivity|]. split; [exact R2|].
        change (XNode 0 Own ev x0 :: o) with ([XNode 0 Own ev x0] ++ o). rewrite <- app_assoc, !events_app, !trace_app, R3, R4, R5, R6. destruct (S5 0%nat) as [-> ->]. destruct (S5 1%nat) as [-> ->].
        cbn [events_at trace_at flat_map Nat.eqb app]. rewrite !app_nil_r. split; [reflexivity|]. split; [reflexivity|]. split; [reflexivity|]. split; [reflexivity|].
        split; [change (XNode 0 Own ev x0 :: o ++ tr) with ([XNode 0 Own ev x0] ++ o ++ tr); apply only_join; [intros l; reflexivity|apply only_join; assumption]|]. split.
        * intros l. change (XNode 0 Own ev x0 :: o ++ tr) with ([XNode 0 Own ev x0] ++ o ++ tr). rewrite !levents_app, !ltrace_app. cbn [lane_events lane_trace flat_map app]. rewrite net_app. destruct (S7 l) as [-> _]. cbn [fst snd]. rewrite R8. reflexivity.
        * intros j org e os [H|H]; [congruence|]. apply in_app_or in H. destruct H as [H|H]; [destruct (S6 _ _ _ _ H)|exact (R9 _ _ _ _ H)].
      + intros E0 E1. cbn [Node.nexec] in E1. destruct (nstep p1 n1 ev) as [[m0 x0]| |] eqn:ES; cbn [rbind] in E1; try discriminate. cbn [fst snd] in E1.
        destruct (nexec p1 m0 _) as [[m0' x0']| |] eqn:EX; cbn [rbind fst snd] in E1; try discriminate. injection E1 as <- <-.
        destruct (node_step c 1 p1 n1 Own ev m0 x0 eq_refl ltac:(rewrite EN; reflexivity) D1 ES) as (c1 & o & S1 & S2 & S3 & S4 & S5 & S6 & S7).
        cbn [Cluster.cstep]. rewrite S1. cbn [fst snd]. rewrite EN in S2. cbn [put] in S2.
        destruct (IH _ _ _ _ _ _ _ S2 D2 E0 EX) as (c' & tr & R1 & R2 & R3 & R4 & R5 & R6 & R7 & R8 & R9). unfold owns in R1. rewrite R1. cbn [fst snd].
        exists c', ((XNode 1 Own ev x0 :: o) ++ tr). split; [reflexivity|]. split; [exact R2|].
        change (XNode 1 Own ev x0 :: o) with ([XNode 1 Own ev x0] ++ o). rewrite <- app_assoc, !events_app, !trace_app, R3, R4, R5, R6. destruct (S5 0%nat) as [-> ->]. destruct (S5 1%nat) as [-> ->].
        cbn [events_at trace_at flat_map Nat.eqb app]. rewrite !app_nil_r. split; [reflexivity|]. split; [reflexivity|]. split; [reflexivity|]. split; [reflexivity|].
        split; [change (XNode 1 Own ev x0 :: o ++ tr) with ([XNode 1 Own ev x0] ++ o ++ tr); apply only_join; [intros l; reflexivity|apply only_join; assumption]|]. split.
        * intros l. change (XNode 1 Own ev x0 :: o ++ tr) with ([XNode 1 Own ev x0] ++ o ++ tr). rewrite !levents_app, !ltrace_app. cbn [lane_events lane_trace flat_map app]. rewrite net_app. destruct (S7 l) as [-> _]. cbn [fst snd]. rewrite R8. reflexivity.
        * intros j org e os [H|H]; [congruence|]. apply in_app_or in H. destruct H as [H|H]; [destruct (S6 _ _ _ _ H)|exact (R9 _ _ _ _ H)].
  Qed.

  (** A lane makes no call that succeeds. *)
  Definition lane_ev (now : Z) (l : lane) (e : bool * bool) : cevent (G := G) := if fst e then CDial now l (snd e) else CGo now l (snd e).
  Definition net_ev (e : bool * bool) : Net.nevent message := if fst e then Net.EvDial (snd e) else Net.EvGo (snd e).
  Lemma lane_run now l evs : forall c, alive c (l_at l) = true -> called_with true (snd (Net.nexec (c_lanes c l) (map net_ev evs))) = [] ->
    exists c' tr, cexec c (map (lane_ev now l) evs) = Some (c', tr) /\ c_nodes c' = c_nodes c /\
      (forall j, events_at j tr = [] /\ trace_at j tr = []) /\ lane_events l tr = map net_ev evs /\ (forall l', l' <> l -> lane_events l' tr = []) /\
      (forall l', Net.nexec (c_lanes c l') (lane_events l' tr) = (c_lanes c' l', lane_trace l' tr)) /\ (forall j org ev os, ~ In (XNode j org ev os) tr).
  Proof.
    induction evs as [|e evs IH]; intros c AL NC.
    - exists c, []. split; [reflexivity|]. split; [reflexivity|]. split; [split; reflexivity|]. split; [reflexivity|]. split; [reflexivity|]. split; [reflexivity|intros j org ev os []].
    - cbn [map Net.nexec fst snd] in NC. rewrite called_app in NC. apply app_eq_nil in NC. destruct NC as [NC1 NC2].
      assert (ST : exists c1, cstep c (lane_ev now l e) = Some (c1, [XLane now l (net_ev e) (snd (Net.nstep (c_lanes c l) (net_ev e)))]) /\ c_nodes c1 = c_nodes c /\
        forall l', c_lanes c1 l' = if lane_eqb l' l then fst (Net.nstep (c_lanes c l) (net_ev e)) else c_lanes c l').
      { destruct e as [[|] ok]; unfold lane_ev, net_ev in *; cbn [fst snd] in *; cbn [Cluster.cstep]; rewrite AL.
        - eexists. split; [reflexivity|]. split; [reflexivity|]. reflexivity.
        - cbn [Net.nstep] in NC1. destruct (call_in (snd (Net.ngo (c_lanes c l) ok))) as [[m [|]]|] eqn:EC.
          + exfalso. destruct (snd (Net.ngo (c_lanes c l) ok)) as [|[] ?]; try discriminate EC. injection EC as -> ->. discriminate NC1.
          + eexists. split; [reflexivity|]. split; reflexivity.
          + eexists. split; [reflexivity|]. split; reflexivity. }
      destruct ST as (c1 & S1 & S2 & S3).
      assert (EL : c_lanes c1 l = fst (Net.nstep (c_lanes c l) (net_ev e))) by (rewrite S3, lane_eqb_refl; reflexivity).
      destruct (IH c1) as (c' & tr & R1 & R2 & R3 & R4 & R5 & R6 & R7).
      { unfold alive in *. rewrite S2. exact AL. }
      { rewrite EL. exact NC2. }
      cbn [map Cluster.cexec]. rewrite S1. cbn [fst snd]. rewrite R1. cbn [fst snd]. eexists c', _. split; [reflexivity|]. split; [congruence|]. split; [|split; [|split; [|split]]].
      + intros j. rewrite events_app, trace_app. destruct (R3 j) as [-> ->]. split; reflexivity.
      + rewrite levents_app, R4. cbn [lane_events flat_map]. rewrite lane_eqb_refl. reflexivity.
      + intros l' N. rewrite levents_app, (R5 _ N). cbn [lane_events flat_map]. destruct (lane_eqb_spec l l'); [congruence|reflexivity].
      + intros l'. rewrite levents_app, ltrace_app. cbn [lane_events lane_trace flat_map]. destruct (lane_eqb_spec l l') as [<-|N].
        * cbn [app Net.nexec fst snd]. rewrite <- EL, R6, app_nil_r. reflexivity.
        * cbn [app]. rewrite <- R6, S3. destruct (lane_eqb_spec l' l); [congruence|reflexivity].
      + intros j org ev os H. cbn [app In] in H. destruct H as [H|H]; [discriminate|exact (R7 _ _ _ _ H)].
  Qed.

  (** A call that succeeds. *)
  Lemma call_step c now l j p n m n' os : c_nodes c <> [] -> alive c (l_at l) = true -> home (l_to l) = Some j -> nth_error places j = Some p -> nth_error (c_nodes c) j = Some (Some n) -> snd (Net.ngo (c_lanes c l) true) = [Net.NCall m true] ->
    let ev := VIn (now + pl_skew p) m in pl_begin p <= now + pl_skew p -> nstep p n ev = Ok (n', os) ->
    exists c' o, cstep c (CGo now l true) = Some (c', XLane now l (Net.EvGo true) [Net.NCall m true] :: XNode j (Via l) ev os :: o) /\ c_nodes c' = put (c_nodes c) j (Some n') /\ only_sends o /\
      (forall j, events_at j o = [] /\ trace_at j o = []) /\ (forall j org' ev' os', ~ In (XNode j org' ev' os') o) /\
      forall l', Net.nexec (c_lanes c l') (lane_events l' (XLane now l (Net.EvGo true) [Net.NCall m true] :: XNode j (Via l) ev os :: o)) = (c_lanes c' l', lane_trace l' (XLane now l (Net.EvGo true) [Net.NCall m true] :: XNode j (Via l) ev os :: o)) /\
        put_in (lane_events l' o) = sel l' (sends_of j os).
  Proof.
    intros _ AL EH EP EN EC ev LE ES. cbn [Cluster.cstep]. rewrite AL, EC. cbn [call_in]. rewrite EH. unfold skew_of. rewrite EP.
    destruct (step_lane c now l (Net.EvGo true)) as [c1 o1] eqn:E1. pose proof (step_lane_eff _ _ _ _ _ _ E1) as (A1 & A2 & A3 & A4). cbn [Net.nstep] in A3. rewrite EC in A3. subst o1. cbn [fst snd].
    destruct (node_step c1 j p n (Via l) ev n' os EP ltac:(rewrite A1; exact EN) LE ES) as (c' & o & S1 & S2 & S3 & S4 & S5 & S6 & S7).
    change (VIn (now + pl_skew p) m) with ev. rewrite S1. cbn [fst snd]. exists c', o. split; [reflexivity|]. split; [rewrite <- A1; exact S2|]. split; [exact S4|]. split; [exact S5|]. split; [exact S6|].
    intros l'. destruct (S7 l') as [S8 S9]. split; [|exact S9].
    change (?x :: ?y :: o) with ([x] ++ [y] ++ o). rewrite !levents_app, !ltrace_app. cbn [lane_events lane_trace flat_map] in *. specialize (A4 l'). rewrite net_app, A4. cbn [fst snd app]. rewrite S8. reflexivity.
  Qed.

  (** The time of what happens in lanes. *)
  Lemma send_all_times ls : forall c now c' o, send_all c now ls = (c', o) -> forall t l ev os, In (XLane t l ev os) o -> t = now.
  Proof.
    induction ls as [|[l1 m] ls IH]; intros c now c' o; cbn [send_all]; [intros E; injection E as <- <-; intros t l ev os []|].
    destruct (step_lane c now l1 (Net.EvSend m)) as [c1 o1] eqn:E1. apply step_lane_eff in E1. destruct E1 as (_ & _ & -> & _). cbn [fst snd].
    destruct (send_all c1 now ls) as [c2 o2] eqn:E2. cbn [fst snd]. intros E. injection E as <- <-. intros t l ev os [H|H]; [congruence|exact (IH _ _ _ _ E2 _ _ _ _ H)].
  Qed.
  Lemma node_times c i org ev c' o : step_node c i org ev = Some (c', o) -> forall t l e os, In (XLane t l e os) o -> t = ntime ev - skew_of places i.
  Proof.
    unfold Cluster.step_node, skew_of. destruct (nth_error places i) as [p|]; [|discriminate]. destruct (nth_error (c_nodes c) i) as [[n|]|]; try discriminate.
    destruct (_ <? _); [discriminate|]. destruct (nstep p n ev) as [[n1 o1]| |]; cbn [fst snd]; try discriminate.
    - destruct (send_all _ _ _) as [c2 o2] eqn:E2. cbn [fst snd]. intros E. injection E as <- <-. intros t l e os [H|H]; [discriminate|exact (send_all_times _ _ _ _ _ E2 _ _ _ _ H)].
    - intros E. assert (EO : o = [XDown i org ev]) by (destruct org; [injection E as _ <-|discriminate|injection E as _ <-]; reflexivity). subst o. intros t l e os [H|[]]. discriminate.
  Qed.
  Lemma step_times c ev c' o : cstep c ev = Some (c', o) -> forall t l e os, In (XLane t l e os) o -> t = ctime places ev.
  Proof.
    destruct ev as [i e|now l ok|now l ok|now s]; cbn [Cluster.cstep ctime].
    - apply node_times.
    - destruct (alive _ _); [|discriminate]. intros E. injection E as <- <-. intros t l' e os [H|[]]. congruence.
    - destruct (alive _ _); [|discriminate]. destruct (step_lane c now l (Net.EvGo ok)) as [c1 o1] eqn:E1. apply step_lane_eff in E1. destruct E1 as (_ & _ & -> & _). cbn [fst snd].
      destruct (call_in _) as [[m [|]]|].
      + destruct (home _) as [j|]; [|discriminate]. destruct (step_node c1 _ _ _) as [[c2 o2]|] eqn:E2; [|discriminate]. cbn [fst snd]. intros E. injection E as <- <-.
        intros t l' e os [H|H]; [congruence|]. rewrite (node_times _ _ _ _ _ _ E2 _ _ _ _ H). cbn [ntime]. lia.
      + intros E. injection E as <- <-. intros t l' e os [H|[]]. congruence.
      + intros E. injection E as <- <-. intros t l' e os [H|[]]. congruence.
    - destruct (nth_error _ s) as [[l m]|]; [|discriminate]. destruct (home _) as [j|]; [|discriminate]. intros E t l' e os H. rewrite (node_times _ _ _ _ _ _ E _ _ _ _ H). cbn [ntime]. lia.
  Qed.
  Lemma exec_times evs : forall T c c' o, cclock places T evs -> cexec c evs = Some (c', o) -> forall t l e os, In (XLane t l e os) o -> T <= t.
  Proof.
    induction evs as [|ev evs IH]; intros T c c' o; cbn [cclock Cluster.cexec].
    - intros _ E. injection E as <- <-. intros t l e os [].
    - intros [LT CL]. destruct (cstep c ev) as [[c1 o1]|] eqn:E1; [|discriminate]. cbn [fst snd]. destruct (cexec c1 evs) as [[c2 o2]|] eqn:E2; [|discriminate]. cbn [fst snd]. intros E. injection E as <- <-.
      intros t l e os H. apply in_app_or in H. destruct H as [H|H]; [rewrite (step_times _ _ _ _ E1 _ _ _ _ H); exact LT|]. specialize (IH _ _ _ _ CL E2 _ _ _ _ H). lia.
  Qed.
  Lemma sends_keep (ms : list message) : forall s, Net.n_loc (fst (Net.nexec s (map Net.EvSend ms))) = Net.n_loc s /\ Net.n_msg (fst (Net.nexec s (map Net.EvSend ms))) = Net.n_msg s.
  Proof.
    induction ms as [|m ms IH]; intros s; cbn [map Net.nexec fst]; [split; reflexivity|]. destruct (IH (fst (Net.nstep s (Net.EvSend m)))) as [-> ->].
    cbn [Net.nstep]. unfold Net.nsend. destruct (_ <? _); split; reflexivity.
  Qed.
  (** The consumer of a queue that holds two messages: the call for the first fails, that for the second is next. *)
  Definition to_second : list (bool * bool) :=
    [(false, true); (true, true); (false, true); (false, true); (false, false); (false, true); (false, true); (true, true); (false, true); (false, true)].
  Lemma second (x m : message) : fst (Net.nexec (Net.mkNq [x; m] Net.LTop None false Net.KIdle) (map net_ev to_second)) = Net.mkNq [] Net.LCall (Some m) false Net.KIdle /\
    called_with true (snd (Net.nexec (Net.mkNq [x; m] Net.LTop None false Net.KIdle) (map net_ev to_second))) = [].
  Proof. split; reflexivity. Qed.

  (** Two processes; each has a queue with two messages for the other, the second of which comes in. *)
  Section Compose.
    Variables (A B C1 C0 D : list (nat * nevent)) (T TB T1 T0 : Z) (l01 l10 : lane) (x0 m0 x1 m1 : message).
    Variables (a0 b0 v0 k0 d0 a1 b1 v1 k1 d1 : node) (oa0 ob0 ov0 ok0 od0 oa1 ob1 ov1 ok1 od1 : list nobs).
    Notation st p := (start_node (pl_su p) (pl_until p) (pl_begin p)).
    Hypothesis NA0 : nexec p0 (st p0) (pick 0 A) = Ok (a0, oa0).
    Hypothesis NA1 : nexec p1 (st p1) (pick 1 A) = Ok (a1, oa1).
    Hypothesis NB0 : nexec p0 a0 (pick 0 B) = Ok (b0, ob0).
    Hypothesis NB1 : nexec p1 a1 (pick 1 B) = Ok (b1, ob1).
    Hypothesis NV1 : nstep p1 b1 (VIn (T1 + pl_skew p1) m0) = Ok (v1, ov1).
    Hypothesis NV0 : nstep p0 b0 (VIn (T0 + pl_skew p0) m1) = Ok (v0, ov0).
    Hypothesis NC1 : nexec p1 v1 (pick 1 C1) = Ok (k1, ok1).
    Hypothesis NC0 : nexec p0 v0 (pick 0 C0) = Ok (k0, ok0).
    Hypothesis NC1' : pick 0 C1 = [].
    Hypothesis NC0' : pick 1 C0 = [].
    Hypothesis ND0 : nexec p0 k0 (pick 0 D) = Ok (d0, od0).
    Hypothesis ND1 : nexec p1 k1 (pick 1 D) = Ok (d1, od1).
    Hypothesis DUE : Forall due (A ++ B ++ C1 ++ C0 ++ D).
    Hypothesis DUE1 : pl_begin p1 <= T1 + pl_skew p1.
    Hypothesis DUE0 : pl_begin p0 <= T0 + pl_skew p0.
    Hypothesis L01 : l_at l01 = 0%nat /\ home (l_to l01) = Some 1%nat.
    Hypothesis L10 : l_at l10 = 1%nat /\ home (l_to l10) = Some 0%nat.
    Hypothesis S01 : sent_to (l_pc l01) (l_from l01) (l_to l01) (oa0 ++ ob0) = [x0; m0].
    Hypothesis S10 : sent_to (l_pc l10) (l_from l10) (l_to l10) (oa1 ++ ob1) = [x1; m1].
    Hypothesis V1 : sends_of 1 ov1 = [].
    Definition two_evs : list (cevent (G := G)) :=
      owns A ++ owns B ++ map (lane_ev T1 l01) to_second ++ map (lane_ev T1 l10) to_second ++ [CGo T1 l01 true] ++ owns C1 ++ [CGo T0 l10 true] ++ owns C0 ++ owns D.
    Hypothesis CL : cclock places T two_evs.
    Hypothesis CLB : cclock places TB (owns B ++ map (lane_ev T1 l01) to_second ++ map (lane_ev T1 l10) to_second ++ [CGo T1 l01 true] ++ owns C1 ++ [CGo T0 l10 true] ++ owns C0 ++ owns D).

    Lemma cclock_prefix a : forall t b, cclock (G := G) places t (a ++ b) -> cclock places t a.
    Proof. induction a as [|e a IH]; intros t b; cbn [app cclock]; [intros _; exact I|]. intros [X Y]. split; [exact X|eapply IH, Y]. Qed.

    Lemma compose : exists c tA tB tL tC tR tD,
      let call1 := XLane T1 l01 (Net.EvGo true) [Net.NCall m0 true] in let in1 := XNode 1 (Via l01) (VIn (T1 + pl_skew p1) m0) ov1 in
      let call0 := XLane T0 l10 (Net.EvGo true) [Net.NCall m1 true] in let in0 := XNode 0 (Via l10) (VIn (T0 + pl_skew p0) m1) ov0 in
      let after := (tB ++ tL) ++ (call1 :: in1 :: tC) ++ (call0 :: in0 :: tR) ++ tD in
      chistory ky keccak pshash places home T two_evs c (tA ++ after) /\
      (events_at 0 tA = pick 0 A /\ events_at 1 tA = pick 1 A /\ trace_at 0 tA = oa0 /\ trace_at 1 tA = oa1) /\
      (events_at 0 (tB ++ tL) = pick 0 B /\ events_at 1 (tB ++ tL) = pick 1 B /\ trace_at 0 (tB ++ tL) = ob0 /\ trace_at 1 (tB ++ tL) = ob1) /\
      (events_at 0 tC = [] /\ events_at 1 tC = pick 1 C1 /\ trace_at 0 tC = [] /\ trace_at 1 tC = ok1) /\
      (events_at 0 tR = pick 0 C0 /\ events_at 1 tR = [] /\ trace_at 0 tR = ok0 /\ trace_at 1 tR = []) /\
      (events_at 0 tD = pick 0 D /\ events_at 1 tD = pick 1 D /\ trace_at 0 tD = od0 /\ trace_at 1 tD = od1) /\
      (forall j org ev os, In (XNode j org ev os) (tA ++ (tB ++ tL) ++ tC ++ tR ++ tD) -> org = Own) /\
      (forall t l ev os, In (XLane t l ev os) after -> TB <= t) /\
      forall t l m os, In (XLane t l (Net.EvSend m) os) tA -> In m (sent_to (l_pc l) (l_from l) (l_to l) (trace_at (l_at l) tA)).
    Proof.
      pose proof DUE as DU. rewrite !Forall_app in DU. destruct DU as (DA & DB & DC1 & DC0 & DD).
      destruct (owns_run A (start_cluster places) _ _ _ _ _ _ eq_refl DA NA0 NA1) as (cA & tA & A1 & A2 & A3 & A4 & A5 & A6 & A7 & A8 & A9).
      destruct (owns_run B cA _ _ _ _ _ _ A2 DB NB0 NB1) as (cB & tB & B1 & B2 & B3 & B4 & B5 & B6 & B7 & B8 & B9).
      assert (CIA : exists TA, CI ky keccak pshash places home [] [] TA tA cA).
      { pose proof (cexec_ci ky keccak pshash places home (owns A) T [] (start_cluster places) cA tA (start_ci _ _ _ _ _ T) (cclock_prefix _ _ _ CL) A1) as X. exact X. }
      assert (CIB : exists T', CI ky keccak pshash places home [] [] T' (tA ++ tB) cB).
      { pose proof (cexec_ci ky keccak pshash places home (owns A ++ owns B) T [] (start_cluster places) cB (tA ++ tB) (start_ci _ _ _ _ _ T)) as X. apply X.
        - unfold two_evs in CL. rewrite app_assoc in CL. exact (cclock_prefix _ _ _ CL).
        - exact (cexec_app _ _ _ _ _ _ _ A1 B1). }
      destruct CIA as [TA CIA]. destruct CIB as [T' CIB].
      assert (Q : forall l, c_lanes cB l = fst (Net.nexec Net.nq0 (map Net.EvSend (sent_to (l_pc l) (l_from l) (l_to l) (trace_at (l_at l) (tA ++ tB)))))).
      { intros l. rewrite <- (ci_sends _ _ _ _ _ _ _ _ _ _ CIB l). rewrite <- (only_join _ _ A7 B7 l), (ci_lane _ _ _ _ _ _ _ _ _ _ CIB l). reflexivity. }
      assert (Q01 : c_lanes cB l01 = Net.mkNq [x0; m0] Net.LTop None false Net.KIdle).
      { rewrite Q. destruct L01 as [-> _]. rewrite trace_app, A5, B5, S01. reflexivity. }
      assert (Q10 : c_lanes cB l10 = Net.mkNq [x1; m1] Net.LTop None false Net.KIdle).
      { rewrite Q. destruct L10 as [-> _]. rewrite trace_app, A6, B6, S10. reflexivity. }
      assert (NE : l01 <> l10) by (intros E; destruct L01 as [X _], L10 as [Y _]; rewrite E in X; congruence).
      destruct (lane_run T1 l01 to_second cB) as (cL & tL1 & C1' & C2 & C3 & C4 & C5 & C6 & C7).
      { unfold alive. rewrite B2. destruct L01 as [-> _]. reflexivity. }
      { rewrite Q01. apply second. }
      assert (Q10' : c_lanes cL l10 = Net.mkNq [x1; m1] Net.LTop None false Net.KIdle).
      { specialize (C6 l10). rewrite (C5 l10) in C6 by congruence. cbn [Net.nexec] in C6. injection C6 as C6 _. rewrite <- C6. exact Q10. }
      assert (Q01' : c_lanes cL l01 = Net.mkNq [] Net.LCall (Some m0) false Net.KIdle).
      { specialize (C6 l01). rewrite C4, Q01 in C6. pose proof (proj1 (second x0 m0)) as X. rewrite C6 in X. exact X. }
      destruct (lane_run T1 l10 to_second cL) as (cM & tL2 & E1 & E2 & E3 & E4 & E5 & E6 & E7).
      { unfold alive. rewrite C2, B2. destruct L10 as [-> _]. reflexivity. }
      { rewrite Q10'. apply second. }
      assert (R10 : c_lanes cM l10 = Net.mkNq [] Net.LCall (Some m1) false Net.KIdle).
      { specialize (E6 l10). rewrite E4, Q10' in E6. pose proof (proj1 (second x1 m1)) as X. rewrite E6 in X. exact X. }
      assert (R01 : c_lanes cM l01 = Net.mkNq [] Net.LCall (Some m0) false Net.KIdle).
      { specialize (E6 l01). rewrite (E5 l01) in E6 by congruence. cbn [Net.nexec] in E6. injection E6 as E6 _. rewrite <- E6. exact Q01'. }
      assert (NM : c_nodes cM = [Some b0; Some b1]) by congruence.
      destruct (call_step cM T1 l01 1 p1 b1 m0 v1 ov1) as (cN & s1 & F1 & F2 & F3 & F4 & F5 & F6); [rewrite NM; discriminate|unfold alive; rewrite NM; destruct L01 as [-> _]; reflexivity|apply L01|reflexivity|rewrite NM; reflexivity|rewrite R01; reflexivity|exact DUE1|exact NV1|].
      rewrite NM in F2. cbn [put] in F2.
      assert (G10 : c_lanes cN l10 = Net.mkNq [] Net.LCall (Some m1) false Net.KIdle).
      { destruct (F6 l10) as [X Y]. assert (LE0 : lane_events l10 s1 = []) by (rewrite (F3 l10), Y, V1; reflexivity).
        change (?a :: ?b :: s1) with ([a] ++ [b] ++ s1) in X. rewrite !levents_app, LE0 in X. cbn [lane_events flat_map] in X. destruct (lane_eqb_spec l01 l10); [contradiction|]. cbn [app Net.nexec] in X. injection X as X _. rewrite <- X. exact R10. }
      destruct (owns_run C1 cN b0 v1 b0 k1 [] ok1 F2 DC1) as (cP & tC1 & H1 & H2 & H3 & H4 & H5 & H6 & H7 & H8 & H9); [rewrite NC1'; reflexivity|exact NC1|].
      assert (K10 : snd (Net.ngo (c_lanes cP l10) true) = [Net.NCall m1 true]).
      { pose proof (H8 l10) as X. rewrite (H7 l10), G10 in X. destruct (sends_keep (put_in (lane_events l10 tC1)) (Net.mkNq [] Net.LCall (Some m1) false Net.KIdle)) as [Y1 Y2]. rewrite X in Y1, Y2. cbn [fst Net.n_loc Net.n_msg] in Y1, Y2.
        unfold Net.ngo. rewrite Y1. cbn [snd]. unfold Net.held. rewrite Y2. reflexivity. }
      destruct (call_step cP T0 l10 0 p0 b0 m1 v0 ov0) as (cQ & s0 & I1 & I2 & I3 & I4 & I5 & I6); [rewrite H2; discriminate|unfold alive; rewrite H2; destruct L10 as [-> _]; reflexivity|apply L10|reflexivity|rewrite H2; reflexivity|exact K10|exact DUE0|exact NV0|].
      rewrite H2 in I2. cbn [put] in I2.
      destruct (owns_run C0 cQ v0 k1 k0 k1 ok0 [] I2 DC0) as (cR & tC0 & J1 & J2 & J3 & J4 & J5 & J6 & J7 & J8 & J9); [exact NC0|rewrite NC0'; reflexivity|].
      destruct (owns_run D cR k0 k1 d0 d1 od0 od1 J2 DD ND0 ND1) as (cS & tD & K1 & K2 & K3 & K4 & K5 & K6 & K7 & K8 & K9).
      exists cS, tA, tB, (tL1 ++ tL2), (s1 ++ tC1), (s0 ++ tC0), tD. cbv zeta.
      assert (X1 : cexec cM ([CGo T1 l01 true]) = Some (cN, XLane T1 l01 (Net.EvGo true) [Net.NCall m0 true] :: XNode 1 (Via l01) (VIn (T1 + pl_skew p1) m0) ov1 :: s1)).
      { cbn [Cluster.cexec]. rewrite F1. cbn [fst snd]. rewrite app_nil_r. reflexivity. }
      assert (X0 : cexec cP ([CGo T0 l10 true]) = Some (cQ, XLane T0 l10 (Net.EvGo true) [Net.NCall m1 true] :: XNode 0 (Via l10) (VIn (T0 + pl_skew p0) m1) ov0 :: s0)).
      { cbn [Cluster.cexec]. rewrite I1. cbn [fst snd]. rewrite app_nil_r. reflexivity. }
      pose proof (cexec_app _ _ _ _ _ _ _ J1 K1) as Y. pose proof (cexec_app _ _ _ _ _ _ _ X0 Y) as Y2. pose proof (cexec_app _ _ _ _ _ _ _ H1 Y2) as Y3. pose proof (cexec_app _ _ _ _ _ _ _ X1 Y3) as Y4.
      pose proof (cexec_app _ _ _ _ _ _ _ E1 Y4) as Y5. pose proof (cexec_app _ _ _ _ _ _ _ C1' Y5) as Y6. pose proof (cexec_app _ _ _ _ _ _ _ B1 Y6) as Y7. pose proof (cexec_app _ _ _ _ _ _ _ A1 Y7) as Y8.
      assert (EQ : forall u v w x (y : cobs) z z' q q' a b, (tB ++ (tL1 ++ tL2)) ++ (u :: v :: z ++ q) ++ (w :: y :: z' ++ q') ++ a = b -> x = b -> tB ++ tL1 ++ tL2 ++ (u :: v :: z) ++ q ++ (w :: y :: z') ++ q' ++ a = x).
      { intros u v w x y z z' q q' a b <- ->. rewrite <- !app_assoc. cbn [app]. rewrite <- !app_assoc. reflexivity. }
      rewrite (EQ _ _ _ _ _ _ _ _ _ _ _ eq_refl eq_refl) in Y7, Y8. clear EQ.
      split; [split; [exact CL|exact Y8]|]. split; [auto|].
      split; [rewrite !events_app, !trace_app, B3, B4, B5, B6; destruct (C3 0%nat) as [-> ->], (C3 1%nat) as [-> ->], (E3 0%nat) as [-> ->], (E3 1%nat) as [-> ->]; cbn [app]; rewrite !app_nil_r; auto|].
      split; [rewrite !events_app, !trace_app, H3, H4, H5, H6, NC1'; destruct (F4 0%nat) as [-> ->], (F4 1%nat) as [-> ->]; auto|].
      split; [rewrite !events_app, !trace_app, J3, J4, J5, J6, NC0'; destruct (I4 0%nat) as [-> ->], (I4 1%nat) as [-> ->]; auto|].
      split; [auto|]. split; [|split].
      - intros j org ev os H. repeat (apply in_app_or in H; destruct H as [H|H] || idtac).
        all: try (exact (A9 _ _ _ _ H)). all: try (exact (B9 _ _ _ _ H)). all: try (destruct (C7 _ _ _ _ H)). all: try (destruct (E7 _ _ _ _ H)).
        all: try (destruct (F5 _ _ _ _ H)). all: try (exact (H9 _ _ _ _ H)). all: try (destruct (I5 _ _ _ _ H)). all: try (exact (J9 _ _ _ _ H)). all: exact (K9 _ _ _ _ H).
      - intros t l ev os H. exact (exec_times _ _ _ _ _ CLB Y7 _ _ _ _ H).
      - intros t l m os H. rewrite <- (ci_sends _ _ _ _ _ _ _ _ _ _ CIA l). unfold put_in. apply in_flat_map. exists (Net.EvSend m). split; [|left; reflexivity].
        unfold lane_events. apply in_flat_map. eexists. split; [exact H|]. cbn. rewrite lane_eqb_refl. left. reflexivity.
    Qed.
  End Compose.
End Two.
