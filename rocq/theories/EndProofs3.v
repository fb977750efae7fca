(** A message comes in no earlier than the run that sent it was to start. *)
From Coq Require Import ZArith List Lia Bool Permutation.
From Verif Require Import Params Bytes Res Secp Dto Dss Prot ProtSpec ProtProofs TimeSpec TimeProofs DkgProt DkgProofs KMap Firewall FwSpec FwProofs FwProofs2 FwProofs3 FwProofs4 NetSpec
  Outputs Node NodeSpec NodeRun NodeProofs NodeProofs2 NodeProofs3 NodeProofs4 NodeProofs5 NodeProofs6 NodeProofs7 NodeProofs8 ObjSpec ObjProofs ObjProofs2 ObjProofs3 PropsFw ReachSpec ReachProofs ReachProofs2
  DocsProofs Cluster ClusterSpec ClusterProofs ClusterProofs2 ClusterProofs3 DeliverSpec PropsNode EndProofs EndProofs2.
From Verif Require Net NetProofs.
Import ListNotations.
Open Scope Z_scope.

Section NP.
  Context {G : Type}.
  Variable ky : kyber G.
  Variable keccak : bytes -> bytes.
  Variable pshash : Z -> Z -> bytes.
  Variable su : setup.
  Variables until now0 : Z.
  Notation history := (nhistory ky keccak pshash su until now0).
  Lemma step_create n ev n' o t k : nstep ky keccak pshash su n ev = Ok (n', o) -> In (NCreate t k) o -> t = ntime ev.
  Proof.
    assert (CALM : forall l : list nobs, Forall calm l -> In (NCreate t k) l -> False).
    { intros l F H. rewrite Forall_forall in F. exact (F _ H). }
    assert (FW : forall fev, firewall ky keccak pshash su n fev = Ok (n', o) -> In (NCreate t k) o -> t = ntime ev).
    { intros fev E H. destruct (CALM o (proj1 (firewall_eff _ _ _ _ _ _ _ _ E)) H). }
    destruct ev as [now base start doc|now i g|now i|now i g gen|now m|now|now k' c|now pc g gen|now pc g nonce ord|now j nonce ord]; cbn [Node.nstep ntime].
    - intros E. injection E as _ <-. intros [].
    - unfold request_go. destruct (nth_error _ _) as [r|]; [|intros E; injection E as _ <-; intros []].
      destruct (rq_phase r); try (intros E; injection E as _ <-; intros []);
      (destruct (existsb _ _); [|intros E; injection E as _ <-; intros []]); try (intros E; injection E as _ <-; intros []);
      repeat match goal with |- context [match ?x with _ => _ end] => destruct x end; cbn [rbind fst snd]; try discriminate; intros E; injection E as _ <-; cbn [In]; intros H; intuition discriminate.
    - intros E. injection E as _ <-. intros [].
    - unfold request_guest. destruct (nth_error _ _) as [r|]; [|intros E; injection E as _ <-; intros []].
      destruct (loc_of _ _) as [l|]; [|intros E; injection E as _ <-; intros []].
      destruct (guest_go _ _ _ _ _ _ _ _ _ _) as [[[n1 l1] o1]| |] eqn:EG; cbn [rbind fst snd]; try discriminate. intros E IN. injection E as _ <-.
      assert (F : forall fev (y : gloc), (x <- firewall ky keccak pshash su n fev ;; Ok (fst x, y, snd x)) = Ok (n1, l1, o1) -> False).
      { intros fev y. destruct (firewall _ _ _ _ _ _) as [[n2 o2]| |] eqn:EF; cbn [rbind fst snd]; try discriminate. intros E. injection E as <- <- <-.
        destruct (firewall_eff _ _ _ _ _ _ _ _ EF) as (CA & _). exact (CALM _ CA IN). }
      assert (NOP : forall y, Ok (n, y, []) = Ok (n1, l1, o1) -> False) by (intros y E; injection E as <- <- <-; destruct IN).
      unfold guest_go in EG. cbv zeta in EG. destruct l as [|c|c|c|c|c| |].
      + destruct (F _ _ EG).
      + destruct (chan_ready n _ c); [destruct (F _ _ EG)|destruct (NOP _ EG)].
      + destruct (now <? _); [destruct (NOP _ EG)|]. destruct (ensure_run su n now (rq_key r g) gen) as [[n2 j] o2] eqn:EE. injection EG as <- <- <-. cbn [fst snd] in IN.
        destruct (ensure_eff _ _ _ _ _ _ _ _ EE) as (_ & _ & _ & _ & _ & Y).
        destruct Y as [(-> & _)|(-> & _)]; [destruct IN|destruct IN as [X|[]]; congruence].
      + destruct (terminated_run n _); destruct (NOP _ EG).
      + destruct (chan_ready n _ c); [destruct (F _ _ EG)|destruct (NOP _ EG)].
      + destruct (chan_ready n _ c); [destruct (F _ _ EG)|destruct (NOP _ EG)].
      + destruct (receive _ _ _ _ _ _) as [[n2 o2]| |] eqn:ER; [|destruct (NOP _ EG)|discriminate]. injection EG as <- <- <-. cbn [fst snd] in IN.
        destruct (receive_eff _ _ _ _ _ _ _ _ ER) as (CA & _). destruct IN as [X|X]; [discriminate|]. destruct (CALM _ CA X).
      + destruct (NOP _ EG).
    - apply FW.
    - apply FW.
    - apply FW.
    - unfold consumer_take. destruct (kget _ _); [intros E; injection E as _ <-; intros []|]. destruct (kslice _ _) as [|m rest]; [intros E; injection E as _ <-; intros []|]. cbv zeta.
      destruct (m_pc m <? 0); [intros E; injection E as _ <-; intros [X|[X|[]]]; discriminate|].
      destruct (ensure_run su _ now (fw_key m) gen) as [[n2 j] o2] eqn:EE. cbn [fst snd]. intros E. injection E as _ <-. intros [X|IN]; [discriminate|].
      destruct (ensure_eff _ _ _ _ _ _ _ _ EE) as (_ & _ & _ & _ & _ & Y). destruct Y as [(-> & _)|(-> & _)]; [destruct IN|destruct IN as [X|[]]; congruence].
    - unfold consumer_deliver. destruct (kget _ _) as [[j m]|]; [|intros E; injection E as _ <-; intros []]. destruct (nth_error _ _) as [[k1 r]|]; [|discriminate].
      destruct (deliver _ _ _ _ _) as [x| |]; cbn [rbind]; try discriminate. cbv zeta. intros E. injection E as _ <-. intros IN. destruct (run_after_eff n j k1 x) as (_ & _ & _ & _ & _ & CA & _). destruct (CALM _ CA IN).
    - unfold run_tick. destruct (nth_error _ _) as [[k1 r]|]; [|intros E; injection E as _ <-; intros []].
      destruct (now <? _); [intros E; injection E as _ <-; intros []|]. destruct (tick _ _ _ _ _) as [x| |]; cbn [rbind]; try discriminate. intros E. injection E as _ <-. intros IN. destruct (run_after_eff n j k1 x) as (_ & _ & _ & _ & _ & CA & _). destruct (CALM _ CA IN).
  Qed.
  Lemma create_time evs n tr t k T : history evs n tr -> Forall (fun ev => ntime ev <= T) evs -> In (NCreate t k) tr -> t <= T.
  Proof.
    revert n tr. induction evs as [|ev evs IH] using rev_ind; intros n tr HH FA IN.
    - destruct HH as [_ E]. cbn in E. injection E as <- <-. destruct IN.
    - apply Forall_app in FA. destruct FA as [FA FB]. destruct (history_cut _ _ _ _ _ _ _ _ _ _ HH) as (n1 & tr1 & o & H1 & HS & ->). apply in_app_or in IN. destruct IN as [IN|IN]; [eauto|].
      rewrite (step_create _ _ _ _ _ _ HS IN). inversion FB; assumption.
  Qed.
  Lemma phase_requested evs n tr t k v : history evs n tr -> In (NFw (FPhase t k v)) tr -> exists start doc tq, requested su evs k start doc tq.
  Proof.
    intros HH IN. destruct (history_inv _ _ _ _ _ _ _ _ _ HH) as (T & [W _]).
    assert (I4 : In (FPhase t k v) (fw_trace tr)) by (unfold fw_trace; apply in_flat_map; eexists; split; [exact IN|left; reflexivity]).
    apply in_split in I4. destruct I4 as (x & y & E4). destruct (node_phase _ _ _ _ _ _ _ _ _ _ _ _ HH _ _ E4) as (t0' & a' & x1 & x2 & EX & _).
    assert (IS : In (FSet t0' k a') (fw_trace tr)) by (rewrite E4, EX; apply in_or_app; left; apply in_elt).
    destruct (w_set _ _ _ _ _ _ _ _ _ _ W _ _ _ IS) as (st & dc & tq' & R2 & _). eauto.
  Qed.
End NP.

Section Between.
  Context {G : Type}.
  Variable ky : kyber G.
  Variable keccak : bytes -> bytes.
  Variable pshash : Z -> Z -> bytes.
  Variable places : list place.
  Variable home : Z -> option nat.
  Notation message := (message payload).
  Notation cobs := (cobs (G := G)). Notation cluster := (cluster (G := G)).
  Notation cstep := (cstep ky keccak pshash places home).
  Notation cexec := (cexec ky keccak pshash places home).
  Notation CI := (CI ky keccak pshash places home).
  Notation chistory := (chistory ky keccak pshash places home).
  Implicit Types (tr : list cobs) (c : cluster).

  (** A call that comes in by a lane is a step at that time. *)
  Lemma via_step c ev c' o x j l t m os y : cstep c ev = Some (c', o) -> o = x ++ XNode j (Via l) (VIn t m) os :: y -> t = ctime places ev + skew_of places j.
  Proof.
    destruct ev as [i ev|now l' ok|now l' ok|now s]; cbn [Cluster.cstep ctime].
    - intros E EO. destruct (node_block _ _ _ _ _ _ _ _ _ _ E) as (_ & _ & X). destruct (X _ _ _ _ _ _ EO) as (_ & _ & X1 & _). discriminate.
    - destruct (alive _ _); [|discriminate]. destruct (step_lane c now l' (Net.EvDial ok)) as [c1 o1] eqn:E1. apply step_lane_eff in E1. destruct E1 as (_ & _ & -> & _). cbn [fst snd].
      intros E EO. injection E as _ <-. destruct x as [|z [|? ?]]; discriminate.
    - destruct (alive _ _); [|discriminate]. destruct (step_lane c now l' (Net.EvGo ok)) as [c1 o1] eqn:E1. apply step_lane_eff in E1. destruct E1 as (_ & _ & -> & _). cbn [fst snd].
      destruct (call_in _) as [[m' [|]]|]; try (intros E EO; injection E as _ <-; destruct x as [|z [|? ?]]; discriminate).
      destruct (home (l_to l')) as [j'|]; [|discriminate]. destruct (step_node _ _ _ _ c1 j' (Via l') _) as [[c2 o2]|] eqn:E2; [|discriminate]. cbn [fst snd]. intros E EO. injection E as _ <-.
      destruct x as [|z x]; [discriminate|]. cbn [app] in EO. injection EO as _ EO. destruct (node_block _ _ _ _ _ _ _ _ _ _ E2) as (_ & _ & X). destruct (X _ _ _ _ _ _ EO) as (_ & -> & _ & X1 & _).
      injection X1 as -> _. reflexivity.
    - destruct (nth_error (c_stray c) s) as [[l' m']|]; [|discriminate]. destruct (home (l_to l')) as [j'|]; [|discriminate]. intros E EO.
      destruct (node_block _ _ _ _ _ _ _ _ _ _ E) as (_ & _ & X). destruct (X _ _ _ _ _ _ EO) as (_ & _ & X1 & _). discriminate.
  Qed.
  Lemma via_cut evs : forall T tr0 c c' o x j l t m os y, CI [] [] T tr0 c -> cclock places T evs -> cexec c evs = Some (c', o) -> o = x ++ XNode j (Via l) (VIn t m) os :: y ->
    exists e1 e2 c2 y1 y2, evs = e1 ++ e2 /\ y = y1 ++ y2 /\ cexec c e1 = Some (c2, x ++ XNode j (Via l) (VIn t m) os :: y1) /\
      CI [] [] (t - skew_of places j) (tr0 ++ x ++ XNode j (Via l) (VIn t m) os :: y1) c2.
  Proof.
    induction evs as [|ev evs IH]; intros T tr0 c c' o x j l t m os y HI HC HE EO; cbn [Cluster.cexec cclock] in *.
    - injection HE as _ <-. destruct x; discriminate.
    - destruct HC as [H1 H2]. destruct (cstep c ev) as [[c1 o1]|] eqn:E1; [|discriminate]. cbn [fst snd] in HE. destruct (cexec c1 evs) as [[c2 o2]|] eqn:E2; [|discriminate]. cbn [fst snd] in HE. injection HE as _ <-.
      pose proof (cstep_ci _ _ _ _ _ _ _ _ _ _ _ HI H1 E1) as HI1. destruct (app_cut _ _ _ _ _ EO) as [(b1 & EB)|(a1 & EA & EX)].
      + exists [ev], evs, c1, b1, o2. split; [reflexivity|]. rewrite EB, <- app_assoc in EO. apply app_inv_head in EO. injection EO as <-. split; [reflexivity|]. cbn [Cluster.cexec]. rewrite E1. cbn [fst snd].
        rewrite app_nil_r, EB. split; [reflexivity|]. pose proof (via_step _ _ _ _ _ _ _ _ _ _ _ E1 EB) as ET. replace (t - skew_of places j) with (ctime places ev) by lia. rewrite <- EB. exact HI1.
      + destruct (IH _ _ _ _ _ _ _ _ _ _ _ _ HI1 H2 E2 EX) as (e1 & e2 & c3 & y1 & y2 & -> & -> & A & B). exists (ev :: e1), e2, c3, y1, y2. split; [reflexivity|]. split; [reflexivity|].
        cbn [Cluster.cexec]. rewrite E1. cbn [fst snd]. rewrite A. cbn [fst snd]. subst x. rewrite <- !app_assoc in *. split; [reflexivity|exact B].
  Qed.
  Lemma cclock_app a : forall t b, cclock (G := G) places t (a ++ b) -> cclock places t a.
  Proof. induction a as [|ev a IH]; intros t b; cbn; [auto|]. intros [A B]. split; [exact A|eapply IH, B]. Qed.

  Lemma comes_after_start t0 evs c tr x j l t m os y p start da ta : chistory t0 evs c tr -> tr = x ++ XNode j (Via l) (VIn t m) os :: y -> nth_error places (l_at l) = Some p ->
    let k := mkKey (l_pc l) (l_from l) (m_run m) in (requests_for k (events_at (l_at l) tr) <= 1)%nat -> requested (pl_su p) (events_at (l_at l) tr) k start da ta ->
    start <= t - skew_of places j + pl_skew p /\ m_pc m = l_pc l /\ m_rcpt m = l_to l.
  Proof.
    intros [HC HE] EX EP k RQ RE. destruct (via_cut _ _ _ _ _ _ _ _ _ _ _ _ _ (start_ci ky keccak pshash places home t0) HC HE EX) as (e1 & e2 & c2 & y1 & y2 & E1 & E2 & HE1 & HI).
    cbn [app] in HI. set (tr1 := x ++ XNode j (Via l) (VIn t m) os :: y1) in *.
    assert (HC1 : chistory t0 e1 c2 tr1) by (split; [rewrite E1 in HC; eapply cclock_app, HC|exact HE1]).
    assert (IB : In m (came_by l tr1)). { unfold came_by, tr1. rewrite flat_map_app. apply in_or_app. right. cbn [flat_map]. rewrite lane_eqb_refl. left. reflexivity. }
    apply (among_in _ _ _ (by_sent _ _ _ _ _ _ _ _ _ HC1 l)) in IB. unfold sent_to in IB. apply in_flat_map in IB. destruct IB as (o & HO & HM).
    destruct o as [| | | | | |k1 z| |]; try contradiction. destruct z; try contradiction. destruct (_ && _) eqn:EB; [|contradiction]. destruct HM as [->|[]].
    apply andb_true_iff in EB. destruct EB as [EB B3]. apply andb_true_iff in EB. destruct EB as [B1 B2]. apply Z.eqb_eq in B1, B2, B3.
    destruct (ci_node _ _ _ _ _ _ _ _ _ _ HI _ _ EP) as (n & N1 & N2 & N3 & _).
    assert (HH : nhistory ky keccak pshash (pl_su p) (pl_until p) (pl_begin p) (events_at (l_at l) tr1) n (trace_at (l_at l) tr1)) by (split; assumption).
    destruct (sent_fields _ _ _ _ _ _ _ _ _ HH _ _ HO) as (S1 & S2 & S3 & _).
    assert (EK : k1 = k) by (destruct k1; cbn in *; unfold k; congruence). subst k1.
    apply in_split in HO. destruct HO as (ua & ub & EU). destruct (C76_silent_before _ _ _ _ _ _ _ _ _ _ _ _ _ HH EU) as (tc & IC).
    assert (IC' : In (NCreate tc k) (trace_at (l_at l) tr1)) by (rewrite EU; apply in_or_app; left; exact IC).
    destruct (C76_not_before_start _ _ _ _ _ _ _ _ _ _ _ HH IC') as (st & dc & tq & R1 & R2 & _).
    pose proof (create_time _ _ _ _ _ _ _ _ _ _ _ _ HH N3 IC') as R3.
    assert (R4 : requested (pl_su p) (events_at (l_at l) tr) k st dc tq).
    { eapply requested_mono; [|exact R1]. rewrite EX, E2. unfold tr1. change (XNode j (Via l) (VIn t m) os :: y1 ++ y2) with ((XNode j (Via l) (VIn t m) os :: y1) ++ y2). rewrite app_assoc. unfold events_at at 2. rewrite (flat_map_app _ (x ++ _)). apply incl_appl, incl_refl. }
    destruct (requested_once _ _ _ _ _ _ _ _ _ RQ RE R4) as (-> & _ & _). split; [lia|]. unfold k in *. cbn in *. split; congruence.
  Qed.
End Between.
