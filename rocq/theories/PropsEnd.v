(** Property theorem C120: runs keep their schedule, and the firewall stays open for them. *)
From Coq Require Import ZArith List Lia Bool Permutation Sorted.
From Coq Require Import Init.Byte.
From Verif Require Import Params Bytes Res Secp PublicKey Schnorr Dss DssSpec Dto Prot ProtSpec ProtProofs ProtProofs2 PropsProt DkgProt KMap Firewall FwSpec FwProofs FwProofs2 FwProofs3 TimeSpec TimeProofs
  Outputs Node NodeSpec NodeProofs PropsFw ObjSpec ObjProofs PropsObj PropsNode DocsProofs EndProofs EndProofs2 PropsSign.
Import ListNotations.
Open Scope Z_scope.

(** ** C120, for every protocol: a run that started at [s] and is late by at most [d] when it wakes up *)
Section Run.
  Context {D A K E V : Type}.
  Variable p : protocol D A K E V.
  Variable c : info.
  (** enters each stage in its time, *)
  Theorem C120_stages_in_time k h d t0 s t j now : clocked h -> timely p c (new_run k) (untimed h) -> punctual p c d (new_run k) (untimed h) -> 0 <= d ->
    happens p c k h t0 (OStart s) -> happens p c k h t (OEnter j now) ->
    now = t /\ s + elapsed p j + (if j =? 0 then 0 else pause) <= t <= s + elapsed p j + (if j =? 0 then 0 else pause) + 2 * d.
  Proof.
    intros HC HT HP HD HS (a & ev & b & r & tr & r' & os & E0 & EX & ES & IN). subst h.
    pose proof (run_inv p c _ _ _ _ EX) as HI. pose proof (timely_prefix _ _ _ _ _ _ _ HT EX) as HTa. pose proof (time_run p c _ _ _ _ HTa EX) as TV.
    unfold untimed in HT, HP. rewrite map_app in HT, HP.
    destruct (timely_app _ _ _ _ _ _ _ HT EX) as [_ HTb]. destruct (punctual_app _ _ _ _ _ _ _ _ HP EX) as [HPa HPb].
    assert (OT : on_time d r).
    { eapply (on_time_exec p c d); [apply (inv_new p c k)| |intros X; discriminate X|exact HTa|exact HPa|exact EX].
      split; [|reflexivity]. intros x o y X. destruct x; discriminate X. }
    assert (SS : forall s1, start_of tr = Some s1 -> s1 = s).
    { intros s1 X. destruct (in_happens p c k a ((t, ev) :: b) r tr _ EX (start_in _ _ X)) as [t1 Q].
      eapply start_once; [|exact Q|exact HS]. unfold untimed. rewrite map_app. exact HT. }
    destruct ev as [e nw|e m]; cbn [map snd timely punctual] in HTb, HPb; destruct HTb as [W1 _]; destruct HPb as [W2 _].
    2:{ exfalso. cbn [step] in ES. destruct (deliver_same p c _ _ _ _ _ _ _ HI ES) as (_ & _ & _ & _ & _ & _ & _ & _ & X). destruct (X _ IN). }
    assert (nw = t) as -> by (apply (proj2 HC t e nw), in_elt). cbn [step] in ES.
    destruct TV as [AV LV]. pose proof (iv_loc _ _ _ _ _ HI) as HL. assert (0 <= pause) by (unfold pause, ms; lia).
    destruct (tick_cases p c _ _ _ _ _ _ _ HI ES) as [(Y1 & -> & ->)|[(Y1 & Y2 & Y3 & Y4)|[(Y1 & Y2 & -> & ->)|[(Y1 & Y2 & -> & ->)|(Y1 & -> & ->)]]]];
      try (exfalso; destruct IN as [X|[]]; discriminate X); [|destruct IN].
    destruct (enter_obs p c _ _ _ _ _ _ (iv_link _ _ _ _ _ HI) Y4) as (t3 & -> & O3). destruct IN as [X|X]; [|destruct (O3 _ X)]. injection X as <- <-. split; [reflexivity|].
    destruct Y1 as [Y1|Y1]; rewrite Y1 in *.
    - destruct LV as [L1 L2]. apply SS in L1. destruct HL as (HL & _). rewrite HL. change (-1 + 1) with 0. change (elapsed p 0) with 0. rewrite Z.eqb_refl. lia.
    - destruct LV as (s1 & L1 & L2 & L3). apply SS in L1. specialize (OT Y1). destruct HL as (HL & _). destruct (Z.eqb_spec (r_state r + 1) 0); lia.
  Qed.
  (** and ends in time. *)
  Theorem C120_ends_in_time k h d t0 s t t' : clocked h -> timely p c (new_run k) (untimed h) -> punctual p c d (new_run k) (untimed h) ->
    happens p c k h t0 (OStart s) -> happens p c k h t (OTerm t') -> t' = t /\ s + protocol_timeout p <= t <= s + protocol_timeout p + d.
  Proof.
    intros HC HT HP HS (a & ev & b & r & tr & r' & os & E0 & EX & ES & IN). subst h.
    pose proof (run_inv p c _ _ _ _ EX) as HI. pose proof (timely_prefix _ _ _ _ _ _ _ HT EX) as HTa. pose proof (time_run p c _ _ _ _ HTa EX) as TV.
    unfold untimed in HT, HP. rewrite map_app in HT, HP.
    destruct (timely_app _ _ _ _ _ _ _ HT EX) as [_ HTb]. destruct (punctual_app _ _ _ _ _ _ _ _ HP EX) as [HPa HPb].
    assert (SS : forall s1, start_of tr = Some s1 -> s1 = s).
    { intros s1 X. destruct (in_happens p c k a ((t, ev) :: b) r tr _ EX (start_in _ _ X)) as [t1 Q].
      eapply start_once; [|exact Q|exact HS]. unfold untimed. rewrite map_app. exact HT. }
    destruct ev as [e nw|e m]; cbn [map snd timely punctual] in HTb, HPb; destruct HTb as [W1 _]; destruct HPb as [W2 _].
    2:{ exfalso. cbn [step] in ES. destruct (deliver_same p c _ _ _ _ _ _ _ HI ES) as (_ & _ & _ & _ & _ & _ & _ & _ & X). destruct (X _ IN). }
    assert (nw = t) as -> by (apply (proj2 HC t e nw), in_elt). cbn [step] in ES.
    destruct TV as [AV LV]. pose proof (iv_loc _ _ _ _ _ HI) as HL.
    destruct (tick_cases p c _ _ _ _ _ _ _ HI ES) as [(Y1 & -> & ->)|[(Y1 & Y2 & Y3 & Y4)|[(Y1 & Y2 & -> & ->)|[(Y1 & Y2 & -> & ->)|(Y1 & -> & ->)]]]];
      try (exfalso; destruct IN as [X|[]]; discriminate X); [| |destruct IN].
    - exfalso. destruct (enter_obs p c _ _ _ _ _ _ (iv_link _ _ _ _ _ HI) Y4) as (t3 & -> & O3). destruct IN as [X|X]; [discriminate X|destruct (O3 _ X)].
    - destruct IN as [X|[]]. injection X as <-. split; [reflexivity|]. rewrite <- elapsed_total, <- Y2.
      destruct Y1 as [Y1|Y1]; rewrite Y1 in *.
      + destruct LV as [L1 L2]. apply SS in L1. destruct HL as (HL & _). rewrite HL. change (-1 + 1) with 0. change (elapsed p 0) with 0. lia.
      + destruct LV as (s1 & L1 & L2 & L3). apply SS in L1. lia.
  Qed.
End Run.

(** ** C120, the firewall: it enters the phases of an allowance in their order, and none before its time. *)
Section Fw.
  Context {D : Type}.
  Theorem C120_phases_not_early nprots guests until now0 evs (f : fw D) tr : PropsFw.history nprots guests until now0 evs f tr ->
    forall pre t k v post, tr = pre ++ FPhase t k v :: post ->
    exists t0 a a1 a2, pre = a1 ++ FSet t0 k a :: a2 /\ existsb (is_set k) a2 = false /\ existsb (is_phase k 3) a2 = false /\ phase k pre = Some (v - 1) /\
      (v = 1 /\ al_buf a <= t \/ v = 2 /\ al_start a <= t \/ v = 3 /\ al_stop a <= t).
  Proof.
    intros [CK FE] pre t k v post E. exact (exec_phase _ _ _ evs _ _ _ [] now0 CK (made_sound nprots guests until now0) FE pre t k v post E).
  Qed.
End Fw.

(** ** C120, in a node *)
Section Node.
  Context {G : Type}.
  Variable ky : kyber G.
  Variable keccak : bytes -> bytes.
  Variable pshash : Z -> Z -> bytes.
  Notation nevent := (nevent (G := G)). Notation node := (node (G := G)).
  Implicit Types (evs : list nevent) (n : node) (tr : list nobs).
  Notation history := (nhistory ky keccak pshash).
  Notation lives := (lives ky keccak pshash).

  (** The firewall buffers or forwards the messages of a run that was asked for once, from the beginning of the buffering on, while less than one
      second has passed since the run, had it begun at the requested start, would be over. *)
  Theorem C120_open_from_buffering su until now0 evs n tr k start doc tq tb : history su until now0 evs n tr -> NoDup (su_guests su) ->
    (requests_for k evs <= 1)%nat -> requested su evs k start doc tq -> In (NFw (FPhase tb k 1)) tr ->
    (forall ev, In ev evs -> ntime ev < start + protocol_timeout (the_prot ky keccak pshash (k_pc k)) + 1000 * ms) ->
    phase k (fw_trace tr) = Some 1 \/ phase k (fw_trace tr) = Some 2.
  Proof.
    intros HH ND RQ RE IN FA. eapply open_until; [exact HH|exact ND|exact RQ|exact RE| |].
    - apply Forall_forall. intros ev He. specialize (FA ev He). cbn [allowance_for al_stop]. unfold stop_grace. lia.
    - exists tb. unfold fw_trace. apply in_flat_map. exists (NFw (FPhase tb k 1)). split; [exact IN|left; reflexivity].
  Qed.
  (** When a run is made, it does. *)
  Theorem C120_open_when_made su until now0 evs n tr t k : history su until now0 evs n tr -> In (NCreate t k) tr -> exists tb, In (NFw (FPhase tb k 1)) tr.
  Proof.
    intros HH IN. destruct (created_seen _ _ _ _ _ _ _ _ _ _ _ HH IN) as (tb & X). exists tb. unfold fw_trace in X. apply in_flat_map in X. destruct X as (o & O1 & O2).
    destruct o; try contradiction. destruct O2 as [->|[]]. exact O1.
  Qed.
  (** A run that was asked for once and is late by at most [d] ends in time; if it started, this lateness included, less than one second after the
      requested start, then from the time it was made until it ends its messages are let in. *)
  Theorem C120_open_while_running su until now0 evs n tr j k k0 h s d t start doc tq : history su until now0 evs n tr -> NoDup (su_guests su) ->
    (requests_for k evs <= 1)%nat -> requested su evs k start doc tq ->
    let p := the_prot ky keccak pshash (k_pc k) in
    lives su (start_node su until now0) evs j k k0 h -> punctual p (run_info su k) d (new_run k0) (untimed h) ->
    In (NRun k (OStart s)) tr -> In (NRun k (OTerm t)) tr -> s + d < start + 1000 * ms ->
    s + protocol_timeout p <= t <= s + protocol_timeout p + d /\
    forall e1 e2 n1 tr1 tc, evs = e1 ++ e2 -> nexec ky keccak pshash su (start_node su until now0) e1 = Ok (n1, tr1) -> (forall ev, In ev e1 -> ntime ev <= t) -> In (NCreate tc k) tr1 ->
      phase k (fw_trace tr1) = Some 1 \/ phase k (fw_trace tr1) = Some 2.
  Proof.
    intros HH ND RQ RE p HL PU ST TE LT.
    destruct (C93_run_is_execution _ _ _ _ _ _ _ _ _ _ _ _ _ HH ND HL) as (CL & TI & r & os & EN & EX & ON). destruct (ON RQ) as [_ ON2]. fold p in TI, EX.
    apply ON2 in ST, TE. destruct (in_happens p (run_info su k) k0 h [] r os _ EX ST) as [t0 HS]. destruct (in_happens p (run_info su k) k0 h [] r os _ EX TE) as [t1 HT]. rewrite app_nil_r in HS, HT.
    destruct (C120_ends_in_time _ _ _ _ _ _ _ _ _ CL TI PU HS HT) as [-> B]. split; [exact B|].
    intros e1 e2 n1 tr1 tc -> EX1 FA NC.
    assert (H1 : history su until now0 e1 n1 tr1). { split; [|exact EX1]. destruct HH as [HC _]. clear - HC. revert HC. generalize now0. induction e1 as [|e e1 IH]; intros x; cbn; [auto|]. intros [H1 H2]. auto. }
    destruct (C76_not_before_start _ _ _ _ _ _ _ _ _ _ _ H1 NC) as (st & dc & tq' & R1 & _).
    assert (R2 : requested su (e1 ++ e2) k st dc tq') by (eapply requested_mono; [|exact R1]; apply incl_appl, incl_refl).
    destruct (requested_once _ _ _ _ _ _ _ _ _ RQ RE R2) as (<- & _ & _).
    destruct (C120_open_when_made _ _ _ _ _ _ _ _ H1 NC) as (tb & SB).
    eapply C120_open_from_buffering; [exact H1|exact ND| |exact R1|exact SB|].
    - unfold requests_for in *. rewrite filter_app, app_length in RQ. lia.
    - intros ev He. specialize (FA ev He). fold p. lia.
  Qed.
End Node.
Print Assumptions C120_stages_in_time. Print Assumptions C120_ends_in_time. Print Assumptions C120_phases_not_early.
Print Assumptions C120_open_from_buffering. Print Assumptions C120_open_when_made. Print Assumptions C120_open_while_running.

(** ** The assumptions hold: member 0 of the node of C95 is asked to sign from 0 on, its run starts at 0 and ends after 650 ms. *)
Lemma duo_ticks_count id long i w : ticks (untimed (duo_hist id long i w)) = 25%nat. Proof. reflexivity. Qed.
Lemma dss_stages (ky : kyber Z) keccak pshash : p_stages (dss_prot ky keccak pshash) <> []. Proof. discriminate. Qed.
Example C120_ex : exists keccak pshash ky su (evs : list (nevent (G := Z))) n tr k k0 h t doc tq tc,
  nhistory ky keccak pshash su (-20 * ms) (-20 * ms) evs n tr /\ NoDup (su_guests su) /\ (requests_for k evs <= 1)%nat /\ requested su evs k 0 doc tq /\ k_pc k = pc_dss /\
  let p := the_prot ky keccak pshash (k_pc k) in
  lives ky keccak pshash su (start_node su (-20 * ms) (-20 * ms)) evs 0 k k0 h /\ punctual p (run_info su k) 0 (new_run k0) (untimed h) /\
  In (NRun k (OStart 0)) tr /\ In (NRun k (OTerm t)) tr /\ 0 + 0 < 0 + 1000 * ms /\ In (NCreate tc k) tr /\ t = 650 * ms.
Proof.
  set (keccak := fun _ : bytes => repeat x00 32). set (pshash := fun _ _ : Z => @nil byte).
  destruct (demo_c95 keccak pshash ltac:(reflexivity)) as (w0 & w1 & q0 & q1 & n & tr & _ & H). cbv zeta in H. destruct H as (_ & _ & _ & H & _).
  destruct (H 0 ltac:(left; reflexivity)) as (A & B & C & O & E & _ & L & S & _ & PU). clear H.
  set (k := mkKey pc_dss 0 duo_id) in *. set (ky := duo_ky (demo_dks [7; 8])) in *. set (su := duo_su (demo_dks [5; 6]) q0 q1 0) in *.
  destruct (C93_run_is_execution _ _ _ _ _ _ _ _ _ _ _ _ _ A B L) as (CL & TI & r & os & EN & EX & ON). destruct (ON E) as [_ ON2].
  change (the_prot ky keccak pshash (k_pc k)) with (dss_prot ky keccak pshash) in *.
  assert (TE : terminated_in os = true).
  { apply (proj2 (C48_terminates _ _ _ _ _ _ (dss_stages _ _ _) EX)). rewrite duo_ticks_count. apply le_n. }
  unfold terminated_in in TE. apply existsb_exists in TE. destruct TE as (o & O1 & O2). destruct o; try discriminate O2.
  apply ON2 in O1. pose proof O1 as O3. apply in_split in O3. destruct O3 as (x & y & E3). destruct (C76_silent_before _ _ _ _ _ _ _ _ _ _ _ _ _ A E3) as (tc & NC).
  assert (NC' : In (NCreate tc k) (tr 0)) by (rewrite E3; apply in_or_app; left; exact NC).
  assert (RE : requested su (duo_evs 0 (WPart w1)) k 0 (Some 10) (-10 * ms)).
  { exists [x61]. split; [left; reflexivity|]. split; [reflexivity|]. split; [reflexivity|exact C]. }
  assert (TT : now = 650 * ms).
  { destruct (C120_open_while_running _ _ _ _ _ _ _ _ _ _ _ _ _ 0 0 _ 0 _ _ A B E RE L PU S O1 ltac:(unfold ms; lia)) as [X _]. change (protocol_timeout (the_prot ky keccak pshash (k_pc k))) with (650 * ms) in X. lia. }
  exists keccak, pshash, ky, su, (duo_evs 0 (WPart w1)), (n 0), (tr 0), k. eexists _, _, now, (Some 10), (-10 * ms), tc. cbv zeta.
  split; [exact A|]. split; [exact B|]. split; [exact E|]. split; [exact RE|]. split; [reflexivity|]. split; [exact L|]. split; [exact PU|]. split; [exact S|]. split; [exact O1|].
  split; [unfold ms; lia|]. split; [exact NC'|exact TT].
Qed.
(** A firewall that enters each phase: the last one at 30, when its time has come. *)
Example C120_ex_phases : exists f tr pre post, PropsFw.history 2 [0; 1] 5 0 demo_evs f tr /\ tr = pre ++ FPhase 30 (mkKey 1 0 []) 3 :: post /\ phase (mkKey 1 0 []) pre = Some 2.
Proof.
  destruct (fexec (make_fw 2 [0; 1] 5 0) demo_evs) as [[f tr]| |] eqn:E; [|vm_compute in E; discriminate E|vm_compute in E; discriminate E].
  exists f, tr. vm_compute in E. injection E as <- <-. eexists [_; _; _; _; _; _; _; _; _; _; _; _; _; _; _; _; _; _], _. split; [split; [repeat split; discriminate|vm_compute; reflexivity]|]. split; [reflexivity|reflexivity].
Qed.
