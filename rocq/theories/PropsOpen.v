(** Statements: what a run sends comes in while the firewall of the receiver lets it in, if the clocks agree to 5 ms. *)
From Coq Require Import ZArith List Lia Bool Permutation.
From Coq Require Import Init.Byte.
From Verif Require Import Params Bytes Res Secp Spec PublicKey Schnorr Dss DssSpec Dto DtoSpec Prot ProtSpec ProtProofs TimeSpec DkgProt KMap Firewall FwSpec
  NetSpec Outputs Node NodeSpec NodeRun NodeProofs NodeProofs2 NodeProofs3 NodeProofs4 NodeProofs5 ObjSpec SignSpec PropsNode PropsNode2 ReachSpec DocsProofs Cluster ClusterSpec ClusterProofs ClusterProofs2 DeliverSpec ClusterProofs3
  HonestSpec PropsHonest PropsCluster PropsCluster2 PropsCluster3 PropsCluster4 EndProofs EndProofs2 EndProofs3 EndProofs4 PropsEnd.
From Verif Require Net.
Import ListNotations.
Open Scope Z_scope.

(** ** Vocabulary *)
Section Spec.
  Context {G : Type}.
  Notation message := (message payload).
  Notation cobs := (cobs (G := G)).
  (** Whatever process [j] does at [T] by its clock or later, its firewall has ended its initial dropping before, and has begun to buffer for [k]. *)
  Definition open_by (T : Z) (p : place) (j : nat) (k : key) (tr : list cobs) : Prop :=
    forall x org ev os y, tr = x ++ XNode j org ev os :: y -> T <= ntime ev ->
    dropping (pl_begin p <? pl_until p) (fw_trace (trace_at j x)) = false /\ exists tb, In (NFw (FPhase tb k 1)) (trace_at j x).
  (** The messages with run id [id] that come in to process [j] by lane [l] do so before [T] by its clock, and when the buffer for the run is not full. *)
  Definition comes_before (T : Z) (id : bytes) (p : place) (j : nat) (l : lane) (tr : list cobs) : Prop :=
    forall x t m os y, m_run m = id -> tr = x ++ XNode j (Via l) (VIn t m) os :: y ->
    t < T /\ (length (arrivals (pl_begin p <? pl_until p)%Z (key_of m) 1 [] (fw_trace (trace_at j x))) < 2048)%nat.
End Spec.

Section Node.
  Context {G : Type}.
  Variable ky : kyber G.
  Variable keccak : bytes -> bytes.
  Variable pshash : Z -> Z -> bytes.
  Notation history := (nhistory ky keccak pshash).

  (** ** C121.  The allowance of a run that was asked for: messages are buffered from 5 ms before the start on, forwarded from the start on,
      and dropped one second after the protocol is over. *)
  Theorem C121_allowance su until now0 evs n tr t k a : history su until now0 evs n tr -> In (NFw (FSet t k a)) tr ->
    exists start doc tq, requested su evs k start doc tq /\ tq <= t /\ al_buf a = start - 5 * ms /\ al_start a = start /\
      al_stop a = start + protocol_timeout (the_prot ky keccak pshash (k_pc k)) + 1000 * ms.
  Proof.
    intros HH IN. destruct (history_inv _ _ _ _ _ _ _ _ _ HH) as (T & [W _]).
    destruct (w_set _ _ _ _ _ _ _ _ _ _ W t k a) as (st & dc & tq & R & L & ->); [unfold fw_trace; apply in_flat_map; eexists; split; [exact IN|left; reflexivity]|].
    exists st, dc, tq. split; [exact R|]. split; [exact L|]. cbn [allowance_for al_buf al_start al_stop]. unfold max_drift, stop_grace. split; [reflexivity|]. split; [reflexivity|]. lia.
  Qed.
  (** A run asked for once, for which the allowance was given.  When the goroutine of the allowance has begun and then goes on 5 ms before the start or later, the
      firewall has begun to buffer. *)
  Theorem C121_buffers_when_due su until now0 u1 s u2 t u3 n tr k start doc tq n1 tr1 t0 a : let evs := u1 ++ VFw s k 0 :: u2 ++ VFw t k 0 :: u3 in
    history su until now0 evs n tr -> NoDup (su_guests su) -> (requests_for k evs <= 1)%nat -> requested su evs k start doc tq ->
    nexec ky keccak pshash su (start_node su until now0) u1 = Ok (n1, tr1) -> In (NFw (FSet t0 k a)) tr1 -> start - 5 * ms <= t ->
    exists tb, In (NFw (FPhase tb k 1)) tr.
  Proof.
    cbv zeta. intros HH ND RQ RE H1 IN LT. destruct (woken _ _ _ _ _ _ _ _ _ _ _ _ _ _ _ _ _ _ _ t0 a HH ND RQ RE H1) as (tb & X).
    - unfold fw_trace. apply in_flat_map. eexists. split; [exact IN|left; reflexivity].
    - cbn [allowance_for al_buf]. unfold max_drift. exact LT.
    - exists tb. unfold fw_trace in X. apply in_flat_map in X. destruct X as (o & O1 & O2). destruct o; try contradiction. destruct O2 as [->|[]]. exact O1.
  Qed.
End Node.
Print Assumptions C121_allowance. Print Assumptions C121_buffers_when_due.

Section Statements.
  Context {G : Type}.
  Variable ky : kyber G.
  Variable keccak : bytes -> bytes.
  Variable pshash : Z -> Z -> bytes.
  Variable places : list place.
  Variable home : Z -> option nat.
  Notation message := (message payload).
  Notation chistory := (chistory ky keccak pshash places home).
  Variables (t0 : Z) (evs : list (cevent (G := G))) (c : cluster (G := G)) (tr : list (cobs (G := G))).

  (** ** C121.  A message of a run comes in no earlier, by the clock of its sender, than the time the run was asked to start at. *)
  Theorem C121_not_before_start pc id i j p q a b start doc tq x t m os y : chistory t0 evs c tr -> nth_error places i = Some p -> nth_error places j = Some q ->
    let k := mkKey pc a id in (requests_for k (events_at i tr) <= 1)%nat -> requested (pl_su p) (events_at i tr) k start doc tq ->
    m_run m = id -> tr = x ++ XNode j (Via (mkLane i pc a b)) (VIn t m) os :: y -> start <= t - pl_skew q + pl_skew p /\ key_of m = mkKey pc b id.
  Proof.
    intros HC EP EQ k RQ RE EM EX. subst id. destruct (comes_after_start ky keccak pshash places home _ _ _ _ _ _ (mkLane i pc a b) _ _ _ _ p _ _ _ HC EX EP RQ RE) as (A & B & C).
    cbn [l_pc l_to] in B, C. unfold skew_of in A. rewrite EQ in A. split; [exact A|]. unfold key_of. rewrite B, C. reflexivity.
  Qed.

  (** Two runs of one id, each asked for once, with the same start, at two processes.  The clock of the sender is ahead of that of the receiver by
      at most [drift], and the receiver has done, [e] after it is due, what is due 5 ms before the start: it has begun to buffer.  [drift] and [e] are at most 5 ms together.
      Then what comes in up to one second after the protocol is over, comes in while the receiver forwards or buffers. *)
  Theorem C121_lets_in pc id i j p q a b start da ta db tb drift e : chistory t0 evs c tr -> nth_error places i = Some p -> nth_error places j = Some q ->
    let k g := mkKey pc g id in NoDup (su_guests (pl_su q)) ->
    (requests_for (k a) (events_at i tr) <= 1)%nat -> requested (pl_su p) (events_at i tr) (k a) start da ta ->
    (requests_for (k b) (events_at j tr) <= 1)%nat -> requested (pl_su q) (events_at j tr) (k b) start db tb ->
    pl_skew p - pl_skew q <= drift -> drift + e <= 5 * ms -> open_by (start - 5 * ms + e) q j (k b) tr ->
    comes_before (start + protocol_timeout (the_prot ky keccak pshash pc) + 1000 * ms) id q j (mkLane i pc a b) tr ->
    lets_in (fun m => m_run m = id) q j (mkLane i pc a b) tr.
  Proof.
    intros HC EP EQ k ND RQA RA RQB RB SK DE OP CB x t m os y EM EX. cbv zeta.
    destruct (C121_not_before_start _ _ _ _ _ _ _ _ _ _ _ _ _ _ _ _ HC EP EQ RQA RA EM EX) as [TS EK]. rewrite EK.
    destruct (CB _ _ _ _ _ EM EX) as [TL RM]. rewrite EK in RM. destruct (OP _ _ _ _ _ EX ltac:(cbn [ntime]; lia)) as (DR & t1 & PH). split; [exact DR|].
    destruct (cluster_node _ _ _ _ _ _ _ _ _ HC _ _ EQ) as (n & [NC NX] & _). destruct (proj1 (history_block _ _ _ _ _ _ _ _ _ HC) _ _ _ _ _ _ EX) as (q' & n1 & n2 & X1 & X2 & _).
    rewrite EQ in X1. injection X1 as <-. cbn [app] in X2.
    assert (EV : events_at j tr = events_at j x ++ VIn t m :: events_at j y).
    { rewrite EX. unfold events_at. rewrite flat_map_app. cbn [flat_map]. rewrite Nat.eqb_refl. reflexivity. }
    assert (HH : nhistory ky keccak pshash (pl_su q) (pl_until q) (pl_begin q) (events_at j x) n1 (trace_at j x)).
    { split; [|exact X2]. rewrite EV in NC. eapply nclock_app, NC. }
    assert (IC : exists st dc tq, requested (pl_su q) (events_at j x) (k b) st dc tq).
    { destruct (phase_requested _ _ _ _ _ _ _ _ _ _ _ _ HH PH) as (st & dc & tq & R). eauto. }
    destruct IC as (st & dc & tq & R1).
    assert (R2 : requested (pl_su q) (events_at j tr) (k b) st dc tq) by (eapply requested_mono; [|exact R1]; rewrite EV; apply incl_appl, incl_refl).
    destruct (requested_once _ _ _ _ _ _ _ _ _ RQB RB R2) as (<- & _ & _).
    assert (RQ1 : (requests_for (k b) (events_at j x) <= 1)%nat) by (rewrite EV in RQB; unfold requests_for in *; rewrite filter_app, app_length in RQB; lia).
    assert (FB : forall ev, In ev (events_at j x) -> ntime ev < start + protocol_timeout (the_prot ky keccak pshash pc) + 1000 * ms).
    { rewrite EV in NC. pose proof (nclock_before keccak pshash 0 _ _ _ _ NC) as NB. clear NC. rename NB into NC. rewrite Forall_forall in NC. intros ev He. specialize (NC ev He). cbn [ntime] in NC. lia. }
    destruct (C120_open_from_buffering _ _ _ _ _ _ _ _ _ _ _ _ _ _ HH ND RQ1 R1 PH FB) as [P1|P2]; [right; split; [exact P1|exact RM]|left; exact P2].
  Qed.

  (** C103 and C108, where the times and the clocks are such that the firewalls let the messages in. *)
  Theorem C121_cluster_signs : forall S P g D R C id start (host : Z -> nat) (pl : Z -> place) (j : Z -> nat) (k0 : Z -> kd G) (h : Z -> list (Z * event payload env)) (s : Z -> Z) d lat1 lat2 drift e,
    let n := Z.of_nat (length (se_parts S)) in let k i := mkKey pc_dss i id in let ours (m : message) := m_run m = id in
    chistory t0 evs c tr -> (forall b, length (keccak b) = 32%nat) -> sound S P -> 0 < n <= 2 ^ 32 -> (forall i, In i (se_qual S) <-> In i (everyone n)) -> se_T S <= n ->
    works ky n (se_r S) (se_R S) g D R C -> 0 <= d -> 0 <= lat2 -> drift + e <= 5 * ms ->
    (forall i' p' a, nth_error places i' = Some p' -> In a (su_guests (pl_su p')) -> In a (everyone n) /\ i' = host a) ->
    (forall i, In i (everyone n) -> let q := pl i in let su := pl_su q in let ev := events_at (host i) tr in
       home i = Some (host i) /\ nth_error places (host i) = Some q /\ NoDup (su_guests su) /\ In i (su_guests su) /\
       su_members su = se_parts S /\ su_T su = se_T S /\ (exists Q, nth_error (se_parts S) (Z.to_nat i) = Some Q /\ pt_mul (su_secret su i) KP_nil = Ok Q) /\
       (exists long, su_long su i = Some long /\ share_for (se_f S) (se_F S) i long) /\
       orders_permute ev /\ (requests_for (k i) ev <= 1)%nat /\ (exists t, requested su ev (k i) start (Some (se_msg S)) t) /\ (exists v, In (NPop (k i) v) (trace_at (host i) tr)) /\
       lives ky keccak pshash su (start_node su (pl_until q) (pl_begin q)) ev (j i) (k i) (k0 i) (h i) /\ kd_gen (k0 i) = g i /\
       In (NRun (k i) (OStart (s i))) (trace_at (host i) tr) /\ punctual (dss_prot ky keccak pshash) (run_info su (k i)) d (new_run (k0 i)) (untimed (h i)) /\
       has_room pc_dss i (trace_at (host i) tr) /\ (forall m, In m (from_outside (host i) tr) -> key_of m <> k i) /\ open_by (start - 5 * ms + e) q (host i) (k i) tr) ->
    (forall i i', In i (everyone n) -> In i' (everyone n) -> pl_skew (pl i) - pl_skew (pl i') <= drift /\ s i - s i' + 2 * d + (lat1 + lat2 + drift) < 70 * ms) ->
    (forall i i', In i (everyone n) -> In i' (everyone n) -> let l := mkLane (host i') pc_dss i' i in
       calls_within ours lat1 l tr /\ comes_before (start + 650 * ms + 1000 * ms) id (pl i) (host i) l tr /\ keeps_up ky keccak pshash ours lat2 (pl i) (host i) l tr) ->
    exists sg, verify keccak (KP P) (se_msg S) sg = Ok tt /\ forall i v, In i (everyone n) -> In (NPop (k i) v) (trace_at (host i) tr) -> v = Some (VSig sg).
  Proof.
    intros S P g D R C id start host pl j k0 h s d lat1 lat2 drift e n k ours HC LK HS HN HQ LT W HD HL2 DE GU HM HW HLn.
    apply (C103_cluster_signs ky keccak pshash places home t0 evs c tr S P g D R C id host pl j k0 h s d lat1 lat2 drift HC LK HS HN HQ LT W HD HL2 GU).
    - intros i Hi. destruct (HM i Hi) as (A1 & A2 & A3 & A4 & A5 & A6 & A7 & A8 & A9 & A10 & (t & A11) & A12 & A13 & A14 & A15 & A16 & A17 & A18 & _).
      repeat (split; [assumption|]). split; [exists start, t; exact A11|]. repeat (split; [assumption|]). exact A18.
    - exact HW.
    - intros i i' Hi Hi'. destruct (HLn i i' Hi Hi') as (B1 & B2 & B3). split; [exact B1|]. split; [|exact B3].
      destruct (HM i Hi) as (_ & A2 & A3 & _ & _ & _ & _ & _ & _ & A10 & (t & A11) & _ & _ & _ & _ & _ & _ & _ & A19).
      destruct (HM i' Hi') as (_ & C2 & _ & _ & _ & _ & _ & _ & _ & C10 & (t' & C11) & _).
      exact (C121_lets_in pc_dss id _ _ _ _ i' i start _ _ _ _ drift e HC C2 A2 A3 C10 C11 A10 A11 (proj1 (HW i' i Hi' Hi)) DE A19 B2).
  Qed.
  Theorem C121_cluster_generates : forall n f F g D R C id start (host : Z -> nat) (pl : Z -> place) (j : Z -> nat) (k0 : Z -> kd G) (h : Z -> list (Z * event payload env)) (s : Z -> Z) d lat1 lat2 drift e,
    let k i := mkKey pc_dkg i id in let ours (m : message) := m_run m = id in
    chistory t0 evs c tr -> n <= 2 ^ 32 -> works ky n f F g D R C -> 0 <= d -> 0 <= lat2 -> drift + e <= 5 * ms ->
    (forall i' p' a, nth_error places i' = Some p' -> In a (su_guests (pl_su p')) -> In a (everyone n) /\ i' = host a) ->
    (forall i, In i (everyone n) -> let q := pl i in let su := pl_su q in let ev := events_at (host i) tr in
       home i = Some (host i) /\ nth_error places (host i) = Some q /\ NoDup (su_guests su) /\ In i (su_guests su) /\ Z.of_nat (length (su_members su)) = n /\
       (requests_for (k i) ev <= 1)%nat /\ (exists t, requested su ev (k i) start None t) /\ requests_for (mkKey pc_dss i id) ev = 0%nat /\ (exists v, In (NPop (k i) v) (trace_at (host i) tr)) /\
       lives ky keccak pshash su (start_node su (pl_until q) (pl_begin q)) ev (j i) (k i) (k0 i) (h i) /\ kd_gen (k0 i) = g i /\
       In (NRun (k i) (OStart (s i))) (trace_at (host i) tr) /\ punctual (dkg_prot ky) (run_info su (k i)) d (new_run (k0 i)) (untimed (h i)) /\
       has_room pc_dkg i (trace_at (host i) tr) /\ (forall m, In m (from_outside (host i) tr) -> key_of m <> k i) /\ open_by (start - 5 * ms + e) q (host i) (k i) tr) ->
    (forall i i', In i (everyone n) -> In i' (everyone n) -> pl_skew (pl i) - pl_skew (pl i') <= drift /\ s i - s i' + 2 * d + (lat1 + lat2 + drift) < 70 * ms) ->
    (forall i i', In i (everyone n) -> In i' (everyone n) -> let l := mkLane (host i') pc_dkg i' i in
       calls_within ours lat1 l tr /\ comes_before (start + protocol_timeout (the_prot ky keccak pshash pc_dkg) + 1000 * ms) id (pl i) (host i) l tr /\ keeps_up ky keccak pshash ours lat2 (pl i) (host i) l tr) ->
    forall i v, In i (everyone n) -> In (NPop (k i) v) (trace_at (host i) tr) -> exists sh q, v = Some (VShare sh q) /\ share_for f F i sh /\ Permutation q (everyone n).
  Proof.
    intros n f F g D R C id start host pl j k0 h s d lat1 lat2 drift e k ours HC HN W HD HL2 DE GU HM HW HLn.
    apply (C108_cluster_generates ky keccak pshash places home t0 evs c tr n f F g D R C id host pl j k0 h s d lat1 lat2 drift HC HN W HD HL2 GU).
    - intros i Hi. destruct (HM i Hi) as (A1 & A2 & A3 & A4 & A5 & A10 & (t & A11) & A12 & A13 & A14 & A15 & A16 & A17 & A18 & A19 & _).
      repeat (split; [assumption|]). exact A19.
    - exact HW.
    - intros i i' Hi Hi'. destruct (HLn i i' Hi Hi') as (B1 & B2 & B3). split; [exact B1|]. split; [|exact B3].
      destruct (HM i Hi) as (_ & A2 & A3 & _ & _ & A10 & (t & A11) & _ & _ & _ & _ & _ & _ & _ & _ & A20).
      destruct (HM i' Hi') as (_ & C2 & _ & _ & _ & C10 & (t' & C11) & _).
      exact (C121_lets_in pc_dkg id _ _ _ _ i' i start _ _ _ _ drift e HC C2 A2 A3 C10 C11 A10 A11 (proj1 (HW i' i Hi' Hi)) DE A20 B2).
  Qed.
End Statements.
Print Assumptions C121_not_before_start. Print Assumptions C121_lets_in. Print Assumptions C121_cluster_signs. Print Assumptions C121_cluster_generates.

(** ** The assumptions hold: the two processes of C97, whose clocks differ by 2 ms; the firewalls begin to buffer 2 ms late at most, by their clocks. *)
Fixpoint all_cuts (f : list (cobs (G := Z)) -> cobs (G := Z) -> bool) (pre tr : list (cobs (G := Z))) : bool :=
  match tr with [] => true | o :: l => f pre o && all_cuts f (pre ++ [o]) l end.
Lemma all_cuts_at f tr : forall pre x o y, all_cuts f pre tr = true -> tr = x ++ o :: y -> f (pre ++ x) o = true.
Proof.
  induction tr as [|z tr IH]; intros pre x o y H E; [destruct x; discriminate|]. cbn [all_cuts] in H. apply andb_true_iff in H. destruct H as [H1 H2]. destruct x as [|z' x]; cbn [app] in E; injection E as -> E.
  - rewrite app_nil_r. exact H1.
  - specialize (IH _ _ _ _ H2 E). rewrite <- app_assoc in IH. exact IH.
Qed.
Definition opens_at (T : Z) (p : place) (j : nat) (k : key) (x : list (cobs (G := Z))) (o : cobs (G := Z)) : bool :=
  match o with XNode j' _ ev _ => negb (Nat.eqb j' j) || (ntime ev <? T) ||
    (negb (dropping (pl_begin p <? pl_until p) (fw_trace (trace_at j x))) && existsb (fun z => match z with NFw (FPhase _ k' v) => key_eqb k' k && (v =? 1) | _ => false end) (trace_at j x))
  | _ => true end.
Lemma opens_all T p j k tr : all_cuts (opens_at T p j k) [] tr = true -> open_by T p j k tr.
Proof.
  intros H x org ev os y E HT. pose proof (all_cuts_at _ _ _ _ _ _ H E) as X. cbn [app opens_at] in X. rewrite Nat.eqb_refl in X. cbn [negb orb] in X.
  destruct (Z.ltb_spec (ntime ev) T); [lia|]. cbn [orb] in X. apply andb_true_iff in X. destruct X as [A B]. apply negb_true_iff in A. split; [exact A|].
  apply existsb_exists in B. destruct B as (z & I1 & B). destruct z as [f| | | | | | | |]; try discriminate B. destruct f as [| | |t k1 v| |]; try discriminate B. apply andb_true_iff in B. destruct B as [B1 B2]. apply Z.eqb_eq in B2. subst v.
  destruct (key_eqb_spec k1 k) as [->|]; [|discriminate]. eauto.
Qed.
Definition comes_at (T : Z) (p : place) (j : nat) (x : list (cobs (G := Z))) (o : cobs (G := Z)) : bool :=
  match o with XNode j' (Via _) (VIn t m) _ => negb (Nat.eqb j' j) ||
    ((t <? T) && (length (arrivals (pl_begin p <? pl_until p)%Z (key_of m) 1 [] (fw_trace (trace_at j x))) <? 2048)%nat)
  | _ => true end.
Lemma comes_all T id p j l tr : all_cuts (comes_at T p j) [] tr = true -> comes_before T id p j l tr.
Proof.
  intros H x t m os y _ E. pose proof (all_cuts_at _ _ _ _ _ _ H E) as X. cbn [app comes_at] in X. rewrite Nat.eqb_refl in X. cbn [negb orb] in X.
  apply andb_true_iff in X. destruct X as [A B]. apply Z.ltb_lt in A. apply Nat.ltb_lt in B. auto.
Qed.
Example C121_ex : exists c tr, let kk := (fun b : bytes => b) in let ph := (fun _ _ : Z => ([] : bytes)) in
  chistory pair_ky kk ph pair_places pair_home (-20 * ms) pair_evs c tr /\ 2 * ms + 3 * ms <= 5 * ms /\
  forall i, i = 0 \/ i = 1 -> let j := Z.to_nat (1 - i) in exists p q ta tb m t os,
    nth_error pair_places (Z.to_nat i) = Some p /\ nth_error pair_places j = Some q /\ NoDup (su_guests (pl_su q)) /\
    (requests_for (pair_k i) (events_at (Z.to_nat i) tr) <= 1)%nat /\ requested (pl_su p) (events_at (Z.to_nat i) tr) (pair_k i) 0 (Some 10) ta /\
    (requests_for (pair_k (1 - i)) (events_at j tr) <= 1)%nat /\ requested (pl_su q) (events_at j tr) (pair_k (1 - i)) 0 (Some 10) tb /\
    pl_skew p - pl_skew q <= 2 * ms /\ open_by (0 - 5 * ms + 3 * ms) q j (pair_k (1 - i)) tr /\
    comes_before (0 + protocol_timeout (the_prot pair_ky kk ph pc_dss) + 1000 * ms) (run_id_for [x61] 0) q j (pair_lane i) tr /\
    (i = 0 -> In (XNode j (Via (pair_lane i)) (VIn t m) os) tr /\ m_run m = run_id_for [x61] 0).
Proof.
  set (run := cexec pair_ky (fun b : bytes => b) (fun _ _ : Z => ([] : bytes)) pair_places pair_home (start_cluster pair_places) pair_evs).
  assert (X : match run with Some _ => true | None => false end = true) by (vm_compute; reflexivity). destruct run as [[c tr]|] eqn:E; [clear X|discriminate X]. exists c, tr. cbv zeta. split.
  { split; [|exact E]. clear. vm_compute. repeat (split; [intros X; discriminate X|]). exact I. }
  assert (ET : option_map snd run = Some tr) by (rewrite E; reflexivity). clear E. subst run. vm_compute in ET. injection ET as <-. split; [unfold ms; lia|].
  assert (ND : forall i : Z, NoDup [i]) by (intros i; constructor; [intros []|constructor]).
  intros i Hi. destruct Hi as [-> | ->].
  - eexists _, _, (-10 * ms), (-8 * ms), _, _, _. split; [reflexivity|]. split; [reflexivity|]. split; [apply ND|]. split; [vm_compute; lia|].
    split; [exists [x61]; split; [left; reflexivity|]; split; [reflexivity|]; split; [reflexivity|left; reflexivity]|]. split; [vm_compute; lia|].
    split; [exists [x61]; split; [left; reflexivity|]; split; [reflexivity|]; split; [reflexivity|left; reflexivity]|]. split; [vm_compute; discriminate|].
    split; [apply opens_all; vm_compute; reflexivity|]. split; [apply comes_all; vm_compute; reflexivity|]. intros _. split; [|shelve]. vm_compute. repeat (first [left; reflexivity|right]).
  - eexists _, _, (-8 * ms), (-10 * ms), lag_m, 0, []. split; [reflexivity|]. split; [reflexivity|]. split; [apply ND|]. split; [vm_compute; lia|].
    split; [exists [x61]; split; [left; reflexivity|]; split; [reflexivity|]; split; [reflexivity|left; reflexivity]|]. split; [vm_compute; lia|].
    split; [exists [x61]; split; [left; reflexivity|]; split; [reflexivity|]; split; [reflexivity|left; reflexivity]|]. split; [vm_compute; discriminate|].
    split; [apply opens_all; vm_compute; reflexivity|]. split; [apply comes_all; vm_compute; reflexivity|]. intros H. discriminate H.
  Unshelve. reflexivity.
Qed.

(** A member of the pair: it is asked to sign from 0 on, the goroutine of its allowance begins 10 ms before, and goes on 5 ms before. *)
Example C121_ex_due : exists n tr n1 tr1, let kk := (fun b : bytes => b) in let ph := (fun _ _ : Z => ([] : bytes)) in let su := pair_su 0 in let k := pair_k 0 in
  let u1 := [VRequest (-10 * ms) [x61] 0 (Some 10); VGo (-10 * ms) 0 0; VGuest (-10 * ms) 0 0 0] in let u3 := [VGuest (-5 * ms) 0 0 0] in
  let evs := u1 ++ VFw (-10 * ms) k 0 :: [] ++ VFw (-5 * ms) k 0 :: u3 in
  nhistory pair_ky kk ph su (-20 * ms) (-20 * ms) evs n tr /\ NoDup (su_guests su) /\ (requests_for k evs <= 1)%nat /\ requested su evs k 0 (Some 10) (-10 * ms) /\
  nexec pair_ky kk ph su (start_node su (-20 * ms) (-20 * ms)) u1 = Ok (n1, tr1) /\ (exists a, In (NFw (FSet (-10 * ms) k a)) tr1) /\ 0 - 5 * ms <= -5 * ms.
Proof.
  eexists _, _, _, _. cbv zeta. split; [split; [vm_compute; repeat (split; [intros X; discriminate X|]); exact I|vm_compute; reflexivity]|]. split; [constructor; [intros []|constructor]|]. split; [vm_compute; lia|].
  split; [exists [x61]; split; [left; reflexivity|]; split; [reflexivity|]; split; [reflexivity|left; reflexivity]|]. split; [vm_compute; reflexivity|]. split; [eexists; vm_compute; left; reflexivity|lia].
Qed.
