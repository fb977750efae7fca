(** Statements about several nodes that talk to each other: what is sent arrives in time; the nodes sign. *)
From Coq Require Import ZArith List Lia Bool Permutation.
From Coq Require Import Init.Byte.
From Verif Require Import Curve Order SecpProofs SecpProofs2 DssProofs3 Params Bytes Res Secp Spec PublicKey Schnorr Dss DssSpec Dto DtoSpec Prot ProtSpec ProtProofs ProtProofs2 ProtProofs3 ProtProofs6 TimeSpec TimeProofs DkgProt DkgProofs KMap Firewall FwSpec FwProofs
  NetSpec Outputs Node NodeSpec NodeRun NodeProofs NodeProofs2 NodeProofs3 NodeProofs4 NodeProofs5 NodeProofs6 NodeProofs7 ObjSpec ObjProofs ObjProofs2 ObjProofs3 PropsNode PropsNode2 SignSpec SignProofs PropsSign PropsObj
  ReachSpec ReachProofs ReachProofs2 Cluster ClusterSpec ClusterProofs ClusterProofs2 DeliverSpec ClusterProofs3 ClusterProofs4.
From Verif Require Net NetProofs.
Import ListNotations.
Open Scope Z_scope.

Section Statements.
  Context {G : Type}.
  Variable ky : kyber G.
  Variable keccak : bytes -> bytes.
  Variable pshash : Z -> Z -> bytes.
  Variable places : list place.
  Variable home : Z -> option nat.
  Notation message := (message payload).
  Notation chistory := (chistory ky keccak pshash places home).
  Notation prot := (dss_prot ky keccak pshash).
  Variables (t0 : Z) (evs : list (cevent (G := G))) (c : cluster (G := G)) (tr : list (cobs (G := G))).

  (** ** C98.  A message that a signing run of guest [a] in process [i] sends to the run of the same id of member [b], in process [j],
      arrives at that run: within [lat1 + lat2], measured by the two clocks, if calls of that queue succeed within [lat1], the
      firewall of [j] forwards when it comes in, or buffers and forwards within [lat2], and its incoming queue is not full and is
      emptied within [lat2]. *)
  Theorem C98_arrives_in_time pc P i j p q a b id x k0 h t m lat1 lat2 : chistory t0 evs c tr -> nth_error places i = Some p -> nth_error places j = Some q -> home b = Some j ->
    NoDup (su_guests (pl_su q)) -> (requests_for (mkKey pc b id) (events_at j tr) <= 1)%nat ->
    lives ky keccak pshash (pl_su q) (start_node (pl_su q) (pl_until q) (pl_begin q)) (events_at j tr) x (mkKey pc b id) k0 h ->
    let l := mkLane i pc a b in
    calls_within P lat1 l tr -> lets_in P q j l tr -> keeps_up ky keccak pshash P lat2 q j l tr -> has_room pc b (trace_at j tr) -> 0 <= lat2 ->
    sends_at i (mkKey pc a id) t m tr -> m_rcpt m = b -> P m -> pc = pc_dss \/ (pc = pc_dkg /\ m_op m <> 0) -> 0 <= m_op m < Z.of_nat (length (p_stages (the_prot ky keccak pshash pc))) ->
    exists t', t' <= t - pl_skew p + pl_skew q + lat1 + lat2 /\ arrives h t' m.
  Proof. intros HC EP EQ EH ND RQ HL l. exact (delivered _ _ _ _ _ _ _ _ _ HC pc P i j p q a b id x k0 h t m lat1 lat2 EP EQ EH ND RQ HL). Qed.

  (** Members [M], enough of them, each in a process that was asked once to sign the document of the session under the id [id],
      whose runs get ready, start within a window and are late by at most [d].  Partial signatures for these runs are carried by
      calls that succeed within [lat1]; they come in while the firewall forwards or buffers; the incoming queue is not full and is emptied
      within [lat2]; no two clocks differ by more than [drift].  Then every request that returns, returns one and the same valid
      signature. *)
  Theorem C98_cluster_signs : forall S P M id (host : Z -> nat) (pl : Z -> place) (j : Z -> nat) (k0 : Z -> kd G) (h : Z -> list (Z * event payload env)) (s : Z -> Z) d lat1 lat2 drift,
    let k i := mkKey pc_dss i id in let c' i := run_info (pl_su (pl i)) (k i) in let partial (m : message) := m_op m = op_dss_partsig /\ m_run m = id in
    chistory t0 evs c tr -> (forall b, length (keccak b) = 32%nat) -> sound S P -> NoDup M -> M <> [] -> se_T S <= Z.of_nat (length M) -> 0 <= d -> 0 <= lat2 ->
    (forall i, In i M -> let q := pl i in let e := events_at (host i) tr in
       home i = Some (host i) /\ nth_error places (host i) = Some q /\ NoDup (su_guests (pl_su q)) /\ In i (su_guests (pl_su q)) /\ orders_permute e /\
       (requests_for (k i) e <= 1)%nat /\ (exists v, In (NPop (k i) v) (trace_at (host i) tr)) /\
       lives ky keccak pshash (pl_su q) (start_node (pl_su q) (pl_until q) (pl_begin q)) e (j i) (k i) (k0 i) (h i) /\
       In (NRun (k i) (OStart (s i))) (trace_at (host i) tr) /\
       ready ky keccak pshash S i (c' i) (k0 i) (untimed (h i)) /\ punctual prot (c' i) d (new_run (k0 i)) (untimed (h i)) /\
       has_room pc_dss i (trace_at (host i) tr)) ->
    (forall i i', In i M -> In i' M -> pl_skew (pl i) - pl_skew (pl i') <= drift /\ s i - s i' + 2 * d + (lat1 + lat2 + drift) < 70 * ms) ->
    (forall i i', In i M -> In i' M -> let l := mkLane (host i') pc_dss i' i in
       calls_within partial lat1 l tr /\ lets_in partial (pl i) (host i) l tr /\ keeps_up ky keccak pshash partial lat2 (pl i) (host i) l tr) ->
    exists sg, verify keccak (KP P) (se_msg S) sg = Ok tt /\ forall i v, In i M -> In (NPop (k i) v) (trace_at (host i) tr) -> v = Some (VSig sg).
  Proof.
    intros S P M id host pl j k0 h s d lat1 lat2 drift k c' partial HC LK HS ND NM LT HD HL2 HM HW HN.
    assert (EXN : exists nn : Z -> node, forall i, In i M -> nhistory ky keccak pshash (pl_su (pl i)) (pl_until (pl i)) (pl_begin (pl i)) (events_at (host i) tr) (nn i) (trace_at (host i) tr)).
    { clear - HM HC. induction M as [|i M IH].
      - exists (fun _ => start_node (mkSetup [] [] 0 0 (fun _ => 0) (fun _ => None)) 0 0). intros i [].
      - destruct IH as [nn IH]; [intros; apply HM; right; assumption|]. destruct (HM i (or_introl eq_refl)) as (_ & EP & _). destruct (cluster_node _ _ _ _ _ _ _ _ _ HC _ _ EP) as (n & H1 & _).
        exists (fun i' => if i' =? i then n else nn i'). intros i' H'. destruct (Z.eqb_spec i' i) as [->|NE]; [exact H1|]. destruct H' as [<-|H']; [congruence|apply IH, H']. }
    destruct EXN as [nn EXN].
    refine (C95_nodes_sign ky keccak pshash S P M id (fun i => pl_su (pl i)) (fun i => pl_until (pl i)) (fun i => pl_begin (pl i)) (fun i => events_at (host i) tr) nn (fun i => trace_at (host i) tr) j k0 h s d (lat1 + lat2 + drift)
      LK HS ND NM LT HD _ _ _).
    - intros i Hi. destruct (HM i Hi) as (_ & _ & A1 & A2 & A3 & A4 & A5 & A6 & A7 & A8 & A9 & _). split; [apply EXN, Hi|]. repeat (split; [assumption|]). assumption.
    - intros i i' Hi Hi'. apply (HW i i' Hi Hi').
    - intros i i' m t Hi Hi' HO EO ER. destruct (HM i Hi) as (B1 & B2 & B3 & B4 & B5 & B6 & _ & B7 & _ & _ & _ & B8). destruct (HM i' Hi') as (D1 & D2 & D3 & D4 & D5 & D6 & _ & D7 & _).
      pose proof (happens_sends _ _ _ _ _ _ _ _ _ HC (host i') (pl i') (j i') (k i') (k0 i') (h i') t m D2 D3 D6 D7 HO) as SD.
      assert (MR : m_run m = id).
      { destruct SD as (org & ev & os & S1 & _ & S2). apply (sent_fields _ _ _ _ _ _ _ _ _ (EXN i' Hi') (k i') m). unfold trace_at. apply in_flat_map. exists (XNode (host i') org ev os). split; [exact S1|]. rewrite Nat.eqb_refl. exact S2. }
      destruct (HN i i' Hi Hi') as (N1 & N2 & N3).
      destruct (delivered _ _ _ _ _ _ _ _ _ HC pc_dss partial (host i') (host i) (pl i') (pl i) i' i id (j i) (k0 i) (h i) t m lat1 lat2 D2 B2 B1 B3 B6 B7 N1 N2 N3 B8 HL2 SD ER (conj EO MR) (or_introl eq_refl)) as (t' & T1 & T2).
      { rewrite EO. split; [discriminate|reflexivity]. }
      exists t'. split; [|exact T2]. destruct (HW i i' Hi Hi') as [W _]. lia.
  Qed.
End Statements.

(** ** An execution that meets the assumptions: the nodes of C95, in two processes *)
Lemma cut {A} (f : A -> Prop) a v b x v' y : a ++ v :: b = x ++ v' :: y -> f v' -> (forall z, In z a -> ~ f z) -> (forall z, In z b -> ~ f z) -> x = a /\ v' = v /\ y = b.
Proof.
  revert x. induction a as [|z a IH]; intros x E F NA NB; destruct x as [|z' x]; cbn [app] in E.
  - injection E as -> ->. auto.
  - exfalso. injection E as _ E. apply (NB v'); [|exact F]. rewrite E. apply in_or_app. right. left. reflexivity.
  - exfalso. injection E as -> _. apply (NA v'); [left; reflexivity|exact F].
  - injection E as -> E. destruct (IH x E F) as (-> & -> & ->); [intros; apply NA; right; assumption|exact NB|]. auto.
Qed.
Lemma nexec_cut {G} (ky : kyber G) keccak pshash su a : forall n b n' tr, nexec ky keccak pshash su n (a ++ b) = Ok (n', tr) ->
  exists n1 t1 t2, nexec ky keccak pshash su n a = Ok (n1, t1) /\ nexec ky keccak pshash su n1 b = Ok (n', t2) /\ tr = t1 ++ t2.
Proof.
  induction a as [|ev a IH]; intros n b n' tr; cbn [app Node.nexec]; [intros E; exists n, [], tr; auto|].
  destruct (nstep ky keccak pshash su n ev) as [[n1 o1]| |]; cbn [rbind fst snd]; try discriminate.
  destruct (nexec ky keccak pshash su n1 (a ++ b)) as [[n2 o2]| |] eqn:E2; cbn [rbind fst snd]; try discriminate. intros E. injection E as <- <-.
  destruct (IH _ _ _ _ E2) as (n3 & t1 & t2 & X1 & X2 & ->). rewrite X1. cbn [rbind fst snd]. exists n3, (o1 ++ t1), t2. rewrite app_assoc. auto.
Qed.
Lemma deliver_rest {G} (ky : kyber G) keccak pshash su n now pc g nn ord n' o : nstep ky keccak pshash su n (VDeliver now pc g nn ord) = Ok (n', o) -> kget (n_cons n') (qkey pc g) = None /\ n_qs n' = n_qs n.
Proof.
  cbn [nstep]. unfold consumer_deliver. destruct (kget (n_cons n) (qkey pc g)) as [[j m]|] eqn:E; [|intros X; injection X as <- _; auto].
  destruct (nth_error (n_heap n) j) as [[k r]|]; [|discriminate]. destruct (deliver _ _ _ _ _) as [x| |]; cbn [rbind]; try discriminate. intros X. injection X as <- _. split.
  - cbn [set_cons n_cons]. rewrite kget_kdel_same. reflexivity.
  - reflexivity.
Qed.

Lemma nexec_pair {G} (ky : kyber G) keccak pshash su n e e' n2 o2 n3 o3 : nstep ky keccak pshash su n e = Ok (n2, o2) -> nexec ky keccak pshash su n [e; e'] = Ok (n3, o3) -> exists o, nstep ky keccak pshash su n2 e' = Ok (n3, o).
Proof.
  intros E1. cbn [Node.nexec]. rewrite E1. cbn [rbind fst snd]. destruct (nstep ky keccak pshash su n2 e') as [[n4 o4]| |]; cbn [rbind fst snd]; try discriminate. intros E. injection E as <- _. eauto.
Qed.

(** The events of processes 0 and 1, whose clock shows 2 ms more, in the order of the time line. *)
Fixpoint weave {G} (a : list (nevent (G := G))) : list (nevent (G := G)) -> list (nat * nevent (G := G)) :=
  fix w b := match a, b with
  | [], _ => map (pair 1%nat) b
  | _, [] => map (pair 0%nat) a
  | x :: a', y :: b' => if ntime y - 2 * ms <=? ntime x then (1%nat, y) :: w b' else (0%nat, x) :: weave a' b
  end.
Definition duo_home (b : Z) : option nat := if b =? 0 then Some 0%nat else if b =? 1 then Some 1%nat else None.
Definition duo_a (i : Z) : list (nevent (G := Z)) := duo_pre i ++ duo_ticks duo_wakes0.
Definition duo_b : list (nevent (G := Z)) := duo_ticks [530; 550; 555].
Definition duo_take (i : Z) : list (nevent (G := Z)) := [VTake (560 * ms) pc_dss i 0; VDeliver (560 * ms) pc_dss i 9 oid].
Definition duo_d (i : Z) : list (nevent (G := Z)) := duo_ticks [625; 630; 650] ++ duo_post i.
Definition duo_l (i : Z) : lane := mkLane (Z.to_nat i) pc_dss i (1 - i).
Section Inside.
  Variable keccak : bytes -> bytes.
  Variable pshash : Z -> Z -> bytes.
  Variables nonce long : Z -> dks.
  Variables q0 q1 : point.
  Notation su := (duo_su long q0 q1).
  Notation ky := (duo_ky nonce).
  Notation nexec i := (nexec ky keccak pshash (su i)).
  Definition duo_place (i : Z) : place := mkPlace (su i) (-20 * ms) (-20 * ms) (2 * i * ms).

  Lemma duo_inside i w ra ta rb tb : i = 0 \/ i = 1 -> let p := dss_prot ky keccak pshash in let c := duo_c duo_id i in let tick := map (fun t => ETick (duo_env long i) (t * ms)) in
    exec p c (new_run (duo_k [q0; q1] i)) (tick duo_wakes0) = Ok (ra, ta) -> timely p c (new_run (duo_k [q0; q1] i)) (tick duo_wakes0) ->
    exec p c ra (tick [530; 550; 555]) = Ok (rb, tb) -> timely p c ra (tick [530; 550; 555]) ->
    exists na o1 nb nv ov, nexec i (start_node (su i) (-20 * ms) (-20 * ms)) (duo_a i) = Ok (na, o1 ++ map (NRun (duo_key i)) ta) /\ nexec i na duo_b = Ok (nb, map (NRun (duo_key i)) tb) /\
      nstep ky keccak pshash (su i) nb (VIn (560 * ms) (duo_msg duo_id (1 - i) w)) = Ok (nv, ov) /\ (forall j, sends_of j ov = []) /\
      (forall n3 o3, nexec i nv (duo_take i) = Ok (n3, o3) -> held_for (duo_key i) n3 = [] /\ waiting_for (duo_key i) n3 = []) /\
      (forall pc a b, sent_to pc a b o1 = []) /\ FwSpec.phase (duo_key i) (fw_trace o1) = Some 2.
  Proof.
    intros Hi p c tick EA TA EB TB.
    assert (PRE : exists n1 o1, nexec i (start_node (su i) (-20 * ms) (-20 * ms)) (duo_pre i) = Ok (n1, o1) /\ n_heap n1 = [(duo_key i, new_run (duo_k [q0; q1] i))] /\ kget (n_docs n1) (dkey i duo_id) = Some 10 /\
      (forall pc a b, sent_to pc a b o1 = []) /\ FwSpec.phase (duo_key i) (fw_trace o1) = Some 2 /\
      forall r t r' t', exists nv ov, nstep ky keccak pshash (su i) (moved (moved n1 0 (duo_key i) r t) 0 (duo_key i) r' t') (VIn (560 * ms) (duo_msg duo_id (1 - i) w)) = Ok (nv, ov) /\ (forall j, sends_of j ov = []) /\
        exists n2 o2, nstep ky keccak pshash (su i) nv (VTake (560 * ms) pc_dss i 0) = Ok (n2, o2) /\ waiting_for (duo_key i) n2 = []).
    { clear - Hi. destruct Hi as [->| ->]; (eexists _, _; split; [lazy; reflexivity|]; split; [reflexivity|]; split; [reflexivity|]; split; [reflexivity|]; split; [reflexivity|];
        intros r t r' t'; eexists _, _; split; [lazy; reflexivity|]; split; [reflexivity|]; eexists _, _; split; [lazy; reflexivity|]; lazy; reflexivity). }
    destruct PRE as (n1 & o1 & A1 & A2 & A3 & A4 & A5 & A6).
    assert (EV1 : env_for (su i) n1 (duo_key i) 9 oid = duo_env long i) by (unfold env_for; cbn [duo_key k_guest k_run]; rewrite A3; reflexivity).
    assert (ET : forall l, map (ETick (duo_env long i)) (map (fun t => t * ms) l) = tick l) by (intros l; unfold tick; rewrite map_map; reflexivity).
    destruct (ticks_lift ky keccak pshash (su i) 9 oid 0 (duo_key i) (map (fun t => t * ms) duo_wakes0) n1 (new_run (duo_k [q0; q1] i)) ra ta) as [B1 _].
    { rewrite A2. reflexivity. }
    { rewrite EV1, ET. exact EA. }
    { rewrite EV1, ET. exact TA. }
    set (na := moved n1 0 (duo_key i) ra ta) in *.
    assert (EV2 : env_for (su i) na (duo_key i) 9 oid = duo_env long i) by exact EV1.
    destruct (ticks_lift ky keccak pshash (su i) 9 oid 0 (duo_key i) (map (fun t => t * ms) [530; 550; 555]) na ra rb tb) as [B2 _].
    { unfold na, moved. cbn. rewrite A2. reflexivity. }
    { rewrite EV2, ET. exact EB. }
    { rewrite EV2, ET. exact TB. }
    destruct (A6 ra ta rb tb) as (nv & ov & C1 & C2 & n2 & o2 & C3 & C4). exists na, o1. eexists _, nv, ov.
    split; [unfold duo_a; eapply nexec_two; [exact A1|exact B1]|]. split; [exact B2|]. split; [exact C1|]. split; [exact C2|]. split; [|split; [exact A4|exact A5]].
    intros n3 o3 E. destruct (nexec_pair _ _ _ _ _ _ _ _ _ _ _ C3 E) as [o4 E4].
    destruct (deliver_rest _ _ _ _ _ _ _ _ _ _ _ _ E4) as [D1 D2]. split.
    - unfold held_for. cbn [duo_key k_pc k_guest]. unfold qkey in D1. rewrite D1. reflexivity.
    - unfold waiting_for in *. rewrite D2. exact C4.
  Qed.
End Inside.

Lemma sent_to_run pc a id t b : sent_to pc a b (map (NRun (mkKey pc a id)) t) = filter (fun m => m_rcpt m =? b) (sent t).
Proof.
  induction t as [|o t IH]; [reflexivity|]. destruct o; try exact IH. cbn [map sent_to sent flat_map k_pc k_guest]. rewrite !Z.eqb_refl. cbn [andb app filter]. destruct (m_rcpt m =? b); cbn [app]; f_equal; exact IH.
Qed.
Lemma fw_none k (t : list (obs payload arg output)) : fw_trace (map (NRun k) t) = [].
Proof. induction t; [reflexivity|assumption]. Qed.

Lemma duo_sum keccak pshash i w w' q0 q1 n tr m r1 t1 x : let long := demo_dks [5; 6] in let ky := duo_ky (demo_dks [7; 8]) in let su := duo_su long q0 q1 i in let p := dss_prot ky keccak pshash in let c := duo_c duo_id i in
  i = 0 \/ i = 1 -> m = duo_msg duo_id i (WPart w') ->
  nexec ky keccak pshash su (start_node su (-20 * ms) (-20 * ms)) (duo_evs i w) = Ok (n, tr) ->
  timely p c (new_run (duo_k [q0; q1] i)) (untimed (duo_hist duo_id long i w)) ->
  exec p c (new_run (duo_k [q0; q1] i)) (untimed (map (duo_wake long i) (duo_wakes0 ++ [530; 550; 555]))) = Ok (r1, t1) -> sent t1 = [x; m] -> m_rcpt x = 1 - i ->
  exists na oa nb ob nv ov n3 o3 od,
    nexec ky keccak pshash su (start_node su (-20 * ms) (-20 * ms)) (duo_a i) = Ok (na, oa) /\ nexec ky keccak pshash su na duo_b = Ok (nb, ob) /\
    nstep ky keccak pshash su nb (VIn (560 * ms) (duo_msg duo_id (1 - i) w)) = Ok (nv, ov) /\ (forall j, sends_of j ov = []) /\
    nexec ky keccak pshash su nv (duo_take i) = Ok (n3, o3) /\ held_for (duo_key i) n3 = [] /\ waiting_for (duo_key i) n3 = [] /\
    nexec ky keccak pshash su n3 (duo_d i) = Ok (n, od) /\ tr = oa ++ ob ++ ov ++ o3 ++ od /\
    sent_to pc_dss i (1 - i) (oa ++ ob) = [x; m] /\ (forall m' b, In m' (sent_to pc_dss i b oa) -> m_op m' <> op_dss_partsig) /\ FwSpec.phase (duo_key i) (fw_trace (oa ++ ob)) = Some 2.
Proof.
  intros long ky su p c Hi EM EN HT EX ES ER. set (tick := map (fun t => (ETick (duo_env long i) (t * ms) : event payload env))).
  assert (EU : untimed (map (duo_wake long i) (duo_wakes0 ++ [530; 550; 555])) = tick duo_wakes0 ++ tick [530; 550; 555]) by reflexivity. rewrite EU in EX.
  apply exec_split in EX. destruct EX as (ra & ta & tb & X1 & X2 & E1).
  assert (EH : exists l, untimed (duo_hist duo_id long i w) = tick duo_wakes0 ++ tick [530; 550; 555] ++ l) by (eexists; reflexivity). destruct EH as [l EH]. rewrite EH in HT.
  destruct (timely_app _ _ _ _ _ _ _ HT X1) as [T1 T2]. destruct (timely_app _ _ _ _ _ _ _ T2 X2) as [T3 _].
  destruct (duo_inside keccak pshash (demo_dks [7; 8]) long q0 q1 i w ra ta r1 tb Hi X1 T1 X2 T3) as (na & o1 & nb & nv & ov & A1 & A2 & A3 & A4 & A5 & A6 & A7).
  assert (EV : duo_evs i w = duo_a i ++ duo_b ++ [VIn (560 * ms) (duo_msg duo_id (1 - i) w)] ++ duo_take i ++ duo_d i) by reflexivity. rewrite EV in EN.
  apply nexec_cut in EN. destruct EN as (y1 & u1 & u2 & Y1 & Y2 & ->). assert (Z1 : Ok (y1, u1) = Ok (na, o1 ++ map (NRun (duo_key i)) ta)) by (rewrite <- A1; symmetry; exact Y1). injection Z1 as -> ->.
  apply nexec_cut in Y2. destruct Y2 as (y2 & u3 & u4 & Y2 & Y3 & ->). assert (Z2 : Ok (y2, u3) = Ok (nb, map (NRun (duo_key i)) tb)) by (rewrite <- A2; symmetry; exact Y2). injection Z2 as -> ->.
  apply nexec_cut in Y3. destruct Y3 as (y3 & u5 & u6 & Y3 & Y4 & ->).
  assert (Y3' : nexec ky keccak pshash su nb [VIn (560 * ms) (duo_msg duo_id (1 - i) w)] = Ok (nv, ov ++ [])).
  { assert (GEN : forall ev, nstep ky keccak pshash su nb ev = Ok (nv, ov) -> nexec ky keccak pshash su nb [ev] = Ok (nv, ov ++ [])) by (intros ev E; cbn [Node.nexec]; rewrite E; reflexivity). apply GEN. exact A3. }
  assert (Z3 : Ok (y3, u5) = Ok (nv, ov ++ [])) by (rewrite <- Y3'; symmetry; exact Y3). rewrite app_nil_r in Z3. injection Z3 as -> ->.
  apply nexec_cut in Y4. destruct Y4 as (n3 & o3 & od & Y4 & Y5 & ->). destruct (A5 _ _ Y4) as [B1 B2].
  eexists na, _, nb, _, nv, ov, n3, o3, od. split; [exact A1|]. split; [exact A2|]. split; [exact A3|]. split; [exact A4|]. split; [exact Y4|]. split; [exact B1|]. split; [exact B2|]. split; [exact Y5|]. split; [rewrite <- !app_assoc; reflexivity|]. split; [|split].
  - rewrite <- app_assoc, !ClusterProofs.sent_app, A6. cbn [app]. rewrite <- ClusterProofs.sent_app, <- map_app, <- E1. unfold duo_key. rewrite sent_to_run, ES. subst m. cbn [filter duo_msg make_msg m_rcpt]. rewrite ER, !Z.eqb_refl. reflexivity.
  - intros m' b H EO. rewrite ClusterProofs.sent_app, A6 in H. cbn [app] in H. unfold duo_key in H. rewrite sent_to_run in H. apply filter_In in H. destruct H as [H _].
    destruct (duo_before duo_id keccak pshash (demo_dks [7; 8]) long [q0; q1] i Hi) as (r & tr & EB & _ & _ & NS & _). assert (EQ : Ok (ra, ta) = Ok (r, tr)) by (rewrite <- X1; exact EB). injection EQ as _ <-.
    assert (X : In m' (for_op op_dss_partsig (sent ta))) by (apply filter_In; split; [exact H|apply Z.eqb_eq, EO]). rewrite NS in X. destruct X.
  - assert (FA : forall a b, fw_trace (a ++ b) = fw_trace a ++ fw_trace b) by (intros; apply flat_map_app). rewrite !FA, !fw_none, !app_nil_r. exact A7.
Qed.

(** *** The assumptions of C98, when one message comes in *)
Definition via_at {G} (j : nat) (z : cobs (G := G)) : Prop := exists l ev os, z = XNode j (Via l) ev os.
Lemma one_forwards {G} (P : message payload -> Prop) p j l l0 t0 m0 os0 x0 y0 (tr : list (cobs (G := G))) : tr = x0 ++ XNode j (Via l0) (VIn t0 m0) os0 :: y0 -> (forall z, In z x0 -> ~ via_at j z) -> (forall z, In z y0 -> ~ via_at j z) ->
  dropping (pl_begin p <? pl_until p) (fw_trace (trace_at j x0)) = false -> FwSpec.phase (key_of m0) (fw_trace (trace_at j x0)) = Some 2 -> lets_in P p j l tr.
Proof.
  intros -> NX NY HD HP x t m os y _ E. destruct (cut (via_at j) _ _ _ _ _ _ E (ex_intro _ l (ex_intro _ (VIn t m) (ex_intro _ os eq_refl))) NX NY) as (-> & Q & ->). injection Q as -> -> -> ->. split; [assumption|left; assumption].
Qed.
Lemma one_keeps {G} (ky : kyber G) keccak pshash (P : message payload -> Prop) lat p j l l0 t0 m0 os0 x0 y1 y2 n tr1 (tr : list (cobs (G := G))) : tr = x0 ++ XNode j (Via l0) (VIn t0 m0) os0 :: (y1 ++ y2) ->
  (forall z, In z x0 -> ~ via_at j z) -> (forall z, In z (y1 ++ y2) -> ~ via_at j z) -> Forall (fun ev => ntime ev <= t0 + lat) (events_at j y1) ->
  nexec ky keccak pshash (pl_su p) (start_node (pl_su p) (pl_until p) (pl_begin p)) (events_at j x0 ++ VIn t0 m0 :: events_at j y1) = Ok (n, tr1) ->
  FwSpec.phase (key_of m0) (fw_trace (trace_at j x0)) = Some 2 -> held_for (key_of m0) n = [] -> waiting_for (key_of m0) n = [] -> keeps_up ky keccak pshash P lat p j l tr.
Proof.
  intros -> NX NY HF HE HP HH HW x t m os y _ E. destruct (cut (via_at j) _ _ _ _ _ _ E (ex_intro _ l (ex_intro _ (VIn t m) (ex_intro _ os eq_refl))) NX NY) as (-> & Q & ->). injection Q as -> -> -> ->.
  exists y1, y2, n, tr1. split; [reflexivity|]. split; [exact HF|]. split; [exact HE|]. split; [rewrite HP; discriminate|auto].
Qed.
Lemma one_call {G} (P : message payload -> Prop) lat l m0 t1 tb (tr : list (cobs (G := G))) : (forall t m os, P m -> In (XLane t l (Net.EvSend m) os) tr -> m = m0 /\ tb <= t) ->
  In (XLane t1 l (Net.EvGo true) [Net.NCall m0 true]) tr -> t1 <= tb + lat -> calls_within P lat l tr.
Proof. intros H1 H2 HL t m os HP HI. destruct (H1 _ _ _ HP HI) as [-> HT]. exists t1, true, [Net.NCall m0 true]. split; [lia|]. split; [exact H2|]. left. reflexivity. Qed.
Lemma only_part {G} (ky : kyber G) keccak pshash su until now0 evs n tr a b id j k0 h r t mi m : nhistory ky keccak pshash su until now0 evs n tr -> NoDup (su_guests su) -> (requests_for (mkKey pc_dss a id) evs <= 1)%nat ->
  lives ky keccak pshash su (start_node su until now0) evs j (mkKey pc_dss a id) k0 h -> exec (dss_prot ky keccak pshash) (run_info su (mkKey pc_dss a id)) (new_run k0) (untimed h) = Ok (r, t) ->
  for_op op_dss_partsig (sent t) = [mi] -> In m (sent_to pc_dss a b tr) -> m_op m = op_dss_partsig -> m_run m = id -> m = mi /\ m_rcpt m = b.
Proof.
  intros HH ND RQ HL EX FO HI EO ER.
  assert (H1 : In m (filter (fun m => bytes_eqb (m_run m) id) (sent_to pc_dss a b tr))) by (apply filter_In; split; [exact HI|destruct (bytes_eqb_spec (m_run m) id); [reflexivity|contradiction]]).
  rewrite (sent_by_run _ _ _ _ _ _ _ _ _ _ _ _ _ HH) in H1. apply filter_In in H1. destruct H1 as [H1 H2]. split; [|apply Z.eqb_eq, H2].
  destruct (C93_run_is_execution ky keccak pshash su until now0 evs n tr j _ k0 h HH ND HL) as (_ & _ & r' & os & _ & EX' & ON). destruct (ON RQ) as [_ ON2].
  assert (EQ : Ok (r', os) = Ok (r, t)) by (rewrite <- EX; symmetry; exact EX'). injection EQ as _ ->.
  assert (H3 : In (OSent m) t).
  { apply ON2. unfold sent in H1. apply in_flat_map in H1. destruct H1 as (o & O1 & O2). apply in_run_trace in O1. destruct o; destruct O2 as [<-|[]] || destruct O2. exact O1. }
  assert (H4 : In m (for_op op_dss_partsig (sent t))).
  { apply filter_In. split; [|apply Z.eqb_eq, EO]. unfold sent. apply in_flat_map. exists (OSent m). split; [exact H3|left; reflexivity]. }
  rewrite FO in H4. destruct H4 as [<-|[]]. reflexivity.
Qed.

Lemma nexec_four {G} (ky : kyber G) keccak pshash su n a b v e na oa nb ob nv ov n3 o3 : nexec ky keccak pshash su n a = Ok (na, oa) -> nexec ky keccak pshash su na b = Ok (nb, ob) -> nstep ky keccak pshash su nb v = Ok (nv, ov) ->
  nexec ky keccak pshash su nv e = Ok (n3, o3) -> nexec ky keccak pshash su n (a ++ b ++ v :: e) = Ok (n3, oa ++ ob ++ ov ++ o3).
Proof. intros E1 E2 E3 E4. eapply nexec_two; [exact E1|]. eapply nexec_two; [exact E2|]. cbn [Node.nexec]. rewrite E3. cbn [rbind fst snd]. rewrite E4. reflexivity. Qed.
Lemma put_sent {G} (ky : kyber G) keccak pshash places home t0 evs c tr : chistory ky keccak pshash places home t0 evs c tr -> forall l t m os, In (XLane t l (Net.EvSend m) os) tr -> In m (sent_to (l_pc l) (l_from l) (l_to l) (trace_at (l_at l) tr)).
Proof.
  intros HC l t m os HI. destruct (history_ci _ _ _ _ _ _ _ _ _ HC) as (T & CI1). rewrite <- (ci_sends _ _ _ _ _ _ _ _ _ _ CI1 l). unfold put_in, lane_events. apply in_flat_map. exists (Net.EvSend m). split; [|left; reflexivity].
  apply in_flat_map. eexists. split; [exact HI|]. cbn. destruct (lane_eqb_spec l l) as [_|X]; [left; reflexivity|destruct X; reflexivity].
Qed.
Lemma sent_put {G} (ky : kyber G) keccak pshash places home t0 evs c tr : chistory ky keccak pshash places home t0 evs c tr -> forall l m, In m (sent_to (l_pc l) (l_from l) (l_to l) (trace_at (l_at l) tr)) -> exists t os, In (XLane t l (Net.EvSend m) os) tr.
Proof.
  intros HC l m HI. destruct (history_ci _ _ _ _ _ _ _ _ _ HC) as (T & CI1). rewrite <- (ci_sends _ _ _ _ _ _ _ _ _ _ CI1 l) in HI. unfold put_in, lane_events in HI. apply in_flat_map in HI. destruct HI as (ev & H1 & H2).
  apply in_flat_map in H1. destruct H1 as (o & H1 & H3). destruct o as [| t l' ev' os|]; try contradiction. destruct (lane_eqb_spec l' l) as [->|_]; [|contradiction]. destruct H3 as [<-|[]]. destruct ev'; destruct H2 as [<-|[]] || destruct H2. exists t, os. exact H1.
Qed.
Lemma room {pc g} (tr : list nobs) : (length (queued_to pc g tr) <= 3)%nat -> has_room pc g tr.
Proof. intros H a b ->. rewrite queued_app, app_length in H. lia. Qed.

(** All assumptions of C98_cluster_signs: the clocks of the two processes differ by 2 ms; of the two messages that each run sends to the
    other, the first is lost with a call that fails, and the second, the partial signature, is carried by one that succeeds. *)
Example C98_ex : forall keccak pshash, (forall b, length (keccak b) = 32%nat) -> exists (ky : kyber Z) places home id evs c tr (pl : Z -> place) (k0 : Z -> kd Z) h,
  let M := [0; 1] in let host := Z.to_nat in let s := (fun _ : Z => 0) in let lat1 := 32 * ms in let lat2 := 0 in let drift := 2 * ms in let d := 0 in
  let k i := mkKey pc_dss i id in let c' i := run_info (pl_su (pl i)) (k i) in let partial (m : message payload) := m_op m = op_dss_partsig /\ m_run m = id in
  chistory ky keccak pshash places home (-20 * ms) evs c tr /\ sound demo_session (of_E (smul 5 eG)) /\ NoDup M /\ M <> [] /\ se_T demo_session <= Z.of_nat (length M) /\ 0 <= d /\ 0 <= lat2 /\
  (forall i, In i M -> let q := pl i in let e := events_at (host i) tr in
     home i = Some (host i) /\ nth_error places (host i) = Some q /\ NoDup (su_guests (pl_su q)) /\ In i (su_guests (pl_su q)) /\ orders_permute e /\
     (requests_for (k i) e <= 1)%nat /\ (exists v, In (NPop (k i) (Some (VSig v))) (trace_at (host i) tr)) /\
     lives ky keccak pshash (pl_su q) (start_node (pl_su q) (pl_until q) (pl_begin q)) e 0 (k i) (k0 i) (h i) /\
     In (NRun (k i) (OStart (s i))) (trace_at (host i) tr) /\
     ready ky keccak pshash demo_session i (c' i) (k0 i) (untimed (h i)) /\ punctual (dss_prot ky keccak pshash) (c' i) d (new_run (k0 i)) (untimed (h i)) /\
     has_room pc_dss i (trace_at (host i) tr)) /\
  (forall i i', In i M -> In i' M -> pl_skew (pl i) - pl_skew (pl i') <= drift /\ s i - s i' + 2 * d + (lat1 + lat2 + drift) < 70 * ms) /\
  (forall i i', In i M -> In i' M -> let l := mkLane (host i') pc_dss i' i in
     calls_within partial lat1 l tr /\ lets_in partial (pl i) (host i) l tr /\ keeps_up ky keccak pshash partial lat2 (pl i) (host i) l tr) /\
  (forall i, In i M -> exists t m os, partial m /\ In (XLane t (duo_l i) (Net.EvSend m) os) tr).
Proof.
  intros keccak pshash LK. destruct (demo_c95 keccak pshash LK) as (w0 & w1 & q0 & q1 & n & trn & _ & HS & ND & LT & HN & _ & HX). cbv zeta in HS, ND, LT, HN, HX.
  set (ky := duo_ky (demo_dks [7; 8])) in *. set (long := demo_dks [5; 6]) in *. set (su := duo_su long q0 q1) in *. set (pl := duo_place long q0 q1).
  destruct (HX 0 (or_introl eq_refl)) as (QU0 & TI0 & (r0 & t0 & x0 & EF0 & ES0 & RC0 & OP0) & rr0 & tt0 & EX0 & FO0).
  destruct (HX 1 (or_intror (or_introl eq_refl))) as (QU1 & TI1 & (r1 & t1 & x1 & EF1 & ES1 & RC1 & OP1) & rr1 & tt1 & EX1 & FO1). clear HX.
  change (0 =? 0) with true in *. change (1 =? 0) with false in *. cbv iota in TI0, TI1, ES0, ES1, EX0, EX1, FO0, FO1.
  destruct (HN 0 (or_introl eq_refl)) as (HH0 & N0). destruct (HN 1 (or_intror (or_introl eq_refl))) as (HH1 & N1).
  change (0 =? 0) with true in *. change (1 =? 0) with false in *. cbv iota in HH0, N0, HH1, N1.
  set (m0 := duo_msg duo_id 0 (WPart w0)) in *. set (m1 := duo_msg duo_id 1 (WPart w1)) in *.
  destruct (duo_sum keccak pshash 0 (WPart w1) w0 q0 q1 (n 0) (trn 0) m0 r0 t0 x0 (or_introl eq_refl) eq_refl (proj2 HH0) TI0 EF0 ES0 RC0) as
    (na0 & oa0 & nb0 & ob0 & nv0 & ov0 & n30 & o30 & od0 & A0 & B0 & V0 & SV0 & C0 & HE0 & WA0 & D0 & TR0 & SE0 & PR0 & PH0).
  destruct (duo_sum keccak pshash 1 (WPart w0) w1 q0 q1 (n 1) (trn 1) m1 r1 t1 x1 (or_intror eq_refl) eq_refl (proj2 HH1) TI1 EF1 ES1 RC1) as
    (na1 & oa1 & nb1 & ob1 & nv1 & ov1 & n31 & o31 & od1 & A1 & B1 & V1 & SV1 & C1 & HE1 & WA1 & D1 & TR1 & SE1 & PR1 & PH1).
  set (A := weave (duo_a 0) (duo_a 1)). set (B := weave duo_b duo_b). set (K1 := map (pair 1%nat) (duo_take 1)). set (K0 := map (pair 0%nat) (duo_take 0)). set (D := weave (duo_d 0) (duo_d 1)).
  destruct (compose ky keccak pshash (pl 0) (pl 1) duo_home A B K1 K0 D (-20 * ms) (528 * ms) (558 * ms) (560 * ms) (duo_l 0) (duo_l 1) x0 m0 x1 m1
    na0 nb0 nv0 n30 (n 0) na1 nb1 nv1 n31 (n 1) oa0 ob0 ov0 o30 od0 oa1 ob1 ov1 o31 od1) as (c & tA & tB & tL & tC & tR & tD & HC & PA & PB & PC & PR & PD & OWN & TIM & SND).
  { exact A0. } { exact A1. } { exact B0. } { exact B1. } { exact V1. } { exact V0. } { exact C1. } { exact C0. } { reflexivity. } { reflexivity. } { exact D0. } { exact D1. }
  { assert (X : forallb (fun x => match fst x with 0%nat | 1%nat => -20 * ms <=? ntime (snd x) | _ => false end) (A ++ B ++ K1 ++ K0 ++ D) = true) by (vm_compute; reflexivity).
    apply Forall_forall. intros [x y] HI. pose proof (proj1 (forallb_forall _ _) X _ HI) as Y. cbn [fst snd] in Y. unfold due. cbn [fst snd]. destruct x as [|[|x]]; [apply Z.leb_le in Y; exact Y|apply Z.leb_le in Y; exact Y|discriminate Y]. }
  { vm_compute; intros X; discriminate X. } { vm_compute; intros X; discriminate X. } { split; reflexivity. } { split; reflexivity. } { exact SE0. } { exact SE1. } { apply SV1. }
  { clear. vm_compute. repeat (split; [intros X; discriminate X|]). exact I. }
  { clear. vm_compute. repeat (split; [intros X; discriminate X|]). exact I. }
  cbv zeta in HC, TIM.
  match type of HC with chistory _ _ _ _ _ _ ?e _ ?t => remember e as evs eqn:EEV; remember t as tr eqn:ETR end. clear EEV.
  destruct PA as (PA1 & PA2 & PA3 & PA4). destruct PB as (PB1 & PB2 & PB3 & PB4). destruct PC as (PC1 & PC2 & PC3 & PC4). destruct PR as (PE1 & PE2 & PE3 & PE4). destruct PD as (PD1 & PD2 & PD3 & PD4).
  set (call1 := XLane (558 * ms) (duo_l 0) (Net.EvGo true) [Net.NCall m0 true]) in *. set (in1 := XNode 1 (Via (duo_l 0)) (VIn (558 * ms + pl_skew (pl 1)) m0) ov1) in *.
  set (call0 := XLane (560 * ms) (duo_l 1) (Net.EvGo true) [Net.NCall m1 true]) in *. set (in0 := XNode 0 (Via (duo_l 1)) (VIn (560 * ms + pl_skew (pl 0)) m1) ov0) in *.
  set (tBL := tB ++ tL) in *.
  assert (EV0 : events_at 0 tr = duo_evs 0 (WPart w1)).
  { rewrite ETR, !events_app. change (events_at 0 (call1 :: in1 :: tC)) with (events_at 0 tC). change (events_at 0 (call0 :: in0 :: tR)) with (VIn (560 * ms + pl_skew (pl 0)) m1 :: events_at 0 tR). rewrite PA1, PB1, PC1, PE1, PD1. reflexivity. }
  assert (EV1 : events_at 1 tr = duo_evs 1 (WPart w0)).
  { rewrite ETR, !events_app. change (events_at 1 (call1 :: in1 :: tC)) with (VIn (558 * ms + pl_skew (pl 1)) m0 :: events_at 1 tC). change (events_at 1 (call0 :: in0 :: tR)) with (events_at 1 tR). rewrite PA2, PB2, PC2, PE2, PD2. reflexivity. }
  assert (TA0 : trace_at 0 tr = trn 0).
  { rewrite ETR, !trace_app. change (trace_at 0 (call1 :: in1 :: tC)) with (trace_at 0 tC). change (trace_at 0 (call0 :: in0 :: tR)) with (ov0 ++ trace_at 0 tR). rewrite PA3, PB3, PC3, PE3, PD3, TR0. cbn [app]. rewrite <- !app_assoc. reflexivity. }
  assert (TA1 : trace_at 1 tr = trn 1).
  { rewrite ETR, !trace_app. change (trace_at 1 (call1 :: in1 :: tC)) with (ov1 ++ trace_at 1 tC). change (trace_at 1 (call0 :: in0 :: tR)) with (trace_at 1 tR). rewrite PA4, PB4, PC4, PE4, PD4, TR1. cbn [app]. rewrite <- !app_assoc. reflexivity. }
  destruct N0 as (ND0 & IN0 & OR0 & RQ0 & PO0 & LI0 & ST0 & RE0 & PU0). destruct N1 as (ND1 & IN1 & OR1 & RQ1 & PO1 & LI1 & ST1 & RE1 & PU1).
  pose (partial := fun m : message payload => m_op m = op_dss_partsig /\ m_run m = duo_id).
  assert (ON0 : forall b t m os, partial m -> In (XLane t (mkLane 0 pc_dss 0 b) (Net.EvSend m) os) tr -> m = m0 /\ m_rcpt m0 = b /\ 528 * ms <= t).
  { intros b t m os [P1 P2] HI. pose proof (put_sent _ _ _ _ _ _ _ _ _ HC _ _ _ _ HI) as H1. cbn [l_pc l_from l_to l_at] in H1. rewrite TA0 in H1.
    destruct (only_part ky keccak pshash (su 0) (-20 * ms) (-20 * ms) _ (n 0) (trn 0) 0 b duo_id 0 _ _ rr0 tt0 m0 m HH0 ND0 RQ0 LI0 EX0 FO0 H1 P1 P2) as [E1 E2]. split; [exact E1|]. split; [rewrite <- E1; exact E2|].
    rewrite ETR in HI. apply in_app_or in HI. destruct HI as [HI|HI]; [|exact (TIM _ _ _ _ HI)]. exfalso. pose proof (SND _ _ _ _ HI) as H2. cbn [l_pc l_from l_to l_at] in H2. rewrite PA3 in H2. exact (PR0 _ _ H2 P1). }
  assert (ON1 : forall b t m os, partial m -> In (XLane t (mkLane 1 pc_dss 1 b) (Net.EvSend m) os) tr -> m = m1 /\ m_rcpt m1 = b /\ 528 * ms <= t).
  { intros b t m os [P1 P2] HI. pose proof (put_sent _ _ _ _ _ _ _ _ _ HC _ _ _ _ HI) as H1. cbn [l_pc l_from l_to l_at] in H1. rewrite TA1 in H1.
    destruct (only_part ky keccak pshash (su 1) (-20 * ms) (-20 * ms) _ (n 1) (trn 1) 1 b duo_id 0 _ _ rr1 tt1 m1 m HH1 ND1 RQ1 LI1 EX1 FO1 H1 P1 P2) as [E1 E2]. split; [exact E1|]. split; [rewrite <- E1; exact E2|].
    rewrite ETR in HI. apply in_app_or in HI. destruct HI as [HI|HI]; [|exact (TIM _ _ _ _ HI)]. exfalso. pose proof (SND _ _ _ _ HI) as H2. cbn [l_pc l_from l_to l_at] in H2. rewrite PA4 in H2. exact (PR1 _ _ H2 P1). }
  assert (NV : forall j z, In z (tA ++ tBL ++ tC ++ tR ++ tD) -> ~ via_at j z) by (intros j z HI (l & ev & os & ->); discriminate (OWN _ _ _ _ HI)).
  assert (S1 : tr = (tA ++ tBL ++ [call1]) ++ in1 :: (tC ++ (call0 :: in0 :: tR) ++ tD)) by (rewrite ETR, <- !app_assoc; reflexivity).
  assert (S0 : tr = (tA ++ tBL ++ (call1 :: in1 :: tC) ++ [call0]) ++ in0 :: (tR ++ tD)) by (rewrite ETR; cbn [app]; rewrite <- !app_assoc; cbn [app]; rewrite <- ?app_assoc; reflexivity).
  assert (X1 : forall z, In z (tA ++ tBL ++ [call1]) -> ~ via_at 1 z).
  { intros z HI. rewrite !in_app_iff in HI. destruct HI as [HI|[HI|[<-|[]]]]; [apply NV; rewrite !in_app_iff; tauto|apply NV; rewrite !in_app_iff; tauto|]. intros (l & ev & os & E). discriminate E. }
  assert (Y1 : forall z, In z (tC ++ (call0 :: in0 :: tR) ++ tD) -> ~ via_at 1 z).
  { intros z HI. rewrite !in_app_iff in HI. destruct HI as [HI|[[<-|[<-|HI]]|HI]]; [apply NV; rewrite !in_app_iff; tauto| | |apply NV; rewrite !in_app_iff; tauto|apply NV; rewrite !in_app_iff; tauto]; intros (l & ev & os & E); discriminate E. }
  assert (X0 : forall z, In z (tA ++ tBL ++ (call1 :: in1 :: tC) ++ [call0]) -> ~ via_at 0 z).
  { intros z HI. rewrite !in_app_iff in HI. destruct HI as [HI|[HI|[[<-|[<-|HI]]|[<-|[]]]]]; try (apply NV; rewrite !in_app_iff; tauto); intros (l & ev & os & E); discriminate E. }
  assert (Y0 : forall z, In z (tR ++ tD) -> ~ via_at 0 z) by (intros z HI; apply NV; rewrite !in_app_iff in *; tauto).
  assert (E1 : events_at 1 (tA ++ tBL ++ [call1]) = duo_a 1 ++ duo_b) by (rewrite !events_app, PA2, PB2; reflexivity).
  assert (E0 : events_at 0 (tA ++ tBL ++ (call1 :: in1 :: tC) ++ [call0]) = duo_a 0 ++ duo_b) by (rewrite !events_app; change (events_at 0 (call1 :: in1 :: tC)) with (events_at 0 tC); rewrite PA1, PB1, PC1; reflexivity).
  assert (F1 : trace_at 1 (tA ++ tBL ++ [call1]) = oa1 ++ ob1) by (rewrite !trace_app, PA4, PB4; change (trace_at 1 [call1]) with (@nil nobs); rewrite app_nil_r; reflexivity).
  assert (F0 : trace_at 0 (tA ++ tBL ++ (call1 :: in1 :: tC) ++ [call0]) = oa0 ++ ob0).
  { rewrite !trace_app. change (trace_at 0 (call1 :: in1 :: tC)) with (trace_at 0 tC). change (trace_at 0 [call0]) with (@nil nobs). rewrite PA3, PB3, PC3. cbn [app]. rewrite app_nil_r. reflexivity. }
  assert (FW1 : forall l, lets_in partial (pl 1) 1 l tr).
  { intros l. apply (one_forwards partial (pl 1) 1 l (duo_l 0) _ m0 ov1 _ _ tr S1 X1 Y1); rewrite F1; [reflexivity|exact PH1]. }
  assert (FW0 : forall l, lets_in partial (pl 0) 0 l tr).
  { intros l. apply (one_forwards partial (pl 0) 0 l (duo_l 1) _ m1 ov0 _ _ tr S0 X0 Y0); rewrite F0; [reflexivity|exact PH0]. }
  assert (KU1 : forall l, keeps_up ky keccak pshash partial 0 (pl 1) 1 l tr).
  { intros l. apply (one_keeps ky keccak pshash partial 0 (pl 1) 1 l (duo_l 0) _ m0 ov1 _ tC _ n31 (oa1 ++ ob1 ++ ov1 ++ o31) tr S1 X1 Y1).
    - rewrite PC2. repeat constructor; vm_compute; intros X; discriminate X.
    - rewrite E1, PC2, <- app_assoc. exact (nexec_four ky keccak pshash (su 1) _ _ _ _ _ _ _ _ _ _ _ _ _ A1 B1 V1 C1).
    - rewrite F1. exact PH1.
    - exact HE1.
    - exact WA1. }
  assert (KU0 : forall l, keeps_up ky keccak pshash partial 0 (pl 0) 0 l tr).
  { intros l. apply (one_keeps ky keccak pshash partial 0 (pl 0) 0 l (duo_l 1) _ m1 ov0 _ tR _ n30 (oa0 ++ ob0 ++ ov0 ++ o30) tr S0 X0 Y0).
    - rewrite PE1. repeat constructor; vm_compute; intros X; discriminate X.
    - rewrite E0, PE1, <- app_assoc. exact (nexec_four ky keccak pshash (su 0) _ _ _ _ _ _ _ _ _ _ _ _ _ A0 B0 V0 C0).
    - rewrite F0. exact PH0.
    - exact HE0.
    - exact WA0. }
  assert (C01 : calls_within partial (32 * ms) (mkLane 0 pc_dss 0 1) tr).
  { apply (one_call partial (32 * ms) _ m0 (558 * ms) (528 * ms)); [|rewrite S1, !in_app_iff; left; right; right; left; reflexivity|vm_compute; intros X; discriminate X].
    intros t m os HP HI. destruct (ON0 _ _ _ _ HP HI) as (Z1 & _ & Z2). split; assumption. }
  assert (C10 : calls_within partial (32 * ms) (mkLane 1 pc_dss 1 0) tr).
  { apply (one_call partial (32 * ms) _ m1 (560 * ms) (528 * ms)); [|rewrite S0, !in_app_iff; left; right; right; right; left; reflexivity|vm_compute; intros X; discriminate X].
    intros t m os HP HI. destruct (ON1 _ _ _ _ HP HI) as (Z1 & _ & Z2). split; assumption. }
  assert (C00 : calls_within partial (32 * ms) (mkLane 0 pc_dss 0 0) tr) by (intros t m os HP HI; destruct (ON0 _ _ _ _ HP HI) as (_ & Z1 & _); discriminate Z1).
  assert (C11 : calls_within partial (32 * ms) (mkLane 1 pc_dss 1 1) tr) by (intros t m os HP HI; destruct (ON1 _ _ _ _ HP HI) as (_ & Z1 & _); discriminate Z1).
  exists ky, [pl 0; pl 1], duo_home, duo_id, evs, c, tr, pl, (duo_k [q0; q1]), (fun i => duo_hist duo_id long i (WPart (if i =? 0 then w1 else w0))). cbv zeta.
  split; [exact HC|]. split; [exact HS|]. split; [exact ND|]. split; [discriminate|]. split; [exact LT|]. split; [apply Z.le_refl|]. split; [apply Z.le_refl|]. split; [|split; [|split]].
  - intros i [<-|[<-|[]]].
    + change (Z.to_nat 0) with 0%nat. rewrite EV0, TA0. split; [reflexivity|]. split; [reflexivity|]. split; [exact ND0|]. split; [exact IN0|]. split; [exact OR0|]. split; [exact RQ0|]. split; [exact PO0|]. split; [exact LI0|]. split; [exact ST0|]. split; [exact RE0|]. split; [exact PU0|].
      apply room. exact QU0.
    + change (Z.to_nat 1) with 1%nat. rewrite EV1, TA1. split; [reflexivity|]. split; [reflexivity|]. split; [exact ND1|]. split; [exact IN1|]. split; [exact OR1|]. split; [exact RQ1|]. split; [exact PO1|]. split; [exact LI1|]. split; [exact ST1|]. split; [exact RE1|]. split; [exact PU1|].
      apply room. exact QU1.
  - intros i i' [<-|[<-|[]]] [<-|[<-|[]]]; (split; [vm_compute; intros X; discriminate X|vm_compute; reflexivity]).
  - intros i i' [<-|[<-|[]]] [<-|[<-|[]]].
    + split; [exact C00|]. split; [apply FW0|apply KU0].
    + split; [exact C10|]. split; [apply FW0|apply KU0].
    + split; [exact C01|]. split; [apply FW1|apply KU1].
    + split; [exact C11|]. split; [apply FW1|apply KU1].
  - intros i [<-|[<-|[]]].
    + destruct (sent_put _ _ _ _ _ _ _ _ _ HC (duo_l 0) m0) as (t & os & H).
      { change (In m0 (sent_to pc_dss 0 (1 - 0) (trace_at 0 tr))). rewrite TA0, TR0, (app_assoc oa0), ClusterProofs.sent_app, SE0. right. left. reflexivity. }
      exists t, m0, os. split; [split; reflexivity|exact H].
    + destruct (sent_put _ _ _ _ _ _ _ _ _ HC (duo_l 1) m1) as (t & os & H).
      { change (In m1 (sent_to pc_dss 1 (1 - 1) (trace_at 1 tr))). rewrite TA1, TR1, (app_assoc oa1), ClusterProofs.sent_app, SE1. right. left. reflexivity. }
      exists t, m1, os. split; [split; reflexivity|exact H].
Qed.

(** *** A message that comes in while the firewall buffers *)
From Verif Require Import PropsCluster.
Definition lag_places : list place := [mkPlace (pair_su 0) (-20 * ms) (-20 * ms) 0; mkPlace (pair_su 1) (-20 * ms) (-20 * ms) (-284 * ms)].
Definition lag_evs : list (cevent (G := Z)) :=
  let at0 t f := COwn 0 (f 0 (t * ms)) in let at1 t f := COwn 1 (f 1 (t * ms)) in
  let rq i t := VRequest t [x61] 0 (Some 10) in let go i t := VGo t 0 i in let gu i t := VGuest t 0 i i in let fw i t := VFw t (pair_k i) 0 in let tick i t := VTick t 0 9 pair_ord in
  [at0 (-10) rq; at0 (-10) go; at0 (-10) gu; at0 (-10) fw; at0 (-5) fw; at0 (-5) gu; at0 0 fw; at0 0 gu] ++
  map (fun t => at0 t tick) [0; 0; 25; 30; 100; 105; 175; 180; 250; 255] ++
  [at1 (-10) rq; at1 (-10) go; at1 (-10) gu; at1 (-10) fw] ++ [at0 275 tick] ++ [at1 (-5) fw; at1 (-5) gu] ++ [at0 280 tick] ++
  (let t := 282 * ms in let l := pair_lane 0 in [CGo t l true; CDial t l true; CGo t l true; CGo t l true; CGo t l true]) ++
  [at1 0 fw; at1 0 gu; at1 0 (fun i t => VTake t pc_dss i 1); at1 0 (fun i t => VDeliver t pc_dss i 9 pair_ord)].
Local Notation lag_run := (cexec pair_ky (fun b : bytes => b) (fun _ _ : Z => ([] : bytes)) lag_places pair_home (start_cluster lag_places) lag_evs).

Definition is_via (j : nat) (z : cobs (G := Z)) : bool := match z with XNode i (Via _) _ _ => Nat.eqb i j | _ => false end.
Lemma no_via j (x : list (cobs (G := Z))) : existsb (is_via j) x = false -> forall z, In z x -> ~ via_at j z.
Proof. intros H z I (l & ev & os & ->). assert (X : existsb (is_via j) x = true) by (apply existsb_exists; eexists; split; [exact I|cbn; apply Nat.eqb_refl]). congruence. Qed.
Definition lag_m : message payload := mkMsg 0 pc_dss 1 (run_id_for [x61] 0) 5 (PWire (WCommits (mkCommitsD 0 [] [] []))).
(** All assumptions of C98_arrives_in_time, where the message comes in while the firewall buffers: process 1 is behind by 284 ms, and what the run of 0 sends
    comes in 2 ms before it begins to forward. *)
Example C98_ex_buffered : exists c tr k0 h t m, let kk := (fun b : bytes => b) in let ph := (fun _ _ : Z => ([] : bytes)) in let P := (fun _ : message payload => True) in
  exists p q, let l := mkLane 0 pc_dss 0 1 in
  chistory pair_ky kk ph lag_places pair_home (-20 * ms) lag_evs c tr /\ nth_error lag_places 0 = Some p /\ nth_error lag_places 1 = Some q /\ pair_home 1 = Some 1%nat /\
  NoDup (su_guests (pl_su q)) /\ (requests_for (pair_k 1) (events_at 1 tr) <= 1)%nat /\
  lives pair_ky kk ph (pl_su q) (start_node (pl_su q) (pl_until q) (pl_begin q)) (events_at 1 tr) 0 (pair_k 1) k0 h /\
  calls_within P (2 * ms) l tr /\ lets_in P q 1 l tr /\ keeps_up pair_ky kk ph P (2 * ms) q 1 l tr /\ has_room pc_dss 1 (trace_at 1 tr) /\
  sends_at 0 (pair_k 0) t m tr /\ m_rcpt m = 1 /\ 0 <= m_op m < Z.of_nat (length (p_stages (the_prot pair_ky kk ph pc_dss))) /\
  exists x t' os y, tr = x ++ XNode 1 (Via l) (VIn t' m) os :: y /\ FwSpec.phase (pair_k 1) (fw_trace (trace_at 1 x)) = Some 1 /\
    t = 280 * ms /\ arrives h (t - pl_skew p + pl_skew q + 2 * ms + 2 * ms) m.
Proof.
  assert (X : match lag_run with Some _ => true | None => false end = true) by (vm_compute; reflexivity). destruct lag_run as [[c tr]|] eqn:E; [clear X|discriminate X]. exists c, tr.
  assert (HC : chistory pair_ky (fun b => b) (fun _ _ => []) lag_places pair_home (-20 * ms) lag_evs c tr).
  { split; [|exact E]. clear. vm_compute. repeat (split; [intros X; discriminate X|]). exact I. }
  assert (ET : option_map snd lag_run = Some tr) by (rewrite E; reflexivity). clear E. vm_compute in ET.
  assert (CUT : exists x os y, tr = x ++ XNode 1 (Via (mkLane 0 pc_dss 0 1)) (VIn (-2 * ms) lag_m) os :: y /\ x = firstn 32 tr /\ y = skipn 33 tr).
  { injection ET as <-. eexists _, _, _. split; [|split; reflexivity]. vm_compute. reflexivity. }
  destruct CUT as (x0 & os0 & y0 & CUT & EX & EY).
  eexists (new_kd (pair_su 1) (pair_k 1) 1), _, (280 * ms), lag_m. cbv zeta. eexists _, _. split; [exact HC|]. split; [reflexivity|]. split; [reflexivity|]. split; [reflexivity|]. split; [constructor; [intros []|constructor]|].
  assert (ONE : forall l x t m os y, tr = x ++ XNode 1 (Via l) (VIn t m) os :: y -> x = x0 /\ t = -2 * ms /\ m = lag_m /\ os = os0 /\ y = y0).
  { intros l x t m os y ET'. rewrite CUT in ET'. destruct (cut (via_at 1) _ _ _ _ _ _ ET' (ex_intro _ l (ex_intro _ (VIn t m) (ex_intro _ os eq_refl)))) as (-> & Q & ->).
    - apply no_via. subst x0. injection ET as <-. vm_compute. reflexivity.
    - apply no_via. subst y0. injection ET as <-. vm_compute. reflexivity.
    - injection Q as -> -> -> ->. auto. }
  injection ET as <-. vm_compute in EX, EY. subst x0 y0.
  split; [vm_compute; lia|]. split; [split; [reflexivity|]|].
  { match goal with |- exists a ev b n tr n' o, ?l = _ /\ _ => exists (firstn 8 l), (nth 8 l (VUndrop 0)), (skipn 9 l) end. eexists _, _, _, _. split; [vm_compute; reflexivity|]. split; [vm_compute; reflexivity|]. split; [vm_compute; reflexivity|]. split; vm_compute; reflexivity. }
  split.
  { intros t m os _ HI. exists (282 * ms), true. vm_compute in HI. repeat (destruct HI as [HI|HI]; [try discriminate HI|]); [|destruct HI]. assert (t = 280 * ms /\ m = lag_m) as [-> ->] by (split; [injection HI; intros; subst; reflexivity|injection HI; intros; subst; reflexivity]).
    exists [Net.NCall lag_m true]. split; [vm_compute; discriminate|]. split; [vm_compute; do 31 right; left; reflexivity|left; reflexivity]. }
  split.
  { intros x t m os y _ ET. destruct (ONE _ _ _ _ _ _ ET) as (-> & -> & -> & -> & ->). clear. cbv zeta. split; [vm_compute; reflexivity|]. right. split; [vm_compute; reflexivity|vm_compute; lia]. }
  split.
  { intros x t m os y _ ET. destruct (ONE _ _ _ _ _ _ ET) as (-> & -> & -> & -> & ->). clear. eexists _, [], _, _. split; [symmetry; apply app_nil_r|].
    split; [vm_compute; repeat (constructor; [intros X; discriminate X|]); constructor|]. split; [vm_compute; reflexivity|]. split; [intros _; vm_compute; reflexivity|]. split; vm_compute; reflexivity. }
  split; [apply room; vm_compute; lia|].
  split; [eexists _, _, _; split; [vm_compute; do 25 (right); left; reflexivity|split; [vm_compute; reflexivity|vm_compute; tauto]]|].
  split; [reflexivity|]. split; [vm_compute; split; [discriminate|reflexivity]|].
  eexists _, _, _, _. split; [exact CUT|]. split; [vm_compute; reflexivity|]. split; [reflexivity|]. eexists. vm_compute. tauto.
Qed.

Print Assumptions C98_arrives_in_time. Print Assumptions C98_cluster_signs.
