(** The assumptions of C121_cluster_generates hold: the two members of C108. *)
From Coq Require Import ZArith List Lia Bool Permutation.
From Coq Require Import Init.Byte.
From Verif Require Import Params Bytes Res Secp Spec PublicKey Schnorr Dss DssSpec Dto DtoSpec Prot ProtSpec ProtProofs TimeSpec DkgProt KMap Firewall FwSpec
  NetSpec Outputs Node NodeSpec NodeRun NodeProofs NodeProofs2 NodeProofs3 NodeProofs4 NodeProofs5 NodeProofs6 NodeProofs7 ObjSpec ObjProofs ObjProofs2 ObjProofs3 SignSpec PropsSign PropsObj PropsNode PropsNode2 ReachSpec ReachProofs ReachProofs2 DocsProofs DssProofs3 Curve Order SecpProofs Cluster ClusterSpec ClusterProofs ClusterProofs2
  DeliverSpec ClusterProofs3 HonestSpec HonestProofs PropsHonest PropsCluster PropsCluster2 HonestDemo ClusterDemo ClusterDemo2 PropsCluster4 PropsOpen PropsOpen2.
From Verif Require Net.
Import ListNotations.
Open Scope Z_scope.

(** What a member does before the start. *)
Definition gen_early (i : Z) : list (nevent (G := acct)) := firstn 5 (gen_pre i).
Lemma gen_split i h : gen_evs i h = gen_early i ++ skipn 5 (gen_pre i) ++ flat_map (gen_lift i) h ++ gen_post i.
Proof. reflexivity. Qed.
Lemma gen_early_open ky keccak pshash q0 q1 i : i = 0 \/ i = 1 ->
  exists n o, nexec ky keccak pshash (gen_su q0 q1 i) (start_node (gen_su q0 q1 i) (-55 * ms) (-55 * ms)) (gen_early i) = Ok (n, o) /\ In (NFw (FPhase (-5 * ms) (gen_key i) 1)) o.
Proof.
  intros Hi. assert (X : match nexec ky keccak pshash (gen_su q0 q1 i) (start_node (gen_su q0 q1 i) (-55 * ms) (-55 * ms)) (gen_early i) with
    | Ok (_, o) => existsb (fun z => match z with NFw (FPhase t k v) => (t =? -5 * ms) && key_eqb k (gen_key i) && (v =? 1) | _ => false end) o | _ => false end = true)
    by (destruct Hi as [->| ->]; vm_compute; reflexivity).
  destruct (nexec _ _ _ _ _ _) as [[n o]| |]; try discriminate X. exists n, o. split; [reflexivity|]. apply existsb_exists in X. destruct X as (z & IN & B).
  destruct z as [f| | | | | | | |]; try discriminate B. destruct f as [| | |t k v| |]; try discriminate B. apply andb_true_iff in B. destruct B as [B B3]. apply andb_true_iff in B. destruct B as [B1 B2].
  apply Z.eqb_eq in B1, B3. destruct (key_eqb_spec k (gen_key i)) as [->|]; [|discriminate]. subst. exact IN.
Qed.
Lemma gen_early_before i : Forall (fun ev => ntime ev < 0) (gen_early i).
Proof. repeat (constructor; [reflexivity|]). constructor. Qed.
Lemma gen_few i W : i = 0 \/ i = 1 -> (length (gen_evs i (gen_h W i)) < 2048)%nat.
Proof. intros Hi. apply Nat.ltb_lt. destruct Hi as [->| ->]; reflexivity. Qed.
Lemma gen_soon i W : i = 0 \/ i = 1 -> Forall (fun ev => ntime ev < 1000 * ms) (gen_evs i (gen_h W i)).
Proof.
  intros Hi. assert (X : forallb (fun ev => ntime ev <? 1000 * ms) (gen_evs i (gen_h W i)) = true) by (destruct Hi as [->| ->]; reflexivity).
  apply Forall_forall. intros ev H. rewrite forallb_forall in X. apply Z.ltb_lt, X, H.
Qed.

(** All assumptions of C121_cluster_generates: start 0, clocks that agree, firewalls that begin to buffer in time; what the members send takes 10 ms, and both requests return. *)
Example C121_ex_generates : forall keccak pshash, exists (ky : kyber acct) places home id evs c tr f F g D R C (pl : Z -> place) (k0 : Z -> kd acct) h,
  let n := 2 in let k i := mkKey pc_dkg i id in let ours (m : message payload) := m_run m = id in let start := 0 in
  let host := Z.to_nat in let j := (fun _ : Z => 0%nat) in let s := (fun _ : Z => 0) in let d := 0 in let lat1 := 10 * ms in let lat2 := 0 in let drift := 0 in let e := 5 * ms in
  chistory ky keccak pshash places home (-55 * ms) evs c tr /\ works ky n f F g D R C /\ f = [5; 6] /\ drift + e <= 5 * ms /\
  (forall i' p' a, nth_error places i' = Some p' -> In a (su_guests (pl_su p')) -> In a (everyone n) /\ i' = host a) /\
  (forall i, In i (everyone n) -> let q := pl i in let su := pl_su q in let ev := events_at (host i) tr in
     home i = Some (host i) /\ nth_error places (host i) = Some q /\ NoDup (su_guests su) /\ In i (su_guests su) /\ Z.of_nat (length (su_members su)) = n /\
     (requests_for (k i) ev <= 1)%nat /\ (exists t, requested su ev (k i) start None t) /\ requests_for (mkKey pc_dss i id) ev = 0%nat /\ (exists v, In (NPop (k i) v) (trace_at (host i) tr)) /\
     lives ky keccak pshash su (start_node su (pl_until q) (pl_begin q)) ev (j i) (k i) (k0 i) (h i) /\ kd_gen (k0 i) = g i /\
     In (NRun (k i) (OStart (s i))) (trace_at (host i) tr) /\ punctual (dkg_prot ky) (run_info su (k i)) d (new_run (k0 i)) (untimed (h i)) /\
     has_room pc_dkg i (trace_at (host i) tr) /\ (forall m, In m (from_outside (host i) tr) -> key_of m <> k i) /\ open_by (start - 5 * ms + e) q (host i) (k i) tr) /\
  (forall i i', In i (everyone n) -> In i' (everyone n) -> pl_skew (pl i) - pl_skew (pl i') <= drift /\ s i - s i' + 2 * d + (lat1 + lat2 + drift) < 70 * ms) /\
  (forall i i', In i (everyone n) -> In i' (everyone n) -> let l := mkLane (host i') pc_dkg i' i in
     calls_within ours lat1 l tr /\ comes_before (start + protocol_timeout (the_prot ky keccak pshash pc_dkg) + 1000 * ms) id (pl i) (host i) l tr /\ keeps_up ky keccak pshash ours lat2 (pl i) (host i) l tr) /\
  (forall i, In i (everyone n) -> exists t m os, ours m /\ In (XLane t (mkLane (host i) pc_dkg i (1 - i)) (Net.EvSend m) os) tr).
Proof.
  intros keccak pshash. destruct (c108_demo2 keccak pshash) as (ky & evs & c & tr & f & F & g & D & R & C & k0 & h & X). cbv zeta in X.
  revert X. generalize (of_E (smul 3 eG)) as q0. generalize (of_E (smul 6 eG)) as q1. intros q1 q0 X.
  destruct X as (X1 & X2 & X3 & X7 & X8 & X9 & X10 & X11 & _ & _ & _ & W & -> & EV). set (pl := gen_place q0 q1) in *.
  assert (E2 : forall i, In i (everyone 2) -> i = 0 \/ i = 1) by (intros i Hi; apply in_everyone in Hi; lia).
  pose proof (proj1 (history_block _ _ _ _ _ _ _ _ _ X1)) as SH.
  (* the node before a step *)
  assert (PRE : forall i x org ev os y, i = 0 \/ i = 1 -> tr = x ++ XNode (Z.to_nat i) org ev os :: y -> exists n, gen_evs i (gen_h W i) = events_at (Z.to_nat i) x ++ ev :: events_at (Z.to_nat i) y /\
    nhistory ky keccak pshash (pl_su (pl i)) (pl_until (pl i)) (pl_begin (pl i)) (events_at (Z.to_nat i) x) n (trace_at (Z.to_nat i) x)).
  { intros i x org ev os y Hi EX. destruct (SH _ _ _ _ _ _ EX) as (p' & n1 & n2 & G1 & G2 & _). assert (NP : nth_error [pl 0; pl 1] (Z.to_nat i) = Some (pl i)) by (destruct Hi as [->| ->]; reflexivity).
    rewrite NP in G1. injection G1 as <-. cbn [app] in G2. exists n1. assert (EE : gen_evs i (gen_h W i) = events_at (Z.to_nat i) x ++ ev :: events_at (Z.to_nat i) y).
    { rewrite <- (EV i Hi), EX, events_app. cbn [events_at flat_map app]. rewrite Nat.eqb_refl. reflexivity. }
    split; [exact EE|]. destruct (cluster_node _ _ _ _ _ _ _ _ _ X1 _ _ NP) as (n' & [NC _] & _). rewrite (EV i Hi), EE in NC. split; [eapply nclock_app, NC|exact G2]. }
  assert (OP : forall i, i = 0 \/ i = 1 -> open_by (0 - 5 * ms + 5 * ms) (pl i) (Z.to_nat i) (gen_key i) tr).
  { intros i Hi x org ev os y EX HT. split; [reflexivity|]. destruct (PRE _ _ _ _ _ _ Hi EX) as (n & EE & [_ HE]). rewrite gen_split in EE.
    destruct (pre_cut (fun ev => ntime ev < 0) _ _ _ _ _ EE (gen_early_before i)) as (a' & EA); [cbn beta; lia|].
    rewrite EA in HE. destruct (gen_early_open ky keccak pshash q0 q1 i Hi) as (n0 & o0 & H0 & IN). apply nexec_prefix in HE. destruct HE as (n1 & t1 & t2 & H1 & _ & HT2).
    assert (EQ : Ok (n1, t1) = Ok (n0, o0)) by (rewrite <- H1; exact H0). injection EQ as _ ->. exists (-5 * ms). rewrite HT2. apply in_or_app. left. exact IN. }
  assert (CB : forall i l, i = 0 \/ i = 1 -> comes_before (0 + protocol_timeout (the_prot ky keccak pshash pc_dkg) + 1000 * ms) gen_id (pl i) (Z.to_nat i) l tr).
  { intros i l Hi x t m os y _ EX. destruct (PRE _ _ _ _ _ _ Hi EX) as (n & EE & HH). split.
    - pose proof (gen_soon i W Hi) as FF. rewrite EE in FF. apply Forall_app in FF. destruct FF as [_ FF]. inversion FF as [|? ? F1 _]; subst. cbn [ntime] in F1.
      assert (0 <= protocol_timeout (the_prot ky keccak pshash pc_dkg)) by (apply Z.leb_le; reflexivity). lia.
    - eapply Nat.le_lt_trans; [exact (arrivals_few _ _ _ _ _ _ _ _ _ _ _ _ HH)|]. pose proof (gen_few i W Hi) as FF. rewrite EE, app_length in FF. lia. }
  exists ky, [pl 0; pl 1], duo_home, gen_id, evs, c, tr, f, F, g, D, R, C, pl, k0, (gen_h W). cbv zeta.
  split; [exact X1|]. split; [exact X2|]. split; [exact X3|]. split; [lia|]. split; [exact X7|]. split; [|split; [exact X9|split; [|exact X11]]].
  - intros i Hi. destruct (X8 i Hi) as (A1 & A2 & A3 & A4 & A5 & A6 & A7 & A8 & A9 & A10 & A11 & A12 & A13 & A14). apply E2 in Hi.
    repeat (split; [assumption|]). split; [|repeat (split; [assumption|]); exact (OP i Hi)].
    rewrite (EV i Hi). exists (-10 * ms), gen_base. split; [left; reflexivity|]. split; [reflexivity|]. split; [reflexivity|left; reflexivity].
  - intros i i' Hi Hi'. destruct (X10 i i' Hi Hi') as (B1 & _ & B3). split; [exact B1|]. split; [|exact B3]. apply CB, E2, Hi.
Qed.
