(** The assumptions of C121_cluster_signs hold: the two members of C103. *)
From Coq Require Import ZArith List Lia Bool Permutation.
From Coq Require Import Init.Byte.
From Verif Require Import Params Bytes Res Secp Spec PublicKey Schnorr Dss DssSpec Dto DtoSpec Prot ProtSpec ProtProofs TimeSpec DkgProt KMap Firewall FwSpec
  NetSpec Outputs Node NodeSpec NodeRun NodeProofs NodeProofs2 NodeProofs3 NodeProofs4 NodeProofs5 NodeProofs6 NodeProofs7 ObjSpec ObjProofs ObjProofs2 ObjProofs3 SignSpec PropsSign PropsObj PropsNode PropsNode2 ReachSpec ReachProofs ReachProofs2 DocsProofs DssProofs3 Curve Order SecpProofs Cluster ClusterSpec ClusterProofs ClusterProofs2
  DeliverSpec ClusterProofs3 HonestSpec HonestProofs PropsHonest PropsCluster PropsCluster2 HonestDemo ClusterDemo PropsCluster3 PropsOpen.
From Verif Require Net.
Import ListNotations.
Open Scope Z_scope.

Section Count.
  Context {G : Type}.
  Variable ky : kyber G.
  Variable keccak : bytes -> bytes.
  Variable pshash : Z -> Z -> bytes.
  Variable su : setup.
  Variables until now0 : Z.
  Lemma arrivals_in d k p (tr : list (fobs payload)) : forall pre, (length (FwSpec.arrivals d k p pre tr) <= length (flat_map (fun x => match x with FIn t m => [(t, m)] | _ => [] end) tr))%nat.
  Proof.
    induction tr as [|o tr IH]; intros pre; [cbn; lia|]. cbn [FwSpec.arrivals flat_map]. rewrite !app_length. specialize (IH (pre ++ [o])). destruct o as [t m| | | | |]; cbn [length]; try lia.
    destruct (_ && _); cbn [length]; lia.
  Qed.
  Lemma arrivals_few d k p evs n tr : nhistory ky keccak pshash su until now0 evs n tr -> (length (FwSpec.arrivals d k p [] (fw_trace tr)) <= length evs)%nat.
  Proof.
    intros HH. destruct (node_firewall _ _ _ _ _ _ _ _ _ HH) as (l & _ & E & C). pose proof (proj2 (exec_sets k _ _ _ _ E)) as F. rewrite C in F.
    pose proof (arrivals_in d k p (fw_trace tr) []) as X. rewrite F in X. eapply Nat.le_trans; [exact X|]. unfold came. clear. induction evs as [|e t IH]; [cbn; lia|]. destruct e; cbn [flat_map app length]; lia.
  Qed.
End Count.

(** What a member does before the start. *)
Definition mem_early (i : Z) : list (nevent (G := acct)) := firstn 6 (mem_pre i).
Lemma mem_split i h : mem_evs i h = mem_early i ++ skipn 6 (mem_pre i) ++ flat_map (mem_lift i) h ++ mem_post i.
Proof. reflexivity. Qed.
Lemma mem_early_open ky keccak pshash long q0 q1 i : i = 0 \/ i = 1 ->
  exists n o, nexec ky keccak pshash (mem_su long q0 q1 i) (start_node (mem_su long q0 q1 i) (-20 * ms) (-20 * ms)) (mem_early i) = Ok (n, o) /\ In (NFw (FPhase (-5 * ms) (mem_key i) 1)) o.
Proof.
  intros Hi. assert (X : match nexec ky keccak pshash (mem_su long q0 q1 i) (start_node (mem_su long q0 q1 i) (-20 * ms) (-20 * ms)) (mem_early i) with
    | Ok (_, o) => existsb (fun z => match z with NFw (FPhase t k v) => (t =? -5 * ms) && key_eqb k (mem_key i) && (v =? 1) | _ => false end) o | _ => false end = true)
    by (destruct Hi as [->| ->]; vm_compute; reflexivity).
  destruct (nexec _ _ _ _ _ _) as [[n o]| |]; try discriminate X. exists n, o. split; [reflexivity|]. apply existsb_exists in X. destruct X as (z & IN & B).
  destruct z as [f| | | | | | | |]; try discriminate B. destruct f as [| | |t k v| |]; try discriminate B. apply andb_true_iff in B. destruct B as [B B3]. apply andb_true_iff in B. destruct B as [B1 B2].
  apply Z.eqb_eq in B1, B3. destruct (key_eqb_spec k (mem_key i)) as [->|]; [|discriminate]. subst. exact IN.
Qed.
Lemma mem_early_before i : Forall (fun ev => ntime ev < 0) (mem_early i).
Proof. repeat (constructor; [reflexivity|]). constructor. Qed.
Lemma mem_few i long W w : i = 0 \/ i = 1 -> (length (mem_evs i (mem_h long W w i)) < 2048)%nat.
Proof. intros Hi. apply Nat.ltb_lt. destruct Hi as [->| ->]; reflexivity. Qed.
Lemma mem_soon i long W w : i = 0 \/ i = 1 -> Forall (fun ev => ntime ev < 1650 * ms) (mem_evs i (mem_h long W w i)).
Proof.
  intros Hi. assert (X : forallb (fun ev => ntime ev <? 1650 * ms) (mem_evs i (mem_h long W w i)) = true) by (destruct Hi as [->| ->]; reflexivity).
  apply Forall_forall. intros ev H. rewrite forallb_forall in X. apply Z.ltb_lt, X, H.
Qed.
Lemma pre_cut {A} (P : A -> Prop) (p : list A) : forall l a x b, p ++ l = a ++ x :: b -> Forall P p -> ~ P x -> exists a', a = p ++ a'.
Proof.
  induction p as [|z p IH]; intros l a x b E F N; [exists a; reflexivity|]. inversion F as [|? ? F1 F2]; subst. destruct a as [|y a]; cbn [app] in E; injection E as <- E; [contradiction|].
  destruct (IH _ _ _ _ E F2 N) as (a' & ->). exists a'. reflexivity.
Qed.

(** All assumptions of C121_cluster_signs: start 0, clocks that agree, firewalls that begin to buffer in time; what the members send takes 10 ms, and both requests return. *)
Example C121_ex_signs : forall keccak pshash, (forall b, length (keccak b) = 32%nat) -> exists (ky : kyber acct) places home id evs c tr g D R C (pl : Z -> place) (k0 : Z -> kd acct) h,
  let S := demo_session in let P := of_E (smul 5 eG) in let n := Z.of_nat (length (se_parts S)) in let k i := mkKey pc_dss i id in let ours (m : message payload) := m_run m = id in let start := 0 in
  let host := Z.to_nat in let j := (fun _ : Z => 0%nat) in let s := (fun _ : Z => 0) in let d := 0 in let lat1 := 10 * ms in let lat2 := 0 in let drift := 0 in let e := 5 * ms in
  chistory ky keccak pshash places home (-20 * ms) evs c tr /\ sound S P /\ n = 2 /\ (forall i, In i (se_qual S) <-> In i (everyone n)) /\ se_T S = 2 /\ works ky n (se_r S) (se_R S) g D R C /\ drift + e <= 5 * ms /\
  (forall i' p' a, nth_error places i' = Some p' -> In a (su_guests (pl_su p')) -> In a (everyone n) /\ i' = host a) /\
  (forall i, In i (everyone n) -> let q := pl i in let su := pl_su q in let ev := events_at (host i) tr in
     home i = Some (host i) /\ nth_error places (host i) = Some q /\ NoDup (su_guests su) /\ In i (su_guests su) /\
     su_members su = se_parts S /\ su_T su = se_T S /\ (exists Q, nth_error (se_parts S) (Z.to_nat i) = Some Q /\ pt_mul (su_secret su i) KP_nil = Ok Q) /\
     (exists long, su_long su i = Some long /\ share_for (se_f S) (se_F S) i long) /\
     orders_permute ev /\ (requests_for (k i) ev <= 1)%nat /\ (exists t, requested su ev (k i) start (Some (se_msg S)) t) /\ (exists sg, In (NPop (k i) (Some (VSig sg))) (trace_at (host i) tr)) /\
     lives ky keccak pshash su (start_node su (pl_until q) (pl_begin q)) ev (j i) (k i) (k0 i) (h i) /\ kd_gen (k0 i) = g i /\
     In (NRun (k i) (OStart (s i))) (trace_at (host i) tr) /\ punctual (dss_prot ky keccak pshash) (run_info su (k i)) d (new_run (k0 i)) (untimed (h i)) /\
     has_room pc_dss i (trace_at (host i) tr) /\ (forall m, In m (from_outside (host i) tr) -> key_of m <> k i) /\ open_by (start - 5 * ms + e) q (host i) (k i) tr) /\
  (forall i i', In i (everyone n) -> In i' (everyone n) -> pl_skew (pl i) - pl_skew (pl i') <= drift /\ s i - s i' + 2 * d + (lat1 + lat2 + drift) < 70 * ms) /\
  (forall i i', In i (everyone n) -> In i' (everyone n) -> let l := mkLane (host i') pc_dss i' i in
     calls_within ours lat1 l tr /\ comes_before (start + 650 * ms + 1000 * ms) id (pl i) (host i) l tr /\ keeps_up ky keccak pshash ours lat2 (pl i) (host i) l tr) /\
  (forall i, In i (everyone n) -> exists t m os, ours m /\ In (XLane t (mkLane (host i) pc_dss i (1 - i)) (Net.EvSend m) os) tr).
Proof.
  intros keccak pshash LK. destruct (c103_demo2 keccak pshash LK) as (ky & evs & c & tr & g & D & R & C & k0 & h & X). cbv zeta in X. change (Z.of_nat (length (se_parts demo_session))) with 2 in X.
  revert X. generalize (demo_dks [5; 6]) as lg. intros lg X. revert X. generalize (of_E (smul 3 eG)) as q0. generalize (of_E (smul 6 eG)) as q1. intros q1 q0 X.
  destruct X as (X1 & X2 & X3 & X4 & X5 & X6 & X7 & X8 & X9 & X10 & X11 & W & w & -> & EV). set (pl := mem_place lg q0 q1) in *.
  assert (E2 : forall i, In i (everyone 2) -> i = 0 \/ i = 1) by (intros i Hi; apply in_everyone in Hi; lia).
  pose proof (proj1 (history_block _ _ _ _ _ _ _ _ _ X1)) as SH.
  (* the node before a step *)
  assert (PRE : forall i x org ev os y, i = 0 \/ i = 1 -> tr = x ++ XNode (Z.to_nat i) org ev os :: y -> exists n, mem_evs i (mem_h lg W w i) = events_at (Z.to_nat i) x ++ ev :: events_at (Z.to_nat i) y /\
    nhistory ky keccak pshash (pl_su (pl i)) (pl_until (pl i)) (pl_begin (pl i)) (events_at (Z.to_nat i) x) n (trace_at (Z.to_nat i) x)).
  { intros i x org ev os y Hi EX. destruct (SH _ _ _ _ _ _ EX) as (p' & n1 & n2 & G1 & G2 & _). assert (NP : nth_error [pl 0; pl 1] (Z.to_nat i) = Some (pl i)) by (destruct Hi as [->| ->]; reflexivity).
    rewrite NP in G1. injection G1 as <-. cbn [app] in G2. exists n1. assert (EE : mem_evs i (mem_h lg W w i) = events_at (Z.to_nat i) x ++ ev :: events_at (Z.to_nat i) y).
    { rewrite <- (EV i Hi), EX, events_app. cbn [events_at flat_map app]. rewrite Nat.eqb_refl. reflexivity. }
    split; [exact EE|]. destruct (cluster_node _ _ _ _ _ _ _ _ _ X1 _ _ NP) as (n' & [NC _] & _). rewrite (EV i Hi), EE in NC. split; [eapply nclock_app, NC|exact G2]. }
  assert (OP : forall i, i = 0 \/ i = 1 -> open_by (0 - 5 * ms + 5 * ms) (pl i) (Z.to_nat i) (mem_key i) tr).
  { intros i Hi x org ev os y EX HT. split; [reflexivity|]. destruct (PRE _ _ _ _ _ _ Hi EX) as (n & EE & [_ HE]). rewrite mem_split in EE.
    destruct (pre_cut (fun ev => ntime ev < 0) _ _ _ _ _ EE (mem_early_before i)) as (a' & EA); [cbn beta; lia|].
    rewrite EA in HE. destruct (mem_early_open ky keccak pshash lg q0 q1 i Hi) as (n0 & o0 & H0 & IN). apply nexec_prefix in HE. destruct HE as (n1 & t1 & t2 & H1 & _ & HT2).
    assert (EQ : Ok (n1, t1) = Ok (n0, o0)) by (rewrite <- H1; exact H0). injection EQ as _ ->. exists (-5 * ms). rewrite HT2. apply in_or_app. left. exact IN. }
  assert (CB : forall i l, i = 0 \/ i = 1 -> comes_before (0 + 650 * ms + 1000 * ms) duo_id (pl i) (Z.to_nat i) l tr).
  { intros i l Hi x t m os y _ EX. destruct (PRE _ _ _ _ _ _ Hi EX) as (n & EE & HH). split.
    - pose proof (mem_soon i lg W w Hi) as F. rewrite EE in F. apply Forall_app in F. destruct F as [_ F]. inversion F as [|? ? F1 _]; subst. cbn [ntime] in F1. lia.
    - eapply Nat.le_lt_trans; [exact (arrivals_few _ _ _ _ _ _ _ _ _ _ _ _ HH)|]. pose proof (mem_few i lg W w Hi) as F. rewrite EE, app_length in F. lia. }
  exists ky, [pl 0; pl 1], duo_home, duo_id, evs, c, tr, g, D, R, C, pl, k0, (mem_h lg W w). cbv zeta. change (Z.of_nat (length (se_parts demo_session))) with 2.
  split; [exact X1|]. split; [exact X2|]. split; [reflexivity|]. split; [exact X4|]. split; [exact X5|]. split; [exact X6|]. split; [lia|]. split; [exact X7|]. split; [|split; [exact X9|split; [|exact X11]]].
  - intros i Hi. destruct (X8 i Hi) as (A1 & A2 & A3 & A4 & A5 & A6 & A7 & A8 & A9 & A10 & _ & A12 & A13 & A14 & A15 & A16 & A17 & A18). apply E2 in Hi.
    repeat (split; [assumption|]). split; [|repeat (split; [assumption|]); exact (OP i Hi)].
    rewrite (EV i Hi). exists (-10 * ms), [x61]. split; [left; reflexivity|]. split; [reflexivity|]. split; [reflexivity|left; reflexivity].
  - intros i i' Hi Hi'. destruct (X10 i i' Hi Hi') as (B1 & _ & B3). split; [exact B1|]. split; [|exact B3]. apply CB, E2, Hi.
Qed.
