(** Statements about several nodes that talk to each other: all members take part, and the nodes generate a key. *)
From Coq Require Import ZArith List Lia Bool Permutation.
From Coq Require Import Init.Byte.
From Verif Require Import Params Bytes Res Secp Spec PublicKey Schnorr Dss DssSpec Dto DtoSpec Prot ProtSpec ProtProofs ProtProofs2 TimeSpec TimeProofs DkgProt KMap Firewall FwSpec
  NetSpec Outputs Node NodeSpec NodeRun NodeProofs NodeProofs2 NodeProofs3 NodeProofs4 NodeProofs5 NodeProofs6 NodeProofs7 ObjSpec ObjProofs ObjProofs2 ObjProofs3 SignSpec PropsSign PropsObj
  PropsNode PropsNode2 ReachSpec DssProofs3 Curve Order SecpProofs Cluster ClusterSpec ClusterProofs ClusterProofs2 DeliverSpec ClusterProofs3 ClusterProofs5 HonestSpec HonestProofs DocsProofs PropsHonest PropsDocs PropsCluster PropsCluster2 HonestDemo ClusterDemo ClusterDemo2.
From Verif Require Net NetProofs.
Import ListNotations.
Open Scope Z_scope.

Section Statements.
  Context {G : Type}.
  Variable ky : kyber G.
  Variable keccak : bytes -> bytes.
  Variable pshash : Z -> Z -> bytes.
  Variable places : list place.
  Variable home : Z -> option nat.
  Notation message := (message payload).
  Notation chistory := (chistory ky keccak pshash places home).
  Notation prot := (dkg_prot ky).
  Variables (t0 : Z) (evs : list (cevent (G := G))) (c : cluster (G := G)) (tr : list (cobs (G := G))).

  (** A run whose request has returned has ended. *)
  Lemma popped_generated su until now0 ev n t k j k0 h v : nhistory ky keccak pshash su until now0 ev n t -> NoDup (su_guests su) -> In (k_guest k) (su_guests su) -> (requests_for k ev <= 1)%nat -> k_pc k = pc_dkg ->
    lives ky keccak pshash su (start_node su until now0) ev j k k0 h -> In (NPop k v) t ->
    exists r os, exec prot (run_info su k) (new_run k0) (untimed h) = Ok (r, os) /\ In 8 (entered os).
  Proof.
    intros HH NG IG RQ KP HL PO. destruct (C93_run_is_execution _ _ _ _ _ _ _ _ _ _ _ _ _ HH NG HL) as (CL & TI & r & os & EN & EX & ON). destruct (ON RQ) as [ON1 ON2].
    assert (PP : the_prot ky keccak pshash (k_pc k) = prot) by (rewrite KP; reflexivity). rewrite PP in *. exists r, os. split; [exact EX|].
    assert (TR : r_term r = true).
    { destruct (history_silent ky keccak pshash su until now0 ev n t k k NG HH) as (_ & PIx & _ & TDx & LPx); [repeat split; exact IG|].
      pose proof (history_ph ky keccak pshash su until now0 ev n t HH) as PHx.
      pose proof (popped_terminated su t n k v k PHx LPx TDx PIx PO ltac:(repeat split; exact IG)) as TT. apply terminated_in_heap in TT. destruct TT as (j1 & r1 & E1 & T1).
      rewrite (ON1 _ _ E1) in E1. rewrite EN in E1. injection E1 as ->. exact T1. }
    pose proof (run_inv prot _ _ _ _ _ EX) as HI. rewrite (iv_entered _ _ _ _ _ HI). apply in_upto.
    pose proof (iv_loc _ _ _ _ _ HI) as LO. rewrite TR in LO. destruct (r_loc r); destruct LO as (L1 & _ & L2); try discriminate L2. rewrite L1. cbn. lia.
  Qed.

  (** ** C108.  All [n] members take part in the generation of a key: each is a guest of one process, which knows the members and was asked once to
      generate a key under the id [id], and never to sign under it.  The dealing of keys works as its authors say ([works]).  The runs start within a window and are
      late by at most [d]; what they send is carried by calls that succeed within [lat1], comes in while the firewall forwards or buffers, and the incoming queues
      are not full and are emptied within [lat2]; no two clocks differ by more than [drift]; nothing comes in for these runs from elsewhere.  Then every
      request that returns, returns the member's share of one and the same key, with all members qualified. *)
  Theorem C108_cluster_generates : forall n f F g D R C id (host : Z -> nat) (pl : Z -> place) (j : Z -> nat) (k0 : Z -> kd G) (h : Z -> list (Z * event payload env)) (s : Z -> Z) d lat1 lat2 drift,
    let k i := mkKey pc_dkg i id in let ours (m : message) := m_run m = id in
    chistory t0 evs c tr -> n <= 2 ^ 32 -> works ky n f F g D R C -> 0 <= d -> 0 <= lat2 ->
    (forall i' p' a, nth_error places i' = Some p' -> In a (su_guests (pl_su p')) -> In a (everyone n) /\ i' = host a) ->
    (forall i, In i (everyone n) -> let q := pl i in let su := pl_su q in let e := events_at (host i) tr in
       home i = Some (host i) /\ nth_error places (host i) = Some q /\ NoDup (su_guests su) /\ In i (su_guests su) /\ Z.of_nat (length (su_members su)) = n /\
       (requests_for (k i) e <= 1)%nat /\ requests_for (mkKey pc_dss i id) e = 0%nat /\ (exists v, In (NPop (k i) v) (trace_at (host i) tr)) /\
       lives ky keccak pshash su (start_node su (pl_until q) (pl_begin q)) e (j i) (k i) (k0 i) (h i) /\ kd_gen (k0 i) = g i /\
       In (NRun (k i) (OStart (s i))) (trace_at (host i) tr) /\ punctual prot (run_info su (k i)) d (new_run (k0 i)) (untimed (h i)) /\
       has_room pc_dkg i (trace_at (host i) tr) /\ (forall m, In m (from_outside (host i) tr) -> key_of m <> k i)) ->
    (forall i i', In i (everyone n) -> In i' (everyone n) -> pl_skew (pl i) - pl_skew (pl i') <= drift /\ s i - s i' + 2 * d + (lat1 + lat2 + drift) < 70 * ms) ->
    (forall i i', In i (everyone n) -> In i' (everyone n) -> let l := mkLane (host i') pc_dkg i' i in
       calls_within ours lat1 l tr /\ lets_in ours (pl i) (host i) l tr /\ keeps_up ky keccak pshash ours lat2 (pl i) (host i) l tr) ->
    forall i v, In i (everyone n) -> In (NPop (k i) v) (trace_at (host i) tr) -> exists sh q, v = Some (VShare sh q) /\ share_for f F i sh /\ Permutation q (everyone n).
  Proof.
    intros n f F g D R C id host pl j k0 h s d lat1 lat2 drift k ours HC HN W HD HL2 GU HM HW HLn.
    set (rr := fun i => match exec prot (run_info (pl_su (pl i)) (k i)) (new_run (k0 i)) (untimed (h i)) with Ok x => fst x | _ => new_run (k0 i) end).
    set (oo := fun i => match exec prot (run_info (pl_su (pl i)) (k i)) (new_run (k0 i)) (untimed (h i)) with Ok x => snd x | _ => [] end).
    assert (NO : forall i, In i (everyone n) -> exists nn, nhistory ky keccak pshash (pl_su (pl i)) (pl_until (pl i)) (pl_begin (pl i)) (events_at (host i) tr) nn (trace_at (host i) tr)).
    { intros i Hi. destruct (HM i Hi) as (_ & A2 & _). destruct (cluster_node _ _ _ _ _ _ _ _ _ HC _ _ A2) as (nn & X & _). eauto. }
    assert (EX : forall i, In i (everyone n) -> exec prot (run_info (pl_su (pl i)) (k i)) (new_run (k0 i)) (untimed (h i)) = Ok (rr i, oo i) /\ In 8 (entered (oo i))).
    { intros i Hi. destruct (HM i Hi) as (A1 & A2 & A3 & A4 & _ & A5 & _ & (v & A6) & A7 & _). destruct (NO i Hi) as (nn & HH).
      destruct (popped_generated _ _ _ _ _ _ (k i) _ _ _ _ HH A3 A4 A5 eq_refl A7 A6) as (r & os & X1 & X2). unfold rr, oo. rewrite X1. auto. }
    assert (CO : connected prot n (fun i => run_info (pl_su (pl i)) (k i)) k0 h oo (lat1 + lat2 + drift)).
    { apply (cluster_connected ky keccak pshash places home pc_dkg (or_intror eq_refl) t0 evs c tr HC n id host pl j k0 h rr oo lat1 lat2 drift GU); [| |exact HLn|exact HL2].
      - intros i Hi. destruct (HM i Hi) as (A1 & A2 & A3 & A4 & _ & A5 & _ & _ & A7 & _ & _ & _ & A8 & A9). repeat (split; [assumption|]). apply EX, Hi.
      - intros i i' Hi Hi'. apply (HW i i' Hi Hi'). }
    intros i v Hi PO. destruct (NO i Hi) as (nn & HH). destruct (HM i Hi) as (A1 & A2 & A3 & A4 & A0 & A5 & AS & _ & A7 & _).
    destruct (C93_run_is_execution _ _ _ _ _ _ _ _ _ _ _ _ _ HH A3 A7) as (_ & _ & r & os & _ & EX' & ON). destruct (ON A5) as [_ ON2]. change (the_prot ky keccak pshash (k_pc (k i))) with prot in *. rewrite (proj1 (EX i Hi)) in EX'. injection EX' as <- <-.
    assert (OU : exists sh q, outputs_of (oo i) = [(pc_dkg, VShare sh q)] /\ share_for f F i sh /\ Permutation q (everyone n) /\ abandoned_in (oo i) = false).
    { apply (C100_key_generated ky keccak pshash n f F g D R C (fun i => run_info (pl_su (pl i)) (k i)) k0 h s rr oo d (lat1 + lat2 + drift) W HN HD); [|intros i1 i2 H1 H2; apply (HW i1 i2 H1 H2)|exact CO|exact Hi].
      clear i v Hi PO nn HH A1 A2 A3 A4 A0 A5 AS A7 ON ON2. intros i Hi. destruct (HM i Hi) as (A1 & A2 & A3 & A4 & A0 & A5 & AS & _ & A7 & A8 & A9 & A10 & _). destruct (NO i Hi) as (nn & HH). destruct (EX i Hi) as [X1 X2].
      destruct (C93_run_is_execution _ _ _ _ _ _ _ _ _ _ _ _ _ HH A3 A7) as (CL & TI & r & os & EN & EX' & ON). destruct (ON A5) as [ON1 ON2].
      change (the_prot ky keccak pshash (k_pc (k i))) with prot in *. rewrite X1 in EX'. injection EX' as <- <-.
      split.
      { split; [reflexivity|]. split; [exact A0|]. split; [exact CL|]. split; [exact TI|]. split; [exact A10|].
        apply ON2 in A9. destruct (in_happens prot _ (k0 i) (h i) [] _ _ _ X1 A9) as [t HT]. rewrite app_nil_r in HT. rewrite <- (start_unique _ _ _ _ _ _ HT CL) in HT. exact HT. }
      split; [exact A8|]. split; [exact X1|exact X2]. }
    destruct OU as (sh & q & O1 & O2 & O3 & _). exists sh, q. split; [|auto].
    destruct (C79_node_returns_complete _ _ _ _ _ _ _ _ _ _ _ HH PO eq_refl) as (s1 & q1 & EV & _). subst v.
    apply in_split in PO. destruct PO as (ta & tb & ET). destruct (C85_returned_finished _ _ _ _ _ _ _ _ _ _ _ _ _ HH ET eq_refl) as ((k' & K1 & K2 & K3) & _).
    assert (K4 : In (NRun k' (OOutput pc_dkg (VShare s1 q1))) (trace_at (host i) tr)) by (rewrite ET; apply in_or_app; left; exact K3).
    assert (EK : k' = k i).
    { apply in_split in K4. destruct K4 as (ua & ub & EU). destruct (C76_silent_before _ _ _ _ _ _ _ _ _ _ _ _ _ HH EU) as (tc & IC).
      assert (IC' : In (NCreate tc k') (trace_at (host i) tr)) by (rewrite EU; apply in_or_app; left; exact IC).
      destruct (C75_only_requested_runs _ _ _ _ _ _ _ _ _ _ _ HH IC') as (start & doc & tq & base & R1 & R2 & R3 & R4).
      destruct k' as [pc' g' id']. cbn [k_guest k_run k_pc k] in *. subst g' id'. destruct doc as [doc|]; [exfalso|cbn in R3; subst pc'; reflexivity].
      assert (IF : In (VRequest tq base start (Some doc)) (filter (is_request (mkKey pc_dss i id)) (events_at (host i) tr))).
      { apply filter_In. split; [exact R1|]. cbn [is_request pc_for k_pc k_run]. rewrite <- R2, Z.eqb_refl. apply bytes_eqb_eq. reflexivity. }
      unfold requests_for in AS. destruct (filter _ _); [destruct IF|discriminate AS]. }
    subst k'. apply ON2 in K4.
    assert (IO : In (pc_dkg, VShare s1 q1) (outputs_of (oo i))) by (unfold outputs_of; apply in_flat_map; eexists; split; [exact K4|left; reflexivity]).
    rewrite O1 in IO. destruct IO as [IO|[]]. injection IO as <- <-. reflexivity.
  Qed.
End Statements.
Print Assumptions C108_cluster_generates.

Lemma c108_demo2 : forall keccak pshash, exists (ky : kyber acct) evs c tr f F g D R C (k0 : Z -> kd acct) h,
  let pl := gen_place (of_E (smul 3 eG)) (of_E (smul 6 eG)) in let places := [pl 0; pl 1] in let home := duo_home in let id := gen_id in
  let n := 2 in let k i := mkKey pc_dkg i id in let ours (m : message payload) := m_run m = id in
  let host := Z.to_nat in let j := (fun _ : Z => 0%nat) in let s := (fun _ : Z => 0) in let d := 0 in let lat1 := 10 * ms in let lat2 := 0 in let drift := 0 in let prot := dkg_prot ky in
  chistory ky keccak pshash places home (-55 * ms) evs c tr /\ works ky n f F g D R C /\ f = [5; 6] /\
  (forall i' p' a, nth_error places i' = Some p' -> In a (su_guests (pl_su p')) -> In a (everyone n) /\ i' = host a) /\
  (forall i, In i (everyone n) -> let q := pl i in let su := pl_su q in let e := events_at (host i) tr in
     home i = Some (host i) /\ nth_error places (host i) = Some q /\ NoDup (su_guests su) /\ In i (su_guests su) /\ Z.of_nat (length (su_members su)) = n /\
     (requests_for (k i) e <= 1)%nat /\ requests_for (mkKey pc_dss i id) e = 0%nat /\ (exists v, In (NPop (k i) v) (trace_at (host i) tr)) /\
     lives ky keccak pshash su (start_node su (pl_until q) (pl_begin q)) e (j i) (k i) (k0 i) (h i) /\ kd_gen (k0 i) = g i /\
     In (NRun (k i) (OStart (s i))) (trace_at (host i) tr) /\ punctual prot (run_info su (k i)) d (new_run (k0 i)) (untimed (h i)) /\
     has_room pc_dkg i (trace_at (host i) tr) /\ (forall m, In m (from_outside (host i) tr) -> key_of m <> k i)) /\
  (forall i i', In i (everyone n) -> In i' (everyone n) -> pl_skew (pl i) - pl_skew (pl i') <= drift /\ s i - s i' + 2 * d + (lat1 + lat2 + drift) < 70 * ms) /\
  (forall i i', In i (everyone n) -> In i' (everyone n) -> let l := mkLane (host i') pc_dkg i' i in
     calls_within ours lat1 l tr /\ lets_in ours (pl i) (host i) l tr /\ keeps_up ky keccak pshash ours lat2 (pl i) (host i) l tr) /\
  (forall i, In i (everyone n) -> exists t m os, ours m /\ In (XLane t (mkLane (host i) pc_dkg i (1 - i)) (Net.EvSend m) os) tr) /\
  F = map (fun a => of_E (smul a eG)) f /\ (forall i, In i (everyone n) -> In (NPop (k i) (Some (VShare (demo_dks [5; 6] i) [0; 1]))) (trace_at (host i) tr)) /\
  (forall y x, ky_share ky y = Some x -> good_share (dk_share x)) /\
  exists W, h = gen_h W /\ forall i, i = 0 \/ i = 1 -> events_at (Z.to_nat i) tr = gen_evs i (h i).
Proof.
  intros keccak pshash. destruct on_wire_ex as (W & HW). set (sh := fun i => demo_dks [5; 6] (if i =? 0 then 0 else 1)).
  set (q0 := of_E (smul 3 eG)). set (q1 := of_E (smul 6 eG)). set (ky := acct_ky sh).
  destruct (two_dkg sh gen_id gen_env W (gen_k0 q0 q1 0) 0 HW ltac:(lia) eq_refl) as (r0 & L0 & C1 & C2 & C3 & _ & C4 & C5).
  destruct (two_dkg sh gen_id gen_env W (gen_k0 q0 q1 1) 1 HW ltac:(lia) eq_refl) as (r1 & L1 & D1 & D2 & D3 & _ & D4 & D5).
  set (L := fun i => if i =? 0 then L0 else L1). set (r := fun i => if i =? 0 then r0 else r1).
  set (H := gen_h W).
  assert (ALL : forall i, i = 0 \/ i = 1 -> logged (dkg_prot ky) (gen_c q0 q1 i) (new_run (gen_k0 q0 q1 i)) (H i) (r i) (L i) /\ HonestDemo.sends_of (L i) = gen_s W i /\ r_term (r i) = true /\
    outputs_of (map snd (L i)) = [(pc_dkg, VShare (sh i) [0; 1])]).
  { intros i [->| ->]; [split; [exact C1|split; [exact C2|split; [exact C4|exact C5]]]|split; [exact D1|split; [exact D2|split; [exact D4|exact D5]]]]. }
  assert (OST : forall i, i = 0 \/ i = 1 -> In (OStart 0) (map snd (L i))) by (intros i [->| ->]; [exact (in_map snd _ _ C3)|exact (in_map snd _ _ D3)]).
  clear C1 C2 C3 C4 C5 D1 D2 D3 D4 D5.
  destruct (together keccak pshash sh q0 q1 W r L sh ALL) as (c & tr & O0 & O1 & SG). destruct SG as [SG1 SG2 SG3 SG4 SG5 SG6 [SG7 SG8]]. fold H in SG2, SG3.
  set (pl := gen_place q0 q1). set (places := [pl 0; pl 1]) in *.
  assert (HC : chistory ky keccak pshash places duo_home (-55 * ms) all_evs c tr) by (split; [apply all_clock|exact SG1]).
  assert (EV : forall i, i = 0 \/ i = 1 -> events_at (Z.to_nat i) tr = gen_evs i (H i)) by (intros i [->| ->]; assumption).
  assert (NP : forall i, i = 0 \/ i = 1 -> nth_error places (Z.to_nat i) = Some (pl i)) by (intros i [->| ->]; reflexivity).
  assert (MEM : forall i, i = 0 \/ i = 1 -> In (NPop (gen_key i) (Some (VShare (sh i) [0; 1]))) (trace_at (Z.to_nat i) tr) /\
     lives ky keccak pshash (gen_su q0 q1 i) (start_node (gen_su q0 q1 i) (-55 * ms) (-55 * ms)) (gen_evs i (H i)) 0 (gen_key i) (gen_k0 q0 q1 i) (H i) /\
     In (NRun (gen_key i) (OStart 0)) (trace_at (Z.to_nat i) tr) /\ has_room pc_dkg i (trace_at (Z.to_nat i) tr) /\ (forall b, sent_to pc_dkg i b (trace_at (Z.to_nat i) tr) = filter (fun m => m_rcpt m =? b) (map snd (gen_s W i))) /\
     forall l, lets_in (fun m => m_run m = gen_id) (pl i) (Z.to_nat i) l tr /\ keeps_up ky keccak pshash (fun m => m_run m = gen_id) 0 (pl i) (Z.to_nat i) l tr).
  { intros i Hi. destruct (ALL i Hi) as ((X1 & X2 & X3 & X4 & X5) & Y2 & Y3 & Y4).
    destruct (member keccak pshash sh q0 q1 i (H i) (r i) (map snd (L i)) (sh i) Hi (gen_ticks W i) (fun t e m => gen_msgs keccak pshash sh W i t e m Hi) X1 X2 Y3 Y4) as (nn & oo & E1 & E2 & E3 & E4 & E5 & E6 & E7).
    - apply Nat.leb_le. reflexivity.
    - apply OST, Hi.
    - destruct (cluster_node _ _ _ _ _ _ _ _ _ HC _ _ (NP i Hi)) as (n' & [_ F1] & _). rewrite (EV i Hi) in F1. assert (EQ : Ok (n', trace_at (Z.to_nat i) tr) = Ok (nn, oo)) by (rewrite <- F1; exact E1). injection EQ as _ ->.
      split; [exact E2|]. split; [exact E3|]. split; [exact E4|]. split; [exact E5|]. split; [intros b; rewrite E6, sends_sent, Y2; reflexivity|]. intros l. destruct (history_block _ _ _ _ _ _ _ _ _ HC) as [SH _]. split.
      + intros x t m os y _ ET. destruct (SH _ _ _ _ _ _ ET) as (p' & n1 & n2 & G1 & G2 & _). rewrite (NP i Hi) in G1. injection G1 as <-. cbn [app] in G2.
        assert (EE : gen_evs i (H i) = events_at (Z.to_nat i) x ++ VIn t m :: events_at (Z.to_nat i) y) by (rewrite <- (EV i Hi), ET, events_app; cbn [events_at flat_map app]; rewrite Nat.eqb_refl; reflexivity).
        destruct (E7 _ _ _ _ EE) as [(na & oa & F2 & F3) _]. assert (EQ : Ok (n1, trace_at (Z.to_nat i) x) = Ok (na, oa)) by (rewrite <- G2; exact F2). injection EQ as _ ->. split; [reflexivity|left; exact F3].
      + intros x t m os y _ ET.
        assert (EE : gen_evs i (H i) = events_at (Z.to_nat i) x ++ VIn t m :: events_at (Z.to_nat i) y) by (rewrite <- (EV i Hi), ET, events_app; cbn [events_at flat_map app]; rewrite Nat.eqb_refl; reflexivity).
        destruct (SH _ _ _ _ _ _ ET) as (p' & n1 & n2 & G1 & G2 & _). rewrite (NP i Hi) in G1. injection G1 as <-. cbn [app] in G2.
        destruct (E7 _ _ _ _ EE) as [(na & oa & G3 & G4) (b' & n3 & o' & F2 & F3 & F4 & F5)].
        assert (EQ : Ok (n1, trace_at (Z.to_nat i) x) = Ok (na, oa)) by (rewrite <- G2; exact G3). injection EQ as _ ->. destruct (event_step (Z.to_nat i) y [VTake t pc_dkg i (acct_new i)] _ _ F2) as (x1 & org & os1 & y1 & K1 & K2 & K3).
        exists (x1 ++ [XNode (Z.to_nat i) org (VDeliver t pc_dkg i 9 oid) os1]), y1, n3, o'.
        assert (KE : events_at (Z.to_nat i) (x1 ++ [XNode (Z.to_nat i) org (VDeliver t pc_dkg i 9 oid) os1]) = [VTake t pc_dkg i (acct_new i); VDeliver t pc_dkg i 9 oid]) by (rewrite events_app, K2; cbn [events_at flat_map app]; rewrite Nat.eqb_refl; reflexivity).
        split; [rewrite <- app_assoc; exact K1|]. rewrite KE. split; [repeat constructor; cbn; lia|]. split; [exact F3|]. split; [|split; assumption]. intros Q. assert (Z2 : Some 1 = Some 2) by (rewrite <- Q; exact G4). discriminate Z2. }
  assert (SF : forall i, In i (everyone 2) -> share_for [5; 6] (map (fun a => of_E (smul a eG)) [5; 6]) i (sh i)).
  { intros i Hi. apply in_everyone in Hi. assert (Hi' : i = 0 \/ i = 1) by lia. destruct Hi' as [->| ->]; split; reflexivity. }
  assert (E2 : forall i, In i (everyone 2) -> i = 0 \/ i = 1) by (intros i Hi; apply in_everyone in Hi; lia).
  exists ky, all_evs, c, tr, [5; 6], (map (fun a => of_E (smul a eG)) [5; 6]), acct_new. eexists _, _, _. exists (gen_k0 q0 q1), H. cbv zeta. fold q0 q1. fold pl. fold places.
  split; [exact HC|]. split; [exact (acct_works sh [5; 6] _ SF)|]. split; [reflexivity|].
  split; [|split; [|split; [|split; [|split; [|split; [|split; [|split; [|exists W; split; [reflexivity|exact EV]]]]]]]]].
  - intros i' p' a E I. destruct i' as [|[|i']]; [| |destruct i'; discriminate E]; cbn in E; injection E as <-; destruct I as [<-|[]]; (split; [apply in_everyone; lia|reflexivity]).
  - intros i Hi. apply E2 in Hi. destruct (MEM i Hi) as (M1 & M2 & M3 & M4 & M5 & M6). destruct (ALL i Hi) as ((X1 & X2 & X3 & _) & _). rewrite (EV i Hi).
    split; [destruct Hi as [->| ->]; reflexivity|]. split; [exact (NP i Hi)|]. split; [constructor; [intros []|constructor]|]. split; [left; reflexivity|]. split; [reflexivity|].
    split; [apply Nat.eq_le_incl, gen_requests|]. split; [apply gen_no_sig|].
    split; [exists (Some (VShare (sh i) [0; 1])); exact M1|]. split; [exact M2|]. split; [reflexivity|]. split; [exact M3|]. split; [exact X3|]. split; [exact M4|].
    intros m I. exfalso. unfold from_outside in I. apply in_flat_map in I. destruct I as (o & I1 & I2). destruct o as [i2 org ev os| |]; try contradiction. destruct org; try contradiction. destruct ev; try contradiction.
    destruct (SG6 _ _ _ _ _ I1) as (l & E). discriminate E.
  - intros i i' _ _. split; [cbn; lia|reflexivity].
  - intros i i' Hi Hi'. apply E2 in Hi, Hi'. split; [|apply (MEM i Hi)].
    destruct (Z.eq_dec i i') as [->|NE].
    + intros t m os _ I. exfalso. apply (put_sent _ _ _ _ _ _ _ _ _ HC) in I. cbn [l_pc l_from l_to l_at] in I. destruct (MEM i' Hi') as (_ & _ & _ & _ & M5 & _). rewrite M5 in I. destruct Hi' as [->| ->]; destruct I.
    + intros t m os _ I. assert (EL : i = 1 - i') by lia. subst i. destruct Hi' as [->| ->]; [exact (SG7 t m os Logic.I I)|exact (SG8 t m os Logic.I I)].
  - intros i Hi. apply E2 in Hi. destruct (MEM i Hi) as (_ & _ & _ & _ & M5 & _).
    destruct (sent_put _ _ _ _ _ _ _ _ _ HC (mkLane (Z.to_nat i) pc_dkg i (1 - i)) (d1 W i)) as (t & os & I); [cbn [l_pc l_from l_to l_at]; rewrite M5; destruct Hi as [->| ->]; (left; reflexivity)|].
    exists t, (d1 W i), os. split; [reflexivity|exact I].
  - reflexivity.
  - intros i Hi. apply E2 in Hi. destruct (MEM i Hi) as (M1 & _). destruct Hi as [->| ->]; exact M1.
  - intros y x E. cbn [ky acct_ky ky_share] in E. unfold sh in E. apply (f_equal (fun o => match o with Some z => dk_share z | None => dk_share x end)) in E. cbv beta match in E. rewrite <- E. destruct (ac_i y =? 0); (split; [discriminate|reflexivity]).
Qed.
Lemma c108_demo : forall keccak pshash, exists (ky : kyber acct) evs c tr f F g D R C (k0 : Z -> kd acct) h,
  let pl := gen_place (of_E (smul 3 eG)) (of_E (smul 6 eG)) in let places := [pl 0; pl 1] in let home := duo_home in let id := gen_id in
  let n := 2 in let k i := mkKey pc_dkg i id in let ours (m : message payload) := m_run m = id in
  let host := Z.to_nat in let j := (fun _ : Z => 0%nat) in let s := (fun _ : Z => 0) in let d := 0 in let lat1 := 10 * ms in let lat2 := 0 in let drift := 0 in let prot := dkg_prot ky in
  chistory ky keccak pshash places home (-55 * ms) evs c tr /\ works ky n f F g D R C /\ f = [5; 6] /\
  (forall i' p' a, nth_error places i' = Some p' -> In a (su_guests (pl_su p')) -> In a (everyone n) /\ i' = host a) /\
  (forall i, In i (everyone n) -> let q := pl i in let su := pl_su q in let e := events_at (host i) tr in
     home i = Some (host i) /\ nth_error places (host i) = Some q /\ NoDup (su_guests su) /\ In i (su_guests su) /\ Z.of_nat (length (su_members su)) = n /\
     (requests_for (k i) e <= 1)%nat /\ requests_for (mkKey pc_dss i id) e = 0%nat /\ (exists v, In (NPop (k i) v) (trace_at (host i) tr)) /\
     lives ky keccak pshash su (start_node su (pl_until q) (pl_begin q)) e (j i) (k i) (k0 i) (h i) /\ kd_gen (k0 i) = g i /\
     In (NRun (k i) (OStart (s i))) (trace_at (host i) tr) /\ punctual prot (run_info su (k i)) d (new_run (k0 i)) (untimed (h i)) /\
     has_room pc_dkg i (trace_at (host i) tr) /\ (forall m, In m (from_outside (host i) tr) -> key_of m <> k i)) /\
  (forall i i', In i (everyone n) -> In i' (everyone n) -> pl_skew (pl i) - pl_skew (pl i') <= drift /\ s i - s i' + 2 * d + (lat1 + lat2 + drift) < 70 * ms) /\
  (forall i i', In i (everyone n) -> In i' (everyone n) -> let l := mkLane (host i') pc_dkg i' i in
     calls_within ours lat1 l tr /\ lets_in ours (pl i) (host i) l tr /\ keeps_up ky keccak pshash ours lat2 (pl i) (host i) l tr) /\
  (forall i, In i (everyone n) -> exists t m os, ours m /\ In (XLane t (mkLane (host i) pc_dkg i (1 - i)) (Net.EvSend m) os) tr) /\
  F = map (fun a => of_E (smul a eG)) f /\ (forall i, In i (everyone n) -> In (NPop (k i) (Some (VShare (demo_dks [5; 6] i) [0; 1]))) (trace_at (host i) tr)) /\
  forall y x, ky_share ky y = Some x -> good_share (dk_share x).
Proof.
  intros keccak pshash. destruct (c108_demo2 keccak pshash) as (ky & evs & c & tr & f & F & g & D & R & C & k0 & h & X). exists ky, evs, c, tr, f, F, g, D, R, C, k0, h.
  cbv zeta in X |- *. destruct X as (X1 & X2 & X3 & X4 & X5 & X6 & X7 & X8 & X9 & X10 & X11 & _). exact (conj X1 (conj X2 (conj X3 (conj X4 (conj X5 (conj X6 (conj X7 (conj X8 (conj X9 (conj X10 X11)))))))))).
Qed.
(** All assumptions of C108: two members in two processes generate a key; what they send takes 10 ms, and both requests return. *)
Example C108_ex : forall keccak pshash, exists (ky : kyber acct) places home id evs c tr f F g D R C (pl : Z -> place) (k0 : Z -> kd acct) h,
  let n := 2 in let k i := mkKey pc_dkg i id in let ours (m : message payload) := m_run m = id in
  let host := Z.to_nat in let j := (fun _ : Z => 0%nat) in let s := (fun _ : Z => 0) in let d := 0 in let lat1 := 10 * ms in let lat2 := 0 in let drift := 0 in let prot := dkg_prot ky in
  chistory ky keccak pshash places home (-55 * ms) evs c tr /\ works ky n f F g D R C /\ f = [5; 6] /\
  (forall i' p' a, nth_error places i' = Some p' -> In a (su_guests (pl_su p')) -> In a (everyone n) /\ i' = host a) /\
  (forall i, In i (everyone n) -> let q := pl i in let su := pl_su q in let e := events_at (host i) tr in
     home i = Some (host i) /\ nth_error places (host i) = Some q /\ NoDup (su_guests su) /\ In i (su_guests su) /\ Z.of_nat (length (su_members su)) = n /\
     (requests_for (k i) e <= 1)%nat /\ requests_for (mkKey pc_dss i id) e = 0%nat /\ (exists v, In (NPop (k i) v) (trace_at (host i) tr)) /\
     lives ky keccak pshash su (start_node su (pl_until q) (pl_begin q)) e (j i) (k i) (k0 i) (h i) /\ kd_gen (k0 i) = g i /\
     In (NRun (k i) (OStart (s i))) (trace_at (host i) tr) /\ punctual prot (run_info su (k i)) d (new_run (k0 i)) (untimed (h i)) /\
     has_room pc_dkg i (trace_at (host i) tr) /\ (forall m, In m (from_outside (host i) tr) -> key_of m <> k i)) /\
  (forall i i', In i (everyone n) -> In i' (everyone n) -> pl_skew (pl i) - pl_skew (pl i') <= drift /\ s i - s i' + 2 * d + (lat1 + lat2 + drift) < 70 * ms) /\
  (forall i i', In i (everyone n) -> In i' (everyone n) -> let l := mkLane (host i') pc_dkg i' i in
     calls_within ours lat1 l tr /\ lets_in ours (pl i) (host i) l tr /\ keeps_up ky keccak pshash ours lat2 (pl i) (host i) l tr) /\
  (forall i, In i (everyone n) -> exists t m os, ours m /\ In (XLane t (mkLane (host i) pc_dkg i (1 - i)) (Net.EvSend m) os) tr).
Proof. intros keccak pshash. destruct (c108_demo keccak pshash) as (ky & evs & c & tr & f & F & g & D & R & C & k0 & h & X1 & X2 & X3 & X4 & X5 & X6 & X7 & X8 & _). do 16 eexists. exact (conj X1 (conj X2 (conj X3 (conj X4 (conj X5 (conj X6 (conj X7 X8))))))). Qed.
