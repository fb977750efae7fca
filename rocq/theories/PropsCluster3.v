(** Statements about several nodes that talk to each other: all members take part, and the nodes sign. *)
From Coq Require Import ZArith List Lia Bool Permutation.
From Coq Require Import Init.Byte.
From Verif Require Import Params Bytes Res Secp Spec PublicKey Schnorr Dss DssSpec Dto DtoSpec Prot ProtSpec ProtProofs ProtProofs2 TimeSpec TimeProofs DkgProt KMap Firewall FwSpec
  NetSpec Outputs Node NodeSpec NodeRun NodeProofs NodeProofs2 NodeProofs3 NodeProofs4 NodeProofs5 NodeProofs6 NodeProofs7 ObjSpec ObjProofs ObjProofs2 ObjProofs3 SignSpec PropsSign PropsObj
  PropsNode PropsNode2 ReachSpec DssProofs3 Curve Order SecpProofs Cluster ClusterSpec ClusterProofs ClusterProofs2 DeliverSpec ClusterProofs3 ClusterProofs5 HonestSpec HonestProofs DocsProofs PropsHonest PropsDocs PropsCluster PropsCluster2 HonestDemo ClusterDemo.
From Verif Require Net NetProofs.
Import ListNotations.
Open Scope Z_scope.

Section Statements.
  Context {G : Type}.
  Variable ky : kyber G.
  Variable keccak : bytes -> bytes.
  Variable pshash : Z -> Z -> bytes.
  Variable places : list place.
  Variable home : Z -> option nat.
  Notation message := (message payload).
  Notation chistory := (chistory ky keccak pshash places home).
  Notation prot := (dss_prot ky keccak pshash).
  Variables (t0 : Z) (evs : list (cevent (G := G))) (c : cluster (G := G)) (tr : list (cobs (G := G))).

  (** A run whose request has returned has ended. *)
  Lemma popped_ended su until now0 ev n t k j k0 h v : nhistory ky keccak pshash su until now0 ev n t -> NoDup (su_guests su) -> In (k_guest k) (su_guests su) -> (requests_for k ev <= 1)%nat -> k_pc k = pc_dss ->
    lives ky keccak pshash su (start_node su until now0) ev j k k0 h -> In (NPop k v) t ->
    exists r os, exec prot (run_info su k) (new_run k0) (untimed h) = Ok (r, os) /\ In 11 (entered os).
  Proof.
    intros HH NG IG RQ KP HL PO. destruct (C93_run_is_execution _ _ _ _ _ _ _ _ _ _ _ _ _ HH NG HL) as (CL & TI & r & os & EN & EX & ON). destruct (ON RQ) as [ON1 ON2].
    assert (PP : the_prot ky keccak pshash (k_pc k) = prot) by (rewrite KP; reflexivity). rewrite PP in *. exists r, os. split; [exact EX|].
    assert (TR : r_term r = true).
    { destruct (history_silent ky keccak pshash su until now0 ev n t k k NG HH) as (_ & PIx & _ & TDx & LPx); [repeat split; exact IG|].
      pose proof (history_ph ky keccak pshash su until now0 ev n t HH) as PHx.
      pose proof (popped_terminated su t n k v k PHx LPx TDx PIx PO ltac:(repeat split; exact IG)) as TT. apply terminated_in_heap in TT. destruct TT as (j1 & r1 & E1 & T1).
      rewrite (ON1 _ _ E1) in E1. rewrite EN in E1. injection E1 as ->. exact T1. }
    pose proof (run_inv prot _ _ _ _ _ EX) as HI. rewrite (iv_entered _ _ _ _ _ HI). apply in_upto.
    pose proof (iv_loc _ _ _ _ _ HI) as LO. rewrite TR in LO. destruct (r_loc r); destruct LO as (L1 & _ & L2); try discriminate L2. rewrite L1. cbn. lia.
  Qed.
  Lemma lives_kd su until now0 ev n t k j k0 h : nhistory ky keccak pshash su until now0 ev n t -> lives ky keccak pshash su (start_node su until now0) ev j k k0 h -> exists g, k0 = new_kd su k g.
  Proof.
    intros [_ HE] HL. destruct (lives_object _ _ _ _ _ _ _ _ _ _ _ _ _ HE HL) as (r & os & A & _). destruct (proj2 (objects _ _ _ _ _ _ _ _ _ HE) _ _ _ A) as (k1 & os1 & L1 & (g & E) & _).
    destruct (lives_unique _ _ _ _ _ _ _ _ _ _ _ _ _ _ HL L1) as (_ & <- & _). exists g. exact E.
  Qed.

  (** ** C103.  All members of a session take part: each is a guest of one process, which knows the members and the threshold, has its secret key and
      its long-term share, and was asked once to sign the document of the session under the id [id].  The dealing of keys works as its authors
      say ([works]).  The runs start within a window and are late by at most [d]; what they send is carried by calls that succeed within [lat1], comes
      in while the firewall forwards or buffers, and the incoming queues are not full and are emptied within [lat2]; no two clocks differ by more than [drift]; nothing comes in for
      these runs from elsewhere.  Then every request that returns, returns one and the same valid signature. *)
  Theorem C103_cluster_signs : forall S P g D R C id (host : Z -> nat) (pl : Z -> place) (j : Z -> nat) (k0 : Z -> kd G) (h : Z -> list (Z * event payload env)) (s : Z -> Z) d lat1 lat2 drift,
    let n := Z.of_nat (length (se_parts S)) in let k i := mkKey pc_dss i id in let ours (m : message) := m_run m = id in
    chistory t0 evs c tr -> (forall b, length (keccak b) = 32%nat) -> sound S P -> 0 < n <= 2 ^ 32 -> (forall i, In i (se_qual S) <-> In i (everyone n)) -> se_T S <= n ->
    works ky n (se_r S) (se_R S) g D R C -> 0 <= d -> 0 <= lat2 ->
    (forall i' p' a, nth_error places i' = Some p' -> In a (su_guests (pl_su p')) -> In a (everyone n) /\ i' = host a) ->
    (forall i, In i (everyone n) -> let q := pl i in let su := pl_su q in let e := events_at (host i) tr in
       home i = Some (host i) /\ nth_error places (host i) = Some q /\ NoDup (su_guests su) /\ In i (su_guests su) /\
       su_members su = se_parts S /\ su_T su = se_T S /\ (exists Q, nth_error (se_parts S) (Z.to_nat i) = Some Q /\ pt_mul (su_secret su i) KP_nil = Ok Q) /\
       (exists long, su_long su i = Some long /\ share_for (se_f S) (se_F S) i long) /\
       orders_permute e /\ (requests_for (k i) e <= 1)%nat /\ (exists start t, requested su e (k i) start (Some (se_msg S)) t) /\ (exists v, In (NPop (k i) v) (trace_at (host i) tr)) /\
       lives ky keccak pshash su (start_node su (pl_until q) (pl_begin q)) e (j i) (k i) (k0 i) (h i) /\ kd_gen (k0 i) = g i /\
       In (NRun (k i) (OStart (s i))) (trace_at (host i) tr) /\ punctual prot (run_info su (k i)) d (new_run (k0 i)) (untimed (h i)) /\
       has_room pc_dss i (trace_at (host i) tr) /\ (forall m, In m (from_outside (host i) tr) -> key_of m <> k i)) ->
    (forall i i', In i (everyone n) -> In i' (everyone n) -> pl_skew (pl i) - pl_skew (pl i') <= drift /\ s i - s i' + 2 * d + (lat1 + lat2 + drift) < 70 * ms) ->
    (forall i i', In i (everyone n) -> In i' (everyone n) -> let l := mkLane (host i') pc_dss i' i in
       calls_within ours lat1 l tr /\ lets_in ours (pl i) (host i) l tr /\ keeps_up ky keccak pshash ours lat2 (pl i) (host i) l tr) ->
    exists sg, verify keccak (KP P) (se_msg S) sg = Ok tt /\ forall i v, In i (everyone n) -> In (NPop (k i) v) (trace_at (host i) tr) -> v = Some (VSig sg).
  Proof.
    intros S P g D R C id host pl j k0 h s d lat1 lat2 drift n k ours HC LK HS HN HQ LT W HD HL2 GU HM HW HLn.
    set (rr := fun i => match exec prot (run_info (pl_su (pl i)) (k i)) (new_run (k0 i)) (untimed (h i)) with Ok x => fst x | _ => new_run (k0 i) end).
    set (oo := fun i => match exec prot (run_info (pl_su (pl i)) (k i)) (new_run (k0 i)) (untimed (h i)) with Ok x => snd x | _ => [] end).
    assert (NO : forall i, In i (everyone n) -> exists nn, nhistory ky keccak pshash (pl_su (pl i)) (pl_until (pl i)) (pl_begin (pl i)) (events_at (host i) tr) nn (trace_at (host i) tr)).
    { intros i Hi. destruct (HM i Hi) as (_ & A2 & _). destruct (cluster_node _ _ _ _ _ _ _ _ _ HC _ _ A2) as (nn & X & _). eauto. }
    assert (EX : forall i, In i (everyone n) -> exec prot (run_info (pl_su (pl i)) (k i)) (new_run (k0 i)) (untimed (h i)) = Ok (rr i, oo i) /\ In 11 (entered (oo i))).
    { intros i Hi. destruct (HM i Hi) as (A1 & A2 & A3 & A4 & _ & _ & _ & _ & _ & A5 & _ & (v & A6) & A7 & _). destruct (NO i Hi) as (nn & HH).
      destruct (popped_ended _ _ _ _ _ _ (k i) _ _ _ _ HH A3 A4 A5 eq_refl A7 A6) as (r & os & X1 & X2). unfold rr, oo. rewrite X1. auto. }
    assert (CO : connected prot n (fun i => run_info (pl_su (pl i)) (k i)) k0 h oo (lat1 + lat2 + drift)).
    { apply (cluster_connected ky keccak pshash places home pc_dss (or_introl eq_refl) t0 evs c tr HC n id host pl j k0 h rr oo lat1 lat2 drift GU); [| |exact HLn|exact HL2].
      - intros i Hi. destruct (HM i Hi) as (A1 & A2 & A3 & A4 & _ & _ & _ & _ & _ & A5 & _ & _ & A7 & _ & _ & _ & A8 & A9). repeat (split; [assumption|]). apply EX, Hi.
      - intros i i' Hi Hi'. apply (HW i i' Hi Hi'). }
    assert (RD : forall i, In i (everyone n) -> ready ky keccak pshash S i (run_info (pl_su (pl i)) (k i)) (k0 i) (untimed (h i))).
    { apply (all_ready ky keccak pshash S g D R C (fun i => run_info (pl_su (pl i)) (k i)) k0 h s rr oo d (lat1 + lat2 + drift) (proj2 HN) HQ W HD); [|intros i i' Hi Hi'; apply (HW i i' Hi Hi')|exact CO].
      intros i Hi. destruct (HM i Hi) as (A1 & A2 & A3 & A4 & M1 & M2 & M3 & (long & M4 & M5) & _ & A5 & (start & tq & A6) & _ & A7 & A8 & A9 & A10 & _). destruct (NO i Hi) as (nn & HH). destruct (EX i Hi) as [X1 X2].
      destruct (C93_run_is_execution _ _ _ _ _ _ _ _ _ _ _ _ _ HH A3 A7) as (CL & TI & r & os & EN & EX' & ON). destruct (ON A5) as [ON1 ON2].
      change (the_prot ky keccak pshash (k_pc (k i))) with prot in *. rewrite X1 in EX'. injection EX' as <- <-.
      split.
      { split; [reflexivity|]. split; [cbn; rewrite M1; reflexivity|]. split; [exact CL|]. split; [exact TI|]. split; [exact A10|].
        apply ON2 in A9. destruct (in_happens prot _ (k0 i) (h i) [] _ _ _ X1 A9) as [t HT]. rewrite app_nil_r in HT. rewrite <- (start_unique _ _ _ _ _ _ HT CL) in HT. exact HT. }
      split; [exact A8|]. split; [exact X1|]. split; [exact X2|]. split.
      { destruct (lives_kd _ _ _ _ _ _ _ _ _ _ HH A7) as (gg & EG). destruct M3 as (Q & Q1 & Q2). exists (su_secret (pl_su (pl i)) i), Q. split; [rewrite EG; cbn; rewrite M1, M2; reflexivity|auto]. }
      exists long. split; [exact M5|]. intros a e now b r' t' EU XA NT.
      destruct (C102_document_found _ _ _ _ _ _ _ _ _ _ (k i) _ _ _ _ _ _ _ _ HH A3 eq_refl A5 A7 EU XA NT) as (L & st & doc & t & R1 & R2 & R3). specialize (R3 _ _ _ A6). injection R3 as ->.
      split; [exact R2|]. rewrite L. exact M4. }
    destruct (C98_cluster_signs ky keccak pshash places home t0 evs c tr S P (everyone n) id host pl j k0 h s d lat1 lat2 drift HC LK HS (nodup_everyone n)) as (sg & V & X); [| |exact HD|exact HL2| |exact HW| |].
    - intros E. assert (I0 : In 0 (everyone n)) by (apply in_upto; lia). rewrite E in I0. destruct I0.
    - replace (Z.of_nat (length (everyone n))) with n; [exact LT|]. unfold everyone, upto. rewrite map_length, seq_length. lia.
    - intros i Hi. destruct (HM i Hi) as (A1 & A2 & A3 & A4 & _ & _ & _ & _ & A0 & A5 & _ & A6 & A7 & A8 & A9 & A10 & A11 & _). cbv zeta. repeat (split; [assumption|]). split; [exact (RD i Hi)|]. auto.
    - intros i i' Hi Hi'. destruct (HLn i i' Hi Hi') as (N1 & N2 & N3). cbv zeta. split; [|split].
      + intros t m os [_ PM]. apply N1, PM.
      + intros x t m os y [_ PM]. apply N2, PM.
      + intros x t m os y [_ PM]. apply N3, PM.
    - exists sg. split; [exact V|exact X].
  Qed.
End Statements.
Print Assumptions C103_cluster_signs.

Lemma c103_demo2 : forall keccak pshash, (forall b, length (keccak b) = 32%nat) -> exists (ky : kyber acct) evs c tr g D R C (k0 : Z -> kd acct) h,
  let pl := mem_place (demo_dks [5; 6]) (of_E (smul 3 eG)) (of_E (smul 6 eG)) in let places := [pl 0; pl 1] in let home := duo_home in let id := duo_id in
  let S := demo_session in let P := of_E (smul 5 eG) in let n := Z.of_nat (length (se_parts S)) in let k i := mkKey pc_dss i id in let ours (m : message payload) := m_run m = id in
  let host := Z.to_nat in let j := (fun _ : Z => 0%nat) in let s := (fun _ : Z => 0) in let d := 0 in let lat1 := 10 * ms in let lat2 := 0 in let drift := 0 in let prot := dss_prot ky keccak pshash in
  chistory ky keccak pshash places home (-20 * ms) evs c tr /\ sound S P /\ n = 2 /\ (forall i, In i (se_qual S) <-> In i (everyone n)) /\ se_T S = 2 /\ works ky n (se_r S) (se_R S) g D R C /\
  (forall i' p' a, nth_error places i' = Some p' -> In a (su_guests (pl_su p')) -> In a (everyone n) /\ i' = host a) /\
  (forall i, In i (everyone n) -> let q := pl i in let su := pl_su q in let e := events_at (host i) tr in
     home i = Some (host i) /\ nth_error places (host i) = Some q /\ NoDup (su_guests su) /\ In i (su_guests su) /\
     su_members su = se_parts S /\ su_T su = se_T S /\ (exists Q, nth_error (se_parts S) (Z.to_nat i) = Some Q /\ pt_mul (su_secret su i) KP_nil = Ok Q) /\
     (exists long, su_long su i = Some long /\ share_for (se_f S) (se_F S) i long) /\
     orders_permute e /\ (requests_for (k i) e <= 1)%nat /\ (exists start t, requested su e (k i) start (Some (se_msg S)) t) /\ (exists sg, In (NPop (k i) (Some (VSig sg))) (trace_at (host i) tr)) /\
     lives ky keccak pshash su (start_node su (pl_until q) (pl_begin q)) e (j i) (k i) (k0 i) (h i) /\ kd_gen (k0 i) = g i /\
     In (NRun (k i) (OStart (s i))) (trace_at (host i) tr) /\ punctual prot (run_info su (k i)) d (new_run (k0 i)) (untimed (h i)) /\
     has_room pc_dss i (trace_at (host i) tr) /\ (forall m, In m (from_outside (host i) tr) -> key_of m <> k i)) /\
  (forall i i', In i (everyone n) -> In i' (everyone n) -> pl_skew (pl i) - pl_skew (pl i') <= drift /\ s i - s i' + 2 * d + (lat1 + lat2 + drift) < 70 * ms) /\
  (forall i i', In i (everyone n) -> In i' (everyone n) -> let l := mkLane (host i') pc_dss i' i in
     calls_within ours lat1 l tr /\ lets_in ours (pl i) (host i) l tr /\ keeps_up ky keccak pshash ours lat2 (pl i) (host i) l tr) /\
  (forall i, In i (everyone n) -> exists t m os, ours m /\ In (XLane t (mkLane (host i) pc_dss i (1 - i)) (Net.EvSend m) os) tr) /\
  exists W w, h = mem_h (demo_dks [5; 6]) W w /\ forall i, i = 0 \/ i = 1 -> events_at (host i) tr = mem_evs i (h i).
Proof.
  intros keccak pshash LK. destruct on_wire_ex as (W & HW). set (sh := demo_dks [7; 8]). set (lg := demo_dks [5; 6]).
  set (q0 := of_E (smul 3 eG)). set (q1 := of_E (smul 6 eG)). set (ky := acct_ky sh).
  destruct (demo_part keccak pshash 0 ltac:(lia)) as (v0 & pa0 & w0 & A1 & A2 & A3 & A4). destruct (demo_part keccak pshash 1 ltac:(lia)) as (v1 & pa1 & w1 & B1 & B2 & B3 & B4).
  set (w := fun i => if i =? 0 then w0 else w1).
  destruct (two_sign duo_id keccak pshash LK W 0 v0 pa0 w0 v1 pa1 w1 HW ltac:(lia) A1 A3 B1 B2 B4) as (r0 & L0 & C1 & C2 & C3 & _ & C4 & s0 & sg0 & C5).
  destruct (two_sign duo_id keccak pshash LK W 1 v1 pa1 w1 v0 pa0 w0 HW ltac:(lia) B1 B3 A1 A2 A4) as (r1 & L1 & D1 & D2 & D3 & _ & D4 & s1 & sg1 & D5).
  set (L := fun i => if i =? 0 then L0 else L1). set (r := fun i => if i =? 0 then r0 else r1). set (s := fun i => if i =? 0 then s0 else s1). set (sg := fun i => if i =? 0 then sg0 else sg1).
  set (H := mem_h lg W w).
  assert (ALL : forall i, i = 0 \/ i = 1 -> logged (dss_prot ky keccak pshash) (mem_c lg q0 q1 i) (new_run (mem_k0 q0 q1 i)) (H i) (r i) (L i) /\ HonestDemo.sends_of (L i) = mem_s W w i /\ r_term (r i) = true /\
    outputs_of (map snd (L i)) = [(pc_dkg, s i); (pc_dss, VSig (sg i))]).
  { intros i [->| ->]; [split; [exact C1|split; [exact C2|split; [exact C4|exact C5]]]|split; [exact D1|split; [exact D2|split; [exact D4|exact D5]]]]. }
  assert (OST : forall i, i = 0 \/ i = 1 -> In (OStart 0) (map snd (L i))) by (intros i [->| ->]; [exact (in_map snd _ _ C3)|exact (in_map snd _ _ D3)]).
  clear A1 A2 A3 A4 B1 B2 B3 B4 C1 C2 C3 C4 C5 D1 D2 D3 D4 D5.
  destruct (together keccak pshash sh lg q0 q1 W w r L s sg ALL) as (c & tr & O0 & O1 & SG). destruct SG as [SG1 SG2 SG3 SG4 SG5 SG6 [SG7 SG8]]. fold H in SG2, SG3.
  set (pl := mem_place lg q0 q1). set (places := [pl 0; pl 1]) in *.
  assert (HC : chistory ky keccak pshash places duo_home (-20 * ms) all_evs c tr) by (split; [apply all_clock|exact SG1]).
  assert (EV : forall i, i = 0 \/ i = 1 -> events_at (Z.to_nat i) tr = mem_evs i (H i)) by (intros i [->| ->]; assumption).
  assert (NP : forall i, i = 0 \/ i = 1 -> nth_error places (Z.to_nat i) = Some (pl i)) by (intros i [->| ->]; reflexivity).
  assert (MEM : forall i, i = 0 \/ i = 1 -> In (NPop (mem_key i) (Some (VSig (sg i)))) (trace_at (Z.to_nat i) tr) /\
     lives ky keccak pshash (mem_su lg q0 q1 i) (start_node (mem_su lg q0 q1 i) (-20 * ms) (-20 * ms)) (mem_evs i (H i)) 0 (mem_key i) (mem_k0 q0 q1 i) (H i) /\
     In (NRun (mem_key i) (OStart 0)) (trace_at (Z.to_nat i) tr) /\ has_room pc_dss i (trace_at (Z.to_nat i) tr) /\ (forall b, sent_to pc_dss i b (trace_at (Z.to_nat i) tr) = filter (fun m => m_rcpt m =? b) (map snd (mem_s W w i))) /\
     forall l, lets_in (fun m => m_run m = duo_id) (pl i) (Z.to_nat i) l tr /\ keeps_up ky keccak pshash (fun m => m_run m = duo_id) 0 (pl i) (Z.to_nat i) l tr).
  { intros i Hi. destruct (ALL i Hi) as ((X1 & X2 & X3 & X4 & X5) & Y2 & Y3 & Y4).
    destruct (member keccak pshash sh lg q0 q1 i (H i) (r i) (map snd (L i)) (s i) (sg i) Hi (mem_ticks lg W w i) (fun t e m => mem_msgs keccak pshash sh lg W w i t e m Hi) X1 X2 Y3 Y4) as (nn & oo & E1 & E2 & E3 & E4 & E5 & E6 & E7).
    - apply Nat.leb_le. reflexivity.
    - apply OST, Hi.
    - destruct (cluster_node _ _ _ _ _ _ _ _ _ HC _ _ (NP i Hi)) as (n' & [_ F1] & _). rewrite (EV i Hi) in F1. assert (EQ : Ok (n', trace_at (Z.to_nat i) tr) = Ok (nn, oo)) by (rewrite <- F1; exact E1). injection EQ as _ ->.
      split; [exact E2|]. split; [exact E3|]. split; [exact E4|]. split; [exact E5|]. split; [intros b; rewrite E6, sends_sent, Y2; reflexivity|]. intros l. destruct (history_block _ _ _ _ _ _ _ _ _ HC) as [SH _]. split.
      + intros x t m os y _ ET. destruct (SH _ _ _ _ _ _ ET) as (p' & n1 & n2 & G1 & G2 & _). rewrite (NP i Hi) in G1. injection G1 as <-. cbn [app] in G2.
        assert (EE : mem_evs i (H i) = events_at (Z.to_nat i) x ++ VIn t m :: events_at (Z.to_nat i) y) by (rewrite <- (EV i Hi), ET, events_app; cbn [events_at flat_map app]; rewrite Nat.eqb_refl; reflexivity).
        destruct (E7 _ _ _ _ EE) as [(na & oa & F2 & F3) _]. assert (EQ : Ok (n1, trace_at (Z.to_nat i) x) = Ok (na, oa)) by (rewrite <- G2; exact F2). injection EQ as _ ->. split; [reflexivity|left; exact F3].
      + intros x t m os y _ ET.
        assert (EE : mem_evs i (H i) = events_at (Z.to_nat i) x ++ VIn t m :: events_at (Z.to_nat i) y) by (rewrite <- (EV i Hi), ET, events_app; cbn [events_at flat_map app]; rewrite Nat.eqb_refl; reflexivity).
        destruct (SH _ _ _ _ _ _ ET) as (p' & n1 & n2 & G1 & G2 & _). rewrite (NP i Hi) in G1. injection G1 as <-. cbn [app] in G2.
        destruct (E7 _ _ _ _ EE) as [(na & oa & G3 & G4) (b' & n3 & o' & F2 & F3 & F4 & F5)].
        assert (EQ : Ok (n1, trace_at (Z.to_nat i) x) = Ok (na, oa)) by (rewrite <- G2; exact G3). injection EQ as _ ->. destruct (event_step (Z.to_nat i) y [VTake t pc_dss i (acct_new i)] _ _ F2) as (x1 & org & os1 & y1 & K1 & K2 & K3).
        exists (x1 ++ [XNode (Z.to_nat i) org (VDeliver t pc_dss i 9 oid) os1]), y1, n3, o'.
        assert (KE : events_at (Z.to_nat i) (x1 ++ [XNode (Z.to_nat i) org (VDeliver t pc_dss i 9 oid) os1]) = [VTake t pc_dss i (acct_new i); VDeliver t pc_dss i 9 oid]) by (rewrite events_app, K2; cbn [events_at flat_map app]; rewrite Nat.eqb_refl; reflexivity).
        split; [rewrite <- app_assoc; exact K1|]. rewrite KE. split; [repeat constructor; cbn; lia|]. split; [exact F3|]. split; [|split; assumption]. intros Q. assert (Z2 : Some 1 = Some 2) by (rewrite <- Q; exact G4). discriminate Z2. }
  assert (E2 : forall i, In i (everyone 2) -> i = 0 \/ i = 1) by (intros i Hi; apply in_everyone in Hi; lia).
  exists ky, all_evs, c, tr, acct_new. eexists _, _, _. exists (mem_k0 q0 q1), H. cbv zeta. fold lg q0 q1. fold pl. fold places. change (Z.of_nat (length (se_parts demo_session))) with 2.
  split; [exact HC|]. split; [exact demo_sound|]. split; [reflexivity|]. split; [intros j; change (everyone 2) with [0; 1]; reflexivity|]. split; [reflexivity|]. split; [exact (acct_works sh [7; 8] _ demo_share_for)|].
  split; [|split; [|split; [|split; [|split; [|exists W, w; split; [reflexivity|exact EV]]]]]].
  - intros i' p' a E I. destruct i' as [|[|i']]; [| |destruct i'; discriminate E]; cbn in E; injection E as <-; destruct I as [<-|[]]; (split; [apply in_everyone; lia|reflexivity]).
  - intros i Hi. apply E2 in Hi. destruct (MEM i Hi) as (M1 & M2 & M3 & M4 & M5 & M6). destruct (ALL i Hi) as ((X1 & X2 & X3 & _) & _). rewrite (EV i Hi).
    split; [destruct Hi as [->| ->]; reflexivity|]. split; [exact (NP i Hi)|]. split; [constructor; [intros []|constructor]|]. split; [left; reflexivity|]. split; [reflexivity|]. split; [reflexivity|].
    split; [exists (of_E (smul (3 + 3 * i) eG)); split; [destruct Hi as [->| ->]; reflexivity|apply pt_mul_base; tauto]|]. split; [exists (lg i); split; [reflexivity|split; reflexivity]|].
    split; [intros ord HO; apply mem_orders in HO; subst ord; intros; apply Permutation_refl|]. split; [apply Nat.eq_le_incl, mem_requests|].
    split; [exists 0, (-10 * ms), [x61]; split; [left; reflexivity|]; split; [reflexivity|]; split; [reflexivity|left; reflexivity]|]. split; [exists (sg i); exact M1|]. split; [exact M2|]. split; [reflexivity|]. split; [exact M3|]. split; [exact X3|]. split; [exact M4|].
    intros m I. exfalso. unfold from_outside in I. apply in_flat_map in I. destruct I as (o & I1 & I2). destruct o as [i2 org ev os| |]; try contradiction. destruct org; try contradiction. destruct ev; try contradiction.
    destruct (SG6 _ _ _ _ _ I1) as (l & E). discriminate E.
  - intros i i' _ _. split; [cbn; lia|reflexivity].
  - intros i i' Hi Hi'. apply E2 in Hi, Hi'. split; [|apply (MEM i Hi)].
    destruct (Z.eq_dec i i') as [->|NE].
    + intros t m os _ I. exfalso. apply (put_sent _ _ _ _ _ _ _ _ _ HC) in I. cbn [l_pc l_from l_to l_at] in I. destruct (MEM i' Hi') as (_ & _ & _ & _ & M5 & _). rewrite M5 in I. destruct Hi' as [->| ->]; destruct I.
    + intros t m os _ I. assert (EL : i = 1 - i') by lia. subst i. destruct Hi' as [->| ->]; [exact (SG7 t m os Logic.I I)|exact (SG8 t m os Logic.I I)].
  - intros i Hi. apply E2 in Hi. destruct (MEM i Hi) as (_ & _ & _ & _ & M5 & _).
    destruct (sent_put _ _ _ _ _ _ _ _ _ HC (mkLane (Z.to_nat i) pc_dss i (1 - i)) (d4 w i)) as (t & os & I); [cbn [l_pc l_from l_to l_at]; rewrite M5; destruct Hi as [->| ->]; (right; right; right; left; reflexivity)|].
    exists t, (d4 w i), os. split; [reflexivity|exact I].
Qed.
Lemma c103_demo : forall keccak pshash, (forall b, length (keccak b) = 32%nat) -> exists (ky : kyber acct) evs c tr g D R C (k0 : Z -> kd acct) h,
  let pl := mem_place (demo_dks [5; 6]) (of_E (smul 3 eG)) (of_E (smul 6 eG)) in let places := [pl 0; pl 1] in let home := duo_home in let id := duo_id in
  let S := demo_session in let P := of_E (smul 5 eG) in let n := Z.of_nat (length (se_parts S)) in let k i := mkKey pc_dss i id in let ours (m : message payload) := m_run m = id in
  let host := Z.to_nat in let j := (fun _ : Z => 0%nat) in let s := (fun _ : Z => 0) in let d := 0 in let lat1 := 10 * ms in let lat2 := 0 in let drift := 0 in let prot := dss_prot ky keccak pshash in
  chistory ky keccak pshash places home (-20 * ms) evs c tr /\ sound S P /\ n = 2 /\ (forall i, In i (se_qual S) <-> In i (everyone n)) /\ se_T S = 2 /\ works ky n (se_r S) (se_R S) g D R C /\
  (forall i' p' a, nth_error places i' = Some p' -> In a (su_guests (pl_su p')) -> In a (everyone n) /\ i' = host a) /\
  (forall i, In i (everyone n) -> let q := pl i in let su := pl_su q in let e := events_at (host i) tr in
     home i = Some (host i) /\ nth_error places (host i) = Some q /\ NoDup (su_guests su) /\ In i (su_guests su) /\
     su_members su = se_parts S /\ su_T su = se_T S /\ (exists Q, nth_error (se_parts S) (Z.to_nat i) = Some Q /\ pt_mul (su_secret su i) KP_nil = Ok Q) /\
     (exists long, su_long su i = Some long /\ share_for (se_f S) (se_F S) i long) /\
     orders_permute e /\ (requests_for (k i) e <= 1)%nat /\ (exists start t, requested su e (k i) start (Some (se_msg S)) t) /\ (exists sg, In (NPop (k i) (Some (VSig sg))) (trace_at (host i) tr)) /\
     lives ky keccak pshash su (start_node su (pl_until q) (pl_begin q)) e (j i) (k i) (k0 i) (h i) /\ kd_gen (k0 i) = g i /\
     In (NRun (k i) (OStart (s i))) (trace_at (host i) tr) /\ punctual prot (run_info su (k i)) d (new_run (k0 i)) (untimed (h i)) /\
     has_room pc_dss i (trace_at (host i) tr) /\ (forall m, In m (from_outside (host i) tr) -> key_of m <> k i)) /\
  (forall i i', In i (everyone n) -> In i' (everyone n) -> pl_skew (pl i) - pl_skew (pl i') <= drift /\ s i - s i' + 2 * d + (lat1 + lat2 + drift) < 70 * ms) /\
  (forall i i', In i (everyone n) -> In i' (everyone n) -> let l := mkLane (host i') pc_dss i' i in
     calls_within ours lat1 l tr /\ lets_in ours (pl i) (host i) l tr /\ keeps_up ky keccak pshash ours lat2 (pl i) (host i) l tr) /\
  (forall i, In i (everyone n) -> exists t m os, ours m /\ In (XLane t (mkLane (host i) pc_dss i (1 - i)) (Net.EvSend m) os) tr).
Proof.
  intros keccak pshash LK. destruct (c103_demo2 keccak pshash LK) as (ky & evs & c & tr & g & D & R & C & k0 & h & X). exists ky, evs, c, tr, g, D, R, C, k0, h.
  destruct X as (X1 & X2 & X3 & X4 & X5 & X6 & X7 & X8 & X9 & X10 & X11 & _). exact (conj X1 (conj X2 (conj X3 (conj X4 (conj X5 (conj X6 (conj X7 (conj X8 (conj X9 (conj X10 X11)))))))))).
Qed.
(** All assumptions of C103: two members in two processes with no shares to begin with; what they send takes 10 ms, and both requests return. *)
Example C103_ex : forall keccak pshash, (forall b, length (keccak b) = 32%nat) -> exists (ky : kyber acct) places home id evs c tr g D R C (pl : Z -> place) (k0 : Z -> kd acct) h,
  let S := demo_session in let P := of_E (smul 5 eG) in let n := Z.of_nat (length (se_parts S)) in let k i := mkKey pc_dss i id in let ours (m : message payload) := m_run m = id in
  let host := Z.to_nat in let j := (fun _ : Z => 0%nat) in let s := (fun _ : Z => 0) in let d := 0 in let lat1 := 10 * ms in let lat2 := 0 in let drift := 0 in let prot := dss_prot ky keccak pshash in
  chistory ky keccak pshash places home (-20 * ms) evs c tr /\ sound S P /\ n = 2 /\ (forall i, In i (se_qual S) <-> In i (everyone n)) /\ se_T S = 2 /\ works ky n (se_r S) (se_R S) g D R C /\
  (forall i' p' a, nth_error places i' = Some p' -> In a (su_guests (pl_su p')) -> In a (everyone n) /\ i' = host a) /\
  (forall i, In i (everyone n) -> let q := pl i in let su := pl_su q in let e := events_at (host i) tr in
     home i = Some (host i) /\ nth_error places (host i) = Some q /\ NoDup (su_guests su) /\ In i (su_guests su) /\
     su_members su = se_parts S /\ su_T su = se_T S /\ (exists Q, nth_error (se_parts S) (Z.to_nat i) = Some Q /\ pt_mul (su_secret su i) KP_nil = Ok Q) /\
     (exists long, su_long su i = Some long /\ share_for (se_f S) (se_F S) i long) /\
     orders_permute e /\ (requests_for (k i) e <= 1)%nat /\ (exists start t, requested su e (k i) start (Some (se_msg S)) t) /\ (exists sg, In (NPop (k i) (Some (VSig sg))) (trace_at (host i) tr)) /\
     lives ky keccak pshash su (start_node su (pl_until q) (pl_begin q)) e (j i) (k i) (k0 i) (h i) /\ kd_gen (k0 i) = g i /\
     In (NRun (k i) (OStart (s i))) (trace_at (host i) tr) /\ punctual prot (run_info su (k i)) d (new_run (k0 i)) (untimed (h i)) /\
     has_room pc_dss i (trace_at (host i) tr) /\ (forall m, In m (from_outside (host i) tr) -> key_of m <> k i)) /\
  (forall i i', In i (everyone n) -> In i' (everyone n) -> pl_skew (pl i) - pl_skew (pl i') <= drift /\ s i - s i' + 2 * d + (lat1 + lat2 + drift) < 70 * ms) /\
  (forall i i', In i (everyone n) -> In i' (everyone n) -> let l := mkLane (host i') pc_dss i' i in
     calls_within ours lat1 l tr /\ lets_in ours (pl i) (host i) l tr /\ keeps_up ky keccak pshash ours lat2 (pl i) (host i) l tr) /\
  (forall i, In i (everyone n) -> exists t m os, ours m /\ In (XLane t (mkLane (host i) pc_dss i (1 - i)) (Net.EvSend m) os) tr).
Proof. intros keccak pshash LK. destruct (c103_demo keccak pshash LK) as (ky & evs & c & tr & g & D & R & C & k0 & h & X). do 14 eexists. exact X. Qed.
