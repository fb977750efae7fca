(** Executions of two nodes that generate a key, put together from executions of one run in each. *)
From Coq Require Import ZArith List Lia Bool Permutation Sorted.
From Coq Require Import Init.Byte.
From Verif Require Import Params Bytes Res Secp Dto Dss Prot ProtSpec ProtProofs TimeSpec TimeProofs DkgProt KMap Firewall FwSpec FwProofs NetSpec Outputs Requests Node NodeSpec NodeRun NodeProofs NodeProofs2 NodeProofs3 NodeProofs4 NodeProofs5 NodeProofs6 NodeProofs7 ObjSpec ObjProofs ObjProofs2 ObjProofs3 ReachSpec ReachProofs SignSpec HonestSpec
  HonestDemo PropsSign PropsNode PropsObj Cluster ClusterSpec ClusterProofs ClusterProofs2 ClusterProofs3 ClusterProofs4 DeliverSpec PropsCluster2 ClusterDemo.
From Verif Require Net NetProofs.
Import ListNotations.
Open Scope Z_scope.

(** * Two members generate a key *)
Section Members.
  Variable keccak : bytes -> bytes.
  Variable pshash : Z -> Z -> bytes.
  Variable share : Z -> dks.
  Variables q0 q1 : point.
  Notation ky := (acct_ky share).
  Notation prot := (dkg_prot ky).
  Notation message := (message payload).
  Definition gen_su (i : Z) : setup := mkSetup [i] [q0; q1] 2 2 (fun g => 3 + 3 * g) (fun _ => None).
  Definition gen_base : bytes := round_base 0 0.
  Definition gen_id : bytes := round_id 0 (525 * ms) 0.
  Definition gen_env (i : Z) : env := mkEnv None None 9 oid.
  Definition gen_key (i : Z) : key := mkKey pc_dkg i gen_id.
  Definition gen_c (i : Z) : info := run_info (gen_su i) (gen_key i).
  Definition gen_pre (i : Z) : list (nevent (G := acct)) :=
    let k := gen_key i in let t := -10 * ms in let g := acct_new i in
    [VRequest t gen_base 0 None; VGuest t 0 i g; VFw t k 0; VFw (-5 * ms) k 0; VGuest (-5 * ms) 0 i g; VFw 0 k 0; VGuest 0 0 i g].
  Definition gen_post (i : Z) : list (nevent (G := acct)) := let t := 540 * ms in [VGuest t 0 i (acct_new i); VWait t 0; VGo t 0 i].
  Definition gen_lift (i : Z) := lift_ev (gen_key i) 0 (acct_new i) 9 oid.
  Definition gen_place (i : Z) : place := mkPlace (gen_su i) (-55 * ms) (-55 * ms) 0.
  Definition gen_lane (i : Z) : lane := mkLane (Z.to_nat i) pc_dkg i (1 - i).
  Definition gen_k0 (i : Z) : kd acct := new_kd (gen_su i) (gen_key i) (acct_new i).
  Notation st0 i := (start_node (G := acct) (gen_su i) (-55 * ms) (-55 * ms)).
  Notation nexec i := (nexec ky keccak pshash (gen_su i)).
  Notation fits i := (fits ky keccak pshash (gen_key i)).
  Notation ease i := (at_ease (gen_key i) 0).

  (** Node [i], when its run is in state [r] and still goes through [h], in which it sends [S]. *)
  Definition going (i : Z) (n : node (G := acct)) (r : rst payload (kd acct)) (h : list (Z * event payload env)) (S : list (Z * message)) : Prop :=
    ease i n /\ nth_error (n_heap n) 0 = Some (gen_key i, r) /\ env_for (gen_su i) n (gen_key i) 9 oid = gen_env i /\
    (exists r' tr, exec prot (gen_c i) r (untimed h) = Ok (r', tr)) /\ timely prot (gen_c i) r (untimed h) /\ HonestDemo.sends_of (timed_log prot (gen_c i) r h) = S /\
    (forall t e now, In (t, ETick e now) h -> e = gen_env i /\ now = t) /\ (forall t e m, In (t, EMsg e m) h -> e = gen_env i /\ fits i m) /\
    (exists n2 o2 n3 o3, nexec i n (flat_map (gen_lift i) h) = Ok (n2, o2) /\ nexec i n2 (gen_post i) = Ok (n3, o3) /\ sent_to pc_dkg i (1 - i) o3 = []).
  Lemma advance T i n r a b S1 S2 : i = 0 \/ i = 1 -> going i n r (a ++ b) (S1 ++ S2) ->
    forallb (fun x => fst x <=? T) a = true -> forallb (fun x => negb (fst x <=? T)) b = true -> forallb (fun x => fst x <=? T) S1 = true -> forallb (fun x => negb (fst x <=? T)) S2 = true ->
    exists n' r' o, nexec i n (flat_map (gen_lift i) a) = Ok (n', o) /\ going i n' r' b S2 /\ forall d, sent_to pc_dkg i d o = filter (fun m => m_rcpt m =? d) (map snd S1).
  Proof.
    intros Hi (A1 & A2 & A3 & (rf & tf & A4) & A5 & A6 & A7 & A8 & (ne & oe & nf & of & A9 & A10)) HA HB HS1 HS2. unfold untimed in A4, A5. rewrite map_app in A4, A5. apply exec_split in A4. destruct A4 as (r1 & t1 & t2 & X1 & X2 & ET).
    destruct (timely_app _ _ _ _ _ _ _ A5 X1) as [T1 T2].
    destruct (log_sends prot (gen_c i) T a b r r1 t1 S1 S2 X1 A6 HA HB HS1 HS2) as [L1 L2].
    assert (GU : is_guest (gen_su i) (k_guest (gen_key i)) = true) by (unfold is_guest; cbn; rewrite Z.eqb_refl; reflexivity).
    destruct (run_lift ky keccak pshash (gen_su i) (gen_key i) 0 (acct_new i) 9 oid ltac:(cbn; unfold pc_dkg; lia) GU a n r r1 t1) as (n' & o & B1 & B2 & B3 & B4 & B5 & B6 & B7 & B8 & B9 & B10 & B11 & B12); [exact A1|exact A2| | |exact X1|exact T1|].
    { intros t e now H. rewrite A3. apply A7. apply in_or_app. left. exact H. } { intros t e m H. rewrite A3. apply (A8 t). apply in_or_app. left. exact H. }
    exists n', r1, o. split; [exact B1|]. split.
    - split; [exact B3|]. split; [rewrite B4, put_nth, Nat.eqb_refl; rewrite (proj2 (Nat.ltb_lt _ _)); [reflexivity|]; apply nth_error_Some; congruence|]. split; [rewrite <- A3; unfold env_for; rewrite B6; reflexivity|].
      split; [eexists _, _; exact X2|]. split; [exact T2|]. split; [exact L2|]. split; [intros t e now H; apply A7; apply in_or_app; right; exact H|]. split; [intros t e m H; apply (A8 t); apply in_or_app; right; exact H|].
      rewrite flat_map_app in A9. apply nexec_cut in A9. destruct A9 as (ng & og & oh & X3 & X4 & _). assert (EQ : Ok (ng, og) = Ok (n', o)) by (rewrite <- X3; exact B1). injection EQ as -> _. exists ne, oh, nf, of. auto.
    - intros d. rewrite B12. cbn [gen_key k_pc k_guest]. rewrite !Z.eqb_refl. cbn [andb]. rewrite (log_trace _ _ _ _ _ _ X1), sends_sent, L1. reflexivity.
  Qed.

  Notation places := [gen_place 0; gen_place 1].
  Notation seg := (seg ky keccak pshash (gen_place 0) (gen_place 1) duo_home (gen_lane 0) (gen_lane 1) (10 * ms)).
  Notation standing := (standing (G := acct) (gen_lane 0) (gen_lane 1)).
  Definition both (t : Z) : list (nat * nevent (G := acct)) := [(0%nat, VTick t 0 9 oid); (1%nat, VTick t 0 9 oid)].
  Definition wakes (i : Z) (ts : list Z) : list (Z * event payload env) := map (two_wake gen_env i) ts.
  Lemma pick_both j ts : j = 0%nat \/ j = 1%nat -> forall i, pick j (flat_map both (map (fun t => t * ms) ts)) = flat_map (gen_lift i) (wakes i ts).
  Proof. intros Hj i. induction ts as [|t ts IH]; [reflexivity|]. cbn [map flat_map wakes]. change (pick j (both (t * ms) ++ flat_map both (map (fun t => t * ms) ts))) with (pick j (both (t * ms) ++ flat_map both (map (fun t => t * ms) ts))).
    unfold pick. rewrite flat_map_app. fold (pick j (flat_map both (map (fun t => t * ms) ts))). rewrite IH. destruct Hj as [->| ->]; reflexivity. Qed.
  Lemma L0 : l_at (gen_lane 0) = 0%nat /\ duo_home (l_to (gen_lane 0)) = Some 1%nat. Proof. split; reflexivity. Qed.
  Lemma L1 : l_at (gen_lane 1) = 1%nat /\ duo_home (l_to (gen_lane 1)) = Some 0%nat. Proof. split; reflexivity. Qed.
  (** Both runs wake up and send nothing. *)
  Lemma both_quiet T ts c b n0 n1 r0 r1 h0 h1 S0 S1 : standing c n0 n1 b -> going 0 n0 r0 (wakes 0 ts ++ h0) S0 -> going 1 n1 r1 (wakes 1 ts ++ h1) S1 ->
    forallb (fun t => (0 <=? t) && (t * ms <=? T)) ts = true -> forallb (fun x => negb (fst x <=? T)) h0 = true -> forallb (fun x => negb (fst x <=? T)) h1 = true ->
    forallb (fun x => negb (fst x <=? T)) S0 = true -> forallb (fun x => negb (fst x <=? T)) S1 = true ->
    exists c' tr n0' n1' r0' r1' o0 o1, seg c (owns (flat_map both (map (fun t => t * ms) ts))) c' tr (flat_map (gen_lift 0) (wakes 0 ts)) (flat_map (gen_lift 1) (wakes 1 ts)) o0 o1 /\ standing c' n0' n1' b /\
      going 0 n0' r0' h0 S0 /\ going 1 n1' r1' h1 S1.
  Proof.
    intros ST G0 G1 HT H0 H1 HS0 HS1.
    assert (HW : forall i, forallb (fun x => fst x <=? T) (wakes i ts) = true).
    { intros i. apply forallb_forall. intros x H. unfold wakes in H. apply in_map_iff in H. destruct H as (t & <- & H). rewrite forallb_forall in HT. specialize (HT _ H). apply andb_true_iff in HT. exact (proj2 HT). }
    destruct (advance T 0 n0 r0 (wakes 0 ts) h0 [] S0 ltac:(auto) G0 (HW 0) H0 eq_refl HS0) as (n0' & r0' & o0 & A1 & A2 & A3).
    destruct (advance T 1 n1 r1 (wakes 1 ts) h1 [] S1 ltac:(auto) G1 (HW 1) H1 eq_refl HS1) as (n1' & r1' & o1 & B1 & B2 & B3).
    rewrite <- (pick_both 0 ts ltac:(auto) 0) in A1. rewrite <- (pick_both 1 ts ltac:(auto) 1) in B1.
    destruct (quiet_seg ky keccak pshash (gen_place 0) (gen_place 1) duo_home (gen_lane 0) (gen_lane 1) (10 * ms) L0 L1 (flat_map both (map (fun t => t * ms) ts)) c n0 n1 b n0' n1' o0 o1 ST) as (c' & tr & X1 & X2); [| |exact A1|exact B1|exact (A3 1)|exact (B3 0)|].
    - apply Forall_forall. intros x H. apply in_flat_map in H. destruct H as (t & H & HX). apply in_map_iff in H. destruct H as (u & <- & H). rewrite forallb_forall in HT. specialize (HT _ H). apply andb_true_iff in HT. destruct HT as [HT _]. apply Z.leb_le in HT.
      destruct HX as [<-|[<-|[]]]; cbn; unfold ms; lia.
    - apply Forall_forall. intros x H. apply in_flat_map in H. destruct H as (t & H & HX). destruct HX as [<-|[<-|[]]]; exact I.
    - rewrite (pick_both 0 ts ltac:(auto) 0), (pick_both 1 ts ltac:(auto) 1) in X1. exists c', tr, n0', n1', r0', r1', o0, o1. auto.
  Qed.
  (** Both runs send a message to the other, which comes in and is processed. *)
  Definition gen_round (b : bool) (t T : Z) : list (cevent (G := acct)) :=
    round_evs (gen_lane 0) (gen_lane 1) b (both t) T
      [(0%nat, VTake T pc_dkg 0 (acct_new 0)); (0%nat, VDeliver T pc_dkg 0 9 oid); (1%nat, VTake T pc_dkg 1 (acct_new 1)); (1%nat, VDeliver T pc_dkg 1 9 oid)].
  Lemma both_round t c b n0 n1 r0 r1 m0 m1 h0 h1 S0 S1 : let T := t + 10 * ms in standing c n0 n1 b -> 0 <= t -> m_rcpt m0 = 1 -> m_rcpt m1 = 0 ->
    going 0 n0 r0 ((t, ETick (gen_env 0) t) :: (T, EMsg (gen_env 0) m1) :: h0) ((t, m0) :: S0) -> going 1 n1 r1 ((t, ETick (gen_env 1) t) :: (T, EMsg (gen_env 1) m0) :: h1) ((t, m1) :: S1) ->
    forallb (fun x => negb (fst x <=? T)) h0 = true -> forallb (fun x => negb (fst x <=? T)) h1 = true -> forallb (fun x => negb (fst x <=? T)) S0 = true -> forallb (fun x => negb (fst x <=? T)) S1 = true ->
    exists c' tr n0' n1' r0' r1' o0 o1, seg c (gen_round b t T) c' tr (flat_map (gen_lift 0) [(t, ETick (gen_env 0) t); (T, EMsg (gen_env 0) m1)]) (flat_map (gen_lift 1) [(t, ETick (gen_env 1) t); (T, EMsg (gen_env 1) m0)]) o0 o1 /\
      standing c' n0' n1' true /\ going 0 n0' r0' h0 S0 /\ going 1 n1' r1' h1 S1.
  Proof.
    intros T ST LT M0 M1 G0 G1 H0 H1 HS0 HS1.
    assert (LM : 0 < ms) by reflexivity. assert (LE : forall x : Z, negb (x <=? T) = true -> negb (x <=? t) = true) by (intros x; rewrite !negb_true_iff, !Z.leb_gt; unfold T; lia).
    assert (LF : forall X (l : list (Z * X)), forallb (fun x => negb (fst x <=? T)) l = true -> forallb (fun x => negb (fst x <=? t)) l = true) by (intros X l H; rewrite forallb_forall in *; intros x HX; apply LE, (H _ HX)).
    assert (TT : (t <=? t) = true /\ negb (T <=? t) = true /\ (T <=? T) = true) by (rewrite negb_true_iff, Z.leb_gt, !Z.leb_le; unfold T; lia). destruct TT as (TA & TB & TC).
    assert (STEP : forall i n r m m' h S, i = 0 \/ i = 1 -> m_rcpt m' = 1 - i -> going i n r ((t, ETick (gen_env i) t) :: (T, EMsg (gen_env i) m) :: h) ((t, m') :: S) ->
      forallb (fun x => negb (fst x <=? T)) h = true -> forallb (fun x => negb (fst x <=? T)) S = true ->
      exists a v k r' oa ov ok, nexec i n [VTick t 0 9 oid] = Ok (a, oa) /\ sent_to pc_dkg i (1 - i) oa = [m'] /\ nstep ky keccak pshash (gen_su i) a (VIn (T + 0) m) = Ok (v, ov) /\
        nexec i v [VTake T pc_dkg i (acct_new i); VDeliver T pc_dkg i 9 oid] = Ok (k, ok) /\ sent_to pc_dkg i (1 - i) (ov ++ ok) = [] /\ going i k r' h S).
    { intros i n r m m' h S Hi MM GG HH HS. destruct (advance t i n r [(t, ETick (gen_env i) t)] ((T, EMsg (gen_env i) m) :: h) [(t, m')] S Hi GG) as (a & ra & oa & A1 & A2 & A3).
      { cbn [forallb fst]. rewrite TA. reflexivity. } { cbn [forallb fst]. rewrite TB. apply LF, HH. } { cbn [forallb fst]. rewrite TA. reflexivity. } { apply LF, HS. }
      destruct (advance T i a ra [(T, EMsg (gen_env i) m)] h [] S Hi A2) as (k & rk & o & B1 & B2 & B3); [cbn [forallb fst]; rewrite TC; reflexivity|exact HH|reflexivity|exact HS|].
      cbn [flat_map gen_lift lift_ev fst snd app gen_key k_pc k_guest] in A1, B1. change [VIn T m; VTake T pc_dkg i (acct_new i); VDeliver T pc_dkg i 9 oid] with ([VIn T m] ++ [VTake T pc_dkg i (acct_new i); VDeliver T pc_dkg i 9 oid]) in B1.
      apply nexec_cut in B1. destruct B1 as (v & ov & ok & C1 & C2 & ->). cbn [Node.nexec] in C1. destruct (nstep ky keccak pshash (gen_su i) a (VIn T m)) as [[v' ov']| |] eqn:EV; cbn [rbind fst snd] in C1; try discriminate. injection C1 as <- <-. rewrite app_nil_r in B3.
      exists a, v', k, rk, oa, ov', ok. split; [exact A1|]. split; [rewrite A3; cbn [map snd filter]; rewrite MM, Z.eqb_refl; reflexivity|]. split; [rewrite Z.add_0_r; exact EV|]. split; [exact C2|]. split; [exact (B3 (1 - i))|exact B2]. }
    destruct (STEP 0 n0 r0 m1 m0 h0 S0 ltac:(auto) M0 G0 H0 HS0) as (a0 & v0 & k0 & r0' & oa0 & ov0 & ok0 & A1 & A2 & A3 & A4 & A5 & A6).
    destruct (STEP 1 n1 r1 m0 m1 h1 S1 ltac:(auto) M1 G1 H1 HS1) as (a1 & v1 & k1 & r1' & oa1 & ov1 & ok1 & B1 & B2 & B3 & B4 & B5 & B6).
    destruct (round_seg ky keccak pshash (gen_place 0) (gen_place 1) duo_home (gen_lane 0) (gen_lane 1) (10 * ms) L0 L1 b (both t) T
      [(0%nat, VTake T pc_dkg 0 (acct_new 0)); (0%nat, VDeliver T pc_dkg 0 9 oid); (1%nat, VTake T pc_dkg 1 (acct_new 1)); (1%nat, VDeliver T pc_dkg 1 9 oid)] t
      c n0 n1 a0 a1 v0 v1 k0 k1 oa0 oa1 ov0 ov1 ok0 ok1 m0 m1 ST) as (c' & tr & X1 & X2); try assumption.
    - repeat constructor; cbn; lia.
    - repeat constructor.
    - repeat constructor; cbn; unfold T; lia.
    - repeat constructor.
    - cbn [gen_place pl_begin pl_skew]. unfold T. lia.
    - cbn [gen_place pl_begin pl_skew]. unfold T. lia.
    - destruct b; cbn; unfold T; repeat split; lia.
    - unfold T. lia.
    - exists c', tr, k0, k1, r0', r1'. eexists _, _. split; [|split; [exact X2|split; [exact A6|exact B6]]].
      cbn [gen_place pl_skew] in X1. rewrite Z.add_0_r in X1. exact X1.
  Qed.

  (** *** The node of a member, from the request to its return *)
  Definition gen_reqs (i : Z) : list request := [mkReq None gen_id 0 RRun [(i, GTerm 0)]].
  Lemma gen_before i : i = 0 \/ i = 1 -> exists n1 o1, nexec i (st0 i) (gen_pre i) = Ok (n1, o1) /\ ease i n1 /\ n_heap n1 = [(gen_key i, new_run (gen_k0 i))] /\ n_outs n1 = [] /\
    kget (n_docs n1) (dkey i gen_id) = None /\ n_reqs n1 = gen_reqs i /\ queued_to pc_dkg i o1 = [] /\ (forall pc a b, sent_to pc a b o1 = []) /\ phase (gen_key i) (fw_trace o1) = Some 2.
  Proof.
    intros [->| ->].
    - eexists _, _. split; [lazy; reflexivity|]. split; [repeat split|]. do 6 (split; [reflexivity|]). lazy; reflexivity.
    - eexists _, _. split; [lazy; reflexivity|]. split; [repeat split|]. do 6 (split; [reflexivity|]). lazy; reflexivity.
  Qed.
  Lemma gen_after i n r s : i = 0 \/ i = 1 -> n_heap n = [(gen_key i, r)] -> r_term r = true -> n_reqs n = gen_reqs i -> n_outs n = push_output [] (gen_key i) (VShare s [0; 1]) ->
    exists n4 o4, nexec i n (gen_post i) = Ok (n4, o4) /\ In (NPop (gen_key i) (Some (VShare s [0; 1]))) o4 /\ (length (queued_to pc_dkg i o4) <= 2)%nat /\ (forall pc a b, sent_to pc a b o4 = []).
  Proof.
    intros Hi H1 H2 H3 H4. destruct n as [x1 x2 x3 x4 x5 x6 x7 x8]. cbn [n_heap n_reqs n_outs] in *. subst. destruct r; cbn in H2; subst.
    destruct Hi as [->| ->]; (eexists _, _; split; [lazy; reflexivity|]; split; [lazy; tauto|]; split; [lazy; lia|intros; reflexivity]).
  Qed.
  Definition gen_evs (i : Z) (h : list (Z * event payload env)) : list (nevent (G := acct)) := gen_pre i ++ flat_map (gen_lift i) h ++ gen_post i.
  Lemma cut_lift i l : no_vin l -> forall h a t m b, flat_map (gen_lift i) h ++ l = a ++ VIn t m :: b ->
    exists h1 e h2, h = h1 ++ (t, EMsg e m) :: h2 /\ a = flat_map (gen_lift i) h1 /\ b = VTake t pc_dkg i (acct_new i) :: VDeliver t pc_dkg i 9 oid :: flat_map (gen_lift i) h2 ++ l.
  Proof.
    intros NV. induction h as [|[t0 ev] h IH]; intros a t m b E; cbn [flat_map app] in E.
    - exfalso. apply (NV t m). rewrite E. apply in_elt.
    - destruct ev as [e now|e m0]; unfold gen_lift, lift_ev in E; cbn [fst snd gen_key k_pc k_guest app] in E; fold (gen_lift i) in E.
      + destruct a as [|y a]; [discriminate|]. cbn [app] in E. injection E as <- E. destruct (IH _ _ _ _ E) as (h1 & e1 & h2 & -> & -> & ->). exists ((t0, ETick e now) :: h1), e1, h2. auto.
      + destruct a as [|y a]; cbn [app] in E; [injection E as <- <- E; subst b; exists [], e, h; auto|]. injection E as <- E.
        destruct a as [|y a]; [discriminate|]. cbn [app] in E. injection E as <- E. destruct a as [|y a]; [discriminate|]. cbn [app] in E. injection E as <- E.
        destruct (IH _ _ _ _ E) as (h1 & e1 & h2 & -> & -> & ->). exists ((t0, EMsg e m0) :: h1), e1, h2. auto.
  Qed.
  Lemma gen_no_vin i : no_vin (gen_pre i) /\ no_vin (gen_post i).
  Proof. split; intros t m H; repeat (destruct H as [H|H]; [discriminate|]); destruct H. Qed.

  Lemma member i h r tr s : i = 0 \/ i = 1 -> (forall t e now, In (t, ETick e now) h -> e = gen_env i /\ now = t) -> (forall t e m, In (t, EMsg e m) h -> e = gen_env i /\ fits i m) ->
    exec prot (gen_c i) (new_run (gen_k0 i)) (untimed h) = Ok (r, tr) -> timely prot (gen_c i) (new_run (gen_k0 i)) (untimed h) -> r_term r = true -> outputs_of tr = [(pc_dkg, VShare s [0; 1])] ->
    (length h <= 100)%nat -> In (OStart 0) tr ->
    exists n o, nexec i (st0 i) (gen_evs i h) = Ok (n, o) /\ In (NPop (gen_key i) (Some (VShare s [0; 1]))) o /\ lives ky keccak pshash (gen_su i) (st0 i) (gen_evs i h) 0 (gen_key i) (gen_k0 i) h /\
      In (NRun (gen_key i) (OStart 0)) o /\ has_room pc_dkg i o /\ (forall b, sent_to pc_dkg i b o = filter (fun m => m_rcpt m =? b) (sent tr)) /\
      forall a t m b, gen_evs i h = a ++ VIn t m :: b ->
        (exists na oa, nexec i (st0 i) a = Ok (na, oa) /\ phase (key_of m) (fw_trace oa) = Some 2) /\
        exists b' n' o', b = VTake t pc_dkg i (acct_new i) :: VDeliver t pc_dkg i 9 oid :: b' /\ nexec i (st0 i) (a ++ VIn t m :: [VTake t pc_dkg i (acct_new i); VDeliver t pc_dkg i 9 oid]) = Ok (n', o') /\ held_for (key_of m) n' = [] /\ waiting_for (key_of m) n' = [].
  Proof.
    intros Hi HT HM EX TI RT OU LH OS. destruct (gen_before i Hi) as (n1 & o1 & A1 & A2 & A3 & A4 & A5 & A6 & A7 & A8 & A9).
    assert (GU : is_guest (gen_su i) (k_guest (gen_key i)) = true) by (unfold is_guest; cbn; rewrite Z.eqb_refl; reflexivity).
    assert (EE : env_for (gen_su i) n1 (gen_key i) 9 oid = gen_env i) by (unfold env_for; cbn [gen_key k_guest k_run]; rewrite A5; reflexivity).
    assert (HN : nth_error (n_heap n1) 0 = Some (gen_key i, new_run (gen_k0 i))) by (rewrite A3; reflexivity).
    pose proof (run_lift ky keccak pshash (gen_su i) (gen_key i) 0 (acct_new i) 9 oid ltac:(cbn; unfold pc_dkg; lia) GU) as RL. cbv zeta in RL.
    destruct (RL h n1 (new_run (gen_k0 i)) r tr A2 HN) as (n2 & o2 & B1 & B2 & B3 & B4 & B5 & B6 & B7 & B8 & B9 & B10 & B11 & B12); [rewrite EE; exact HT|rewrite EE; exact HM|exact EX|exact TI|].
    destruct (gen_after i n2 r s Hi) as (n3 & o3 & C1 & C2 & C3 & C4); [rewrite B4, A3; reflexivity|exact RT|rewrite B7; exact A6|rewrite B5, A4, push_outputs, OU; reflexivity|].
    fold (gen_lift i) in B1, B2. destruct (gen_no_vin i) as [NV1 NV2].
    assert (NE : nexec i (st0 i) (gen_evs i h) = Ok (n3, o1 ++ o2 ++ o3)) by (unfold gen_evs; eapply nexec_two; [exact A1|]; eapply nexec_two; eassumption).
    exists n3, (o1 ++ o2 ++ o3). split; [exact NE|]. split; [apply in_or_app; right; apply in_or_app; right; exact C2|]. split; [split|].
    - unfold gen_evs. rewrite (hist_app _ _ _ _ _ _ _ _ _ _ A1), (hist_app _ _ _ _ _ _ _ _ _ _ B1), B2, (hist_calm _ _ _ _ (gen_pre i) 0), (hist_calm _ _ _ _ (gen_post i) 0) by (repeat constructor). rewrite app_nil_r. reflexivity.
    - exists (firstn 6 (gen_pre i)), (VGuest 0 0 i (acct_new i)), (flat_map (gen_lift i) h ++ gen_post i).
      clear - Hi. destruct Hi as [->| ->]; (eexists _, _, _, _; split; [reflexivity|]; split; [lazy; reflexivity|]; split; [lazy; reflexivity|]; split; reflexivity).
    - split; [|split; [|split]].
      + apply in_or_app. right. apply in_or_app. left. apply in_run_trace. rewrite B9. exact OS.
      + intros a b E. assert (L : (length (queued_to pc_dkg i (o1 ++ o2 ++ o3)) <= 102)%nat) by (rewrite !queued_app, !app_length, A7; cbn [length]; cbn [gen_key k_pc k_guest] in B11; lia). rewrite E, queued_app, app_length in L. lia.
      + intros b. unfold sent_to. rewrite !flat_map_app. change (sent_to pc_dkg i b o1 ++ sent_to pc_dkg i b o2 ++ sent_to pc_dkg i b o3 = filter (fun m => m_rcpt m =? b) (sent tr)). rewrite A8, B12, C4. cbn [gen_key k_pc k_guest]. rewrite !Z.eqb_refl. cbn [andb app]. apply app_nil_r.
      + intros a t m b E. unfold gen_evs in E. destruct (cut_pre _ _ NV1 _ _ _ _ E) as (a' & -> & E'). destruct (cut_lift i _ NV2 _ _ _ _ _ E') as (h1 & e & h2 & EH & -> & ->).
        assert (HF : fits i m) by (apply (HM t e m); rewrite EH; apply in_elt). assert (KE : key_of m = gen_key i) by apply HF. rewrite KE.
        subst h. unfold untimed in EX, TI. rewrite map_app in EX, TI. pose proof EX as EX'. apply exec_split in EX'. destruct EX' as (r1 & t1 & t2 & X1 & X2 & ET). destruct (timely_app _ _ _ _ _ _ _ TI X1) as [T1 _].
        split.
        * destruct (RL h1 n1 (new_run (gen_k0 i)) r1 t1 A2 HN) as (n4 & o4 & D1 & _ & _ & _ & _ & _ & _ & _ & _ & D10 & _); [rewrite EE; intros; apply HT; apply in_or_app; left; assumption|rewrite EE; intros; apply (HM t0); apply in_or_app; left; assumption|exact X1|exact T1|].
          exists n4, (o1 ++ o4). split; [eapply nexec_two; eassumption|]. unfold fw_trace. rewrite flat_map_app. change (phase (gen_key i) (fw_trace o1 ++ fw_trace o4) = Some 2). rewrite phase_calm by exact D10. exact A9.
        * cbn [map snd] in EX, TI. change (map snd h1 ++ EMsg e m :: map snd h2) with (map snd h1 ++ [EMsg e m] ++ map snd h2) in EX, TI. rewrite app_assoc in EX, TI. apply exec_split in EX. destruct EX as (r3 & t3 & t4 & Y1 & _ & _).
          destruct (timely_app _ _ _ _ _ _ _ TI Y1) as [T3 _].
          destruct (RL (h1 ++ [(t, EMsg e m)]) n1 (new_run (gen_k0 i)) r3 t3 A2 HN) as (n4 & o4 & D1 & _ & D3 & _).
          { rewrite EE. intros t' e' now H. apply HT. apply in_app_or in H. destruct H as [H|[H|[]]]; [apply in_or_app; left; exact H|discriminate]. }
          { rewrite EE. intros t' e' m' H. apply (HM t'). apply in_app_or in H. destruct H as [H|[H|[]]]; [apply in_or_app; left; exact H|rewrite <- H; apply in_elt]. }
          { unfold untimed. rewrite map_app. exact Y1. } { unfold untimed. rewrite map_app. exact T3. }
          rewrite flat_map_app in D1. cbn [flat_map app] in D1. unfold lift_ev at 2 in D1. cbn [fst snd gen_key k_pc k_guest] in D1. rewrite app_nil_r in D1.
          eexists _, n4, (o1 ++ o4). split; [reflexivity|]. split; [rewrite <- app_assoc; eapply nexec_two; [exact A1|exact D1]|].
          destruct D3 as (_ & _ & _ & D3 & D4 & _). unfold held_for, waiting_for. unfold qkey in D3, D4. cbn [gen_key k_pc k_guest] in D3, D4 |- *. rewrite D3, D4. split; reflexivity.
  Qed.
  Lemma gen_orders i h ord : drawn (gen_evs i h) ord -> ord = oid.
  Proof.
    intros H. assert (X : exists ev, In ev (gen_evs i h) /\ ((exists t pc g no, ev = VDeliver t pc g no ord) \/ exists t j no, ev = VTick t j no ord)) by (destruct H as [(t & pc & g & no & H)|(t & j & no & H)]; eexists; (split; [exact H|]); [left|right]; repeat eexists).
    clear H. destruct X as (ev & H & E). unfold gen_evs in H. apply in_app_or in H. destruct H as [H|H].
    { exfalso. repeat (destruct H as [<-|H]; [destruct E as [(? & ? & ? & ? & E)|(? & ? & ? & E)]; discriminate E|]). destruct H. }
    apply in_app_or in H. destruct H as [H|H].
    - apply in_flat_map in H. destruct H as ([t [e now|e m]] & _ & H); unfold gen_lift, lift_ev in H; cbn [fst snd] in H; repeat (destruct H as [<-|H]; [destruct E as [(? & ? & ? & ? & E)|(? & ? & ? & E)]; (discriminate E || (injection E; intros; subst; reflexivity))|]); destruct H.
    - exfalso. repeat (destruct H as [<-|H]; [destruct E as [(? & ? & ? & ? & E)|(? & ? & ? & E)]; discriminate E|]). destruct H.
  Qed.
  Lemma gen_requests i h : requests_for (gen_key i) (gen_evs i h) = 1%nat.
  Proof.
    unfold requests_for, gen_evs. rewrite !filter_app, !app_length. assert (E : filter (is_request (gen_key i)) (flat_map (gen_lift i) h) = []).
    { induction h as [|[t [e now|e m]] h IH]; [reflexivity|exact IH|exact IH]. }
    rewrite E. reflexivity.
  Qed.
  Lemma gen_no_sig i h : requests_for (mkKey pc_dss i gen_id) (gen_evs i h) = 0%nat.
  Proof.
    unfold requests_for, gen_evs. rewrite !filter_app, !app_length. assert (E : filter (is_request (mkKey pc_dss i gen_id)) (flat_map (gen_lift i) h) = []).
    { induction h as [|[t [e now|e m]] h IH]; [reflexivity|exact IH|exact IH]. }
    rewrite E. reflexivity.
  Qed.

  (** *** The two of them *)
  Variable W : Z -> deal_dto.
  Definition gen_h (i : Z) : list (Z * event payload env) := two_hist pc_dkg gen_id gen_env W i.
  Definition gen_s (i : Z) : list (Z * message) := two_sends pc_dkg gen_id W i.
  Notation tick i t := (t * ms, ETick (gen_env i) (t * ms)).
  Notation msg i t m := (t * ms + 10 * ms, EMsg (gen_env i) m).
  Definition gen_m (i op : Z) (d : payload) : message := two_msg pc_dkg gen_id i op d.
  Definition d1 (i : Z) := gen_m i 1 (PWire (WDeal (W i))).
  Definition d2 (i : Z) := gen_m i 2 (PResp (a_resp i (1 - i))).
  Definition d3 (i : Z) := gen_m i 5 (PWire (WCommits (mkCommitsD i [] [] []))).
  Lemma gen_phases i : gen_h i = wakes i [0; 0; 25] ++ tick i 30 :: msg i 30 (d1 (1 - i)) :: wakes i [100] ++ tick i 105 :: msg i 105 (d2 (1 - i)) :: wakes i [175; 180; 250; 255; 275] ++
    tick i 280 :: msg i 280 (d3 (1 - i)) :: wakes i [350; 355; 425; 430; 500; 505; 525] ++ [].
  Proof. reflexivity. Qed.
  Lemma gen_sends i : gen_s i = [(30 * ms, d1 i); (105 * ms, d2 i); (280 * ms, d3 i)]. Proof. reflexivity. Qed.
  Lemma gen_ticks i t e now : In (t, ETick e now) (gen_h i) -> e = gen_env i /\ now = t.
  Proof. rewrite gen_phases. intros H. cbn [wakes map app In] in H. repeat (destruct H as [H|H]; [discriminate H || (injection H as <- <- <-; split; reflexivity)|]). destruct H. Qed.
  Lemma gen_msgs i t e m : i = 0 \/ i = 1 -> In (t, EMsg e m) (gen_h i) -> e = gen_env i /\ fits i m.
  Proof.
    intros Hi. rewrite gen_phases. intros H. cbn [wakes map app In] in H.
    destruct Hi as [->| ->]; (repeat (destruct H as [H|H]; [discriminate H || (injection H as _ <- <-; split; [reflexivity|split; [reflexivity|lazy; split; [discriminate|reflexivity]]])|])); destruct H.
  Qed.
  Definition all_evs : list (cevent (G := acct)) :=
    owns (pairs (gen_pre 0) (gen_pre 1)) ++ owns (flat_map both (map (fun t => t * ms) [0; 0; 25])) ++ gen_round false (30 * ms) (30 * ms + 10 * ms) ++
    owns (flat_map both (map (fun t => t * ms) [100])) ++ gen_round true (105 * ms) (105 * ms + 10 * ms) ++ owns (flat_map both (map (fun t => t * ms) [175; 180; 250; 255; 275])) ++ gen_round true (280 * ms) (280 * ms + 10 * ms) ++
    owns (flat_map both (map (fun t => t * ms) [350; 355; 425; 430; 500; 505; 525])) ++ owns (pairs (gen_post 0) (gen_post 1)).
  Lemma all_clock : cclock places (-55 * ms) all_evs.
  Proof. vm_compute. repeat (split; [intros X; discriminate X|]). exact I. Qed.
  Lemma pairs_due a b : forallb (fun x => -55 * ms <=? ntime x) (a ++ b) = true -> Forall (due (gen_place 0) (gen_place 1)) (pairs a b).
  Proof.
    intros H. apply Forall_forall. intros x HX. unfold pairs in HX. apply in_flat_map in HX. destruct HX as ([u v] & H1 & H2). rewrite forallb_forall in H.
    pose proof (in_combine_l _ _ _ _ H1) as Hu. pose proof (in_combine_r _ _ _ _ H1) as Hv.
    destruct H2 as [<-|[<-|[]]]; cbn [fst snd]; [specialize (H u (in_or_app _ _ _ (or_introl Hu)))|specialize (H v (in_or_app _ _ _ (or_intror Hv)))]; apply Z.leb_le in H; exact H.
  Qed.
  Lemma pairs_quiet a b : no_vin a -> no_vin b -> Forall no_in (pairs a b).
  Proof.
    intros HA HB. apply Forall_forall. intros x HX. unfold pairs in HX. apply in_flat_map in HX. destruct HX as ([u v] & H1 & H2).
    pose proof (in_combine_l _ _ _ _ H1) as Hu. pose proof (in_combine_r _ _ _ _ H1) as Hv.
    destruct H2 as [<-|[<-|[]]]; unfold no_in; cbn [fst snd]; [destruct u; try exact I; exact (HA _ _ Hu)|destruct v; try exact I; exact (HB _ _ Hv)].
  Qed.
  Lemma together r L s :
    (forall i, i = 0 \/ i = 1 -> logged prot (gen_c i) (new_run (gen_k0 i)) (gen_h i) (r i) (L i) /\ HonestDemo.sends_of (L i) = gen_s i /\ r_term (r i) = true /\ outputs_of (map snd (L i)) = [(pc_dkg, VShare (s i) [0; 1])]) ->
    exists c tr O0 O1, seg (start_cluster places) all_evs c tr (gen_evs 0 (gen_h 0)) (gen_evs 1 (gen_h 1)) O0 O1.
  Proof.
    intros HL.
    assert (GO : forall i, i = 0 \/ i = 1 -> exists n1 o1, nexec i (st0 i) (gen_pre i) = Ok (n1, o1) /\ (forall pc a b, sent_to pc a b o1 = []) /\ going i n1 (new_run (gen_k0 i)) (gen_h i) (gen_s i)).
    { intros i Hi. destruct (gen_before i Hi) as (n1 & o1 & A1 & A2 & A3 & A4 & A5 & A6 & A7 & A8 & A9). exists n1, o1. split; [exact A1|]. split; [exact A8|]. destruct (HL i Hi) as ((X1 & X2 & X3 & X4 & X5) & Y2 & Y3 & Y4).
      assert (EE : env_for (gen_su i) n1 (gen_key i) 9 oid = gen_env i) by (unfold env_for; cbn [gen_key k_guest k_run]; rewrite A5; reflexivity).
      split; [exact A2|]. split; [rewrite A3; reflexivity|]. split; [exact EE|]. split; [eexists _, _; exact X1|]. split; [exact X2|]. split; [rewrite <- X4; exact Y2|].
      split; [exact (gen_ticks i)|]. split; [intros t e m; exact (gen_msgs i t e m Hi)|].
      assert (GU : is_guest (gen_su i) (k_guest (gen_key i)) = true) by (unfold is_guest; cbn; rewrite Z.eqb_refl; reflexivity).
      destruct (run_lift ky keccak pshash (gen_su i) (gen_key i) 0 (acct_new i) 9 oid ltac:(cbn; unfold pc_dkg; lia) GU (gen_h i) n1 (new_run (gen_k0 i)) (r i) (map snd (L i)) A2 ltac:(rewrite A3; reflexivity)) as (n2 & o2 & B1 & B2 & B3 & B4 & B5 & B6 & B7 & B8 & B9);
        [rewrite EE; exact (gen_ticks i)|rewrite EE; intros t e m; exact (gen_msgs i t e m Hi)|exact X1|exact X2|].
      destruct (gen_after i n2 (r i) (s i) Hi ltac:(rewrite B4, A3; reflexivity) Y3 ltac:(rewrite B7; exact A6) ltac:(rewrite B5, A4, push_outputs, Y4; reflexivity)) as (n3 & o3 & C1 & C2 & C3 & C4).
      exists n2, o2, n3, o3. split; [exact B1|]. split; [exact C1|apply C4]. }
    destruct (GO 0 ltac:(auto)) as (n0 & o0 & A1 & A2 & A3). destruct (GO 1 ltac:(auto)) as (n1 & o1 & B1 & B2 & B3). clear GO HL. rewrite gen_phases, gen_sends in A3, B3. change (1 - 0) with 1 in A3. change (1 - 1) with 0 in B3.
    destruct (gen_no_vin 0) as [V1 V2]. destruct (gen_no_vin 1) as [V3 V4].
    destruct (quiet_seg ky keccak pshash (gen_place 0) (gen_place 1) duo_home (gen_lane 0) (gen_lane 1) (10 * ms) L0 L1 (pairs (gen_pre 0) (gen_pre 1)) (start_cluster places) (st0 0) (st0 1) false n0 n1 o0 o1) as (c1 & t1 & G1 & ST1);
      [repeat split|apply pairs_due; reflexivity|apply pairs_quiet; assumption|exact A1|exact B1|apply A2|apply B2|].
    destruct (both_quiet (25 * ms) _ _ _ _ _ _ _ _ _ _ _ ST1 A3 B3) as (c2 & t2 & n02 & n12 & r02 & r12 & o02 & o12 & G2 & ST2 & A4 & B4); [reflexivity..|].
    destruct (both_round (30 * ms) _ _ _ _ _ _ (d1 0) (d1 1) _ _ _ _ ST2 ltac:(lazy; discriminate) eq_refl eq_refl A4 B4) as (c3 & t3 & n03 & n13 & r03 & r13 & o03 & o13 & G3 & ST3 & A5 & B5); [reflexivity..|].
    destruct (both_quiet (100 * ms) _ _ _ _ _ _ _ _ _ _ _ ST3 A5 B5) as (c4 & t4 & n04 & n14 & r04 & r14 & o04 & o14 & G4 & ST4 & A6 & B6); [reflexivity..|].
    destruct (both_round (105 * ms) _ _ _ _ _ _ (d2 0) (d2 1) _ _ _ _ ST4 ltac:(lazy; discriminate) eq_refl eq_refl A6 B6) as (c5 & t5 & n05 & n15 & r05 & r15 & o05 & o15 & G5 & ST5 & A7 & B7); [reflexivity..|].
    destruct (both_quiet (275 * ms) _ _ _ _ _ _ _ _ _ _ _ ST5 A7 B7) as (c6 & t6 & n06 & n16 & r06 & r16 & o06 & o16 & G6 & ST6 & A8 & B8); [reflexivity..|].
    destruct (both_round (280 * ms) _ _ _ _ _ _ (d3 0) (d3 1) _ _ _ _ ST6 ltac:(lazy; discriminate) eq_refl eq_refl A8 B8) as (c7 & t7 & n07 & n17 & r07 & r17 & o07 & o17 & G7 & ST7 & A9 & B9); [reflexivity..|].
    destruct (both_quiet (525 * ms) _ _ _ _ _ _ _ _ _ _ _ ST7 A9 B9) as (c8 & t8 & n08 & n18 & r08 & r18 & o08 & o18 & G8 & ST8 & A10 & B10); [reflexivity..|].
    destruct A10 as (_ & _ & _ & _ & _ & _ & _ & _ & (na & oa & nb & ob & E1 & E2 & E3)). cbn in E1. injection E1 as <- _.
    destruct B10 as (_ & _ & _ & _ & _ & _ & _ & _ & (nc & oc & nd & od & F1 & F2 & F3)). cbn in F1. injection F1 as <- _.
    destruct (quiet_seg ky keccak pshash (gen_place 0) (gen_place 1) duo_home (gen_lane 0) (gen_lane 1) (10 * ms) L0 L1 (pairs (gen_post 0) (gen_post 1)) c8 _ _ _ nb nd ob od ST8) as (c11 & t11 & G11 & ST11);
      [apply pairs_due; reflexivity|apply pairs_quiet; assumption|exact E2|exact F2|exact E3|exact F3|].
    pose proof (seg_app _ _ _ _ _ _ _ _ _ _ _ _ _ _ _ _ _ _ _ _ _ _ _ _ G8 G11) as S8.
    pose proof (seg_app _ _ _ _ _ _ _ _ _ _ _ _ _ _ _ _ _ _ _ _ _ _ _ _ G7 S8) as S7.
    pose proof (seg_app _ _ _ _ _ _ _ _ _ _ _ _ _ _ _ _ _ _ _ _ _ _ _ _ G6 S7) as S6.
    pose proof (seg_app _ _ _ _ _ _ _ _ _ _ _ _ _ _ _ _ _ _ _ _ _ _ _ _ G5 S6) as S5.
    pose proof (seg_app _ _ _ _ _ _ _ _ _ _ _ _ _ _ _ _ _ _ _ _ _ _ _ _ G4 S5) as S4.
    pose proof (seg_app _ _ _ _ _ _ _ _ _ _ _ _ _ _ _ _ _ _ _ _ _ _ _ _ G3 S4) as S3.
    pose proof (seg_app _ _ _ _ _ _ _ _ _ _ _ _ _ _ _ _ _ _ _ _ _ _ _ _ G2 S3) as S2.
    pose proof (seg_app _ _ _ _ _ _ _ _ _ _ _ _ _ _ _ _ _ _ _ _ _ _ _ _ G1 S2) as S1.
    eexists c11, _, _, _. exact S1.
  Qed.
End Members.
