(** Statements about deployments that generate a key and then sign with it. *)
From Coq Require Import ZArith List Lia Bool Permutation.
From Coq Require Import Init.Byte.
From Verif Require Import Params Curve Order SecpProofs SecpProofs2 Bytes Res Secp Spec PublicKey Schnorr Dss DssSpec Dto DtoSpec DtoProofs DssProofs3 PropsLayout Prot ProtSpec ProtProofs ProtProofs2 TimeSpec DkgProt KMap Firewall FwSpec
  NetSpec Outputs Requests Node NodeSpec NodeRun NodeProofs NodeProofs7 ObjSpec ObjProofs3 SignSpec PropsSign PropsObj PropsReq PropsNode PropsNode2 ReachSpec Layout LayoutSpec LayoutProofs LayoutProofs2 Main MainSpec MainProofs PropsMain
  Cluster ClusterSpec ClusterProofs ClusterProofs2 DeliverSpec HonestSpec HonestProofs PropsCluster2 HonestDemo ClusterDemo ClusterDemo2 PropsCluster3 PropsCluster4 DeploySpec PropsMain2.
From Verif Require Net.
Import ListNotations.
Open Scope Z_scope.

Section Statements.
  Context {G : Type}.
  Variable ky : kyber G.
  Variable keccak : bytes -> bytes.
  Variable pshash : Z -> Z -> bytes.
  Notation tmo := (protocol_timeout (dkg_prot ky)).

  Lemma f2_back {A B : Type} (Q : A -> B -> Prop) l1 l2 i b : Forall2 Q l1 l2 -> nth_error l2 i = Some b -> exists a, nth_error l1 i = Some a /\ Q a b.
  Proof. intros F. revert i. induction F as [|a0 b0 l1 l2 R0 F IH]; intros [|i] E; cbn in *; try discriminate; [injection E as <-; eauto|auto]. Qed.
  Lemma f2_forth {A B : Type} (Q : A -> B -> Prop) l1 l2 i a : Forall2 Q l1 l2 -> nth_error l1 i = Some a -> exists b, nth_error l2 i = Some b /\ Q a b.
  Proof. intros F. revert i. induction F as [|a0 b0 l1 l2 R0 F IH]; intros [|i] E; cbn in *; try discriminate; [injection E as <-; eauto|auto]. Qed.

  Lemma f2_pointwise {A B : Type} (Q1 Q2 : A -> B -> Prop) l1 l2 : Forall2 Q1 l1 l2 -> (forall p a b, nth_error l1 p = Some a -> nth_error l2 p = Some b -> Q2 a b) -> Forall2 Q2 l1 l2.
  Proof. intros F. induction F as [|a b l1 l2 X F IH]; intros H; constructor; [exact (H 0%nat a b eq_refl eq_refl)|]. apply IH. intros p. exact (H (S p)). Qed.
  Lemma choose_runs n (Q : Z -> nat * kd G * list (Z * event payload env) -> Prop) (g : Z -> G) : (forall i, In i (everyone n) -> exists y, Q i y) -> exists ch, forall i, In i (everyone n) -> Q i (ch i).
  Proof.
    intros HQ. assert (X : forall l : list Z, (forall i, In i l -> exists y, Q i y) -> l = [] \/ exists ch, forall i, In i l -> Q i (ch i)).
    { induction l as [|a l IH]; intros HI; [left; reflexivity|right]. destruct (HI a (or_introl eq_refl)) as (y & Hy). destruct (IH (fun i H => HI i (or_intror H))) as [->|(ch & Hc)].
      - exists (fun _ => y). intros i [<-|[]]. exact Hy.
      - exists (fun i => if i =? a then y else ch i). intros i [<-|Hi]; [rewrite Z.eqb_refl; exact Hy|]. destruct (Z.eqb_spec i a) as [->|_]; [exact Hy|apply Hc, Hi]. }
    destruct (X (everyone n) HQ) as [E|Y]; [|exact Y]. rewrite E. exists (fun i => (0%nat, mkKd (g i) None None None, [])). intros i [].
  Qed.

  (** ** C109.  One process is launched for each host of a configuration, all start the first round of key generation at the same time [at0], and all members' runs of that round
      take part as they should.  The dealing of keys works as its authors say, and the public key is a point of the curve.  Then every process
      that has done with key generation has, for each of its guests, the guest's share of one and the same key, and nothing else. *)
  Theorem C109_generated_shares : forall hosts fs T srt mem launches sts places home host pl t0 evs c tr f F g D R C at0 s d lat1 lat2 drift,
    let n := Z.of_nat (length mem) in let id := round_id at0 tmo 0 in
    distinct_keys fs (files hosts) -> NoDup (map h_addr hosts) -> sorts srt -> load_and_sort srt fs (files hosts) = Ok mem ->
    deployed hosts fs T mem launches sts places home host pl -> (forall st, In st sts -> sd_at st = at0) ->
    chistory ky keccak pshash places home t0 evs c tr -> n <= 2 ^ 32 -> works ky n f F g D R C -> (exists P l, F = P :: l /\ on_curve (fst P) (snd P)) ->
    run_together ky keccak pshash n pc_dkg id g s d lat1 lat2 drift host pl tr -> (forall i, In i (everyone n) -> requests_for (mkKey pc_dss i id) (events_at (host i) tr) = 0%nat) ->
    forall p st lts, nth_error sts p = Some st -> returned_shares tmo st (trace_at p tr) lts ->
      Permutation (su_guests (sd_setup st)) (map fst lts) /\ forall i x, In (i, x) lts -> share_for f F i x /\ exists y, ky_share ky y = Some x.
  Proof.
    intros hosts fs T srt mem launches sts places home host pl t0 evs c tr f F g D R C at0 s d lat1 lat2 drift n id DK NA SR LS DP AT HC HN W (P0 & F0 & EF & OC) (HD & HL2 & HM & HW & HLn) NS p st lts NP (found & fuel & r & ord & ord' & O1 & O2 & FO & LO).
    destruct DP as (FL & FS & FP & HH & HO & HP). destruct (C106_deployment hosts fs T launches sts DK NA FL FS srt mem SR LS) as (LM & AG & ME).
    assert (GA : forall p st, nth_error sts p = Some st -> forall a, In a (su_guests (sd_setup st)) -> In a (everyone n) /\ p = host a).
    { intros p1 st1 N1 a IG. destruct (AG st1 (nth_error_In _ _ N1)) as (_ & _ & _ & RG). pose proof (RG a IG) as Ra. assert (Ia : In a (everyone n)) by (apply in_upto; subst n; lia). split; [exact Ia|].
      destruct (HO a Ia) as (m & hh & M1 & M2 & M3). destruct (ME a m ltac:(lia) M1 (host a) hh M2 M3) as (GU & _). apply (GU p1 st1 N1). exact IG. }
    destruct (choose_runs n (fun i y => lives ky keccak pshash (pl_su (pl i)) (start_node (pl_su (pl i)) (pl_until (pl i)) (pl_begin (pl i))) (events_at (host i) tr) (fst (fst y)) (mkKey pc_dkg i id) (snd (fst y)) (snd y) /\ kd_gen (snd (fst y)) = g i /\
          punctual (the_prot ky keccak pshash pc_dkg) (run_info (pl_su (pl i)) (mkKey pc_dkg i id)) d (new_run (snd (fst y))) (untimed (snd y))) g) as (ch & HCh).
    { intros i Hi. destruct (HM i Hi) as (_ & _ & (j & k0 & h & X) & _). exists (j, k0, h). exact X. }
    assert (GEN : forall i v, In i (everyone n) -> In (NPop (mkKey pc_dkg i id) v) (trace_at (host i) tr) -> exists sh q, v = Some (VShare sh q) /\ share_for f F i sh /\ Permutation q (everyone n)).
    { apply (C108_cluster_generates ky keccak pshash places home t0 evs c tr n f F g D R C id host pl (fun i => fst (fst (ch i))) (fun i => snd (fst (ch i))) (fun i => snd (ch i)) s d lat1 lat2 drift HC HN W HD HL2); [| |exact HW|exact HLn].
      - intros i' p' a NP' IG. destruct (f2_back _ _ _ _ _ FP NP') as (st1 & N1 & (E1 & _) & _). rewrite E1 in IG. exact (GA _ _ N1 a IG).
      - intros i Hi. cbv zeta. destruct (HO i Hi) as (m & hh & M1 & M2 & M3). destruct (f2_back _ _ _ _ _ FP (HP i Hi)) as (st1 & N1 & (EG & EM & _ & _ & _) & _). destruct (AG st1 (nth_error_In _ _ N1)) as (G1 & _ & G3 & _).
        destruct (ME i m ltac:(apply in_upto in Hi; lia) M1 (host i) hh M2 M3) as (GU & _ & LI & DI). pose proof (proj2 (GU (host i) st1 N1) eq_refl) as IG.
        destruct (HM i Hi) as (A1 & A2 & _ & A4 & A5 & A6). destruct (HCh i Hi) as (B1 & B2 & B3).
        split; [|split; [exact (HP i Hi)|]]; [|split; [rewrite EG; exact G3|]; split; [rewrite EG; exact IG|]; split; [rewrite EM, G1, map_length; reflexivity|]; split; [exact A1|]; split; [exact (NS i Hi)|]; split; [exact A2|]; split; [exact B1|]; split; [exact B2|]; split; [exact A4|]; split; [exact B3|]; split; [exact A5|exact A6]].
        apply (HH i (h_addr hh) st1 (host i) st1 Hi); [eapply nth_error_In; exact N1| |exact N1|apply (LI (host i) st1 N1); reflexivity].
        apply DI; [eapply nth_error_In; exact N1|]. intros E. rewrite E in IG. destruct IG. }
    pose proof (AT st (nth_error_In _ _ NP)) as EA. rewrite EA in *.
    destruct (C79_returned_shares found (length (su_members (sd_setup st))) at0 tmo (su_guests (sd_setup st)) ord ord' fuel r lts (conj O1 O2) LO) as (R1 & R2 & R3).
    assert (D0 : forall i x, In i (su_guests (sd_setup st)) -> PropsReq.delivered found (length (su_members (sd_setup st))) at0 tmo 0 i x -> share_for f F i x /\ exists y, ky_share ky y = Some x).
    { intros i x Ii (q & E1 & _). destruct (GA p st NP i Ii) as [Ia ->]. pose proof (FO 0%nat i ltac:(lia) Ii) as PO. rewrite E1 in PO. destruct (GEN i _ Ia PO) as (sh & q' & E2 & E3 & _). injection E2 as -> ->. split; [exact E3|].
      destruct (f2_forth _ _ _ _ _ FP NP) as (q1 & N1 & _). destruct (cluster_node _ _ _ _ _ _ _ _ _ HC _ _ N1) as (nn & HH1 & _). apply in_split in PO. destruct PO as (ta & tb & ET).
      destruct (C85_returned_finished _ _ _ _ _ _ _ _ _ _ _ _ _ HH1 ET eq_refl) as (_ & s1 & st1 & st2 & E4 & _ & _ & _ & _ & E5). injection E4 as -> _. eauto. }
    assert (r = 0%nat).
    { destruct r as [|r]; [reflexivity|exfalso]. destruct (R3 0%nat ltac:(lia)) as (i & x & P1 & l1 & Ii & DE & EC & NC). destruct (D0 i x Ii DE) as [[E1 _] _]. rewrite EF, EC in E1. injection E1 as -> _. exact (NC OC). }
    subst r. split; [exact R1|]. intros i x IX. apply D0; [|apply (R2 i x IX)]. eapply Permutation_in; [apply Permutation_sym, R1|]. apply (in_map fst) in IX. exact IX.
  Qed.
End Statements.
Print Assumptions C109_generated_shares.

Section Statements2.
  Context {G G' : Type}.
  (** The generators of the two deployments *)
  Variables (ky : kyber G) (ky' : kyber G').
  Variable keccak : bytes -> bytes.
  Variable pshash : Z -> Z -> bytes.
  Notation tmo := (protocol_timeout (dkg_prot ky)).

  (** ** C110.  First generate, then sign.  Processes deployed from a configuration generate a key as in C109.  Processes of the same hosts are launched
      again, each with the file the shares of its predecessor were saved to, and are asked to sign a document; all members' signing runs take
      part as they should.  Then every request that returns, returns one and the same signature, valid for the document under the generated key. *)
  Theorem C110_generate_then_sign : forall hosts fs T srt mem, let n := Z.of_nat (length mem) in
    distinct_keys fs (files hosts) -> NoDup (map h_addr hosts) -> sorts srt -> load_and_sort srt fs (files hosts) = Ok mem -> 0 < n <= 2 ^ 32 ->
    forall f F P, (exists l, F = P :: l) -> Forall curve_point F -> (forall y x, ky_share ky y = Some x -> good_share (dk_share x)) ->
    (* the generation *)
    forall launches sts places home host pl t0 evs c tr g D R C at0 s d lat1 lat2 drift,
    deployed hosts fs T mem launches sts places home host pl -> (forall st, In st sts -> sd_at st = at0) ->
    chistory ky keccak pshash places home t0 evs c tr -> works ky n f F g D R C ->
    run_together ky keccak pshash n pc_dkg (round_id at0 tmo 0) g s d lat1 lat2 drift host pl tr ->
    (forall i, In i (everyone n) -> requests_for (mkKey pc_dss i (round_id at0 tmo 0)) (events_at (host i) tr) = 0%nat) ->
    (* the signing *)
    forall launches' sts' places' home' host' pl' t0' evs' c' tr' S g' D' R' C' id s' d' lat1' lat2' drift',
    deployed hosts fs T mem launches' sts' places' home' host' pl' ->
    (forall p st l, nth_error sts p = Some st -> nth_error launches' p = Some l -> exists lts, returned_shares tmo st (trace_at p tr) lts /\ launched_with lts l) ->
    se_f S = f -> se_F S = F -> se_T S = T -> se_parts S = map mb_pub mem -> (forall i, In i (se_qual S) <-> In i (everyone n)) -> sound S P -> T <= n ->
    chistory ky' keccak pshash places' home' t0' evs' c' tr' -> (forall b, length (keccak b) = 32%nat) -> works ky' n (se_r S) (se_R S) g' D' R' C' ->
    run_together ky' keccak pshash n pc_dss id g' s' d' lat1' lat2' drift' host' pl' tr' ->
    (forall i, In i (everyone n) -> let e := events_at (host' i) tr' in orders_permute e /\ exists start t, requested (pl_su (pl' i)) e (mkKey pc_dss i id) start (Some (se_msg S)) t) ->
    exists sg, verify keccak (KP P) (se_msg S) sg = Ok tt /\ forall i v, In i (everyone n) -> In (NPop (mkKey pc_dss i id) v) (trace_at (host' i) tr') -> v = Some (VSig sg).
  Proof.
    intros hosts fs T srt mem n DK NA SR LS HN f F P EF CF GS launches sts places home host pl t0 evs c tr g D R C at0 s d lat1 lat2 drift DP AT HC W RT NS
      launches' sts' places' home' host' pl' t0' evs' c' tr' S g' D' R' C' id s' d' lat1' lat2' drift' DP' LW E1 E2 E3 E4 HQ HS LT HC' LK W' RT' RQ.
    assert (OC : exists P l, F = P :: l /\ on_curve (fst P) (snd P)).
    { destruct EF as [l EF]. exists P, l. split; [exact EF|]. destruct HS as (_ & _ & _ & X & _). exact X. }
    pose proof (C109_generated_shares ky keccak pshash hosts fs T srt mem launches sts places home host pl t0 evs c tr f F g D R C at0 s d lat1 lat2 drift DK NA SR LS DP AT HC (proj2 HN) W OC RT NS) as GEN.
    destruct DP as (FL & FS & FP & HH & HO & HP). destruct DP' as (FL' & FS' & FP' & HH' & HO' & HP'). destruct RT' as (HD' & HL2' & HM' & HW' & HLn').
    destruct (choose_runs n (fun i y => lives ky' keccak pshash (pl_su (pl' i)) (start_node (pl_su (pl' i)) (pl_until (pl' i)) (pl_begin (pl' i))) (events_at (host' i) tr') (fst (fst y)) (mkKey pc_dss i id) (snd (fst y)) (snd y) /\ kd_gen (snd (fst y)) = g' i /\
          punctual (the_prot ky' keccak pshash pc_dss) (run_info (pl_su (pl' i)) (mkKey pc_dss i id)) d' (new_run (snd (fst y))) (untimed (snd y))) g') as (ch & HCh).
    { intros i Hi. destruct (HM' i Hi) as (_ & _ & (j & k0 & h & X) & _). exists (j, k0, h). exact X. }
    destruct (C106_deployment hosts fs T launches sts DK NA FL FS srt mem SR LS) as (_ & AG & ME). destruct (C106_deployment hosts fs T launches' sts' DK NA FL' FS' srt mem SR LS) as (_ & AG' & ME').
    subst T. apply (C107_deployed_processes_sign ky' keccak pshash places' home' t0' evs' c' tr' hosts fs launches' sts' srt mem S P g' D' R' C' id host' pl' (fun i => fst (fst (ch i))) (fun i => snd (fst (ch i))) (fun i => snd (ch i)) s' d' lat1' lat2' drift'); try assumption.
    - apply f2_pointwise with (Q1 := fun l st => starts l = Ok st); [exact FS'|]. intros p l st' N1 N2.
      assert (exists st, nth_error sts p = Some st) as (st & N4).
      { destruct (f2_back _ _ _ _ _ FL' N1) as (hh & N5 & _). destruct (f2_forth _ _ _ _ _ FL N5) as (l0 & N6 & _). destruct (f2_forth _ _ _ _ _ FS N6) as (st & N7 & _). eauto. }
      destruct (LW p st l N4 N1) as (lts & RS & a & lts' & saved & ord & R1 & R2 & R3 & R4 & R5). destruct (GEN p st lts N4 RS) as [G1 G2].
      assert (ND : NoDup (map fst lts')). { eapply Permutation_NoDup; [apply Permutation_map; exact R2|]. eapply Permutation_NoDup; [exact G1|]. apply (AG st (nth_error_In _ _ N4)). }
      assert (GD : forall i x, In (i, x) lts' -> share_for f F i x /\ good_dks x).
      { intros i x IX. apply (Permutation_in _ (Permutation_sym R2)) in IX. destruct (G2 i x IX) as [Y (y & Z)]. split; [exact Y|]. split; [|exact (GS y x Z)]. destruct Y as [-> _]. exact CF. }
      exists a, lts', saved, ord. do 5 (split; [assumption|]). split; [intros i x IX; apply (GD i x IX)|]. intros i IG.
      assert (II : In i (map fst lts')).
      { eapply Permutation_in; [apply Permutation_map; exact R2|]. eapply Permutation_in; [exact G1|].
        assert (Hi : In i (everyone n)). { destruct (AG' st' (nth_error_In _ _ N2)) as (_ & _ & _ & RG). pose proof (RG i IG). apply in_upto. subst n. lia. }
        destruct (HO' i Hi) as (m & hh & M1 & M2 & M3). apply in_upto in Hi. destruct (ME' i m ltac:(lia) M1 (host' i) hh M2 M3) as (GU' & _). destruct (ME i m ltac:(lia) M1 (host' i) hh M2 M3) as (GU & _).
        apply (GU p st N4). apply (GU' p st' N2). exact IG. }
      apply in_map_iff in II. destruct II as ((i', x) & X & IX). cbn [fst] in X. subst i'. exists x. split; [apply mget_in; assumption|]. rewrite E1, E2. apply (GD i x IX).
    - intros i Hi. cbv zeta. destruct (HM' i Hi) as (A1 & A2 & _ & A4 & A5 & A6). destruct (HCh i Hi) as (B1 & B2 & B3). destruct (RQ i Hi) as [Q1 Q2].
      split; [exact Q1|]. split; [exact A1|]. split; [exact Q2|]. split; [exact A2|]. split; [exact B1|]. split; [exact B2|]. split; [exact A4|]. split; [exact B3|]. split; [exact A5|exact A6].
  Qed.
End Statements2.
Print Assumptions C110_generate_then_sign.

(** ** Example: the two hosts of C107_ex, launched without long-term key files. *)
Definition fresh_world (i : Z) : world :=
  let w := trio_world i [] in mkWorld (w_conf w) (w_names w) (w_file w) (fun _ => None) (fun _ => Some (-55 * ms)) (-60 * ms) (w_accepts w) (w_listens w).
Definition fresh_launch (i : Z) : launch := mkLaunch (fresh_world i) isort (fun l => l) [] [x63] [x70] [x73] [x32] [x30] [].
Lemma fresh_launched i : i = 0 \/ i = 1 -> launched_for demo_hosts trio_fs 2 (trio_host i) (fresh_launch i).
Proof. intros Hi. exact (trio_launched i [] Hi). Qed.
Lemma fresh_starts i : i = 0 \/ i = 1 -> exists st, starts (fresh_launch i) = Ok st.
Proof.
  intros Hi. apply (C104_starts_iff isort (fun l => l) (fresh_world i) demo_hosts); [exact isort_sorts|intros l; apply Permutation_refl|reflexivity|exact trio_distinct|discriminate|].
  exists trio_members, 2, (-55 * ms). split; [exact trio_load|]. split; [exists [demo_secname; [x78]]; reflexivity|]. split.
  { intros nm (names & rest & E1 & I & E2). cbn in E1. injection E1 as <-. destruct I as [<-|[<-|[]]]; [|discriminate E2]. exists (be_fixed 32 ((3 + 3 * i) mod N)). split; [reflexivity|apply be_fixed_length]. }
  split; [exact demo_integer|]. split; [right; split; [discriminate|reflexivity]|]. split; [intros i' s' h _ _; split; reflexivity|]. intros a E. discriminate E.
Qed.
Lemma fresh_demo : let pl := gen_place (of_E (smul 3 eG)) (of_E (smul 6 eG)) in exists launches sts,
  deployed demo_hosts trio_fs 2 trio_members launches sts [pl 0; pl 1] duo_home Z.to_nat pl /\ (forall st, In st sts -> sd_at st = 0) /\
  forall p st, nth_error sts p = Some st -> (p = 0 \/ p = 1)%nat /\ su_guests (sd_setup st) = [Z.of_nat p] /\ length (su_members (sd_setup st)) = 2%nat.
Proof.
  intros pl. destruct (fresh_starts 0 (or_introl eq_refl)) as (st0 & T0). destruct (fresh_starts 1 (or_intror eq_refl)) as (st1 & T1).
  set (launches := [fresh_launch 0; fresh_launch 1]). set (sts := [st0; st1]). exists launches, sts.
  assert (NA : NoDup (map h_addr demo_hosts)) by (constructor; [intros [H|[]]; discriminate H|constructor; [intros []|constructor]]).
  assert (FL : Forall2 (launched_for demo_hosts trio_fs 2) demo_hosts launches) by exact (Forall2_cons _ _ (fresh_launched 0 (or_introl eq_refl)) (Forall2_cons _ _ (fresh_launched 1 (or_intror eq_refl)) (Forall2_nil _))).
  assert (FS : Forall2 (fun l st => starts l = Ok st) launches sts) by exact (Forall2_cons _ _ T0 (Forall2_cons _ _ T1 (Forall2_nil _))).
  destruct (C106_deployment demo_hosts trio_fs 2 launches sts trio_distinct NA FL FS isort trio_members isort_sorts trio_load) as (_ & AG & ME).
  assert (GU : forall i st, i = 0 \/ i = 1 -> nth_error sts (Z.to_nat i) = Some st -> su_guests (sd_setup st) = [i]).
  { intros i st Hi NS. destruct (AG st (nth_error_In _ _ NS)) as (_ & _ & ND & RG).
    assert (ON : forall x, In x (su_guests (sd_setup st)) <-> x = i).
    { intros x. split.
      - intros IX. pose proof (RG x IX) as RX. change (Z.of_nat (length trio_members)) with 2 in RX. assert (HX : x = 0 \/ x = 1) by lia.
        assert (Y : Z.to_nat i = Z.to_nat x); [|lia].
        destruct HX as [->| ->]; [destruct (ME 0 _ ltac:(lia) eq_refl 0%nat _ eq_refl ltac:(left; reflexivity)) as (GX & _)|destruct (ME 1 _ ltac:(lia) eq_refl 1%nat _ eq_refl ltac:(left; reflexivity)) as (GX & _)]; exact (proj1 (GX _ _ NS) IX).
      - intros ->. destruct Hi as [->| ->]; [destruct (ME 0 _ ltac:(lia) eq_refl 0%nat _ eq_refl ltac:(left; reflexivity)) as (GX & _)|destruct (ME 1 _ ltac:(lia) eq_refl 1%nat _ eq_refl ltac:(left; reflexivity)) as (GX & _)]; exact (proj2 (GX _ _ NS) eq_refl). }
    destruct (su_guests (sd_setup st)) as [|x l]; [destruct (proj2 (ON i) eq_refl)|]. assert (x = i) by (apply ON; left; reflexivity). subst x. destruct l as [|y l]; [reflexivity|]. exfalso.
    inversion ND as [|? ? NI _]. apply NI. left. apply ON. right. left. reflexivity. }
  assert (UP : forall i st, i = 0 \/ i = 1 -> starts (fresh_launch i) = Ok st -> nth_error sts (Z.to_nat i) = Some st -> same_setup (gen_su (of_E (smul 3 eG)) (of_E (smul 6 eG)) i) (sd_setup st) /\ -55 * ms = sd_until st /\ sd_at st = 0).
  { intros i st Hi ST NS. destruct (AG st (nth_error_In _ _ NS)) as (G1 & G2 & _). pose proof (GU i st Hi NS) as G3.
    destruct (C104_set_up isort (fun l => l) (fresh_world i) demo_hosts [] [x63] [x70] [x73] [x32] [x30] [] st isort_sorts ltac:(intros l; apply Permutation_refl) eq_refl trio_distinct ST) as (mem & LS & M1 & M2 & M3 & M4 & M5 & M6 & M7 & M8 & _).
    assert (mem = trio_members) by (assert (Y : Ok mem = Ok trio_members) by (rewrite <- LS; exact trio_load); congruence). subst mem.
    assert (EU : -55 * ms = sd_until st) by (destruct M7 as [[X _]|[_ X]]; [discriminate X|]; apply (f_equal (fun o => match o with Some x => x | None => 0 end)) in X; exact X).
    split; [|split; [exact EU|rewrite M8, <- EU; reflexivity]].
    split; [rewrite G3; reflexivity|]. split; [rewrite G1; reflexivity|]. split; [rewrite G2; reflexivity|]. split; [rewrite M2; reflexivity|].
    intros x IX. assert (x = i) by (rewrite G3 in IX; destruct IX as [<-|[]]; reflexivity). subst x. split.
    - apply M4 in IX. destruct IX as (s & HG). rewrite (M5 i s HG). destruct HG as (_ & m & _ & HS & _). symmetry. exact (proj1 (trio_secret i [] s Hi) HS).
    - apply main_ok in ST. destruct ST as (j & cf & L & secrets & gs & T & u & lts & x & _ & _ & _ & _ & _ & _ & _ & E8 & _ & ->). cbn in E8. rewrite E8. reflexivity. }
  destruct (UP 0 st0 (or_introl eq_refl) T0 eq_refl) as (U0 & V0 & W0). destruct (UP 1 st1 (or_intror eq_refl) T1 eq_refl) as (U1 & V1 & W1).
  split; [|split].
  - split; [exact FL|]. split; [exact FS|]. split; [exact (Forall2_cons st0 (pl 0) (conj U0 V0) (Forall2_cons st1 (pl 1) (conj U1 V1) (Forall2_nil _)))|]. change (Z.of_nat (length trio_members)) with 2. split; [|split].
    + intros i a st j' st' Hi IS ED NS IL. apply in_upto in Hi. assert (Hi' : i = 0 \/ i = 1) by lia.
      assert (IG : su_guests (sd_setup st) <> []) by (destruct IS as [<-|[<-|[]]]; [rewrite (GU 0 _ (or_introl eq_refl) eq_refl)|rewrite (GU 1 _ (or_intror eq_refl) eq_refl)]; discriminate).
      destruct Hi' as [->| ->].
      * destruct (ME 0 _ ltac:(lia) eq_refl 0%nat _ eq_refl ltac:(left; reflexivity)) as (_ & _ & LI & DI). rewrite (DI st IS IG) in ED. injection ED as <-. apply (LI j' st' NS) in IL. subst j'. reflexivity.
      * destruct (ME 1 _ ltac:(lia) eq_refl 1%nat _ eq_refl ltac:(left; reflexivity)) as (_ & _ & LI & DI). rewrite (DI st IS IG) in ED. injection ED as <-. apply (LI j' st' NS) in IL. subst j'. reflexivity.
    + intros i Hi. apply in_upto in Hi. assert (Hi' : i = 0 \/ i = 1) by lia. destruct Hi' as [->| ->]; (eexists _, _; split; [reflexivity|]; split; [reflexivity|left; reflexivity]).
    + intros i Hi. apply in_upto in Hi. assert (Hi' : i = 0 \/ i = 1) by lia. destruct Hi' as [->| ->]; reflexivity.
  - intros st [<-|[<-|[]]]; assumption.
  - intros p st NS. destruct p as [|[|p]]; [split; [auto|]|split; [auto|]|destruct p; discriminate NS].
    + split; [exact (GU 0 st (or_introl eq_refl) NS)|]. destruct (AG st (nth_error_In _ _ NS)) as (-> & _). reflexivity.
    + split; [exact (GU 1 st (or_intror eq_refl) NS)|]. destruct (AG st (nth_error_In _ _ NS)) as (-> & _). reflexivity.
Qed.
(** What the demonstration of C108 shows of the two processes *)
Lemma gen_together keccak pshash : exists (ky : kyber acct) evs c tr f F g D R C,
  let pl := gen_place (of_E (smul 3 eG)) (of_E (smul 6 eG)) in
  chistory ky keccak pshash [pl 0; pl 1] duo_home (-55 * ms) evs c tr /\ works ky 2 f F g D R C /\ f = [5; 6] /\ F = map (fun a => of_E (smul a eG)) f /\
  run_together ky keccak pshash 2 pc_dkg gen_id g (fun _ => 0) 0 (10 * ms) 0 0 Z.to_nat pl tr /\
  (forall i, In i (everyone 2) -> requests_for (mkKey pc_dss i gen_id) (events_at (Z.to_nat i) tr) = 0%nat) /\
  (forall i, In i (everyone 2) -> In (NPop (mkKey pc_dkg i gen_id) (Some (VShare (lg i) [0; 1]))) (trace_at (Z.to_nat i) tr)) /\
  forall y x, ky_share ky y = Some x -> good_share (dk_share x).
Proof.
  destruct (c108_demo keccak pshash) as (ky & evs & c & tr & f & F & g & D & R & C & k0 & h & X1 & X2 & X3 & X4 & X5 & X6 & X7 & _ & X8 & X9 & X10).
  exists ky, evs, c, tr, f, F, g, D, R, C. split; [exact X1|]. split; [exact X2|]. split; [exact X3|]. split; [exact X8|]. split; [|split; [|split; [exact X9|exact X10]]].
  - split; [discriminate|]. split; [discriminate|]. split; [|split; [exact X6|exact X7]].
    intros i Hi. destruct (X5 i Hi) as (_ & _ & _ & _ & _ & A1 & _ & A2 & A3 & A4 & A5 & A6 & A7 & A8). cbv zeta. split; [exact A1|]. split; [exact A2|]. split; [|split; [exact A5|split; [exact A7|exact A8]]].
    exists 0%nat, (k0 i), (h i). split; [exact A3|]. split; [exact A4|exact A6].
  - intros i Hi. apply (X5 i Hi).
Qed.
Lemma lg_curve : Forall curve_point (map (fun a => of_E (smul a eG)) [5; 6]).
Proof. exact (proj1 (trio_good 0 (or_introl eq_refl))). Qed.
Lemma lg_on : on_curve (fst (of_E (smul 5 eG))) (snd (of_E (smul 5 eG))).
Proof. apply curve_point_on, demo_curve, small_ndiv; split; reflexivity. Qed.
(** The loop of such a process returns the shares that were popped. *)
Lemma gen_returned tmo st i t : i = 0 \/ i = 1 -> su_guests (sd_setup st) = [i] -> length (su_members (sd_setup st)) = 2%nat -> sd_at st = 0 ->
  In (NPop (mkKey pc_dkg i (round_id 0 tmo 0)) (Some (VShare (lg i) [0; 1]))) t -> returned_shares tmo st t [(i, lg i)].
Proof.
  intros Hi EG EL EA IP. set (found := fun (_ : bytes) (_ : Z) => Some (VShare (lg i) [0; 1])).
  assert (OR : orders [i] (fun _ => [i]) (fun _ l => l)) by (split; intros; apply Permutation_refl).
  destruct (C79_one_round found 2%nat 0 tmo [i] (fun _ => [i]) (fun _ l => l) 1%nat OR ltac:(lia)) as (lts & E1).
  { intros g [<-|[]]. exists (lg i). split; [exists [0; 1]; split; [reflexivity|apply Nat.le_refl]|]. exists (of_E (smul 5 eG)), [of_E (smul 6 eG)]. split; [reflexivity|]. exact lg_on. }
  destruct (C79_returned_shares found 2%nat 0 tmo [i] (fun _ => [i]) (fun _ l => l) 1%nat 0%nat lts OR E1) as (PM & DU & _).
  assert (EE : lts = [(i, lg i)]).
  { destruct lts as [|[a x] lts]; [apply Permutation_length in PM; discriminate PM|]. destruct lts; [|apply Permutation_length in PM; discriminate PM].
    cbn [map fst] in PM. apply Permutation_length_1 in PM. subst a. destruct (DU i x (or_introl eq_refl)) as [(q & EF & _) _]. unfold found in EF. apply (f_equal (fun o => match o with Some (VShare s _) => s | _ => x end)) in EF. cbv beta match in EF. rewrite <- EF. reflexivity. }
  rewrite <- EE. unfold returned_shares. rewrite EG, EL, EA. exists found, 1%nat, 0%nat, (fun _ => [i]), (fun _ l => l). split; [intros; apply Permutation_refl|]. split; [intros; apply Permutation_refl|]. split; [|exact E1].
  intros q j Hq [<-|[]]. assert (q = 0)%nat by lia. subst q. exact IP.
Qed.
(** All assumptions of C109: each of the two processes returns its member's share. *)
Example C109_ex : forall keccak pshash, exists (ky : kyber acct) launches sts places home host pl evs c tr f F g D R C s d lat1 lat2 drift,
  let n := Z.of_nat (length trio_members) in
  distinct_keys trio_fs (files demo_hosts) /\ NoDup (map h_addr demo_hosts) /\ sorts isort /\ load_and_sort isort trio_fs (files demo_hosts) = Ok trio_members /\
  deployed demo_hosts trio_fs 2 trio_members launches sts places home host pl /\ (forall st, In st sts -> sd_at st = 0) /\
  chistory ky keccak pshash places home (-55 * ms) evs c tr /\ n = 2 /\ works ky n f F g D R C /\ (exists P l, F = P :: l /\ on_curve (fst P) (snd P)) /\
  run_together ky keccak pshash n pc_dkg (round_id 0 (protocol_timeout (dkg_prot ky)) 0) g s d lat1 lat2 drift host pl tr /\
  (forall i, In i (everyone n) -> requests_for (mkKey pc_dss i (round_id 0 (protocol_timeout (dkg_prot ky)) 0)) (events_at (host i) tr) = 0%nat) /\ length sts = 2%nat /\
  forall p st, nth_error sts p = Some st -> returned_shares (protocol_timeout (dkg_prot ky)) st (trace_at p tr) [(Z.of_nat p, demo_dks [5; 6] (Z.of_nat p))].
Proof.
  intros keccak pshash. destruct (gen_together keccak pshash) as (ky & evs & c & tr & f & F & g & D & R & C & X1 & X2 & X3 & X4 & X5 & X6 & X7 & _). destruct fresh_demo as (launches & sts & Y1 & Y2 & Y3).
  exists ky, launches, sts. do 4 eexists. exists evs, c, tr, f, F, g, D, R, C. do 5 eexists. cbv zeta.
  split; [exact trio_distinct|]. split; [constructor; [intros [H|[]]; discriminate H|constructor; [intros []|constructor]]|]. split; [exact isort_sorts|]. split; [exact trio_load|].
  split; [exact Y1|]. split; [exact Y2|]. split; [exact X1|]. split; [reflexivity|]. split; [exact X2|].
  split; [subst F f; exists (of_E (smul 5 eG)), [of_E (smul 6 eG)]; split; [reflexivity|exact lg_on]|].
  split; [exact X5|]. split; [exact X6|]. split; [destruct Y1 as (F1 & F2 & _); apply Forall2_length in F1, F2; rewrite <- F2, <- F1; reflexivity|].
  intros p st NS. destruct (Y3 p st NS) as (Hp & G1 & G2). apply gen_returned; [destruct Hp as [->| ->]; auto|exact G1|exact G2|apply Y2; eapply nth_error_In; exact NS|].
  assert (IE : In (Z.of_nat p) (everyone 2)) by (apply in_upto; lia). pose proof (X7 _ IE) as IP. rewrite Nat2Z.id in IP. exact IP.
Qed.
Lemma sign_together keccak pshash : (forall b, length (keccak b) = 32%nat) -> exists (ky : kyber acct) evs c tr g D R C,
  let pl := mem_place lg (of_E (smul 3 eG)) (of_E (smul 6 eG)) in
  chistory ky keccak pshash [pl 0; pl 1] duo_home (-20 * ms) evs c tr /\ (forall i, In i (se_qual demo_session) <-> In i (everyone 2)) /\ works ky 2 (se_r demo_session) (se_R demo_session) g D R C /\
  run_together ky keccak pshash 2 pc_dss duo_id g (fun _ => 0) 0 (10 * ms) 0 0 Z.to_nat pl tr /\
  forall i, In i (everyone 2) -> let e := events_at (Z.to_nat i) tr in orders_permute e /\ exists start t, requested (pl_su (pl i)) e (mkKey pc_dss i duo_id) start (Some (se_msg demo_session)) t.
Proof.
  intros LK. destruct (c103_demo keccak pshash LK) as (ky & evs & c & tr & g & D & R & C & k0 & h & X). cbv zeta in X. change (Z.of_nat (length (se_parts demo_session))) with 2 in X.
  destruct X as (HC & _ & _ & HQ & _ & W & _ & HM & HW & HLn & _). exists ky, evs, c, tr, g, D, R, C. split; [exact HC|]. split; [exact HQ|]. split; [exact W|]. split.
  - split; [discriminate|]. split; [discriminate|]. split; [|split; [exact HW|exact HLn]]. intros i Hi.
    destruct (HM i Hi) as (A1 & A2 & A3 & A4 & A5 & A6 & A7 & A8 & A9 & A10 & A11 & (sg & A12) & A13 & A14 & A15 & A16 & A17 & A18). cbv zeta.
    split; [exact A10|]. split; [exists (Some (VSig sg)); exact A12|]. split; [exists 0%nat, (k0 i), (h i); split; [exact A13|]; split; [exact A14|exact A16]|]. split; [exact A15|]. split; [exact A17|exact A18].
  - intros i Hi. destruct (HM i Hi) as (A1 & A2 & A3 & A4 & A5 & A6 & A7 & A8 & A9 & A10 & A11 & _). split; [exact A9|exact A11].
Qed.
(** All assumptions of C110: the two processes of C109_ex, and then those of C107_ex with the files of the former. *)
Example C110_ex : forall keccak pshash, (forall b, length (keccak b) = 32%nat) -> exists (ky ky' : kyber acct) f F P launches sts places home host pl evs c tr g D R C s d lat1 lat2 drift
    launches' sts' places' home' host' pl' evs' c' tr' g' D' R' C' id s' d' lat1' lat2' drift',
  let n := 2 in let hosts := demo_hosts in let fs := trio_fs in let mem := trio_members in let S := demo_session in let tmo := protocol_timeout (dkg_prot ky) in
  distinct_keys fs (files hosts) /\ NoDup (map h_addr hosts) /\ sorts isort /\ load_and_sort isort fs (files hosts) = Ok mem /\ Z.of_nat (length mem) = n /\
  (exists l, F = P :: l) /\ Forall curve_point F /\ (forall y x, ky_share ky y = Some x -> good_share (dk_share x)) /\
  deployed hosts fs 2 mem launches sts places home host pl /\ (forall st, In st sts -> sd_at st = 0) /\
  chistory ky keccak pshash places home (-55 * ms) evs c tr /\ works ky n f F g D R C /\
  run_together ky keccak pshash n pc_dkg (round_id 0 tmo 0) g s d lat1 lat2 drift host pl tr /\
  (forall i, In i (everyone n) -> requests_for (mkKey pc_dss i (round_id 0 tmo 0)) (events_at (host i) tr) = 0%nat) /\
  deployed hosts fs 2 mem launches' sts' places' home' host' pl' /\ length sts = 2%nat /\ length launches' = 2%nat /\
  (forall p st l, nth_error sts p = Some st -> nth_error launches' p = Some l -> exists lts, returned_shares tmo st (trace_at p tr) lts /\ launched_with lts l) /\
  se_f S = f /\ se_F S = F /\ se_T S = 2 /\ se_parts S = map mb_pub mem /\ (forall i, In i (se_qual S) <-> In i (everyone n)) /\ sound S P /\
  chistory ky' keccak pshash places' home' (-20 * ms) evs' c' tr' /\ works ky' n (se_r S) (se_R S) g' D' R' C' /\
  run_together ky' keccak pshash n pc_dss id g' s' d' lat1' lat2' drift' host' pl' tr' /\
  (forall i, In i (everyone n) -> let e := events_at (host' i) tr' in orders_permute e /\ exists start t, requested (pl_su (pl' i)) e (mkKey pc_dss i id) start (Some (se_msg S)) t).
Proof.
  intros keccak pshash LK. destruct (gen_together keccak pshash) as (ky & evs & c & tr & f & F & g & D & R & C & X1 & X2 & X3 & X4 & X5 & X6 & X7 & X8). destruct fresh_demo as (launches & sts & Y1 & Y2 & Y3).
  destruct (sign_together keccak pshash LK) as (ky' & evs' & c' & tr' & g' & D' & R' & C' & Z1 & Z2 & Z3 & Z4 & Z5). destruct launch_demo as (launches' & sts' & L1 & L2 & L3 & L4 & L5 & L6 & L7 & _ & L9 & L10 & L11 & f0 & f1 & L12 & S0 & S1).
  exists ky, ky', f, F, (of_E (smul 5 eG)), launches, sts. do 4 eexists. exists evs, c, tr, g, D, R, C. do 5 eexists. exists launches', sts'. do 4 eexists. exists evs', c', tr', g', D', R', C'. do 6 eexists. cbv zeta.
  split; [exact L1|]. split; [exact L2|]. split; [exact L5|]. split; [exact L6|]. split; [reflexivity|].
  split; [subst F f; exists [of_E (smul 6 eG)]; reflexivity|]. split; [subst F f; exact lg_curve|]. split; [exact X8|].
  split; [exact Y1|]. split; [exact Y2|]. split; [exact X1|]. split; [exact X2|]. split; [exact X5|]. split; [exact X6|].
  split; [split; [exact L3|]; split; [exact L4|]; split; [exact L9|]; split; [exact L10|]; split; [exact L11|]; intros i Hi; apply in_upto in Hi; change (Z.of_nat (length trio_members)) with 2 in Hi; assert (Hi' : i = 0 \/ i = 1) by lia; destruct Hi' as [->| ->]; reflexivity|].
  split; [destruct Y1 as (F1 & F2 & _); apply Forall2_length in F1, F2; rewrite <- F2, <- F1; reflexivity|]. split; [rewrite L12; reflexivity|].
  split.
  { intros p st l NS NL. destruct (Y3 p st NS) as (Hp & G1 & G2). exists [(Z.of_nat p, lg (Z.of_nat p))]. split.
    - apply gen_returned; [destruct Hp as [->| ->]; auto|exact G1|exact G2|apply Y2; eapply nth_error_In; exact NS|].
      assert (IE : In (Z.of_nat p) (everyone 2)) by (apply in_upto; lia). pose proof (X7 _ IE) as IP. rewrite Nat2Z.id in IP. exact IP.
    - rewrite L12 in NL. destruct Hp as [->| ->]; cbn [nth_error] in NL; apply (f_equal (fun o => match o with Some z => z | None => l end)) in NL; cbv beta match in NL; rewrite <- NL.
      + exists [x6c], [(0, lg 0)], f0, (fun x => x). split; [reflexivity|]. split; [apply Permutation_refl|]. split; [exact S0|]. split; [intros; apply Permutation_refl|reflexivity].
      + exists [x6c], [(1, lg 1)], f1, (fun x => x). split; [reflexivity|]. split; [apply Permutation_refl|]. split; [exact S1|]. split; [intros; apply Permutation_refl|reflexivity]. }
  split; [rewrite X3; reflexivity|]. split; [rewrite X4, X3; reflexivity|]. split; [reflexivity|]. split; [exact L7|]. split; [exact Z2|]. split; [exact demo_sound|]. split; [exact Z1|]. split; [exact Z3|]. split; [exact Z4|exact Z5].
Qed.
