(** Proofs: the runs of all members in a cluster are connected. *)
From Coq Require Import ZArith List Bool Lia Permutation.
From Verif Require Import Params Bytes Res Secp Dto Dss Prot ProtSpec ProtProofs TimeSpec TimeProofs DkgProt KMap Firewall FwSpec FwProofs NetSpec Outputs Node NodeSpec NodeRun NodeProofs NodeProofs2 NodeProofs3 NodeProofs4
  ObjSpec ObjProofs ObjProofs2 ObjProofs3 ReachSpec ReachProofs ReachProofs2 Cluster ClusterSpec ClusterProofs ClusterProofs2 DeliverSpec ClusterProofs3 HonestSpec HonestProofs PropsCluster.
From Verif Require Net NetProofs.
Import ListNotations.
Open Scope Z_scope.

Lemma among_nil {X} (a : list X) : among a [] -> a = [].
Proof. intros (r & H). apply Permutation_sym, Permutation_nil in H. destruct a; [reflexivity|discriminate]. Qed.
Lemma among_flat {A X} (f g : A -> list X) l : (forall a, In a l -> among (f a) (g a)) -> among (flat_map f l) (flat_map g l).
Proof. induction l as [|a l IH]; intros H; cbn [flat_map]; [apply among_refl|]. apply among_app; [apply H; left; reflexivity|apply IH; intros; apply H; right; assumption]. Qed.
Lemma flat_map_same {A X} (f g : A -> list X) l : (forall a, In a l -> f a = g a) -> flat_map f l = flat_map g l.
Proof. induction l as [|a l IH]; intros H; cbn [flat_map]; [reflexivity|]. rewrite H by (left; reflexivity). f_equal. apply IH. intros; apply H; right; assumption. Qed.
Lemma by_sender {X} (f : X -> Z) l A : NoDup A -> (forall m, In m l -> In (f m) A) -> Permutation l (flat_map (fun a => filter (fun m => f m =? a) l) A).
Proof.
  revert A. induction l as [|m l IH]; intros A ND H.
  - rewrite flat_map_nil; [constructor|reflexivity].
  - pose proof (H m (or_introl eq_refl)) as IM. apply in_split in IM. destruct IM as (A1 & A2 & E). pose proof (IH A ND (fun x Hx => H x (or_intror Hx))) as P.
    assert (N : ~ In (f m) (A1 ++ A2)) by (apply NoDup_remove_2; rewrite <- E; exact ND).
    assert (Q : forall B, ~ In (f m) B -> flat_map (fun a => filter (fun x => f x =? a) (m :: l)) B = flat_map (fun a => filter (fun x => f x =? a) l) B).
    { intros B HB. apply flat_map_same. intros a Ha. cbn [filter]. destruct (Z.eqb_spec (f m) a) as [E0|]; [destruct HB; rewrite E0; exact Ha|reflexivity]. }
    rewrite E in *. rewrite flat_map_app in *. cbn [flat_map] in *. rewrite !Q by (intros X1; apply N, in_or_app; auto). cbn [filter]. rewrite Z.eqb_refl. cbn [app].
    eapply Permutation_trans; [apply perm_skip, P|]. apply Permutation_middle.
Qed.

Section Connected.
  Context {G : Type}.
  Variable ky : kyber G.
  Variable keccak : bytes -> bytes.
  Variable pshash : Z -> Z -> bytes.
  Variable places : list place.
  Variable home : Z -> option nat.
  Notation message := (message payload).
  Variable pc : Z.
  Hypothesis PC : pc = pc_dss \/ pc = pc_dkg.
  Notation prot := (the_prot ky keccak pshash pc).
  Variables (t0 : Z) (evs : list (cevent (G := G))) (c : cluster (G := G)) (tr : list (cobs (G := G))).
  Hypothesis HC : chistory ky keccak pshash places home t0 evs c tr.
  Variables (n : Z) (id : bytes) (host : Z -> nat) (pl : Z -> place) (j : Z -> nat) (k0 : Z -> kd G) (h : Z -> list (Z * event payload env)) (rr : Z -> rst payload (kd G)) (tt : Z -> list (obs payload arg output)) (lat1 lat2 drift : Z).
  Notation k i := (mkKey pc i id). Notation c' i := (run_info (pl_su (pl i)) (k i)).
  Hypothesis GU : forall i' p' a, nth_error places i' = Some p' -> In a (su_guests (pl_su p')) -> In a (everyone n) /\ i' = host a.
  Hypothesis HM : forall i, In i (everyone n) -> home i = Some (host i) /\ nth_error places (host i) = Some (pl i) /\ NoDup (su_guests (pl_su (pl i))) /\ (requests_for (k i) (events_at (host i) tr) <= 1)%nat /\
    lives ky keccak pshash (pl_su (pl i)) (start_node (pl_su (pl i)) (pl_until (pl i)) (pl_begin (pl i))) (events_at (host i) tr) (j i) (k i) (k0 i) (h i) /\
    has_room pc i (trace_at (host i) tr) /\ (forall m, In m (from_outside (host i) tr) -> key_of m <> k i) /\
    exec prot (c' i) (new_run (k0 i)) (untimed (h i)) = Ok (rr i, tt i).
  Hypothesis HD : forall i i', In i (everyone n) -> In i' (everyone n) -> pl_skew (pl i) - pl_skew (pl i') <= drift.
  Notation ours := (fun m : message => m_run m = id).
  Hypothesis HN : forall i i', In i (everyone n) -> In i' (everyone n) -> let l := mkLane (host i') pc i' i in
    calls_within ours lat1 l tr /\ lets_in ours (pl i) (host i) l tr /\ keeps_up ky keccak pshash ours lat2 (pl i) (host i) l tr.
  Hypothesis L2 : 0 <= lat2.

  Lemma own_trace i : In i (everyone n) -> run_trace (k i) (trace_at (host i) tr) = tt i.
  Proof.
    intros Hi. destruct (HM i Hi) as (B1 & B2 & B3 & B4 & B5 & B6 & B7 & B8). destruct (cluster_node _ _ _ _ _ _ _ _ _ HC _ _ B2) as (nn & HH & _). pose proof HH as [HCl HE].
    destruct (lives_object _ _ _ _ _ _ _ _ _ _ _ _ _ HE B5) as (r & os & A & B & C & D). destruct (history_one _ _ _ _ _ _ _ _ _ (k i) B3 HH B4) as [ON _].
    rewrite (D ON). cbn [k_pc] in B. rewrite B8 in B. injection B as _ <-. reflexivity.
  Qed.
  Lemma stranger a i p : nth_error places i = Some p -> ~ In a (everyone n) -> sent (run_trace (k a) (trace_at i tr)) = [].
  Proof.
    intros EP NA. destruct (cluster_node _ _ _ _ _ _ _ _ _ HC _ _ EP) as (nn & HH & _).
    destruct (sent (run_trace (k a) (trace_at i tr))) as [|m l] eqn:E; [reflexivity|exfalso]. assert (IN : In m (sent (run_trace (k a) (trace_at i tr)))) by (rewrite E; left; reflexivity).
    unfold sent in IN. apply in_flat_map in IN. destruct IN as (o & IO & IM). destruct o; try contradiction. destruct IM as [->|[]]. apply in_run_trace in IO.
    destruct (sent_fields _ _ _ _ _ _ _ _ _ HH _ _ IO) as (_ & _ & _ & IG). exact (NA (proj1 (GU _ _ _ EP IG))).
  Qed.
  Lemma happens_run i t m : In i (everyone n) -> happens prot (c' i) (k0 i) (h i) t (OSent m) -> sends_at (host i) (k i) t m tr /\ m_run m = id.
  Proof.
    intros Hi HO. destruct (HM i Hi) as (B1 & B2 & B3 & B4 & B5 & B6 & B7 & B8). destruct (cluster_node _ _ _ _ _ _ _ _ _ HC _ _ B2) as (nn & HH & _).
    pose proof (happens_sends _ _ _ _ _ _ _ _ _ HC (host i) (pl i) (j i) (k i) (k0 i) (h i) t m B2 B3 B4 B5 HO) as SD. split; [exact SD|].
    destruct SD as (org & ev & os & S1 & _ & S2). apply (sent_fields _ _ _ _ _ _ _ _ _ HH (k i) m). unfold trace_at. apply in_flat_map. exists (XNode (host i) org ev os). split; [exact S1|]. rewrite Nat.eqb_refl. exact S2.
  Qed.
  Lemma sent_arrives i i' t m : In i (everyone n) -> In i' (everyone n) -> happens prot (c' i') (k0 i') (h i') t (OSent m) -> 1 <= m_op m <= 7 -> m_rcpt m = i ->
    exists t', t' <= t + (lat1 + lat2 + drift) /\ arrives (h i) t' m.
  Proof.
    intros Hi Hi' HO OP RC. destruct (happens_run i' t m Hi' HO) as [SD MR]. destruct (HM i Hi) as (B1 & B2 & B3 & B4 & B5 & B6 & _). destruct (HM i' Hi') as (D1 & D2 & _). destruct (HN i i' Hi Hi') as (N1 & N2 & N3).
    assert (Q1 : pc = pc_dss \/ (pc = pc_dkg /\ m_op m <> 0)) by (destruct PC; [left; assumption|right; split; [assumption|lia]]).
    assert (Q2 : 0 <= m_op m < Z.of_nat (length (p_stages prot))) by (destruct PC as [->| ->]; [change (0 <= m_op m < 12)|change (0 <= m_op m < 9)]; lia).
    destruct (delivered _ _ _ _ _ _ _ _ _ HC pc ours (host i') (host i) (pl i') (pl i) i' i id (j i) (k0 i) (h i) t m lat1 lat2 D2 B2 B1 B3 B4 B5 N1 N2 N3 B6 L2 SD RC MR Q1 Q2) as (t' & T1 & T2).
    exists t'. split; [|exact T2]. pose proof (HD i i' Hi Hi'). lia.
  Qed.
  Lemma cluster_connected : connected prot n (fun i => c' i) k0 h tt (lat1 + lat2 + drift).
  Proof.
    intros i op Hi OP. split.
    - destruct (HM i Hi) as (B1 & B2 & B3 & B4 & B5 & B6 & B7 & B8). set (got := for_op op (received (untimed (h i)))).
      assert (ST : forall a pa, nth_error places (host a) = Some pa \/ ~ In a (everyone n) -> among (filter (fun m => m_sender m =? a) got)
                  (for_op op (filter (fun m => m_rcpt m =? i) (sent (run_trace (k a) (trace_at (if existsb (Z.eqb a) (everyone n) then host a else host i) tr)))))).
      { intros a pa HA. assert (IA : existsb (Z.eqb a) (everyone n) = true <-> In a (everyone n)).
        { rewrite existsb_exists. split; [intros (x & X1 & X2); apply Z.eqb_eq in X2; subst x; exact X1|intros X; exists a; split; [exact X|apply Z.eqb_refl]]. }
        assert (RT : forall i1 p1, nth_error places i1 = Some p1 -> (In a (everyone n) -> i1 = host a) -> among (for_op op (filter (fun m => m_sender m =? a) (received (untimed (h i))))) (for_op op (filter (fun m => m_rcpt m =? i) (sent (run_trace (k a) (trace_at i1 tr)))))).
        { intros i1 p1 E1 E2. refine (proj1 (C97_stage_to_stage ky keccak pshash places home t0 evs c tr op i1 (host i) p1 (pl i) a i pc id (j i) (k0 i) (h i) HC E1 B2 _ B3 PC _ B4 B5 _)).
          - intros i' p' EP' IG. destruct (GU _ _ _ EP' IG) as [X1 X2]. rewrite (E2 X1). exact X2.
          - lia.
          - intros m Hm HK. destruct (B7 m Hm HK). }
        assert (FF : filter (fun m : message => m_sender m =? a) got = for_op op (filter (fun m => m_sender m =? a) (received (untimed (h i))))).
        { unfold got, for_op. clear. induction (received (untimed (h i))) as [|m l IH]; [reflexivity|]. cbn [filter]. destruct (m_op m =? op) eqn:E1; destruct (m_sender m =? a) eqn:E2; cbn [filter]; rewrite ?E1, ?E2, IH; reflexivity. }
        rewrite FF. destruct (existsb (Z.eqb a) (everyone n)) eqn:EX.
        - destruct HA as [HA|HA]; [|destruct HA; apply IA; reflexivity]. apply (RT _ pa HA). reflexivity.
        - apply (RT _ (pl i) B2). intros X. apply IA in X. discriminate. }
      assert (IN : forall m, In m got -> In (m_sender m) (everyone n)).
      { intros m Hm. destruct (in_dec Z.eq_dec (m_sender m) (everyone n)) as [|NI]; [assumption|exfalso]. pose proof (ST (m_sender m) (pl i) (or_intror NI)) as X.
        assert (EX : existsb (Z.eqb (m_sender m)) (everyone n) = false).
        { destruct (existsb _ _) eqn:EX; [|reflexivity]. apply existsb_exists in EX. destruct EX as (y & Y1 & Y2). apply Z.eqb_eq in Y2. subst y. contradiction. }
        rewrite EX, (stranger _ _ _ B2 NI) in X. cbn in X. apply among_nil in X. assert (Y : In m (filter (fun x => m_sender x =? m_sender m) got)) by (apply filter_In; split; [exact Hm|apply Z.eqb_refl]). rewrite X in Y. destruct Y. }
      eapply among_perm; [apply (by_sender (@m_sender payload) got (everyone n) (nodup_everyone n) IN)|]. apply among_flat. intros a Ha. destruct (HM a Ha) as (_ & A2 & _). pose proof (ST a (pl a) (or_introl A2)) as X.
      replace (existsb (Z.eqb a) (everyone n)) with true in X by (symmetry; apply existsb_exists; exists a; split; [exact Ha|apply Z.eqb_refl]). rewrite (own_trace a Ha) in X.
      unfold sent_for. replace (filter (fun m => m_rcpt m =? i) (for_op op (sent (tt a)))) with (for_op op (filter (fun m => m_rcpt m =? i) (sent (tt a)))); [exact X|].
      unfold for_op. clear. induction (sent (tt a)) as [|m l IH]; [reflexivity|]. cbn [filter]. destruct (m_op m =? op) eqn:E1; destruct (m_rcpt m =? i) eqn:E2; cbn [filter]; rewrite ?E1, ?E2, IH; reflexivity.
    - intros i' t m Hi' HO EO ER. apply (sent_arrives i i' t m Hi Hi' HO); [lia|exact ER].
  Qed.
End Connected.
