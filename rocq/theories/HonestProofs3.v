(** A key generation of members that take part as they should: the phases. *)
From Coq Require Import ZArith List Bool Lia Permutation.
From Coq Require Import Init.Byte.
From Verif Require Import Params Bytes Res Secp Spec Dss DssSpec Dto DtoSpec DtoProofs Prot ProtSpec ProtProofs3 TimeSpec DkgProt SignSpec FlowSpec FlowProofs HonestSpec HonestProofs HonestProofs2 PropsDto.
Import ListNotations.
Open Scope Z_scope.

Lemma nodup_prefix {X} (a b : list X) : NoDup (a ++ b) -> NoDup a.
Proof. induction a as [|x a IH]; intros H; [constructor|]. cbn in H. apply NoDup_cons_iff in H. destruct H as [NI H]. constructor; [intros I; apply NI, in_or_app; auto|auto]. Qed.
Lemma perm_flat_nil {X Y} (h : X -> list Y) l H : (NoDup (flat_map h l) -> Permutation H (flat_map h l)) -> (forall x, In x l -> h x = []) -> H = [].
Proof.
  intros P N. assert (E : flat_map h l = []).
  { clear P. induction l as [|x l IH]; [reflexivity|]. cbn. rewrite (N x (or_introl eq_refl)). apply IH. intros y I. apply N. right. exact I. }
  rewrite E in P. specialize (P (NoDup_nil _)). apply Permutation_sym, Permutation_nil in P. exact P.
Qed.

Lemma nodup_from {D} (mk : Z -> list (message D)) A : NoDup A -> (forall j, In j A -> NoDup (mk j) /\ forall m, In m (mk j) -> m_sender m = j) -> NoDup (flat_map mk A).
Proof.
  intros ND. induction ND as [|a A NI ND IH]; intros H; [constructor|]. cbn [flat_map].
  assert (AP : forall x y : list (message D), NoDup x -> NoDup y -> (forall m, In m x -> In m y -> False) -> NoDup (x ++ y)).
  { clear. intros x y NX NY HD. induction NX as [|m x NI NX IH]; [exact NY|]. cbn. constructor; [|apply IH; intros m' I; apply HD; right; exact I].
    intros I. apply in_app_or in I. destruct I as [I|I]; [contradiction|exact (HD m (or_introl eq_refl) I)]. }
  apply AP; [apply H; left; reflexivity|apply IH; intros; apply H; right; assumption|].
  intros m I1 I2. apply in_flat_map in I2. destruct I2 as (b & B1 & B2). apply (H a (or_introl eq_refl)) in I1. apply (H b (or_intror B1)) in B2. congruence.
Qed.

Lemma Forall2_in_l {X Y} (P : X -> Y -> Prop) l l' x : Forall2 P l l' -> In x l -> exists y, In y l' /\ P x y.
Proof. intros H. induction H as [|a b l l' HP H IH]; intros I; [destruct I|]. destruct I as [<-|I]; [exists b; split; [left; reflexivity|exact HP]|]. destruct (IH I) as (y & I1 & I2). exists y. split; [right; exact I1|exact I2]. Qed.
Lemma nodup_ones {D} (mk : Z -> list (message D)) n i : mk i = [] -> (forall j, In j (others n i) -> exists m, mk j = [m] /\ m_sender m = j) -> NoDup (flat_map mk (everyone n)).
Proof.
  intros HI HO. apply nodup_from; [apply nodup_everyone|]. intros j Hj. destruct (Z.eq_dec j i) as [->|NE]; [rewrite HI; split; [constructor|intros m []]|].
  destruct (HO j) as (m & -> & E); [apply in_others; auto|]. split; [repeat constructor; intros []|]. intros m' [<-|[]]. exact E.
Qed.
Lemma nodup_resps {X D} (mk : list (message D)) (l : list (Z * X)) (R : Z -> X -> Prop) (f : X -> D) : (forall x y, f x = f y -> x = y) -> (forall j j' x, R j x -> R j' x -> j = j') ->
  Forall2 (fun m y => m_dto m = f (snd y)) mk l -> NoDup (map fst l) -> (forall j x, In (j, x) l -> R j x) -> NoDup mk.
Proof.
  intros IF IR HF. induction HF as [|m [j x] mk l E HF IH]; intros ND HR; [constructor|]. cbn in ND. inversion_clear ND as [|? ? NI ND']. constructor; [|apply IH; [exact ND'|intros; apply HR; right; assumption]].
  intros I. destruct (Forall2_in_l _ _ _ _ HF I) as ([j' x'] & I' & E'). cbn in E, E'. rewrite E in E'. apply IF in E'. subst x'.
  assert (j = j') by (apply (IR j j' x); apply HR; [left; reflexivity|right; exact I']). subst j'. apply NI. change j with (fst (j, x)). apply in_map. exact I'.
Qed.

Section Core.
  Context {G : Type}.
  Variable ky : kyber G.
  Variables (n : Z) (f : list Z) (F : list point) (g : Z -> G) (D : Z -> Z -> enc_deal -> Prop) (R : Z -> Z -> resp -> Prop) (C : Z -> commits -> Prop).
  Hypothesis W : works ky n f F g D R C.
  Hypothesis NR : n <= 2 ^ 32.
  Notation prot := (dkg_prot ky).
  Notation kd := (kd G).
  Notation flow := (flow (D := payload) (K := kd) (V := output)).
  Notation dealt := (dealt ky g). Notation answered := (answered ky g). Notation timed_out := (timed_out ky g). Notation committed := (committed ky g).
  Notation deals_for := (deals_for n D). Notation resps_for := (resps_for n R). Notation commits_for := (commits_for n C).
  Notation all_deals := (all_deals n D). Notation all_resps := (all_resps n R). Notation all_commits := (all_commits n C).

  Definition deal_msg (j : Z) (m : message payload) (d : enc_deal) : Prop :=
    m_sender m = j /\ exists w, m_dto m = PWire (WDeal w) /\ from_wire KDeal (WDeal w) = Ok (ODeal d).
  Definition resp_msg (j : Z) (m : message payload) (y : Z * resp) : Prop := m_sender m = j /\ m_dto m = PResp (snd y).
  Definition commits_msg (j : Z) (m : message payload) (x : commits) : Prop :=
    m_sender m = j /\ exists w, m_dto m = PWire (WCommits w) /\ from_wire KCommits (WCommits w) = Ok (OCommits x).

  Lemma u32_member j : In j (everyone n) -> u32 j = j.
  Proof. intros H. apply in_everyone in H. unfold u32. apply Z.mod_small. lia. Qed.

  Section Member.
    Variable c : info.
    Variable e : env.
    Variable i : Z.
    Hypothesis IG : i_guest c = i.
    Hypothesis IM : i_members c = n.
    Hypothesis II : In i (everyone n).

    Lemma phase_deal q ar ds : exists A1, begin c e (s_deal ky) (mkFlow (mkKd (g i) q ar ds) false []) = Ok (mkFlow (mkKd (dealt i []) q ar ds) false A1) /\ Forall (only [1]) A1 /\
      mails i 1 A1 = [] /\ forall j, In j (others n i) -> exists d w, mails j 1 A1 = [PWire (WDeal w)] /\ D i j d /\ from_wire KDeal (WDeal w) = Ok (ODeal d).
    Proof.
      destruct (wk_deals _ _ _ _ _ _ _ _ W i II) as (dl & E1 & P1 & H1).
      set (A1 := flat_map (fun e => match deal_to_dto (snd e) with Ok d => [ASend (fst e) op_deal (PWire (WDeal d))] | _ => [] end) dl : list (action payload output)).
      exists A1. split; [|split; [|split]].
      - cbn. unfold step_deal. cbn [kd_gen]. rewrite E1. cbn [rbind fst snd set_gen kd_qual kd_args kd_dss]. unfold call. cbn [fl_ab fl_k fl_acts rbind fst snd app]. fold A1.
        assert (GU : gives_up A1 = false).
        { unfold A1. clear. induction dl as [|d dl IH]; [reflexivity|]. cbn [flat_map]. unfold gives_up. rewrite existsb_app. fold (gives_up (V := output) (D := payload)) in *. unfold gives_up in IH. rewrite IH.
          destruct (deal_to_dto (snd d)); reflexivity. }
        rewrite GU. reflexivity.
      - unfold A1. apply Forall_forall. intros a I. apply in_flat_map in I. destruct I as (d & _ & I). destruct (deal_to_dto (snd d)); [|destruct I|destruct I]. destruct I as [<-|[]]. left. reflexivity.
      - assert (NI : ~ In i (map fst dl)) by (intros X; apply (Permutation_in _ P1) in X; apply in_others in X; destruct X; congruence).
        unfold A1. clear - NI. induction dl as [|d dl IH]; [reflexivity|]. cbn [flat_map]. rewrite mails_app, IH by (intros X; apply NI; right; exact X).
        destruct (deal_to_dto (snd d)); try reflexivity. cbn. assert (fst d <> i) by (intros X; apply NI; left; exact X). rewrite (proj2 (Z.eqb_neq _ _)) by assumption. reflexivity.
      - intros j Hj. apply (Permutation_in _ (Permutation_sym P1)) in Hj. pose proof (Permutation_NoDup (Permutation_sym P1) (nodup_others n i)) as ND.
        unfold A1. clear - Hj ND H1 W. induction dl as [|[k d] dl IH]; [destruct Hj|]. cbn [map fst] in Hj, ND. apply NoDup_cons_iff in ND. destruct ND as [NI ND].
        destruct (wk_deal_form _ _ _ _ _ _ _ _ W i k d (H1 k d (or_introl eq_refl))) as [_ GD].
        destruct (C41_roundtrip (ODeal d) GD) as (w & T1 & T2). cbn [to_wire] in T1. destruct (deal_to_dto d) as [dd| |] eqn:ED; try discriminate. cbn [rbind] in T1. injection T1 as <-.
        cbn [flat_map fst snd]. setoid_rewrite mails_app. rewrite ED.
        assert (REST : ~ In j (map fst dl) -> mails j 1 (flat_map (fun e : Z * enc_deal => match deal_to_dto (snd e) with Ok d => [ASend (fst e) op_deal (PWire (WDeal d))] | _ => [] end) dl) = []).
        { clear. intros NI. induction dl as [|d dl IH]; [reflexivity|]. cbn [flat_map]. rewrite mails_app, IH by (intros X; apply NI; right; exact X).
          destruct (deal_to_dto (snd d)); try reflexivity. cbn. assert (fst d <> j) by (intros X; apply NI; left; exact X). rewrite (proj2 (Z.eqb_neq _ _)) by assumption. reflexivity. }
        destruct Hj as [<-|Hj].
        + exists d, dd. rewrite REST by exact NI. cbn. rewrite Z.eqb_refl. split; [reflexivity|]. split; [apply H1; left; reflexivity|exact T2].
        + destruct (IH (fun a b I => H1 a b (or_intror I)) Hj ND) as (d' & w' & X1 & X2). exists d', w'. rewrite X1. cbn.
          assert (k <> j) by (intros ->; contradiction). rewrite (proj2 (Z.eqb_neq k j)) by assumption. split; [reflexivity|exact X2].
    Qed.

    Lemma phase_deals q ar ds l2 : forall H l1 acts, Forall2 (fun m y => deal_msg (fst y) m (snd y)) H l2 -> deals_for i (l1 ++ l2) ->
      exists rs, take_all c e (s_deal ky) (mkFlow (mkKd (dealt i l1) q ar ds) false acts) H = Ok (mkFlow (mkKd (dealt i (l1 ++ l2)) q ar ds) false (acts ++ flat_map (fun r => broadcast c 2 (PResp r)) rs)) /\
        Forall2 (fun y r => R i (fst y) r) l2 rs.
    Proof.
      induction l2 as [|[j d] l2 IH]; intros H l1 acts HF HD.
      - inversion_clear HF. exists []. cbn. rewrite !app_nil_r. split; [reflexivity|constructor].
      - inversion_clear HF as [|m y H' l' [M1 (w & M2 & M3)] HF']. cbn [fst snd] in *.
        assert (HD1 : deals_for i (l1 ++ [(j, d)])).
        { destruct HD as [N1 N2]. split; [|intros a b I; apply N2; apply in_app_iff in I; apply in_app_iff; cbn in *; tauto].
          replace (l1 ++ (j, d) :: l2) with ((l1 ++ [(j, d)]) ++ l2) in N1 by (rewrite <- app_assoc; reflexivity). rewrite map_app in N1. apply nodup_prefix in N1. exact N1. }
        destruct HD as [N1 N2]. destruct (N2 j d (in_elt _ _ _)) as [JO DD]. apply in_others in JO. destruct JO as [JE JN].
        destruct (wk_deal _ _ _ _ _ _ _ _ W i l1 j d II HD1) as (r & ER & HR).
        destruct (wk_deal_form _ _ _ _ _ _ _ _ W j i d DD) as [DI _].
        cbn [FlowSpec.take_all]. rewrite (take_one c e (s_deal ky) (process_deal ky) _ m (AObj (ODeal d))).
        + unfold call. cbn [fl_ab fl_k process_deal kd_gen rbind fst snd fl_acts]. rewrite ER.
          replace (gives_up (broadcast c op_response (PResp r))) with false.
          2: { rewrite broadcast_eq. generalize (filter (fun k => negb (k =? i_guest c)) (upto (i_members c - 1))). clear. induction l as [|x l IH]; [reflexivity|exact IH]. }
          unfold set_gen. cbn [kd_qual kd_args kd_dss rbind].
          replace (fst (ky_deal ky (dealt i l1) d)) with (dealt i (l1 ++ [(j, d)])) by (unfold HonestSpec.dealt, feed; rewrite map_app, fold_left_app; reflexivity).
          destruct (IH H' (l1 ++ [(j, d)]) (acts ++ broadcast c op_response (PResp r)) HF') as (rs & X1 & X2); [rewrite <- app_assoc; split; assumption|].
          exists (r :: rs). rewrite X1. rewrite <- !app_assoc. split; [reflexivity|constructor; assumption].
        + reflexivity.
        + reflexivity.
        + rewrite M2. reflexivity.
        + rewrite M2. cbn [s_deal ps sg_unm]. unfold unm. rewrite M3. reflexivity.
        + rewrite IM, M1. apply in_everyone in JE. exact JE.
        + cbn. rewrite DI, M1, u32_member, Z.eqb_refl by exact JE. reflexivity.
    Qed.

    Lemma phase_resps l q ar ds acts r2 : all_deals i l -> forall H r1, Forall2 (fun m (y : (Z * Z) * resp) => resp_msg (fst (fst y)) m (snd (fst y), snd y)) H r2 -> resps_for i (r1 ++ r2) ->
      take_all c e (s_resp ky) (mkFlow (mkKd (answered i l r1) q ar ds) false acts) H = Ok (mkFlow (mkKd (answered i l (r1 ++ r2)) q ar ds) false acts).
    Proof.
      intros AD. induction r2 as [|[[a j] r] r2 IH]; intros H r1 HF HD.
      - inversion_clear HF. rewrite !app_nil_r. reflexivity.
      - inversion_clear HF as [|m y H' l' [M1 M2] HF']. cbn [fst snd] in *.
        assert (HD1 : resps_for i (r1 ++ [((a, j), r)])).
        { destruct HD as [N1 N2]. split; [|intros u v w I; apply N2; apply in_app_iff in I; apply in_app_iff; cbn in *; tauto].
          replace (r1 ++ ((a, j), r) :: r2) with ((r1 ++ [((a, j), r)]) ++ r2) in N1 by (rewrite <- app_assoc; reflexivity). rewrite map_app in N1. apply nodup_prefix in N1. exact N1. }
        destruct HD as [N1 N2]. destruct (N2 a j r (in_elt _ _ _)) as (AO & JO & RR). apply in_others in AO. destruct AO as [AE AN].
        pose proof (wk_resp _ _ _ _ _ _ _ _ W i l r1 a j r II AD HD1) as ER.
        destruct (wk_resp_form _ _ _ _ _ _ _ _ W a j r RR) as (v & RI & VI).
        cbn [FlowSpec.take_all]. rewrite (take_one c e (s_resp ky) (process_response ky) _ m (AResp r)).
        + unfold call. cbn [fl_ab fl_k process_response kd_gen rbind fst snd fl_acts]. rewrite ER. cbn [gives_up existsb]. rewrite app_nil_r.
          unfold set_gen. cbn [kd_qual kd_args kd_dss rbind].
          replace (fst (ky_resp ky (answered i l r1) r)) with (answered i l (r1 ++ [((a, j), r)])) by (unfold HonestSpec.answered, feed; rewrite map_app, fold_left_app; reflexivity).
          rewrite (IH H' (r1 ++ [((a, j), r)]) HF'); rewrite <- app_assoc; [reflexivity|split; assumption].
        + reflexivity.
        + reflexivity.
        + rewrite M2. reflexivity.
        + rewrite M2. reflexivity.
        + rewrite IM, M1. apply in_everyone in AE. exact AE.
        + cbn. rewrite RI, VI, M1, u32_member, Z.eqb_refl by exact AE. reflexivity.
    Qed.

    Lemma phase_commits l r q0 ar ds acts : all_deals i l -> all_resps i r ->
      exists q x w, begin c e (s_commits ky) (mkFlow (mkKd (timed_out i l r) (Some q0) ar ds) false acts) =
        Ok (mkFlow (mkKd (committed i l r []) (Some q) ar ds) false (acts ++ map (fun k => ASend k 5 (PWire (WCommits w))) (filter (fun k => negb (k =? i)) q))) /\
        Permutation q (everyone n) /\ C i x /\ from_wire KCommits (WCommits w) = Ok (OCommits x).
    Proof.
      intros AD AR. destruct (wk_certified _ _ _ _ _ _ _ _ W i l r II AD AR) as (CE & QU & x & EX & CX).
      destruct (wk_commits_form _ _ _ _ _ _ _ _ W i x CX) as [_ GX]. destruct (C41_roundtrip (OCommits x) GX) as (w & T1 & T2).
      assert (TW : exists w', w = WCommits w') by (cbn [to_wire] in T1; destruct (commits_to_dto x); cbn [rbind] in T1; try discriminate; injection T1 as <-; eauto).
      destruct TW as [w' ->]. exists (ky_qual ky (timed_out i l r)), x, w'. split; [|auto].
      cbn [begin s_commits ps sg_step]. unfold begin, call. cbn [s_commits ps sg_step fl_ab fl_k fl_acts]. unfold step_commits. cbn [kd_qual kd_gen set_qual]. rewrite CE. cbn [negb]. rewrite EX.
      rewrite T1. unfold broadcast_qual. cbn [set_gen set_qual kd_qual rbind kd_gen kd_args kd_dss fst snd]. rewrite multicast_eq, IG.
      replace (gives_up _) with false; [reflexivity|]. generalize (filter (fun k => negb (k =? i)) (ky_qual ky (timed_out i l r))). clear. induction l as [|y l IH]; [reflexivity|exact IH].
    Qed.

    Lemma phase_all_commits l r q ar ds acts m2 : all_deals i l -> all_resps i r -> forall H m1, Forall2 (fun m y => commits_msg (fst y) m (snd y)) H m2 -> commits_for i (m1 ++ m2) ->
      take_all c e (s_commits ky) (mkFlow (mkKd (committed i l r m1) q ar ds) false acts) H = Ok (mkFlow (mkKd (committed i l r (m1 ++ m2)) q ar ds) false acts).
    Proof.
      intros AD AR. induction m2 as [|[j x] m2 IH]; intros H m1 HF HD.
      - inversion_clear HF. rewrite !app_nil_r. reflexivity.
      - inversion_clear HF as [|m y H' l' [M1 (w & M2 & M3)] HF']. cbn [fst snd] in *.
        assert (HD1 : commits_for i (m1 ++ [(j, x)])).
        { destruct HD as [N1 N2]. split; [|intros u v I; apply N2; apply in_app_iff in I; apply in_app_iff; cbn in *; tauto].
          replace (m1 ++ (j, x) :: m2) with ((m1 ++ [(j, x)]) ++ m2) in N1 by (rewrite <- app_assoc; reflexivity). rewrite map_app in N1. apply nodup_prefix in N1. exact N1. }
        destruct HD as [N1 N2]. destruct (N2 j x (in_elt _ _ _)) as (JO & CX). apply in_others in JO. destruct JO as [JE JN].
        pose proof (wk_commits _ _ _ _ _ _ _ _ W i l r m1 j x II AD AR HD1) as ER.
        destruct (wk_commits_form _ _ _ _ _ _ _ _ W j x CX) as (XI & _).
        cbn [FlowSpec.take_all]. rewrite (take_one c e (s_commits ky) (process_commits ky) _ m (AObj (OCommits x))).
        + unfold call. cbn [fl_ab fl_k process_commits kd_gen rbind fst snd fl_acts]. rewrite ER. cbn [gives_up existsb rbind fst snd]. rewrite app_nil_r.
          unfold set_gen. cbn [kd_qual kd_args kd_dss rbind].
          replace (fst (ky_process_commits ky (committed i l r m1) x)) with (committed i l r (m1 ++ [(j, x)])) by (unfold HonestSpec.committed, feed; rewrite map_app, fold_left_app; reflexivity).
          rewrite (IH H' (m1 ++ [(j, x)]) HF'); rewrite <- app_assoc; [reflexivity|split; assumption].
        + reflexivity.
        + reflexivity.
        + rewrite M2. reflexivity.
        + rewrite M2. cbn [s_commits ps sg_unm]. unfold unm. rewrite M3. reflexivity.
        + rewrite IM, M1. apply in_everyone in JE. exact JE.
        + cbn. rewrite XI, M1, u32_member, Z.eqb_refl by exact JE. reflexivity.
    Qed.

    Lemma phase_final l r m q ar ds acts : all_deals i l -> all_resps i r -> all_commits i m ->
      exists s, begin c e (s_final ky) (mkFlow (mkKd (committed i l r m) (Some q) ar ds) false acts) =
        Ok (mkFlow (mkKd (committed i l r m) (Some q) ar ds) false (acts ++ [AOutput pc_dkg (VShare s q)])) /\
        ky_share ky (committed i l r m) = Some s /\ share_for f F i s /\ Permutation (ky_qual ky (committed i l r m)) (everyone n).
    Proof.
      intros AD AR AC. destruct (wk_final _ _ _ _ _ _ _ _ W i l r m II AD AR AC) as (FI & QU & s & ES & HS). exists s. split; [|auto].
      unfold begin, call. cbn [s_final ps0 sg_step fl_ab fl_k fl_acts]. unfold step_final. cbn [kd_gen kd_qual]. rewrite FI, ES. reflexivity.
    Qed.
  End Member.

  (** All members. *)
  Variables (c : Z -> info) (e : env) (k0 : Z -> kd) (ms : Z -> Z -> list (message payload)) (xs : Z -> flow).
  Hypothesis HI : forall i, In i (everyone n) -> i_guest (c i) = i /\ i_members (c i) = n /\ kd_gen (k0 i) = g i /\ through prot (c i) e 9 (k0 i) (ms i) = Ok (xs i).
  Hypothesis HM : forall i op, In i (everyone n) -> 1 <= op <= 7 ->
    NoDup (flat_map (fun j => map (make_msg (c j) i op) (mails i op (fl_acts (xs j)))) (everyone n)) ->
    Permutation (ms i op) (flat_map (fun j => map (make_msg (c j) i op) (mails i op (fl_acts (xs j)))) (everyone n)).

  Lemma got_deals i : In i (everyone n) -> exists l, Forall2 (fun m y => deal_msg (fst y) m (snd y)) (ms i 1) l /\ all_deals i l.
  Proof.
    intros Hi. set (mk := fun j => map (make_msg (c j) i 1) (mails i 1 (fl_acts (xs j)))).
    assert (MI : mk i = []).
    { destruct (HI i Hi) as (G1 & G2 & G3 & G4). destruct (spread ky (c i) e (k0 i) (ms i) (xs i) G4) as (y1 & x2 & x3 & x4 & x5 & y5 & x6 & x7 & x8 & S1 & _ & _ & _ & _ & _ & _ & _ & _ & _ & MA).
      destruct (phase_deal (c i) e i Hi (Some []) (kd_args (k0 i)) (kd_dss (k0 i))) as (A1 & P1 & _ & P3 & _). unfold set_qual in S1. rewrite G3, P1 in S1. injection S1 as <-.
      unfold mk. rewrite (proj1 (MA i)). cbn [fl_acts]. rewrite P3. reflexivity. }
    assert (MO : forall j, In j (others n i) -> exists m x, mk j = [m] /\ deal_msg j m x /\ D j i x).
    { intros j Hj. apply in_others in Hj as Hj'. destruct Hj' as [JE JN]. destruct (HI j JE) as (G1 & G2 & G3 & G4).
      destruct (spread ky (c j) e (k0 j) (ms j) (xs j) G4) as (y1 & x2 & x3 & x4 & x5 & y5 & x6 & x7 & x8 & S1 & _ & _ & _ & _ & _ & _ & _ & _ & _ & MA).
      destruct (phase_deal (c j) e j JE (Some []) (kd_args (k0 j)) (kd_dss (k0 j))) as (A1 & P1 & _ & _ & P4). unfold set_qual in S1. rewrite G3, P1 in S1. injection S1 as <-.
      destruct (P4 i) as (d & w & Q1 & Q2 & Q3); [apply in_others; split; [exact Hi|congruence]|].
      exists (make_msg (c j) i 1 (PWire (WDeal w))), d. unfold mk. rewrite (proj1 (MA i)). cbn [fl_acts]. rewrite Q1. split; [reflexivity|]. split; [|exact Q2]. split; [exact G1|]. exists w. auto. }
    assert (ND : NoDup (flat_map mk (everyone n))).
    { apply (nodup_ones mk n i MI). intros j Hj. destruct (MO j Hj) as (m & x & E & [E' _] & _). exists m. auto. }
    destruct (collect_one deal_msg n i mk (ms i 1) (fun j d => D j i d) (HM i 1 Hi ltac:(lia) ND) MI MO) as (l & L1 & L2 & L3 & L4).
    exists l. split; [exact L1|]. split; [split; [exact L2|exact L3]|exact L4].
  Qed.

  (** After the deals. *)
  Lemma after_deals i : In i (everyone n) -> exists l rs A1 x2 x3 x4 x5 y5 x6 x7 x8, all_deals i l /\ Forall2 (fun y r => R i (fst y) r) l rs /\ Forall (only [1]) A1 /\
    x2 = mkFlow (mkKd (dealt i l) (Some []) (kd_args (k0 i)) (kd_dss (k0 i))) false (A1 ++ flat_map (fun r => broadcast (c i) 2 (PResp r)) rs) /\
    take_all (c i) e (s_resp ky) x2 (ms i 2) = Ok x3 /\
    take_all (c i) e (s_just ky) x3 (ms i 3) = Ok x4 /\ begin (c i) e (s_vss ky) x4 = Ok x5 /\ begin (c i) e (s_commits ky) x5 = Ok y5 /\ take_all (c i) e (s_commits ky) y5 (ms i 5) = Ok x6 /\
    take_all (c i) e (s_compl ky) x6 (ms i 6) = Ok x7 /\ take_all (c i) e (s_recons ky) x7 (ms i 7) = Ok x8 /\ begin (c i) e (s_final ky) x8 = Ok (xs i) /\
    (forall j, mails j 2 (fl_acts (xs i)) = mails j 2 (fl_acts x2) /\ mails j 3 (fl_acts (xs i)) = mails j 3 (fl_acts x3) /\
       mails j 5 (fl_acts (xs i)) = mails j 5 (fl_acts y5) /\ mails j 6 (fl_acts (xs i)) = mails j 6 (fl_acts x6) /\ mails j 7 (fl_acts (xs i)) = mails j 7 (fl_acts x7)).
  Proof.
    intros Hi. destruct (HI i Hi) as (G1 & G2 & G3 & G4).
    destruct (spread ky (c i) e (k0 i) (ms i) (xs i) G4) as (y1 & x2 & x3 & x4 & x5 & y5 & x6 & x7 & x8 & S1 & S2 & S3 & S4 & S5 & S6 & S7 & S8 & S9 & S10 & MA).
    destruct (phase_deal (c i) e i Hi (Some []) (kd_args (k0 i)) (kd_dss (k0 i))) as (A1 & P1 & P2 & _ & _). unfold set_qual in S1. rewrite G3, P1 in S1. injection S1 as <-.
    destruct (got_deals i Hi) as (l & L1 & L2).
    destruct (phase_deals (c i) e i G2 Hi (Some []) (kd_args (k0 i)) (kd_dss (k0 i)) l (ms i 1) [] A1 L1 (proj1 L2)) as (rs & R1 & R2).
    rewrite R1 in S2. injection S2 as <-. exists l, rs, A1. do 8 eexists. split; [exact L2|]. split; [exact R2|]. split; [exact P2|]. split; [reflexivity|].
    do 8 (split; [eassumption|]). intros j. apply (proj2 (MA j)).
  Qed.

  Lemma mails_bcs gst q (j : Z) cc (rs : list resp) : i_guest cc = gst -> i_members cc = q -> In j (everyone q) ->
    mails j 2 (flat_map (fun r => broadcast cc 2 (PResp r)) rs) = if j =? gst then [] else map PResp rs.
  Proof.
    intros EG EQ IJ. induction rs as [|r rs IH]; [destruct (j =? gst); reflexivity|]. cbn [flat_map]. rewrite mails_app, IH, broadcast_eq, EG, EQ.
    destruct (j =? gst) eqn:EJ.
    - apply Z.eqb_eq in EJ. subst j. rewrite mails_self. reflexivity.
    - apply Z.eqb_neq in EJ. fold (everyone q). rewrite mails_to; [reflexivity|apply nodup_everyone|exact IJ|exact EJ].
  Qed.

  Lemma got_resps i : In i (everyone n) -> exists r, Forall2 (fun m (y : (Z * Z) * resp) => resp_msg (fst (fst y)) m (snd (fst y), snd y)) (ms i 2) r /\ all_resps i r.
  Proof.
    intros Hi. set (mk := fun j => map (make_msg (c j) i 2) (mails i 2 (fl_acts (xs j)))).
    assert (MI : mk i = []).
    { destruct (HI i Hi) as (G1 & G2 & _). destruct (after_deals i Hi) as (l & rs & A1 & x2 & x3 & x4 & x5 & y5 & x6 & x7 & x8 & _ & _ & FA & E2 & _ & _ & _ & _ & _ & _ & _ & _ & MA).
      unfold mk. rewrite (proj1 (MA i)), E2. cbn [fl_acts]. rewrite mails_app, (mails_none i 2 [1] A1 FA) by (intros [X|[]]; discriminate).
      rewrite (mails_bcs i n i (c i) rs G1 G2 Hi), Z.eqb_refl. reflexivity. }
    assert (MO : forall a, In a (others n i) -> exists l, Forall2 (resp_msg a) (mk a) l /\ NoDup (map fst l) /\ (forall j, In j (map fst l) <-> In j (others n a)) /\ forall j x, In (j, x) l -> R a j x).
    { intros a Ha. apply in_others in Ha as Ha'. destruct Ha' as [AE AN]. destruct (HI a AE) as (G1 & G2 & _).
      destruct (after_deals a AE) as (l & rs & A1 & x2 & x3 & x4 & x5 & y5 & x6 & x7 & x8 & AD & FR & FA & E2 & _ & _ & _ & _ & _ & _ & _ & _ & MA).
      unfold mk. rewrite (proj1 (MA i)), E2. cbn [fl_acts]. rewrite mails_app, (mails_none i 2 [1] A1 FA) by (intros [X|[]]; discriminate).
      rewrite (mails_bcs a n i (c a) rs G1 G2 Hi), (proj2 (Z.eqb_neq i a)) by congruence. cbn [app].
      exists (combine (map fst l) rs).
      assert (MF : map fst (combine (map fst l) rs) = map fst l).
      { clear - FR. induction FR as [|y r l rs _ _ IH]; [reflexivity|]. cbn. f_equal. exact IH. }
      split; [|split; [|split]].
      + clear - FR G1. induction FR as [|y r l rs _ _ IH]; [constructor|]. cbn. constructor; [|exact IH]. split; [exact G1|reflexivity].
      + rewrite MF. apply (proj1 AD).
      + intros j. rewrite MF. split; [|apply (proj2 AD)]. intros I. apply in_map_iff in I. destruct I as ([j' d] & <- & I). apply (proj1 AD) in I. apply I.
      + intros j r I. clear - FR I. induction FR as [|y r' l rs HR _ IH]; [destruct I|]. cbn in I. destruct I as [Q|I]; [injection Q as <- <-; exact HR|apply IH; exact I]. }
    assert (ND : NoDup (flat_map mk (everyone n))).
    { apply nodup_from; [apply nodup_everyone|]. intros j Hj. destruct (Z.eq_dec j i) as [->|NE]; [rewrite MI; split; [constructor|intros m []]|].
      destruct (MO j) as (l & F1 & F2 & _ & F4); [apply in_others; auto|]. split.
      - apply (nodup_resps (mk j) l (R j) PResp); [intros x y Q; injection Q as Q; exact Q|intros; eapply (wk_resp_once _ _ _ _ _ _ _ _ W); eassumption| |exact F2|exact F4].
        clear - F1. induction F1 as [|m y u v [_ HE] _ IH]; constructor; assumption.
      - intros m I. destruct (Forall2_in_l _ _ _ _ F1 I) as (y & _ & [E _]). exact E. }
    destruct (collect_pairs resp_msg n i mk (ms i 2) R (HM i 2 Hi ltac:(lia) ND) MI MO) as (l & L1 & L2 & L3 & L4).
    exists l. split; [exact L1|]. split; [split; assumption|exact L4].
  Qed.

  (** After the responses, the end of the phase and the commitments. *)
  Lemma after_resps i : In i (everyone n) -> exists l r q x w A y5 x6 x7 x8, all_deals i l /\ all_resps i r /\ Forall (only [1; 2]) A /\ Permutation q (everyone n) /\
    C i x /\ from_wire KCommits (WCommits w) = Ok (OCommits x) /\ ms i 3 = [] /\
    y5 = mkFlow (mkKd (committed i l r []) (Some q) (kd_args (k0 i)) (kd_dss (k0 i))) false (A ++ map (fun k => ASend k 5 (PWire (WCommits w))) (filter (fun k => negb (k =? i)) q)) /\
    take_all (c i) e (s_commits ky) y5 (ms i 5) = Ok x6 /\
    take_all (c i) e (s_compl ky) x6 (ms i 6) = Ok x7 /\ take_all (c i) e (s_recons ky) x7 (ms i 7) = Ok x8 /\ begin (c i) e (s_final ky) x8 = Ok (xs i) /\
    (forall j, mails j 3 (fl_acts (xs i)) = [] /\
       mails j 5 (fl_acts (xs i)) = mails j 5 (fl_acts y5) /\ mails j 6 (fl_acts (xs i)) = mails j 6 (fl_acts x6) /\ mails j 7 (fl_acts (xs i)) = mails j 7 (fl_acts x7)).
  Proof.
    assert (M3 : forall j k, In j (everyone n) -> mails k 3 (fl_acts (xs j)) = []).
    { intros j k Hj. destruct (after_deals j Hj) as (l & rs & A1 & x2 & x3 & x4 & x5 & y5 & x6 & x7 & x8 & AD & FR & FA & E2 & T2 & _ & _ & _ & _ & _ & _ & _ & MA).
      destruct (HI j Hj) as (G1 & G2 & _). destruct (got_resps j Hj) as (r & R1 & R2).
      rewrite (proj1 (proj2 (MA k))). subst x2. rewrite (phase_resps (c j) e j G2 Hj l _ _ _ _ r AD (ms j 2) [] R1 (proj1 R2)) in T2. injection T2 as <-. cbn [fl_acts].
      rewrite mails_app, (mails_none k 3 [1] A1 FA) by (intros [X|[]]; discriminate). apply (mails_none k 3 [2]); [|intros [X|[]]; discriminate].
      clear. induction rs as [|r rs IH]; [constructor|]. cbn [flat_map]. apply Forall_app. split; [apply broadcast_only; left; reflexivity|exact IH]. }
    intros Hi. destruct (after_deals i Hi) as (l & rs & A1 & x2 & x3 & x4 & x5 & y5 & x6 & x7 & x8 & AD & FR & FA & E2 & T2 & T3 & T4 & T5 & T6 & T7 & T8 & T9 & MA).
    destruct (HI i Hi) as (G1 & G2 & _). destruct (got_resps i Hi) as (r & R1 & R2). subst x2.
    rewrite (phase_resps (c i) e i G2 Hi l _ _ _ _ r AD (ms i 2) [] R1 (proj1 R2)) in T2. injection T2 as <-.
    assert (N3 : ms i 3 = []). { apply (perm_flat_nil _ _ _ (HM i 3 Hi ltac:(lia))). intros j Hj. rewrite M3 by exact Hj. reflexivity. }
    rewrite N3 in T3. cbn [FlowSpec.take_all] in T3. injection T3 as <-.
    unfold begin, call in T4. cbn [s_vss ps0 sg_step fl_ab fl_k fl_acts step_vss_done rbind fst snd gives_up existsb] in T4. rewrite app_nil_r in T4. unfold set_gen in T4. cbn [kd_gen kd_qual kd_args kd_dss] in T4.
    injection T4 as <-.
    set (A := A1 ++ flat_map (fun r => broadcast (c i) 2 (PResp r)) rs) in *.
    destruct (phase_commits (c i) e i G1 Hi l r [] (kd_args (k0 i)) (kd_dss (k0 i)) A AD R2) as (q & x & w & B1 & B2 & B3 & B4).
    change (ky_timeout ky (answered i l r)) with (timed_out i l r) in T5. rewrite B1 in T5. injection T5 as <-.
    exists l, r, q, x, w, A. do 4 eexists. split; [exact AD|]. split; [exact R2|]. split; [|split; [exact B2|split; [exact B3|split; [exact B4|split; [exact N3|split; [reflexivity|]]]]]].
    - apply Forall_app. split.
      + clear - FA. induction FA as [|a l HA _ IH]; constructor; [|exact IH]. destruct a; cbn in *; tauto.
      + clear. induction rs as [|r rs IH]; [constructor|]. cbn [flat_map]. apply Forall_app. split; [apply broadcast_only; right; left; reflexivity|exact IH].
    - do 4 (split; [eassumption|]). intros j. destruct (MA j) as (_ & _ & M5 & M6 & M7). split; [apply M3; exact Hi|auto].
  Qed.

  Lemma got_commits i : In i (everyone n) -> exists l, Forall2 (fun m y => commits_msg (fst y) m (snd y)) (ms i 5) l /\ all_commits i l.
  Proof.
    intros Hi. set (mk := fun j => map (make_msg (c j) i 5) (mails i 5 (fl_acts (xs j)))).
    assert (MI : mk i = []).
    { destruct (after_resps i Hi) as (l & r & q & x & w & A & y5 & x6 & x7 & x8 & _ & _ & FA & _ & _ & _ & _ & E5 & _ & _ & _ & _ & MA).
      destruct (MA i) as (_ & M5 & _). unfold mk. rewrite M5, E5. cbn [fl_acts]. rewrite mails_app, (mails_none i 5 [1; 2] A FA) by (intros [X|[X|[]]]; discriminate). rewrite mails_self. reflexivity. }
    assert (MO : forall j, In j (others n i) -> exists m x, mk j = [m] /\ commits_msg j m x /\ C j x).
    { intros j Hj. apply in_others in Hj. destruct Hj as [JE JN]. destruct (HI j JE) as (G1 & _).
      destruct (after_resps j JE) as (l & r & q & x & w & A & y5 & x6 & x7 & x8 & _ & _ & FA & PQ & CX & WX & _ & E5 & _ & _ & _ & _ & MA).
      destruct (MA i) as (_ & M5 & _). unfold mk. rewrite M5, E5. cbn [fl_acts]. rewrite mails_app, (mails_none i 5 [1; 2] A FA) by (intros [X|[X|[]]]; discriminate). rewrite mails_to.
      + exists (make_msg (c j) i 5 (PWire (WCommits w))), x. split; [reflexivity|]. split; [|exact CX]. split; [exact G1|]. exists w. auto.
      + exact (Permutation_NoDup (Permutation_sym PQ) (nodup_everyone n)).
      + exact (Permutation_in _ (Permutation_sym PQ) Hi).
      + congruence. }
    assert (ND : NoDup (flat_map mk (everyone n))).
    { apply (nodup_ones mk n i MI). intros j Hj. destruct (MO j Hj) as (m & x & E & [E' _] & _). exists m. auto. }
    destruct (collect_one commits_msg n i mk (ms i 5) C (HM i 5 Hi ltac:(lia) ND) MI MO) as (l & L1 & L2 & L3 & L4).
    exists l. split; [exact L1|]. split; [split; assumption|exact L4].
  Qed.

  Theorem completed i : In i (everyone n) -> exists l r m s q A,
    xs i = mkFlow (mkKd (committed i l r m) (Some q) (kd_args (k0 i)) (kd_dss (k0 i))) false (A ++ [AOutput pc_dkg (VShare s q)]) /\
    all_deals i l /\ all_resps i r /\ all_commits i m /\ Forall (only [1; 2; 5]) A /\ Permutation q (everyone n) /\
    ky_share ky (committed i l r m) = Some s /\ share_for f F i s /\ Permutation (ky_qual ky (committed i l r m)) (everyone n).
  Proof.
    assert (X6 : forall j, In j (everyone n) -> exists l r m q A x7 x8, all_deals j l /\ all_resps j r /\ all_commits j m /\ Forall (only [1; 2; 5]) A /\ Permutation q (everyone n) /\
      take_all (c j) e (s_compl ky) (mkFlow (mkKd (committed j l r m) (Some q) (kd_args (k0 j)) (kd_dss (k0 j))) false A) (ms j 6) = Ok x7 /\
      take_all (c j) e (s_recons ky) x7 (ms j 7) = Ok x8 /\ begin (c j) e (s_final ky) x8 = Ok (xs j) /\
      forall k, mails k 6 (fl_acts (xs j)) = [] /\ mails k 7 (fl_acts (xs j)) = mails k 7 (fl_acts x7)).
    { intros j Hj. destruct (HI j Hj) as (G1 & G2 & _). destruct (got_commits j Hj) as (m & M1 & M2).
      destruct (after_resps j Hj) as (l & r & q & x & w & A & y5 & x6 & x7 & x8 & AD & AR & FA & PQ & _ & _ & _ & E5 & T5 & T6 & T7 & T8 & MA). subst y5.
      rewrite (phase_all_commits (c j) e j G2 Hj l r _ _ _ _ m AD AR (ms j 5) [] M1 (proj1 M2)) in T5. injection T5 as <-.
      assert (FB : Forall (only [1; 2; 5]) (A ++ map (fun k => ASend k 5 (PWire (WCommits w))) (filter (fun k => negb (k =? j)) q))).
      { apply Forall_app. split.
        - clear - FA. induction FA as [|a l HA _ IH]; constructor; [|exact IH]. destruct a; cbn in *; tauto.
        - apply Forall_forall. intros a I. apply in_map_iff in I. destruct I as (k & <- & _). right. right. left. reflexivity. }
      exists l, r, m, q. do 3 eexists. split; [exact AD|]. split; [exact AR|]. split; [exact M2|]. split; [exact FB|]. split; [exact PQ|]. do 3 (split; [eassumption|]).
      intros k. destruct (MA k) as (_ & _ & M6 & M7). split; [|exact M7]. rewrite M6. cbn [fl_acts]. apply (mails_none k 6 [1; 2; 5] _ FB). intros [Q|[Q|[Q|[]]]]; discriminate. }
    assert (N6 : forall j, In j (everyone n) -> ms j 6 = []).
    { intros j Hj. apply (perm_flat_nil _ _ _ (HM j 6 Hj ltac:(lia))). intros k Hk. destruct (X6 k Hk) as (l & r & m & q & A & x7 & x8 & _ & _ & _ & _ & _ & _ & _ & _ & MA). rewrite (proj1 (MA j)). reflexivity. }
    assert (N7 : forall j, In j (everyone n) -> ms j 7 = []).
    { intros j Hj. apply (perm_flat_nil _ _ _ (HM j 7 Hj ltac:(lia))). intros k Hk. destruct (X6 k Hk) as (l & r & m & q & A & x7 & x8 & _ & _ & _ & FB & _ & T6 & _ & _ & MA). rewrite (proj2 (MA j)).
      rewrite N6 in T6 by exact Hk. cbn [FlowSpec.take_all] in T6. injection T6 as <-. cbn [fl_acts]. rewrite (mails_none j 7 [1; 2; 5] _ FB) by (intros [Q|[Q|[Q|[]]]]; discriminate). reflexivity. }
    intros Hi. destruct (X6 i Hi) as (l & r & m & q & A & x7 & x8 & AD & AR & AC & FB & PQ & T6 & T7 & T8 & _).
    rewrite N6 in T6 by exact Hi. cbn [FlowSpec.take_all] in T6. injection T6 as <-. rewrite N7 in T7 by exact Hi. cbn [FlowSpec.take_all] in T7. injection T7 as <-.
    destruct (phase_final (c i) e i Hi l r m q (kd_args (k0 i)) (kd_dss (k0 i)) A AD AR AC) as (s & S1 & S2 & S3 & S4). rewrite S1 in T8. injection T8 as <-.
    exists l, r, m, s, q, A. repeat (split; [first [reflexivity|assumption]|]). assumption.
  Qed.
End Core.
