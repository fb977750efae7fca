(** A generator for two members that keeps account of what it has been given. *)
From Coq Require Import ZArith List Bool Lia Permutation Sorted.
From Coq Require Import Init.Byte.
From Verif Require Import NumTh PrimeN Zmod Curve Order SecpProofs SecpProofs2 SchnorrProofs Params Bytes Res Secp Spec PublicKey Schnorr Dss DssSpec DssProofs DssProofs2 DssProofs3 Dto DtoSpec DtoProofs Prot ProtSpec ProtProofs ProtProofs2 ProtProofs3 TimeSpec TimeProofs TimeProofs2 DkgProt SignSpec SignProofs SignProofs2
  FlowSpec FlowProofs HonestSpec HonestProofs HonestProofs2 HonestProofs3 HonestProofs4 PropsTime PropsSign PropsDto.
Import ListNotations.
Open Scope Z_scope.

(** Whose it is; whose deals, responses (of whom to whom) and commitments it has seen; whether the phase is over. *)
Record acct := mkAcct { ac_i : Z; ac_d : list Z; ac_r : list (Z * Z); ac_t : bool; ac_c : list Z }.
Definition seen (x : Z) (l : list Z) : bool := existsb (Z.eqb x) l.
Definition seen2 (x : Z * Z) (l : list (Z * Z)) : bool := existsb (fun y => (fst x =? fst y) && (snd x =? snd y)) l.
Definition a_deal (i : Z) : enc_deal := mkDeal i (Gx, Gy) [] [] [].
Definition a_resp (i j : Z) : resp := mkResp j (Some (mkVresp [] i true [])).
Definition a_commits (i : Z) : commits := mkCommits i [] [] [].
Section Acct.
  Variable share : Z -> dks.
  Definition acct_ky : kyber acct := mkKyber acct
    (fun g => (g, Some (map (fun j => (j, a_deal (ac_i g))) (others 2 (ac_i g)))))
    (fun g d => if seen (de_index d) (ac_d g) then (g, None)
                else (mkAcct (ac_i g) (de_index d :: ac_d g) (ac_r g) (ac_t g) (ac_c g), Some (Some (a_resp (ac_i g) (de_index d)))))
    (fun g r => match rs_inner r with
                | None => (g, None)
                | Some v => if seen2 (vr_index v, rs_index r) (ac_r g) then (g, None)
                            else (mkAcct (ac_i g) (ac_d g) ((vr_index v, rs_index r) :: ac_r g) (ac_t g) (ac_c g), Some None)
                end)
    (fun g j => g)
    (fun g => mkAcct (ac_i g) (ac_d g) (ac_r g) true (ac_c g))
    (fun g => ac_t g && Nat.eqb (length (ac_d g)) 1 && Nat.eqb (length (ac_r g)) 1)
    (fun g => [0; 1])
    (fun g => (g, Some (a_commits (ac_i g))))
    (fun g c => if seen (co_index c) (ac_c g) then (g, None)
                else (mkAcct (ac_i g) (ac_d g) (ac_r g) (ac_t g) (co_index c :: ac_c g), Some None))
    (fun g c => (g, Some None)) (fun g r => g)
    (fun g => ac_t g && Nat.eqb (length (ac_d g)) 1 && Nat.eqb (length (ac_r g)) 1 && Nat.eqb (length (ac_c g)) 1)
    (fun g => Some (share (ac_i g))).
  Definition acct_new (i : Z) : acct := mkAcct i [] [] false [].

  Lemma seen_in x l : seen x l = false <-> ~ In x l.
  Proof.
    unfold seen. split.
    - intros H I. assert (X : existsb (Z.eqb x) l = true) by (apply existsb_exists; exists x; split; [exact I|apply Z.eqb_refl]). congruence.
    - intros H. destruct (existsb (Z.eqb x) l) eqn:E; [|reflexivity]. apply existsb_exists in E. destruct E as (y & I & Q). apply Z.eqb_eq in Q. subst. contradiction.
  Qed.
  Lemma seen2_in x l : seen2 x l = false <-> ~ In x l.
  Proof.
    unfold seen2. split.
    - intros H I. assert (X : existsb (fun y => (fst x =? fst y) && (snd x =? snd y)) l = true) by (apply existsb_exists; exists x; split; [exact I|rewrite !Z.eqb_refl; reflexivity]). congruence.
    - intros H. destruct (existsb (fun y => (fst x =? fst y) && (snd x =? snd y)) l) eqn:E; [|reflexivity]. apply existsb_exists in E. destruct E as ([y1 y2] & I & Q). apply andb_true_iff in Q. destruct Q as [Q1 Q2].
      apply Z.eqb_eq in Q1. apply Z.eqb_eq in Q2. destruct x; cbn in *; subst. contradiction.
  Qed.
  Notation RD := (fun (i j : Z) d => d = a_deal i). Notation RR := (fun i j r => r = a_resp i j). Notation RC := (fun i x => x = a_commits i).
  Lemma snoc_nodup {X} (l : list X) x : NoDup (l ++ [x]) -> NoDup l /\ ~ In x l.
  Proof. intros H. split; [exact (nodup_prefix _ _ H)|]. apply NoDup_remove_2 in H. rewrite app_nil_r in H. exact H. Qed.
  Lemma acct_dealt i l : deals_for 2 RD i l -> dealt acct_ky acct_new i l = mkAcct i (rev (map fst l)) [] false [].
  Proof.
    induction l as [|[j d] l IH] using rev_ind; intros [N1 N2]; [reflexivity|].
    rewrite map_app in N1. cbn [map fst] in N1. destruct (snoc_nodup _ _ N1) as [N3 NI].
    unfold dealt, feed in *. rewrite map_app, fold_left_app. cbn [map fold_left snd]. rewrite IH by (split; [exact N3|intros a b I; apply N2, in_or_app; left; exact I]).
    destruct (N2 j d (in_elt _ _ _)) as [_ ->]. cbn [acct_ky ky_deal ac_d de_index a_deal]. rewrite (proj2 (seen_in j _)) by (rewrite <- in_rev; exact NI).
    cbn [fst ac_i ac_r ac_t ac_c]. rewrite map_app, rev_app_distr. reflexivity.
  Qed.
  Lemma acct_answered i l r : deals_for 2 RD i l -> resps_for 2 RR i r -> answered acct_ky acct_new i l r = mkAcct i (rev (map fst l)) (rev (map fst r)) false [].
  Proof.
    intros HD. induction r as [|[[a j] x] r IH] using rev_ind; intros [N1 N2]; [exact (acct_dealt i l HD)|].
    rewrite map_app in N1. cbn [map fst] in N1. destruct (snoc_nodup _ _ N1) as [N3 NI].
    unfold answered, feed in *. rewrite map_app, fold_left_app. cbn [map fold_left snd]. rewrite IH by (split; [exact N3|intros u v w I; apply N2, in_or_app; left; exact I]).
    destruct (N2 a j x (in_elt _ _ _)) as (_ & _ & ->). cbn [acct_ky ky_resp rs_inner a_resp vr_index rs_index ac_r]. rewrite (proj2 (seen2_in (a, j) _)) by (rewrite <- in_rev; exact NI).
    cbn [fst ac_i ac_d ac_t ac_c]. rewrite map_app, rev_app_distr. reflexivity.
  Qed.
  Lemma acct_committed i l r m : deals_for 2 RD i l -> resps_for 2 RR i r -> commits_for 2 RC i m -> committed acct_ky acct_new i l r m = mkAcct i (rev (map fst l)) (rev (map fst r)) true (rev (map fst m)).
  Proof.
    intros HD HR. induction m as [|[j x] m IH] using rev_ind; intros [N1 N2].
    - unfold committed, timed_out. rewrite (acct_answered i l r HD HR). reflexivity.
    - rewrite map_app in N1. cbn [map fst] in N1. destruct (snoc_nodup _ _ N1) as [N3 NI].
      unfold committed, feed in *. rewrite map_app, fold_left_app. cbn [map fold_left snd]. rewrite IH by (split; [exact N3|intros u v I; apply N2, in_or_app; left; exact I]).
      destruct (N2 j x (in_elt _ _ _)) as (_ & ->). cbn [acct_ky ky_process_commits co_index a_commits ac_c]. rewrite (proj2 (seen_in j _)) by (rewrite <- in_rev; exact NI).
      cbn [fst ac_i ac_d ac_r ac_t]. rewrite map_app, rev_app_distr. reflexivity.
  Qed.
  Lemma len_others {X} i (l : list X) (key : X -> Z) : In i (everyone 2) -> NoDup (map key l) -> (forall x, In x l -> In (key x) (others 2 i)) -> (forall j, In j (others 2 i) -> In j (map key l)) -> length l = 1%nat.
  Proof.
    intros Hi ND H1 H2. rewrite <- (map_length key). assert (P : Permutation (map key l) (others 2 i)).
    { apply NoDup_Permutation; [exact ND|apply nodup_others|]. intros j. split; [intros I; apply in_map_iff in I; destruct I as (x & <- & I); apply H1, I|apply H2]. }
    rewrite (Permutation_length P). apply in_everyone in Hi. assert (C : i = 0 \/ i = 1) by lia. destruct C as [->| ->]; reflexivity.
  Qed.
  Lemma len_deals i l : In i (everyone 2) -> all_deals 2 RD i l -> length l = 1%nat.
  Proof. intros Hi [[N1 N2] N3]. apply (len_others i l fst Hi N1); [intros [j d] I; apply (N2 j d I)|exact N3]. Qed.
  Lemma len_commits i l : In i (everyone 2) -> all_commits 2 RC i l -> length l = 1%nat.
  Proof. intros Hi [[N1 N2] N3]. apply (len_others i l fst Hi N1); [intros [j d] I; apply (N2 j d I)|exact N3]. Qed.
  Lemma len_resps i r : In i (everyone 2) -> all_resps 2 RR i r -> length r = 1%nat.
  Proof.
    intros Hi [[N1 N2] N3]. apply in_everyone in Hi as Hi'.
    assert (P : Permutation (map fst r) [(1 - i, i)]).
    { apply NoDup_Permutation; [exact N1|constructor; [intros []|constructor]|]. intros [a j]. split.
      - intros I. apply in_map_iff in I. destruct I as ([[a' j'] x] & E & I). cbn in E. injection E as -> ->. destruct (N2 a j x I) as (A1 & A2 & _). apply in_others in A1. apply in_others in A2.
        destruct A1 as [A1 A3]. destruct A2 as [A2 A4]. apply in_everyone in A1. apply in_everyone in A2. left. assert (a = 1 - i) by lia. assert (j = i) by lia. subst a j. reflexivity.
      - intros [E|[]]. pose proof (eq_sym (f_equal fst E)) as E1. pose proof (eq_sym (f_equal snd E)) as E2. unfold fst in E1. unfold snd in E2. apply N3; rewrite ?E1, ?E2; apply in_others; (split; [apply in_everyone; lia|lia]). }
    rewrite <- (map_length fst), (Permutation_length P). reflexivity.
  Qed.
  Lemma acct_works f F : (forall i, In i (everyone 2) -> share_for f F i (share i)) -> works acct_ky 2 f F acct_new RD RR RC.
  Proof.
    intros HS. constructor.
    - intros i Hi. exists (map (fun j => (j, a_deal i)) (others 2 i)). split; [reflexivity|]. split; [rewrite map_map; cbn; rewrite map_id; apply Permutation_refl|].
      intros j d I. apply in_map_iff in I. destruct I as (x & E & _). injection E as _ <-. reflexivity.
    - intros i l j d Hi HD. assert (HL : deals_for 2 RD i l).
      { destruct HD as [N1 N2]. rewrite map_app in N1. split; [exact (nodup_prefix _ _ N1)|intros a b I; apply N2, in_or_app; left; exact I]. }
      rewrite (acct_dealt i l HL). destruct HD as [N1 N2]. destruct (N2 j d (in_elt _ _ _)) as [_ ->]. rewrite map_app in N1. destruct (snoc_nodup _ _ N1) as [_ NI].
      exists (a_resp i j). cbn [acct_ky ky_deal ac_d de_index a_deal]. rewrite (proj2 (seen_in j _)) by (rewrite <- in_rev; exact NI). split; reflexivity.
    - intros i l r a j x Hi AD HR. assert (HL : resps_for 2 RR i r).
      { destruct HR as [N1 N2]. rewrite map_app in N1. split; [exact (nodup_prefix _ _ N1)|intros u v w I; apply N2, in_or_app; left; exact I]. }
      rewrite (acct_answered i l r (proj1 AD) HL). destruct HR as [N1 N2]. destruct (N2 a j x (in_elt _ _ _)) as (_ & _ & ->). rewrite map_app in N1. destruct (snoc_nodup _ _ N1) as [_ NI].
      cbn [acct_ky ky_resp rs_inner a_resp vr_index rs_index ac_r]. rewrite (proj2 (seen2_in (a, j) _)) by (rewrite <- in_rev; exact NI). reflexivity.
    - intros i l r Hi AD AR. unfold timed_out. rewrite (acct_answered i l r (proj1 AD) (proj1 AR)). cbn [acct_ky ky_timeout ky_certified ky_qual ky_commits ac_t ac_d ac_r ac_i snd].
      rewrite !rev_length, !map_length, (len_deals i l Hi AD), (len_resps i r Hi AR). split; [reflexivity|]. split; [apply Permutation_refl|]. exists (a_commits i). auto.
    - intros i l r m j x Hi AD AR HM. assert (HL : commits_for 2 RC i m).
      { destruct HM as [N1 N2]. rewrite map_app in N1. split; [exact (nodup_prefix _ _ N1)|intros u v I; apply N2, in_or_app; left; exact I]. }
      rewrite (acct_committed i l r m (proj1 AD) (proj1 AR) HL). destruct HM as [N1 N2]. destruct (N2 j x (in_elt _ _ _)) as (_ & ->). rewrite map_app in N1. destruct (snoc_nodup _ _ N1) as [_ NI].
      cbn [acct_ky ky_process_commits co_index a_commits ac_c]. rewrite (proj2 (seen_in j _)) by (rewrite <- in_rev; exact NI). reflexivity.
    - intros i l r m Hi AD AR AM. rewrite (acct_committed i l r m (proj1 AD) (proj1 AR) (proj1 AM)). cbn [acct_ky ky_finished ky_qual ky_share ac_t ac_d ac_r ac_c ac_i].
      rewrite !rev_length, !map_length, (len_deals i l Hi AD), (len_resps i r Hi AR), (len_commits i m Hi AM). split; [reflexivity|]. split; [apply Permutation_refl|]. exists (share i). split; [reflexivity|apply HS, Hi].
    - intros i j d ->. split; [reflexivity|]. assert (CG : curve_point (Gx, Gy)) by (unfold curve_point, on_curve, eqP; vm_compute; repeat split; discriminate). cbn [good a_deal de_dhkey]. exact CG.
    - intros i j r ->. eexists. split; reflexivity.
    - intros i j j' r -> E. exact (f_equal rs_index E).
    - intros i x ->. split; [reflexivity|constructor].
  Qed.
End Acct.

(** * A run with what happens in it and when *)
Section Logged.
  Context {G : Type}.
  Variables (p : protocol payload arg (kd G) env output) (c : info).
  Fixpoint timed_log (r : rst payload (kd G)) (h : list (Z * event payload env)) : list (Z * obs payload arg output) :=
    match h with [] => [] | x :: l => match step p c r (snd x) with Ok y => map (pair (fst x)) (snd y) ++ timed_log (fst y) l | _ => [] end end.
  Definition logged (r : rst payload (kd G)) (h : list (Z * event payload env)) (r' : rst payload (kd G)) (L : list (Z * obs payload arg output)) : Prop :=
    exec p c r (untimed h) = Ok (r', map snd L) /\ timely p c r (untimed h) /\ punctual p c 0 r (untimed h) /\ L = timed_log r h /\
    forall t o, In (t, o) L <-> exists a ev b ra ta rb os, h = a ++ (t, ev) :: b /\ exec p c r (untimed a) = Ok (ra, ta) /\ step p c ra ev = Ok (rb, os) /\ In o os.
  Lemma logged_nil r : logged r [] r [].
  Proof. split; [reflexivity|]. split; [exact I|]. split; [exact I|]. split; [reflexivity|]. intros t o. split; [intros []|]. intros (a & ev & b & _ & _ & _ & _ & E & _). destruct a; discriminate E. Qed.
  Lemma logged_cons t r ev r1 t1 h r2 L : step p c r ev = Ok (r1, t1) ->
    match ev with ETick _ now => (r_wake r =? now) = true | _ => True end ->
    logged r1 h r2 L -> logged r ((t, ev) :: h) r2 (map (pair t) t1 ++ L).
  Proof.
    intros ES C (W1 & W2 & W3 & W5 & W4). unfold logged, untimed in *. split; [cbn [map snd exec]; rewrite ES; cbn [rbind fst snd]; rewrite W1, map_app, map_map; cbn [snd]; rewrite map_id; reflexivity|].
    split; [|split]; [cbn [map snd timely]; rewrite ES; cbn [fst]; split; [|assumption]; destruct ev as [e now|e m]; [apply Z.eqb_eq in C; lia|exact I]| |].
    { cbn [map snd punctual]; rewrite ES; cbn [fst]; split; [|assumption]. destruct ev as [e now|e m]; [apply Z.eqb_eq in C; destruct (r_loc r); try exact I; lia|exact I]. }
    split; [cbn [timed_log fst snd]; rewrite ES, W5; reflexivity|].
    intros u o. rewrite in_app_iff, W4. split.
    - intros [I|(a & ev' & b & ra & ta & rb & os & E1 & E2 & E3 & E4)].
      + apply in_map_iff in I. destruct I as (o' & E & I). injection E as <- <-. exists [], ev, h, r, [], r1, t1. split; [reflexivity|]. split; [reflexivity|]. auto.
      + exists ((t, ev) :: a), ev', b, ra, (t1 ++ ta), rb, os. rewrite E1. split; [reflexivity|]. split; [|auto]. cbn [map snd exec]. rewrite ES. cbn [rbind fst snd]. unfold untimed in E2. rewrite E2. reflexivity.
    - intros (a & ev' & b & ra & ta & rb & os & E1 & E2 & E3 & E4). destruct a as [|x a].
      + cbn [app] in E1. injection E1 as -> -> _. cbn [untimed map exec] in E2. injection E2 as <- _. rewrite ES in E3. injection E3 as _ <-. left. apply in_map_iff. eauto.
      + cbn [app] in E1. injection E1 as <- E1. right. unfold untimed in E2. cbn [map snd exec] in E2. rewrite ES in E2. cbn [rbind fst snd] in E2. destruct (exec p c r1 (map snd a)) as [[r3 t3]| |] eqn:EX; try discriminate E2.
        cbn [rbind fst snd] in E2. injection E2 as <- _. exists a, ev', b, r3, t3, rb, os. auto.
  Qed.
  Lemma logged_happens k h r' L t o : logged (new_run k) h r' L -> (happens p c k h t o <-> In (t, o) L).
  Proof. intros (_ & _ & _ & _ & W). rewrite W. reflexivity. Qed.
  Lemma enter_step e now (r : rst payload (kd G)) s f k acts r3 ta : r_loc r = LPause -> r_abandon r = false -> r_snd r = [] -> r_rcv r = [] ->
    stage_at p (r_state r + 1) = Some s -> sg_step s = Some f -> f c e (r_k r) = Ok (k, acts) ->
    do_actions c (set_k (set_snd (set_stage r (r_state r + 1) false) (mdel [] (r_state r + 1))) k) acts = Ok (r3, ta) -> r_rcv r3 = [] ->
    step p c r (ETick e now) = Ok (set_clock (set_rcv r3 []) LStage (r_t r + stage_timeout s) (r_t r + stage_timeout s),
      OEnter (r_state r + 1) now :: (OStep (r_state r + 1) :: ta) ++ []).
  Proof.
    intros L A S R ES EF EK EA ER. cbn [step]. unfold tick. rewrite L. unfold enter_stage. rewrite ES. unfold flush_snd_buf. cbn [set_stage r_snd r_state].
    rewrite S. assert (MS : forall k, mslice (@nil (Z * list (message payload))) k = []) by reflexivity. rewrite MS. cbn [try_send_all rbind fst snd app]. unfold run_step. cbn [set_snd set_stage r_abandon r_state r_k]. rewrite A, EF, EK. unfold perform. cbn [rbind fst snd].
    unfold set_snd, set_stage in *. cbn [r_k r_state r_paused r_rcv r_snd r_abandon r_term r_loc r_t r_wake] in *.
    rewrite EA. cbn [rbind fst snd]. rewrite ER, MS. cbn [process_all rbind fst snd]. rewrite ER. reflexivity.
  Qed.
  (** A message for the present stage, whose payload is not looked into. *)
  Lemma take_step e m (r : rst payload (kd G)) s pr x k acts r3 ta : r_state r = m_op m -> r_paused r = false -> r_abandon r = false ->
    stage_at p (m_op m) = Some s -> sg_proc s = Some pr -> sg_type s (m_dto m) = true -> sg_unm s (m_dto m) = Ok x -> (0 <=? m_sender m) && (m_sender m <? i_members c) = true ->
    sg_valid s x (m_sender m) = Ok true -> pr c e (r_k r) x = Ok (k, acts) -> do_actions c (set_k r k) acts = Ok (r3, ta) ->
    step p c r (EMsg e m) = Ok (r3, OHandle m :: OProc m x :: ta).
  Proof.
    intros E1 E2 E3 ES EP ET EU EM EV EK EA. cbn [step]. unfold deliver. rewrite E1, E2, Z.ltb_irrefl, andb_false_r. cbn [orb]. unfold process_msg. rewrite E3, ES, EP, ET. cbn [negb].
    rewrite EU, EM, EV. cbn [rbind]. rewrite EK. unfold perform. cbn [rbind fst snd]. rewrite EA. reflexivity.
  Qed.
End Logged.
(** * Two members with such generators, starting at 0 *)
Definition sends_of (L : list (Z * obs payload arg output)) : list (Z * message payload) := flat_map (fun x => match snd x with OSent m => [(fst x, m)] | _ => [] end) L.
Definition arrivals (h : list (Z * event payload env)) : list (Z * message payload) := flat_map (fun x => match snd x with EMsg _ m => [(fst x, m)] | _ => [] end) h.
Lemma arrives_in h t m : arrives h t m <-> In (t, m) (arrivals h).
Proof.
  unfold arrivals, arrives. rewrite in_flat_map. split.
  - intros (e & I). exists (t, EMsg e m). split; [exact I|left; reflexivity].
  - intros ([u [e n|e m']] & I & E); [destruct E|]. destruct E as [E|[]]. cbn in E. injection E as -> ->. exists e. exact I.
Qed.
Lemma sends_in L t m : In (t, OSent m) L <-> In (t, m) (sends_of L).
Proof.
  unfold sends_of. rewrite in_flat_map. split.
  - intros I. exists (t, OSent m). split; [exact I|left; reflexivity].
  - intros ([u o] & I & E). destruct o; try (destruct E; fail). destruct E as [E|[]]. cbn in E. injection E as -> ->. exact I.
Qed.
Section Two.
  Variables (pc : Z) (did : bytes) (ev : Z -> env).
  (** The deals as they are sent. *)
  Variable W : Z -> deal_dto.
  Definition two_c (i : Z) : info := mkInfo pc did i 2 2.
  Definition two_wake (i t : Z) : Z * event payload env := (t * ms, ETick (ev i) (t * ms)).
  Definition two_msg (i op : Z) (d : payload) : message payload := make_msg (two_c i) (1 - i) op d.
  (** The messages of a key generation, with the time of sending. *)
  Definition two_sends (i : Z) : list (Z * message payload) :=
    [(30 * ms, two_msg i 1 (PWire (WDeal (W i)))); (105 * ms, two_msg i 2 (PResp (a_resp i (1 - i)))); (280 * ms, two_msg i 5 (PWire (WCommits (mkCommitsD i [] [] []))))].
  Definition two_in (i : Z) (x : Z * message payload) : Z * event payload env := (fst x + 10 * ms, EMsg (ev i) (snd x)).
  Definition two_hist (i : Z) : list (Z * event payload env) :=
    map (two_wake i) [0; 0; 25; 30] ++ map (two_in i) (firstn 1 (two_sends (1 - i))) ++ map (two_wake i) [100; 105] ++ map (two_in i) (firstn 1 (skipn 1 (two_sends (1 - i)))) ++
    map (two_wake i) [175; 180; 250; 255; 275; 280] ++ map (two_in i) (skipn 2 (two_sends (1 - i))) ++ map (two_wake i) [350; 355; 425; 430; 500; 505; 525].
End Two.
Ltac plain := eapply logged_cons; [lazy; reflexivity|lazy; reflexivity|].
Ltac enters H := eapply logged_cons; [eapply enter_step;
    [lazy; reflexivity|lazy; reflexivity|lazy; reflexivity|lazy; reflexivity|reflexivity|reflexivity|apply H; reflexivity|lazy; reflexivity|lazy; reflexivity]|lazy; reflexivity|].
Ltac takes H := eapply logged_cons; [eapply take_step; [reflexivity|reflexivity|reflexivity|reflexivity|reflexivity|reflexivity|exact H|reflexivity|reflexivity|lazy; reflexivity|lazy; reflexivity]|exact I|].
Definition on_wire (W : Z -> deal_dto) : Prop := forall i, deal_to_dto (a_deal i) = Ok (W i) /\ unm KDeal (PWire (WDeal (W i))) = Ok (AObj (ODeal (a_deal i))).
Lemma on_wire_ex : exists W, on_wire W.
Proof.
  assert (CG : curve_point (Gx, Gy)) by (unfold curve_point, on_curve, eqP; vm_compute; repeat split; discriminate).
  destruct (wire_rt (ODeal (a_deal 0)) CG) as (w & E1 & E2). cbn [to_wire] in E1. destruct (deal_to_dto (a_deal 0)) as [x| |] eqn:E; cbn [rbind] in E1; try discriminate E1. injection E1 as <-.
  unfold deal_to_dto in E. cbn [de_dhkey a_deal de_index de_sig de_nonce de_cipher] in E. cbn [obj_kind from_wire] in E2. unfold dto_to_deal in E2.
  destruct (pt_marshal (Gx, Gy)) as [b| |] eqn:EB; cbn [rbind] in E; try discriminate E. injection E as <-. cbn [ded_dhkey ded_index ded_sig ded_nonce ded_cipher] in E2.
  destruct (pt_unmarshal b) as [P| |] eqn:EP; cbn [rbind] in E2; try discriminate E2. injection E2 as EQ.
  exists (fun i => mkDealD i b [] [] []). intros i. unfold deal_to_dto. cbn [de_dhkey a_deal de_index de_sig de_nonce de_cipher]. rewrite EB. split; [reflexivity|].
  cbn [unm from_wire]. unfold dto_to_deal. cbn [ded_dhkey ded_index ded_sig ded_nonce ded_cipher]. rewrite EP, EQ. reflexivity.
Qed.
Lemma two_deals share W ci e i k : on_wire W -> i = 0 \/ i = 1 -> kd_gen k = acct_new i -> step_deal (acct_ky share) ci e k = Ok (k, [ASend (1 - i) op_deal (PWire (WDeal (W i)))]).
Proof.
  intros HW Hi E0. destruct k as [g0 q0 a0 d0]. cbn [kd_gen] in E0. subst g0. unfold step_deal. destruct (HW 0) as [H0 _]. destruct (HW 1) as [H1 _].
  destruct Hi as [E|E]; subst i; cbn [acct_ky ky_deals acct_new kd_gen ac_i fst snd]; [change (others 2 0) with [1]|change (others 2 1) with [0]]; cbn [map flat_map fst snd app]; [rewrite H0|rewrite H1]; reflexivity.
Qed.
Lemma two_dkg share did ev W k0 i : on_wire W -> i = 0 \/ i = 1 -> kd_gen k0 = acct_new i -> exists r L, logged (dkg_prot (acct_ky share)) (two_c pc_dkg did i) (new_run k0) (two_hist pc_dkg did ev W i) r L /\
  sends_of L = two_sends pc_dkg did W i /\ In (0, OStart 0) L /\ In op_dkg_final (entered (map snd L)) /\ r_term r = true /\ outputs_of (map snd L) = [(pc_dkg, VShare (share i) [0; 1])].
Proof.
  intros HW Hi E0. destruct k0 as [g0 q0 a0 d0]. cbn [kd_gen] in E0. subst g0.
  pose proof (two_deals share W (two_c pc_dkg did i) (ev i) i) as FD.
  pose proof (fun k => FD k HW Hi) as F1. pose proof (proj2 (HW (1 - i))) as F2. clear FD HW.
  destruct Hi as [E|E]; subst i; (eexists _, _; split; [unfold two_hist, two_sends; cbn [map app two_wake two_in firstn skipn fst snd];
    do 3 plain; enters F1; takes F2; do 17 plain; apply logged_nil|]; split; [lazy; reflexivity|]; split; [lazy; tauto|]; split; [lazy; tauto|]; split; lazy; reflexivity).
Qed.

(** * The same two members sign *)
Section TwoSign.
  Variable did : bytes.
  Variable keccak : bytes -> bytes.
  Variable pshash : Z -> Z -> bytes.
  Variables nonce long : Z -> dks.
  Variable parts : list point.
  Variable W : Z -> deal_dto.
  Definition sig_msg (i : Z) (w : part_dto) : message payload := two_msg pc_dss did i op_dss_partsig (PWire (WPart w)).
  Definition sig_hist (i : Z) (w : part_dto) : list (Z * event payload env) :=
    two_hist pc_dss did (duo_env long) W i ++ map (two_wake (duo_env long) i) [530; 550; 555] ++
    [two_in (duo_env long) i (555 * ms, sig_msg (1 - i) w)] ++ map (two_wake (duo_env long) i) [625; 630; 650].
  Definition sig_k (i : Z) : kd acct := mkKd (acct_new i) None (Some (mkArgs (3 + 3 * i) parts 2)) None.
  Lemma sig_logged i d0 d1 d2 pa pa' w w' v' sg : on_wire W -> i = 0 \/ i = 1 ->
    new_dss keccak (3 + 3 * i) parts (share_of (long i)) (share_of (nonce i)) [0; 1] 10 2 = Ok d0 ->
    partial_sig keccak pshash 9 d0 = Ok (d1, pa, true) -> partsig_to_dto pa = Ok w ->
    dto_to_partsig w' = Ok pa' -> ps_partial pa' = Some (1 - i, v') ->
    process keccak pshash d1 pa' = (d2, Ok tt) -> enough d2 = true -> signature keccak (fun _ l => l) d2 = Ok sg ->
    exists r L, logged (dss_prot (acct_ky nonce) keccak pshash) (two_c pc_dss did i) (new_run (sig_k i)) (sig_hist i w') r L /\
      sends_of L = two_sends pc_dss did W i ++ [(555 * ms, sig_msg i w)] /\ In (0, OStart 0) L /\ In 11 (entered (map snd L)) /\ r_term r = true /\ exists s sg, outputs_of (map snd L) = [(pc_dkg, s); (pc_dss, VSig sg)].
  Proof.
    intros HW Hi H1 H2 H3 H4 H5 H6 H7 H8. destruct pa' as [q1 q2 q3]. cbn [ps_partial] in H5. subst q1.
    assert (F9 : forall K, ac_i (kd_gen K) = i -> kd_args K = Some (mkArgs (3 + 3 * i) parts 2) -> st_init (acct_ky nonce) keccak (two_c pc_dss did i) (duo_env long i) K = Ok (set_dss K (Some (d0, true)), [])).
    { intros K E1 E2. unfold st_init. cbn [acct_ky ky_share]. rewrite E1, E2. cbn [duo_env e_long e_doc ka_secret ka_parts ka_T ky_qual acct_ky]. rewrite H1. reflexivity. }
    assert (F10 : forall K : kd acct, kd_dss K = Some (d0, true) -> kd_qual K = Some [0; 1] ->
      st_partsig keccak pshash (two_c pc_dss did i) (duo_env long i) K = Ok (set_dss K (Some (d1, true)), multicast [0; 1] (two_c pc_dss did i) op_dss_partsig (PWire (WPart w)))).
    { intros K E1 E2. unfold st_partsig. rewrite E1. cbn [duo_env e_nonce]. rewrite H2. unfold broadcast_qual. cbn [to_wire set_dss kd_qual]. rewrite H3. cbn [rbind]. rewrite E2. reflexivity. }
    assert (F11 : forall K : kd acct, kd_dss K = Some (d2, true) -> dss_st_final keccak (two_c pc_dss did i) (duo_env long i) K = Ok (K, [AOutput pc_dss (VSig sg)])).
    { intros K E1. unfold dss_st_final. rewrite E1, H7. cbn [negb duo_env e_ord]. rewrite H8. reflexivity. }
    assert (FM : forall r : rst payload (kd acct), r_state r = 10 -> r_paused r = false -> r_abandon r = false -> kd_dss (r_k r) = Some (d1, true) ->
      step (dss_prot (acct_ky nonce) keccak pshash) (two_c pc_dss did i) r (EMsg (duo_env long i) (sig_msg (1 - i) w')) =
      Ok (set_k r (set_dss (r_k r) (Some (d2, true))), [OHandle (sig_msg (1 - i) w'); OProc (sig_msg (1 - i) w') (AObj (OPart (mkPsig (Some (1 - i, v')) q2 q3)))])).
    { intros r E1 E2 E3 E4. cbn [step]. unfold deliver. cbn [sig_msg two_msg make_msg m_op]. rewrite E1, E2. change (op_dss_partsig <? 10) with false. change (10 <? op_dss_partsig) with false.
      rewrite andb_false_r. cbn [orb]. unfold process_msg. rewrite E3. change (m_op (sig_msg (1 - i) w')) with op_dss_partsig.
      change (stage_at (dss_prot (acct_ky nonce) keccak pshash) op_dss_partsig) with (Some (ps (Some (st_partsig keccak pshash)) (pr_partsig (G := acct) keccak pshash) (unm KPart) partsig_v (is_kind KPart))).
      cbn [ps sg_proc sg_type sg_unm sg_valid m_dto m_sender sig_msg two_msg make_msg is_kind negb unm from_wire rbind]. rewrite H4. cbn [rbind two_c i_members i_guest].
      assert (ER : (0 <=? 1 - i) && (1 - i <? 2) = true) by (destruct Hi as [->| ->]; reflexivity). rewrite ER. cbn [partsig_v ps_partial rbind]. rewrite Z.eqb_refl.
      cbn [rbind]. unfold pr_partsig. rewrite E4, H6. reflexivity. }
    pose proof (two_deals nonce W (two_c pc_dss did i) (duo_env long i) i) as FD.
    pose proof (fun k => FD k HW Hi) as F1. pose proof (proj2 (HW (1 - i))) as F2. clear FD HW.
    destruct Hi as [E|E]; subst i; (eexists _, _; split; [unfold sig_hist, two_hist, two_sends; cbn [map app two_wake two_in firstn skipn fst snd];
      do 3 plain; enters F1; takes F2; do 17 plain; enters F9; plain; enters F10;
      (eapply logged_cons; [apply FM; reflexivity|exact I|]); plain; enters F11; plain; apply logged_nil|]; split; [lazy; reflexivity|]; split; [lazy; tauto|]; split; [lazy; tauto|]; split; [reflexivity|]; eexists _, sg; lazy; reflexivity).
  Qed.
End TwoSign.

Lemma sends_sent L : sent (map snd L) = map snd (sends_of L).
Proof. induction L as [|[t o] L IH]; [reflexivity|]. unfold sends_of, sent in *. cbn [map flat_map snd fst]. rewrite map_app, <- IH. destruct o; reflexivity. Qed.
Lemma arrivals_received h : received (untimed h) = map snd (arrivals h).
Proof. induction h as [|[t e] h IH]; [reflexivity|]. unfold arrivals, received, untimed in *. cbn [map flat_map snd fst]. rewrite map_app, <- IH. destruct e; reflexivity. Qed.
Lemma later_none (X : list (Z * message payload)) op : Forall (fun x => 7 < m_op (snd x)) X -> op <= 7 -> for_op op (map snd X) = [].
Proof.
  intros H LE. induction H as [|x X HX _ IH]; [reflexivity|]. cbn [map for_op filter]. destruct (m_op (snd x) =? op) eqn:E; [apply Z.eqb_eq in E; lia|exact IH].
Qed.
Lemma for_op_app op (a b : list (message payload)) : for_op op (a ++ b) = for_op op a ++ for_op op b. Proof. apply filter_app. Qed.
Lemma two_connected {G} (p : protocol payload arg (kd G) env output) pc did W k0 h (r : Z -> rst payload (kd G)) L X Y :
  (forall i, In i (everyone 2) -> logged p (two_c pc did i) (new_run (k0 i)) (h i) (r i) (L i) /\ sends_of (L i) = two_sends pc did W i ++ X i /\ Forall (fun x => 7 < m_op (snd x)) (X i) /\
     arrivals (h i) = map (fun x => (fst x + 10 * ms, snd x)) (two_sends pc did W (1 - i)) ++ Y i /\ Forall (fun x => 7 < m_op (snd x)) (Y i)) ->
  connected p 2 (two_c pc did) k0 h (fun i => map snd (L i)) (10 * ms).
Proof.
  intros H i op Hi Hop. destruct (H i Hi) as (_ & _ & _ & A4 & A5). split.
  - rewrite arrivals_received, A4, map_app, for_op_app, (later_none _ _ A5 (proj2 Hop)), map_map, app_nil_r. cbn [snd].
    assert (SF : forall j, In j (everyone 2) -> sent_for (fun i => map snd (L i)) i op j = filter (fun m => m_rcpt m =? i) (for_op op (map snd (two_sends pc did W j)))).
    { intros j I. destruct (H j I) as (_ & B2 & B3 & _). unfold sent_for. rewrite sends_sent, B2, map_app, for_op_app, (later_none _ _ B3 (proj2 Hop)), app_nil_r. reflexivity. }
    change (everyone 2) with [0; 1]. cbn [flat_map]. rewrite (SF 0), (SF 1) by (apply in_everyone; lia).
    assert (CI : i = 0 \/ i = 1) by (apply in_everyone in Hi; lia).
    assert (CO : op = 1 \/ op = 2 \/ op = 3 \/ op = 4 \/ op = 5 \/ op = 6 \/ op = 7) by lia.
    clear - CI CO. repeat (destruct CO as [->|CO]; [destruct CI as [->| ->]; exists []; rewrite app_nil_r; lazy; apply Permutation_refl|]). subst op. destruct CI as [->| ->]; exists []; rewrite app_nil_r; lazy; apply Permutation_refl.
  - intros j t m Jn HT EO ER. destruct (H j Jn) as (B1 & B2 & B3 & _). apply (logged_happens _ _ _ _ _ _ _ _ B1) in HT. apply sends_in in HT. rewrite B2 in HT. apply in_app_or in HT.
    destruct HT as [HT|HT]; [|rewrite Forall_forall in B3; specialize (B3 _ HT); cbn [snd] in B3; lia].
    assert (EJ : j = 1 - i).
    { assert (Q : m_rcpt m = 1 - j) by (unfold two_sends in HT; destruct HT as [HT|[HT|[HT|[]]]]; apply (f_equal snd) in HT; unfold snd in HT; subst m; reflexivity). lia. }
    subst j. exists (t + 10 * ms). split; [apply Z.le_refl|]. apply arrives_in. rewrite A4. apply in_or_app. left.
    exact (in_map (fun x => (fst x + 10 * ms, snd x)) _ _ HT).
Qed.
Lemma two_clocked pc did ev W i : i = 0 \/ i = 1 -> clocked (two_hist pc did ev W i).
Proof.
  intros Hi. split; [unfold two_hist, two_sends; cbn [map app two_wake two_in firstn skipn fst snd]; repeat (apply SSorted_nil || apply SSorted_cons || apply Forall_nil || apply Forall_cons); apply Z.leb_le; reflexivity|].
  intros t e now H. unfold two_hist, two_sends in H. cbn [map app two_wake two_in firstn skipn fst snd In] in H. repeat (destruct H as [H|H]; [unfold two_wake, two_in in H; cbn [fst snd] in H; congruence|]). destruct H.
Qed.
Lemma sig_clocked did long W i w : i = 0 \/ i = 1 -> clocked (sig_hist did long W i w).
Proof.
  intros Hi. split; [unfold sig_hist, two_hist, two_sends; cbn [map app two_wake two_in firstn skipn fst snd]; repeat (apply SSorted_nil || apply SSorted_cons || apply Forall_nil || apply Forall_cons); apply Z.leb_le; reflexivity|].
  intros t e now H. unfold sig_hist, two_hist, two_sends in H. cbn [map app firstn skipn In] in H. repeat (destruct H as [H|H]; [unfold two_wake, two_in in H; cbn [fst snd] in H; congruence|]). destruct H.
Qed.
Lemma sig_envs did long W i w e now : In (ETick e now) (untimed (sig_hist did long W i w)) -> e = duo_env long i.
Proof.
  intros H. unfold untimed, sig_hist, two_hist, two_sends in H. cbn [map app firstn skipn In] in H. repeat (destruct H as [H|H]; [unfold two_wake, two_in in H; cbn [fst snd] in H; congruence|]). destruct H.
Qed.
Lemma two_sign did keccak pshash (LK : forall b, length (keccak b) = 32%nat) W i v pa w v' pa' w' : on_wire W -> i = 0 \/ i = 1 ->
  let dd i := demo_dss keccak i [5; 6] [7; 8] [0; 1] 10 2 in
  partial_sig keccak pshash 9 (dd i) = Ok (add_partial (dd i) i v true, pa, true) -> partsig_to_dto pa = Ok w ->
  partial_sig keccak pshash 9 (dd (1 - i)) = Ok (add_partial (dd (1 - i)) (1 - i) v' true, pa', true) -> ps_partial pa' = Some (1 - i, Some v') -> dto_to_partsig w' = Ok pa' ->
  exists r L, logged (dss_prot (acct_ky (demo_dks [7; 8])) keccak pshash) (two_c pc_dss did i) (new_run (sig_k demo_parts i)) (sig_hist did (demo_dks [5; 6]) W i w') r L /\
    sends_of L = two_sends pc_dss did W i ++ [(555 * ms, sig_msg did i w)] /\ In (0, OStart 0) L /\ In 11 (entered (map snd L)) /\ r_term r = true /\ exists s sg, outputs_of (map snd L) = [(pc_dkg, s); (pc_dss, VSig sg)].
Proof.
  intros HW Hi dd EP EW EP' EV' EW'. assert (Hj : 1 - i = 0 \/ 1 - i = 1) by lia.
  set (d1 := add_partial (dd i) i v true) in *.
  assert (ER : d1 = Dss.run keccak pshash (dd i) [CallPartial 9]) by (unfold Dss.run; cbn [fold_left Dss.step]; rewrite EP; reflexivity).
  destruct (demo_accept keccak pshash i (1 - i) 5 [6] 7 [8] [0; 1] 10 2 9 _ pa' d1 LK ltac:(split; reflexivity) Hi Hj ltac:(cbn [In]; lia) EP' [CallPartial 9] ER) as (v2 & EA).
  { change (d_partialsIdx d1) with [i]. cbn [In]. lia. }
  set (d2 := add_partial d1 (1 - i) v2 (d_signed d1)) in *.
  assert (ER2 : d2 = Dss.run keccak pshash (dd i) [CallPartial 9; CallProcess pa']).
  { change [CallPartial 9; CallProcess pa'] with ([CallPartial 9] ++ [CallProcess pa']). unfold Dss.run. rewrite fold_left_app.
    change (fold_left (Dss.step keccak pshash) [CallPartial 9] (dd i)) with (Dss.run keccak pshash (dd i) [CallPartial 9]). rewrite <- ER.
    cbn [fold_left Dss.step]. rewrite EA. reflexivity. }
  assert (EM : map fst (d_partials d2) = [i; 1 - i]) by reflexivity.
  destruct (sig_total keccak (fun _ l => l) d2) as [_ SG].
  { intros. apply Permutation_refl. }
  { rewrite ER2. apply inv_run. pose proof (demo_new keccak i [5; 6] [7; 8] [0; 1] 10 2 Hi) as EN. apply (new_dss_ok keccak pshash) in EN. apply EN. }
  { reflexivity. }
  { discriminate. }
  destruct SG as (ad & s & SG & _).
  { unfold ndk. rewrite EM. change (d_T d2) with 2. destruct Hi as [->| ->]; reflexivity || apply Z.le_refl. }
  assert (EN : new_dss keccak (3 + 3 * i) demo_parts (share_of (demo_dks [5; 6] i)) (share_of (demo_dks [7; 8] i)) [0; 1] 10 2 = Ok (dd i)).
  { change (share_of (demo_dks [5; 6] i)) with (demo_share [5; 6] i). change (share_of (demo_dks [7; 8] i)) with (demo_share [7; 8] i). exact (demo_new keccak i [5; 6] [7; 8] [0; 1] 10 2 Hi). }
  assert (EE : enough d2 = true) by (unfold signature in SG; destruct (enough d2); [reflexivity|discriminate SG]).
  exact (sig_logged did keccak pshash (demo_dks [7; 8]) (demo_dks [5; 6]) demo_parts W i (dd i) d1 d2 pa pa' w w' (Some v') (Sig ad (Some s)) HW Hi EN EP EW EW' EV' EA EE SG).
Qed.
