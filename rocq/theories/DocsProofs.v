(** Proofs: the document a signing run finds. *)
From Coq Require Import ZArith List Lia Bool Permutation.
From Verif Require Import Params Bytes Res Secp Dto Dss Prot ProtSpec ProtProofs TimeSpec DkgProt DkgSpec DkgProofs KMap Firewall FwSpec FwProofs
  Outputs Node NodeSpec NodeRun NodeProofs NodeProofs2 NodeProofs3 NodeProofs4 NodeProofs5 NodeProofs6 NodeProofs7 NodeProofs8 NodeProofs9 ObjSpec ObjProofs ObjProofs2 ObjProofs3 ClusterProofs3.
Import ListNotations.
Open Scope Z_scope.

Section Docs.
  Context {G : Type}.
  Variable ky : kyber G.
  Variable keccak : bytes -> bytes.
  Variable pshash : Z -> Z -> bytes.
  Variable su : setup.
  Variables until now0 : Z.
  Notation message := (message payload).
  Notation nevent := (nevent (G := G)). Notation node := (node (G := G)).
  Implicit Types (evs : list nevent) (n : node) (tr : list nobs).
  Notation nexec := (nexec ky keccak pshash su).
  Notation nstep := (nstep ky keccak pshash su).
  Notation history := (nhistory ky keccak pshash su until now0).
  Notation lives := (lives ky keccak pshash su).
  Variable id : bytes.

  Definition once evs : Prop := (requests_for (mkKey pc_dss 0 id) evs <= 1)%nat.
  Lemma once_key k evs : k_pc k = pc_dss -> k_run k = id -> requests_for k evs = requests_for (mkKey pc_dss 0 id) evs.
  Proof. intros E1 E2. unfold requests_for, is_request. cbn [k_pc k_run]. rewrite E1, E2. reflexivity. Qed.
  Lemma once_app a b : once (a ++ b) -> once a.
  Proof. unfold once, requests_for. rewrite filter_app, app_length. lia. Qed.
  Definition RGI n : Prop := forall i r d g, nth_error (n_reqs n) i = Some r -> rq_doc r = Some d -> rq_id r = id -> In g (su_guests su) ->
    match rq_phase r with RReg todo => In g todo \/ kget (n_docs n) (dkey g id) <> None | RRun => kget (n_docs n) (dkey g id) <> None | _ => True end.
  Lemma same_request evs n i j r1 r2 d1 d2 : once evs -> SIGS evs n -> nth_error (n_reqs n) i = Some r1 -> nth_error (n_reqs n) j = Some r2 -> rq_doc r1 = Some d1 -> rq_doc r2 = Some d2 -> rq_id r1 = id -> rq_id r2 = id -> i = j.
  Proof.
    intros HS SG E1 E2 D1 D2 I1 I2. set (k := mkKey pc_dss 0 id). apply (two_matches k _ _ _ _ _ E1 E2); [eapply sign_matches; eauto|eapply sign_matches; eauto|].
    rewrite matches_count, SG, <- requests_count. exact HS.
  Qed.
  Lemma rgi_step evs n ev n' o : SIGS evs n -> once evs -> DD n -> RGI n -> nstep n ev = Ok (n', o) -> RGI n'.
  Proof.
    intros SG HU HD HP HS. destruct (req_kinds _ _ _ _ _ _ _ _ HS) as [(E & ED & _)|[(base & start & doc & E & ED & _)|(i & r & r' & EN & E & RT)]]; intros j q d g0 Hq EQ EI IG; rewrite E in Hq.
    - rewrite ED. exact (HP _ _ _ _ Hq EQ EI IG).
    - rewrite ED. apply nth_snoc in Hq. destruct Hq as [[_ ->]|Hq]; [|exact (HP _ _ _ _ Hq EQ EI IG)]. unfold new_request in *. destruct doc as [d0|]; [|discriminate].
      destruct (su_guests su) eqn:EG; [destruct IG|]. cbn. left. exact IG.
    - assert (OTH : nth_error (n_reqs n) j = Some q -> j <> i -> match rq_phase q with RReg todo => In g0 todo \/ kget (n_docs n') (dkey g0 id) <> None | RRun => kget (n_docs n') (dkey g0 id) <> None | _ => True end).
      { intros Hj NE. assert (Y : kget (n_docs n) (dkey g0 id) <> None -> kget (n_docs n') (dkey g0 id) <> None).
        { intros Y. destruct RT as [g todo E1 _ EDo|g todo E1 _ EDo|g todo v E1 _ EDo|E1 _ EDo|g l l' o _ _ EDo]; rewrite EDo; auto.
          - destruct (rq_doc r); [|exact Y]. rewrite kget_kset. destruct (key_eqb _ _); [discriminate|exact Y].
          - rewrite kget_kdel. destruct (key_eqb_spec (dkey g (rq_id r)) (dkey g0 id)) as [EK|]; [|exact Y]. injection EK as _ EK. destruct NE.
            destruct (rq_doc r) as [d1|] eqn:ER; [|destruct (HD _ _ _ EN E1 ER)]. eapply same_request; eauto. }
        pose proof (HP _ _ _ _ Hj EQ EI IG) as X. destruct (rq_phase q); auto. destruct X; auto. }
      destruct (Nat.eq_dec j i) as [->|NE]; [|rewrite put_diff in Hq by exact NE; exact (OTH Hq NE)].
      rewrite (put_same _ _ r' _ EN) in Hq. injection Hq as <-. pose proof (fun d => HP _ _ d g0 EN) as X.
      destruct RT as [g todo E1 IT EDo|g todo E1 _ EDo|g todo v E1 _ EDo|E1 _ EDo|g l l' o _ _ EDo]; rewrite EDo.
      + rewrite E1 in X. assert (ER : rq_doc r = Some d) by (destruct (remove g todo); exact EQ). assert (EJ : rq_id r = id) by (destruct (remove g todo); exact EI). specialize (X d ER EJ IG). rewrite ER, EJ.
        assert (Y : In g0 (remove g todo) \/ kget (kset (n_docs n) (dkey g id) d) (dkey g0 id) <> None).
        { rewrite kget_kset. destruct (key_eqb_spec (dkey g id) (dkey g0 id)) as [EK|NK]; [right; discriminate|]. destruct X as [X|X]; [left|right; exact X].
          apply remove_other; [exact X|]. intros ->. apply NK. reflexivity. }
        destruct (remove g todo); cbn; [destruct Y as [[]|Y]; exact Y|exact Y].
      + cbn. destruct (remove g todo); exact I.
      + cbn. destruct (remove g todo); exact I.
      + cbn. destruct (rq_doc r); exact I.
      + cbn in *. exact (X d EQ EI IG).
  Qed.
  Lemma history_rgi evs n tr : history evs n tr -> once evs -> RGI n.
  Proof.
    intros HH. destruct (history_ind ky keccak pshash su until now0 (fun evs tr n => SIGS evs n /\ DD n /\ (once evs -> RGI n))) with (3 := HH) as (_ & _ & _ & _ & X); [| |exact X].
    - intros evs0 tr0 n0 T ev n' o HI HG LT (A & B & C) HS. split; [unfold SIGS; rewrite (step_sigs _ _ _ _ _ _ _ _ HS), A, flat_map_app; cbn; rewrite app_nil_r; reflexivity|].
      split; [eapply dd_step; eauto|]. intros S. pose proof (once_app _ _ S). eapply rgi_step; eauto.
    - split; [reflexivity|]. split; [intros [|i] r td H; discriminate|]. intros _ [|i] r d g H; discriminate.
  Qed.

  Hypothesis ND : NoDup (su_guests su).
  Lemma live_doc evs n tr j k r : history evs n tr -> once evs -> nth_error (n_heap n) j = Some (k, r) -> r_term r = false -> k_pc k = pc_dss -> k_run k = id ->
    exists start d t, kget (n_docs n) (dkey (k_guest k) id) = Some d /\ requested su evs k start (Some d) t.
  Proof.
    intros HH HS EN ER KP KR. destruct (history_all _ _ _ _ _ _ ND _ _ _ HH) as ((T & HI) & HG & [A1 A2 A3 A4 A5 A6 A7 A8 A9]). pose proof (history_rgi _ _ _ HH HS) as RGn.
    destruct HI as [W R]. destruct (r_heap _ _ _ _ _ _ _ _ R _ _ _ EN) as ((t & HC) & PC & _).
    assert (KG : In (k_guest k) (su_guests su)).
    { apply in_split in HC. destruct HC as (x & y & HC). pose proof (r_tr _ _ _ _ _ _ _ _ R x _ y HC) as (start & doc & tq & (b & _ & _ & _ & Q) & _). exact Q. }
    destruct (ni_h _ _ _ _ A1 _ _ _ EN) as (i & q & EI & M & NE).
    assert (MQ : exists d, rq_doc q = Some d /\ rq_id q = k_run k).
    { unfold matches in M. apply andb_true_iff in M. destruct M as [M1 M2]. apply Z.eqb_eq in M1. destruct (bytes_eqb_spec (rq_id q) (k_run k)); [|discriminate]. unfold rq_pc in M1. rewrite KP in M1. destruct (rq_doc q); [eauto|discriminate]. }
    destruct MQ as (d & MD & MI).
    assert (PQ : rq_phase q = RRun).
    { assert (NR : forall todo, rq_phase q <> RReg todo) by (intros todo X; apply NE; exact (proj2 (g_locs _ _ _ HG _ _ EI) _ X)).
      pose proof (A3 _ _ EI) as P. pose proof (A4 _ _ EI) as L.
      assert (DONE : forallb (fun x => guest_done (snd x)) (rq_locs q) = true -> map fst (rq_locs q) = su_guests su -> False).
      { intros DN LQ. assert (IG : In (k_guest k) (map fst (rq_locs q))) by (rewrite LQ; exact KG). apply in_map_iff in IG. destruct IG as ([g l] & EG & IL). cbn in EG. subst g.
        rewrite forallb_forall in DN. specialize (DN _ IL). cbn in DN. pose proof (A5 _ _ _ _ EI IL DN) as TR.
        assert (EK : rq_key q (k_guest k) = k) by (destruct k; unfold rq_key, rq_pc; rewrite MD; cbn in *; congruence). rewrite EK in TR. apply terminated_in_heap in TR. destruct TR as (j2 & r2 & E2 & T2).
        assert (OK : (requests_for k evs <= 1)%nat) by (rewrite (once_key k evs KP KR); exact HS).
        destruct (A8 k OK) as [O1 _]. pose proof (objs_two _ _ _ _ _ _ EN E2 O1) as <-. congruence. }
      destruct (rq_phase q) as [todo| |todo|todo|]; [destruct (NR todo eq_refl)|reflexivity|exfalso; auto..]. }
    pose proof (RGn _ _ _ (k_guest k) EI MD (eq_trans MI KR) KG) as X. rewrite PQ in X. destruct (kget (n_docs n) (dkey (k_guest k) id)) as [d'|] eqn:ED; [|congruence].
    destruct (r_docs _ _ _ _ _ _ _ _ R _ _ _ ED) as (start & t' & RQ). exists start, d', t'. split; [reflexivity|]. replace k with (mkKey pc_dss (k_guest k) id); [exact RQ|]. destruct k; cbn in *; congruence.
  Qed.
  Lemma one_of {X} (f : X -> bool) l x y : (length (filter f l) <= 1)%nat -> In x l -> In y l -> f x = true -> f y = true -> x = y.
  Proof.
    intros LE Ix Iy Fx Fy. assert (Jx : In x (filter f l)) by (apply filter_In; auto). assert (Jy : In y (filter f l)) by (apply filter_In; auto).
    destruct (filter f l) as [|a [|b l']]; [destruct Jx| |cbn in LE; lia]. destruct Jx as [<-|[]]. destruct Jy as [<-|[]]. reflexivity.
  Qed.
  Lemma requested_once evs k start doc t start' doc' t' : (requests_for k evs <= 1)%nat -> requested su evs k start doc t -> requested su evs k start' doc' t' -> start = start' /\ doc = doc' /\ t = t'.
  Proof.
    intros LE (b & I1 & E1 & P1 & _) (b' & I2 & E2 & P2 & _).
    assert (Q : VRequest (G := G) t b start doc = VRequest t' b' start' doc').
    { apply (one_of (is_request k) evs _ _ LE I1 I2); cbn [is_request]; apply andb_true_iff; (split; [apply Z.eqb_eq; congruence|]); destruct (bytes_eqb_spec (run_id_for b start) (k_run k)); destruct (bytes_eqb_spec (run_id_for b' start') (k_run k)); congruence. }
    inversion Q. auto.
  Qed.
  (** A step of a run object, seen from the node. *)
  Lemma step_of_run evs n tr j k k0 h A x B : history evs n tr -> lives (start_node su until now0) evs j k k0 h -> h = A ++ x :: B ->
    exists a ev b n1 t1 r os, evs = a ++ ev :: b /\ history a n1 t1 /\ event_of_run su n1 j ev = [x] /\ nth_error (n_heap n1) j = Some (k, r) /\
      exec (the_prot ky keccak pshash (k_pc k)) (run_info su k) (new_run k0) (untimed A) = Ok (r, os).
  Proof.
    intros HH HL EH. pose proof HL as (EL & _). rewrite EH in EL. symmetry in EL. pose proof HH as [HC HE].
    destruct (hist_split _ _ _ _ _ _ _ _ _ _ _ _ HE EL) as (a & ev & b & n1 & t1 & E1 & E2 & E3 & E4).
    assert (OB : exists k1 r1, nth_error (n_heap n1) j = Some (k1, r1)).
    { destruct (nth_error (n_heap n1) j) as [[k1 r1]|] eqn:X; [eauto|]. exfalso. destruct ev; cbn [event_of_run] in E4; rewrite ?X in E4; discriminate. }
    destruct OB as (k1 & r1 & OB). destruct (proj2 (objects _ _ _ _ _ _ _ _ _ E2) _ _ _ OB) as (k2 & os2 & L2 & _ & X2 & _).
    assert (LU : lives (start_node su until now0) evs j k1 k2 (run_history ky keccak pshash su (start_node su until now0) evs j)).
    { destruct L2 as (_ & a' & ev' & b' & m & u & m' & o' & F1 & F2). split; [reflexivity|]. exists a', ev', (b' ++ ev :: b), m, u, m', o'. split; [|exact F2]. rewrite E1, F1, <- app_assoc. reflexivity. }
    destruct (lives_unique _ _ _ _ _ _ _ _ _ _ _ _ _ _ HL LU) as (<- & <- & _). rewrite E3 in X2.
    exists a, ev, b, n1, t1, r1, os2. split; [exact E1|]. split; [split; [rewrite E1 in HC; eapply nclock_prefix, HC|exact E2]|]. auto.
  Qed.
  Lemma tick_env evs n tr j k k0 h A t e now B r os : history evs n tr -> (requests_for k evs <= 1)%nat -> k_pc k = pc_dss -> k_run k = id -> lives (start_node su until now0) evs j k k0 h ->
    h = A ++ (t, ETick e now) :: B -> exec (the_prot ky keccak pshash (k_pc k)) (run_info su k) (new_run k0) (untimed A) = Ok (r, os) -> r_term r = false ->
    e_long e = su_long su (k_guest k) /\ exists start d tq, requested su evs k start (Some d) tq /\ e_doc e = Some d.
  Proof.
    intros HH RQ KP KR HL EH EX NT. destruct (step_of_run _ _ _ _ _ _ _ _ _ _ HH HL EH) as (a & ev & b & n1 & t1 & r1 & os1 & E1 & H1 & E4 & OB & X1). rewrite EX in X1. injection X1 as <- _.
    destruct ev as [| | | | | | | |now' pc g nonce ord|now' j' nonce ord]; cbn [event_of_run] in E4; try discriminate; rewrite OB in E4.
    { destruct (kget _ _) as [[j' m]|]; [|discriminate]. destruct (Nat.eqb j' j); discriminate. }
    destruct (_ && _); [|discriminate]. injection E4 as _ <- _. unfold env_for. cbn [e_long e_doc]. split; [reflexivity|].
    assert (ON : once a). { rewrite (once_key k evs KP KR), E1 in RQ. exact (once_app _ _ RQ). }
    destruct (live_doc _ _ _ _ _ _ H1 ON OB NT KP KR) as (start & d & tq & D1 & D2). rewrite KR. exists start, d, tq. split; [|exact D1].
    eapply requested_mono; [|exact D2]. rewrite E1. apply incl_appl, incl_refl.
  Qed.
End Docs.
