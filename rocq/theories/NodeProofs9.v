(** The node goes on: when no step of a node panics. *)
From Coq Require Import ZArith List Lia Bool.
From Coq Require Import Init.Byte.
From Verif Require Import Params Bytes Res Secp Spec Dto Dss Prot ProtSpec ProtProofs ProtProofs2 ProtProofs3 ProtProofs4 ProtProofs6 DkgProt DkgSpec DkgProofs KMap Firewall FwSpec FwProofs FwProofs2 FwProofs3 FwProofs4
  Outputs Node NodeSpec NodeRun NodeProofs NodeProofs2 NodeProofs3 NodeProofs4 NodeProofs5 NodeProofs6 NodeProofs7 NodeProofs8.
Import ListNotations.
Open Scope Z_scope.

(** ** One step of a run *)
Section One.
  Context {D A K E V : Type}.
  Variable p : protocol D A K E V.
  Variable c : info.
  Variable GE : E -> Prop.
  Variable GM : message D -> Prop.
  Variable S : Z -> K -> Prop.
  Notation rst := (rst D K).

  Lemma deliver_safe e (r : rst) rcvd (tr : list (obs D A V)) m : proc_safe p c (fun _ => True) GM S -> no_last_proc p -> GM m -> 0 <= m_op m <= final p -> Inv p c rcvd r tr -> sinv p c GM S r ->
    exists r' t', deliver p c e r m = Ok (r', t') /\ sinv p c GM S r'.
  Proof.
    clear GE. intros HP HN Hm HO HI HS. pose proof (iv_loc _ _ _ _ _ HI) as HL. pose proof HS as (S1 & S2 & S3).
    unfold deliver. destruct ((m_op m <? r_state r) || ((m_op m =? r_state r) && r_paused r)) eqn:ED; [eauto|].
    apply orb_false_iff in ED. rewrite Z.ltb_ge in ED. destruct ED as [GE0 ED]. destruct (Z.ltb_spec (r_state r) (m_op m)) as [LT|LE].
    { eexists _, _. split; [reflexivity|]. split; [exact S1|]. split; [exact S2|]. intros op. cbn [set_rcv r_rcv]. rewrite mslice_mset.
      destruct (m_op m =? op); [|apply S3]. apply Forall_app. split; [apply S3|]. constructor; [auto|constructor]. }
    assert (EQ : r_state r = m_op m) by lia. destruct (msg_safe p c (fun _ => True) GM S e r m HP HN I Hm HO HS EQ) as (r1 & t1 & E1 & I1 & _); [intros X; rewrite X in HL; tauto|]. eauto.
  Qed.
  Lemma tick_safe e now (r : rst) rcvd (tr : list (obs D A V)) : step_safe p c GE S -> proc_safe p c GE GM S -> no_last_proc p -> p_stages p <> [] -> Inv p c rcvd r tr -> sinv p c GM S r ->
    (r_term r = false -> GE e) -> exists r' t', tick p c e now r = Ok (r', t') /\ sinv p c GM S r'.
  Proof.
    intros HS HP HN NE HI SI HE. pose proof (iv_loc _ _ _ _ _ HI) as HL. destruct (r_term r) eqn:ET.
    - unfold tick. destruct (r_loc r); try (destruct HL as (_ & _ & HL); congruence). eauto.
    - destruct (exec_safe p c GE GM S [ETick e now] HS HP HN NE) with (2 := HI) (3 := SI) as (r' & t' & EX & SX); [constructor; [exact (HE eq_refl)|constructor]|].
      cbn in EX. destruct (tick p c e now r) as [[r1 t1]| |]; cbn in EX; try discriminate. injection EX as <- _. eauto.
  Qed.
End One.

Section NP.
  Context {G : Type}.
  Variable ky : kyber G.
  Variable keccak : bytes -> bytes.
  Variable pshash : Z -> Z -> bytes.
  Variable su : setup.
  Variables until now0 : Z.
  Notation message := (message payload).
  Notation nevent := (nevent (G := G)). Notation node := (node (G := G)).
  Implicit Types (evs : list nevent) (n : node) (tr : list nobs).
  Notation INV := (INV ky keccak pshash su until now0).
  Notation nstep := (nstep ky keccak pshash su).
  Notation nexec := (nexec ky keccak pshash su).
  Notation GI := (GI su).
  Notation NI := (NI until).
  Notation prot_of := (the_prot ky keccak pshash).
  Notation history := (nhistory ky keccak pshash su until now0).

  Definition tlast t0 evs : Z := last (map ntime evs) t0.
  Lemma tlast_snoc t0 evs ev : tlast t0 (evs ++ [ev]) = ntime ev.
  Proof. unfold tlast. rewrite map_app. apply last_last. Qed.
  Lemma nclock_last evs ev : forall t0, nclock t0 (evs ++ [ev]) -> tlast t0 evs <= ntime ev.
  Proof.
    induction evs as [|e evs IH]; intros t0; cbn [app nclock]; [intros [A _]; exact A|]. intros [_ B]. specialize (IH _ B). unfold tlast in *. cbn [map].
    destruct evs as [|e2 evs]; [exact IH|]. cbn [map] in *. assert (X : forall l (x a b : Z), last (x :: l) a = last (x :: l) b) by (clear; induction l as [|y l IH]; intros; [reflexivity|]; cbn [last] in *; destruct l; [reflexivity|apply (IH y)]).
    change (last (ntime e :: ntime e2 :: map ntime evs) t0) with (last (ntime e2 :: map ntime evs) t0). rewrite (X _ _ t0 (ntime e)). exact IH.
  Qed.
  Lemma time_inv evs : forall n tr, history evs n tr -> INV evs tr n (tlast now0 evs).
  Proof.
    induction evs as [|ev evs IH] using rev_ind; intros n tr HH.
    - destruct HH as [_ HE]. injection HE as <- <-. apply start_inv.
    - pose proof HH as [HC HE]. rewrite nexec_app in HE. destruct (nexec (start_node su until now0) evs) as [[n0 tr0]| |] eqn:E; cbn [rbind fst snd] in HE; try discriminate.
      cbn [Node.nexec] in HE. destruct (nstep n0 ev) as [[n1 o1]| |] eqn:ES; cbn in HE; try discriminate. injection HE as <- <-. rewrite app_nil_r.
      rewrite tlast_snoc. eapply nstep_inv; [apply IH; split; [eapply nclock_app; exact HC|exact E]|exact (nclock_last _ _ _ HC)|exact ES].
  Qed.

  (** ** The firewall *)
  Lemma known_req (f : fw payload) k : consts f = consts (make_fw (D := payload) nprots (su_guests su) until now0) -> 0 <= k_pc k < 2 -> In (k_guest k) (su_guests su) ->
    known f (k_pc k) (k_guest k) = true.
  Proof.
    unfold consts, known. intros E. injection E as -> -> _. intros A B. rewrite !andb_true_iff, Z.leb_le, Z.ltb_lt. split; [unfold nprots; lia|apply guest_in, B].
  Qed.
  Lemma receive_ok n m : 0 <= m_pc m < 2 -> exists n' o, receive ky keccak pshash su n m = Ok (n', o).
  Proof.
    intros H. unfold receive. destruct (Z.leb_spec nprots (Z.abs (m_pc m))) as [L|L]; [unfold nprots in L; lia|]. destruct (Z.ltb_spec (m_pc m) 0); [lia|].
    destruct (negb _); [eauto|]. destruct (_ && _); eauto.
  Qed.
  Lemma receive_all_ok l : (forall t m, In (FPass t m) l -> 0 <= m_pc m < 2) -> forall n, exists n' o, receive_all ky keccak pshash su n l = Ok (n', o).
  Proof.
    induction l as [|x l IH]; intros HL n; cbn [receive_all]; [eauto|].
    assert (X : exists n' o, (match x with FPass _ m => receive ky keccak pshash su n m | _ => Ok (n, []) end) = Ok (n', o)) by (destruct x; eauto; eapply receive_ok, HL; left; reflexivity).
    destruct X as (n1 & o1 & ->). cbn [rbind fst snd]. destruct (IH (fun t m H => HL t m (or_intror H)) n1) as (n2 & o2 & ->). cbn. eauto.
  Qed.
  Lemma firewall_ok evs tr n T fev : INV evs tr n T -> T <= time_of fev ->
    (forall t k a, fev = EvAllow t k a -> 0 <= k_pc k < 2 /\ In (k_guest k) (su_guests su)) ->
    exists n' o, firewall ky keccak pshash su n fev = Ok (n', o).
  Proof.
    intros [[W1 W2 W3 W4 W5] R] HT HA. unfold firewall. destruct (fstep (n_fw n) fev) as [[f1 l]| |] eqn:ES; cbn [rbind fst snd].
    - destruct (step_sound _ _ _ _ _ _ _ _ _ HT W1 ES) as [_ S2]. apply receive_all_ok. intros t m Hm. apply in_split in Hm. destruct Hm as (x & y & El).
      pose proof (S2 x (FPass t m) y El) as P. cbn in P. destruct P as (t0 & a & a1 & a2 & tm & P1 & _).
      assert (IS : In (FSet t0 (key_of m) a) (fw_trace tr ++ l)) by (rewrite El, app_assoc; apply in_or_app; left; rewrite P1; apply in_elt).
      apply in_app_or in IS. destruct IS as [IS|IS].
      + destruct (W3 _ _ _ IS) as (start & doc & tq & (b & _ & _ & Q3 & _) & _). cbn in Q3. rewrite Q3. destruct doc; cbn; unfold pc_dss, pc_dkg; lia.
      + apply (step_set _ _ _ _ _ _ _ ES) in IS. exact (proj1 (HA _ _ _ IS)).
    - exfalso. exact (step_noerr _ _ _ _ _ _ _ W1 ES).
    - exfalso. destruct (step_panic _ _ ES) as (now & k & a & -> & HK). destruct (HA _ _ _ eq_refl) as [A B]. rewrite known_req in HK; [discriminate|exact W2|exact A|exact B].
  Qed.
  Lemma rq_pc_range (r : request) : 0 <= rq_pc r < 2.
  Proof. unfold rq_pc. destruct (rq_doc r); unfold pc_dss, pc_dkg; lia. Qed.
  Lemma guest_ok evs tr n T now i g gen : INV evs tr n T -> T <= now -> exists n' o, request_guest ky keccak pshash su n now i g gen = Ok (n', o).
  Proof.
    intros HI HT. unfold request_guest. destruct (nth_error (n_reqs n) i) as [r|] eqn:EN; [|eauto]. destruct (loc_of (rq_locs r) g) as [l|] eqn:EL; [|eauto].
    assert (X : exists y, guest_go ky keccak pshash su n now (rq_key r g) (rq_start r) l gen = Ok y).
    { assert (F : forall fev (y : gloc), T <= time_of fev -> (forall t k a, fev = EvAllow t k a -> 0 <= k_pc k < 2 /\ In (k_guest k) (su_guests su)) ->
        exists z, (x <- firewall ky keccak pshash su n fev ;; Ok (fst x, y, snd x)) = Ok z).
      { intros fev y H1 H2. destruct (firewall_ok _ _ _ _ fev HI H1 H2) as (n' & o & ->). cbn. eauto. }
      unfold guest_go. cbv zeta. destruct l as [|c|c|c|c|c| |].
      - apply F; [exact HT|]. intros t k a E. injection E as _ <- _. cbn [rq_key k_pc k_guest]. split; [apply rq_pc_range|].
        destruct HI as [_ R]. destruct (r_req _ _ _ _ _ _ _ _ R _ _ EN) as (_ & _ & H). apply loc_in in EL. exact (proj1 (H _ _ EL)).
      - destruct (chan_ready n _ c); [apply F; [exact HT|discriminate]|eauto].
      - destruct (now <? _); eauto.
      - destruct (terminated_run _ _); eauto.
      - destruct (chan_ready n _ c); [apply F; [exact HT|discriminate]|eauto].
      - destruct (chan_ready n _ c); [apply F; [exact HT|discriminate]|eauto].
      - destruct (receive _ _ _ _ _ _) as [x| |] eqn:ER; eauto. exfalso. unfold receive in ER. cbn [signal m_pc rq_key k_pc] in ER.
        pose proof (rq_pc_range r). destruct (Z.leb_spec nprots (Z.abs (- rq_pc r))) as [L|L]; [unfold nprots in L; lia|]. destruct (_ <? 0); [destruct (_ && _); discriminate|].
        destruct (negb _); [discriminate|]. destruct (_ && _); discriminate.
      - eauto. }
    destruct X as (y & ->). cbn. eauto.
  Qed.

  (** ** The documents of a signing request are registered while its runs can go on *)
  Definition single evs : Prop := forall k, k_pc k = pc_dss -> (requests_for k evs <= 1)%nat.
  Lemma single_app a b : single (a ++ b) -> single a.
  Proof. intros H k K. specialize (H k K). unfold requests_for in *. rewrite filter_app, app_length in H. lia. Qed.
  Definition DD (n : node) : Prop := forall i r todo, nth_error (n_reqs n) i = Some r -> rq_phase r = RDereg todo -> rq_doc r <> None.
  Lemma dd_step n ev n' o : DD n -> nstep n ev = Ok (n', o) -> DD n'.
  Proof.
    intros HP HS. destruct (req_kinds _ _ _ _ _ _ _ _ HS) as [(E & _)|[(base & start & doc & E & _)|(i & r & r' & EN & E & RT)]]; intros j q td Hq EQ; rewrite E in Hq.
    - exact (HP _ _ _ Hq EQ).
    - apply nth_snoc in Hq. destruct Hq as [[_ ->]|Hq]; [|exact (HP _ _ _ Hq EQ)]. destruct (new_phase su base start doc) as [X|[X _]]; rewrite X in EQ; discriminate.
    - apply nth_put in Hq. destruct Hq as [[-> ->]|Hq]; [|exact (HP _ _ _ Hq EQ)]. pose proof (fun td => HP _ _ td EN) as X.
      destruct RT as [g todo E1|g todo E1|g todo v E1|E1|g l l' o]; cbn in *.
      + destruct (remove g todo); discriminate.
      + exact (X _ E1).
      + destruct (remove g todo); discriminate.
      + destruct (rq_doc r); discriminate.
      + exact (X _ EQ).
  Qed.
  Definition RG (n : node) : Prop := forall i r d g, nth_error (n_reqs n) i = Some r -> rq_doc r = Some d -> In g (su_guests su) ->
    match rq_phase r with RReg todo => In g todo \/ kget (n_docs n) (dkey g (rq_id r)) <> None | RRun => kget (n_docs n) (dkey g (rq_id r)) <> None | _ => True end.
  Lemma sign_matches (r : request) d k : rq_doc r = Some d -> k_pc k = pc_dss -> k_run k = rq_id r -> matches k r = true.
  Proof. intros E1 E2 E3. unfold matches, rq_pc. rewrite E1, E2, E3, Z.eqb_refl. destruct (bytes_eqb_spec (rq_id r) (rq_id r)); [reflexivity|contradiction]. Qed.
  Lemma same_index evs n i j r1 r2 d1 d2 : single evs -> SIGS evs n -> nth_error (n_reqs n) i = Some r1 -> nth_error (n_reqs n) j = Some r2 -> rq_doc r1 = Some d1 -> rq_doc r2 = Some d2 -> rq_id r1 = rq_id r2 -> i = j.
  Proof.
    intros HS SG E1 E2 D1 D2 EI. set (k := mkKey pc_dss 0 (rq_id r1)). apply (two_matches k _ _ _ _ _ E1 E2); [eapply sign_matches; eauto|eapply sign_matches; eauto|].
    rewrite matches_count, SG, <- requests_count. apply HS. reflexivity.
  Qed.
  Lemma rg_step evs n ev n' o : SIGS evs n -> single evs -> DD n -> RG n -> nstep n ev = Ok (n', o) -> RG n'.
  Proof.
    intros SG HU HD HP HS. destruct (req_kinds _ _ _ _ _ _ _ _ HS) as [(E & ED & _)|[(base & start & doc & E & ED & _)|(i & r & r' & EN & E & RT)]]; intros j q d g0 Hq EQ IG; rewrite E in Hq.
    - rewrite ED. exact (HP _ _ _ _ Hq EQ IG).
    - rewrite ED. apply nth_snoc in Hq. destruct Hq as [[_ ->]|Hq]; [|exact (HP _ _ _ _ Hq EQ IG)]. unfold new_request in *. destruct doc as [d0|]; [|discriminate].
      destruct (su_guests su) eqn:EG; [destruct IG|]. cbn. left. exact IG.
    - assert (OTH : nth_error (n_reqs n) j = Some q -> j <> i -> match rq_phase q with RReg todo => In g0 todo \/ kget (n_docs n') (dkey g0 (rq_id q)) <> None | RRun => kget (n_docs n') (dkey g0 (rq_id q)) <> None | _ => True end).
      { intros Hj NE. assert (Y : kget (n_docs n) (dkey g0 (rq_id q)) <> None -> kget (n_docs n') (dkey g0 (rq_id q)) <> None).
        { intros Y. destruct RT as [g todo E1 _ EDo|g todo E1 _ EDo|g todo v E1 _ EDo|E1 _ EDo|g l l' o _ _ EDo]; rewrite EDo; auto.
          - destruct (rq_doc r); [|exact Y]. rewrite kget_kset. destruct (key_eqb _ _); [discriminate|exact Y].
          - rewrite kget_kdel. destruct (key_eqb_spec (dkey g (rq_id r)) (dkey g0 (rq_id q))) as [EK|]; [|exact Y]. injection EK as _ EK. destruct NE.
            destruct (rq_doc r) as [d1|] eqn:ER; [|destruct (HD _ _ _ EN E1 ER)]. eapply same_index; eauto. }
        pose proof (HP _ _ _ _ Hj EQ IG) as X. destruct (rq_phase q); auto. destruct X; auto. }
      destruct (Nat.eq_dec j i) as [->|NE]; [|rewrite put_diff in Hq by exact NE; exact (OTH Hq NE)].
      rewrite (put_same _ _ r' _ EN) in Hq. injection Hq as <-. pose proof (fun d => HP _ _ d g0 EN) as X.
      destruct RT as [g todo E1 IT EDo|g todo E1 _ EDo|g todo v E1 _ EDo|E1 _ EDo|g l l' o _ _ EDo]; rewrite EDo.
      + rewrite E1 in X. assert (ER : rq_doc r = Some d) by (destruct (remove g todo); exact EQ). specialize (X d ER IG). rewrite ER.
        assert (Y : In g0 (remove g todo) \/ kget (kset (n_docs n) (dkey g (rq_id r)) d) (dkey g0 (rq_id r)) <> None).
        { rewrite kget_kset. destruct (key_eqb_spec (dkey g (rq_id r)) (dkey g0 (rq_id r))) as [EK|NK]; [right; discriminate|]. destruct X as [X|X]; [left|right; exact X].
          apply remove_other; [exact X|]. intros ->. apply NK. reflexivity. }
        destruct (remove g todo); cbn; [destruct Y as [[]|Y]; exact Y|exact Y].
      + cbn. destruct (remove g todo); exact I.
      + cbn. destruct (remove g todo); exact I.
      + cbn. destruct (rq_doc r); exact I.
      + cbn in *. exact (X d EQ IG).
  Qed.

  (** ** The state of the runs *)
  Hypothesis HQ : su_queues su = Z.of_nat (length (su_members su)).
  Hypothesis HN : Z.of_nat (length (su_members su)) < N.
  Hypothesis HK : kyber_ok (Z.of_nat (length (su_members su))) ky.
  Hypothesis HT : 1 <= su_T su.
  Hypothesis HL : forall g, In g (su_guests su) -> exists l P Ps, su_long su g = Some l /\ dk_commits l = P :: Ps /\ on_curve (fst P) (snd P).
  Hypothesis ND : NoDup (su_guests su).

  Notation calm := DkgProofs.calm.
  Definition signs (k : key) : bool := negb (k_pc k =? pc_dkg).
  Definition genv (k : key) (e : env) : Prop := if signs k then DkgSpec.env_ok e else True.
  Definition rsafe (k : key) (r : rst payload (kd G)) : Prop := sinv (prot_of (k_pc k)) (run_info su k) calm (SS keccak (run_info su k) (signs k)) r.
  Lemma node_step_safe k : step_safe (prot_of (k_pc k)) (run_info su k) (genv k) (SS keccak (run_info su k) (signs k)).
  Proof. unfold the_prot, genv, signs. destruct (k_pc k =? pc_dkg); cbn [negb]; [eapply dkg_step_safe|eapply dss_step_safe]; eassumption. Qed.
  Lemma node_proc_safe k : proc_safe (prot_of (k_pc k)) (run_info su k) (fun _ => True) calm (SS keccak (run_info su k) (signs k)).
  Proof.
    unfold the_prot, signs. destruct (k_pc k =? pc_dkg); cbn [negb]; [eapply dkg_proc_safe; eassumption|]. intros k0 s f ES EP m e x HM HO _. eapply safe_proc; eauto.
  Qed.
  Lemma prot_stages pc : p_stages (prot_of pc) <> [].
  Proof. unfold the_prot. destruct (_ =? _); discriminate. Qed.
  Lemma new_safe k gen : rsafe k (new_run (new_kd su k gen)).
  Proof.
    split; [intros _ _|split; intros op; constructor]. split; [cbn; intros; lia|]. split; [|cbn; intros; lia]. unfold signs, new_kd. intros E. cbn [r_k new_run kd_args]. unfold args_ok. cbn [kd_args].
    destruct (k_pc k =? pc_dkg); [discriminate|]. eexists. split; [reflexivity|]. cbn. auto.
  Qed.

  Definition fine_events evs : Prop :=
    Forall (fun ev => match ev with
      | VIn _ m => calm m
      | VDeliver _ _ _ _ ord | VTick _ _ _ ord => forall i l, Permutation.Permutation (ord i l) l
      | _ => True end) evs.
  Definition SV (n : node) : Prop := forall j k r, nth_error (n_heap n) j = Some (k, r) -> rsafe k r.

  Record ALL evs tr n : Prop := mkALL {
    a_ni : NI evs tr n; a_sig : SIGS evs n; a_ph : PH n; a_lp : LP su n; a_td : TD n; a_dd : DD n; a_oi : OI tr n;
    a_one : forall k, ONE k evs tr n; a_u : forall k, k_pc k = pc_dss -> U k evs tr n }.
  Lemma history_all evs n tr : history evs n tr -> (exists T, INV evs tr n T) /\ GI tr n /\ ALL evs tr n.
  Proof.
    intros HH. apply (history_ind ky keccak pshash su until now0 ALL) in HH; [exact HH| |].
    - intros evs0 tr0 n0 T ev n' o HI HG LT [A1 A2 A3 A4 A5 A6 A7 A8 A9] HS.
      assert (HU : forall k, k_pc k = pc_dss -> U k (evs0 ++ [ev]) (tr0 ++ o) n') by (intros k KP; eapply u_step; eauto).
      constructor; auto.
      + eapply ni_step; eauto. eapply gi_step; eauto.
      + unfold SIGS. rewrite (step_sigs _ _ _ _ _ _ _ _ HS), A2, flat_map_app. cbn. rewrite app_nil_r. reflexivity.
      + eapply ph_step; eauto.
      + eapply lp_step; eauto.
      + eapply td_step; eauto.
      + eapply dd_step; eauto.
      + eapply nstep_oi; eauto.
      + intros k. eapply one_step; eauto.
    - constructor.
      + apply ni_start.
      + reflexivity.
      + intros [|i] r H; discriminate.
      + intros [|i] r H; discriminate.
      + intros [|i] r g l H; discriminate.
      + intros [|i] r td H; discriminate.
      + eapply (history_oi ky keccak pshash su until now0 []). split; [exact I|reflexivity].
      + intros k _. cbn. split; [lia|congruence].
      + intros k KP. destruct (history_u ky keccak pshash su until now0 k [] (start_node su until now0) [] ND KP) as [_ X]; [split; [exact I|reflexivity]|exact X].
  Qed.
  Lemma history_rg evs n tr : history evs n tr -> single evs -> RG n.
  Proof.
    intros HH. destruct (history_ind ky keccak pshash su until now0 (fun evs tr n => SIGS evs n /\ DD n /\ (single evs -> RG n))) with (3 := HH) as (_ & _ & _ & _ & X); [| |exact X].
    - intros evs0 tr0 n0 T ev n' o HI HG LT (A & B & C) HS. split; [unfold SIGS; rewrite (step_sigs _ _ _ _ _ _ _ _ HS), A, flat_map_app; cbn; rewrite app_nil_r; reflexivity|].
      split; [eapply dd_step; eauto|]. intros S. pose proof (single_app _ _ S). eapply rg_step; eauto.
    - split; [reflexivity|]. split; [intros [|i] r td H; discriminate|]. intros _ [|i] r d g H; discriminate.
  Qed.

  (** A run that has not ended is given a good environment. *)
  Lemma live_env evs n tr j k r nonce ord : history evs n tr -> single evs -> nth_error (n_heap n) j = Some (k, r) -> r_term r = false -> (forall i l, Permutation.Permutation (ord i l) l) ->
    genv k (env_for su n k nonce ord).
  Proof.
    intros HH HS EN ER HP. unfold genv. destruct (signs k) eqn:ES; [|exact I]. destruct (history_all _ _ _ HH) as ((T & HI) & HG & [A1 A2 A3 A4 A5 A6 A7 A8 A9]). pose proof (history_rg _ _ _ HH HS) as RGn.
    destruct HI as [W R]. destruct (r_heap _ _ _ _ _ _ _ _ R _ _ _ EN) as ((t & HC) & PC & _).
    assert (KP : k_pc k = pc_dss) by (unfold signs in ES; destruct (Z.eqb_spec (k_pc k) pc_dkg) as [|NE]; [discriminate|]; unfold pc_dkg, pc_dss in *; lia).
    assert (KG : In (k_guest k) (su_guests su)).
    { apply in_split in HC. destruct HC as (x & y & HC). pose proof (r_tr _ _ _ _ _ _ _ _ R x _ y HC) as (start & doc & tq & (b & _ & _ & _ & Q) & _). exact Q. }
    destruct (ni_h _ _ _ _ A1 _ _ _ EN) as (i & q & EI & M & NE).
    assert (MQ : exists d, rq_doc q = Some d /\ rq_id q = k_run k).
    { unfold matches in M. apply andb_true_iff in M. destruct M as [M1 M2]. apply Z.eqb_eq in M1. destruct (bytes_eqb_spec (rq_id q) (k_run k)); [|discriminate]. unfold rq_pc in M1. rewrite KP in M1. destruct (rq_doc q); [eauto|discriminate]. }
    destruct MQ as (d & MD & MI).
    assert (PQ : rq_phase q = RRun).
    { assert (NR : forall todo, rq_phase q <> RReg todo) by (intros todo X; apply NE; exact (proj2 (g_locs _ _ _ HG _ _ EI) _ X)).
      pose proof (A3 _ _ EI) as P. pose proof (A4 _ _ EI) as L.
      assert (DONE : forallb (fun x => guest_done (snd x)) (rq_locs q) = true -> map fst (rq_locs q) = su_guests su -> False).
      { intros DN LQ. assert (IG : In (k_guest k) (map fst (rq_locs q))) by (rewrite LQ; exact KG). apply in_map_iff in IG. destruct IG as ([g l] & EG & IL). cbn in EG. subst g.
        rewrite forallb_forall in DN. specialize (DN _ IL). cbn in DN. pose proof (A5 _ _ _ _ EI IL DN) as TR.
        assert (EK : rq_key q (k_guest k) = k) by (destruct k; unfold rq_key, rq_pc; rewrite MD; cbn in *; congruence). rewrite EK in TR. apply terminated_in_heap in TR. destruct TR as (j2 & r2 & E2 & T2).
        destruct (A8 k (HS k KP)) as [O1 _]. pose proof (objs_two _ _ _ _ _ _ EN E2 O1) as <-. congruence. }
      destruct (rq_phase q) as [todo| |todo|todo|]; [destruct (NR todo eq_refl)|reflexivity|exfalso; auto..]. }
    pose proof (RGn _ _ _ (k_guest k) EI MD KG) as X. rewrite PQ, MI in X. destruct (HL _ KG) as (l & P & Ps & L1 & L2 & L3).
    split; [exact X|]. split; [exact HP|]. exists l, P, Ps. auto.
  Qed.

  Lemma fine_last evs ev : fine_events (evs ++ [ev]) -> fine_events [ev]. Proof. intros H. apply Forall_app in H. apply H. Qed.
  Lemma fine_init evs ev : fine_events (evs ++ ev) -> fine_events evs. Proof. intros H. apply Forall_app in H. apply H. Qed.

  Lemma cons_msg evs n tr q j m : history evs n tr -> fine_events evs -> kget (n_cons n) q = Some (j, m) ->
    calm m /\ 0 <= m_op m <= final (prot_of (m_pc m)) /\ exists r, nth_error (n_heap n) j = Some (key_of m, r).
  Proof.
    intros HH HF EC. destruct (history_all _ _ _ HH) as ((T & W & R) & HG & HA). destruct (r_cons _ _ _ _ _ _ _ _ R _ _ _ EC) as ((_ & _ & _ & M1 & _) & M2 & M3).
    destruct (M1 M2) as [M4 _]. split; [|split; [unfold final; lia|exact M3]].
    pose proof (take_queued _ _ _ _ HG (ni_c _ _ _ _ (a_ni _ _ _ HA) _ _ _ EC)) as MQ. destruct (ni_q _ _ _ _ (a_ni _ _ _ HA) _ MQ M2) as [_ [[t IV]|OP]].
    - unfold fine_events in HF. rewrite Forall_forall in HF. exact (HF _ IV).
    - split; [intros [X _]|intros [X _]]; lia.
  Qed.
  Lemma deliver_ok evs n tr q j m k r nonce ord : history evs n tr -> fine_events evs -> SV n -> kget (n_cons n) q = Some (j, m) -> nth_error (n_heap n) j = Some (k, r) ->
    exists r' t', deliver (prot_of (k_pc k)) (run_info su k) (env_for su n k nonce ord) r m = Ok (r', t') /\ rsafe k r'.
  Proof.
    intros HH HF HV EC EN. destruct (cons_msg _ _ _ _ _ _ HH HF EC) as (M1 & M2 & r0 & M3). rewrite EN in M3. injection M3 as -> <-.
    destruct (history_all _ _ _ HH) as ((T & W & R) & _ & _). destruct (r_heap _ _ _ _ _ _ _ _ R _ _ _ EN) as (_ & _ & gen & pevs & rtr & EX & _).
    eapply deliver_safe; [apply node_proc_safe|apply prot_last|exact M1|exact M2|exact (run_inv _ _ _ _ _ _ EX)|exact (HV _ _ _ EN)].
  Qed.
  Lemma tick_ok evs n tr j k r now nonce ord : history evs n tr -> single evs -> SV n -> (forall i l, Permutation.Permutation (ord i l) l) -> nth_error (n_heap n) j = Some (k, r) ->
    exists r' t', tick (prot_of (k_pc k)) (run_info su k) (env_for su n k nonce ord) now r = Ok (r', t') /\ rsafe k r'.
  Proof.
    intros HH HS HV HP EN. destruct (history_all _ _ _ HH) as ((T & W & R) & _ & _). destruct (r_heap _ _ _ _ _ _ _ _ R _ _ _ EN) as (_ & _ & gen & pevs & rtr & EX & _).
    eapply tick_safe; [apply node_step_safe| |apply prot_last|apply prot_stages|exact (run_inv _ _ _ _ _ _ EX)|exact (HV _ _ _ EN)|].
    - intros k0 s f ES EP m e x HM HO _. eapply node_proc_safe; eauto.
    - intros ER. eapply live_env; eassumption.
  Qed.
  Lemma sv_step evs n tr ev n' o : history evs n tr -> single evs -> fine_events (evs ++ [ev]) -> SV n -> nstep n ev = Ok (n', o) -> SV n'.
  Proof.
    intros HH HS HF HV ES.
    assert (SAME : n_heap n' = n_heap n -> SV n') by (intros E j k r; rewrite E; apply HV).
    assert (AFT : forall j k r (x : rst payload (kd G) * list (obs payload arg output)), nth_error (n_heap n) j = Some (k, r) -> rsafe k (fst x) -> n_heap n' = put (n_heap n) j (k, fst x) -> SV n').
    { intros j k r x EN RS E j0 k0 r0 H. rewrite E in H. apply nth_put in H. destruct H as [[-> H]|H]; [injection H as -> ->; exact RS|exact (HV _ _ _ H)]. }
    assert (MK : forall k o1, makes su n n' k o1 -> SV n').
    { intros k o1 (gen & t & a & _ & E & _) j k0 r0 H. rewrite E in H. apply nth_snoc in H. destruct H as [[_ H]|H]; [injection H as -> ->; apply new_safe|exact (HV _ _ _ H)]. }
    destruct ev as [now base start doc|now i g|now i|now i g gen|now m|now|now k c|now pc g gen|now pc g nonce ord|now j nonce ord]; cbn [Node.nstep] in ES;
      try (apply SAME; exact (proj1 (fw_plain _ _ _ _ _ _ _ _ ES))).
    - injection ES as <- <-. apply SAME. reflexivity.
    - apply SAME. unfold request_go in ES. destruct (nth_error (n_reqs n) i) as [r|] eqn:EN; [|injection ES as <- <-; reflexivity].
      destruct (rq_phase r) as [todo| |todo|todo|]; try (injection ES as <- <-; reflexivity); (destruct (existsb (Z.eqb g) todo); [|injection ES as <- <-; reflexivity]); cbv zeta in ES.
      + injection ES as <- <-. destruct (rq_doc r); reflexivity.
      + injection ES as <- <-. reflexivity.
      + destruct (rq_doc r), (snd (pop_output (n_outs n) (rq_key r g))) as [[]|]; try discriminate; try (injection ES as <- <-; reflexivity). destruct (_ <? _)%nat; [discriminate|]. injection ES as <- <-. reflexivity.
    - injection ES as <- <-. apply SAME. unfold request_wait. destruct (nth_error (n_reqs n) i) as [r|]; [|reflexivity]. destruct (rq_phase r); try reflexivity. destruct (forallb _ _); reflexivity.
    - unfold request_guest in ES. destruct (nth_error (n_reqs n) i) as [r|] eqn:EN; [|injection ES as <- <-; apply SAME; reflexivity].
      destruct (loc_of (rq_locs r) g) as [l|] eqn:EL; [|injection ES as <- <-; apply SAME; reflexivity].
      destruct (guest_go _ _ _ _ _ _ _ _ _ _) as [[[n1 l1] o1]| |] eqn:EG; cbn [rbind fst snd] in ES; try discriminate. injection ES as <- <-.
      destruct (guest_heap _ _ _ _ _ _ _ _ _ _ _ _ _ EG) as ([[E _]|M] & _); [apply SAME; exact E|exact (MK _ _ M)].
    - injection ES as ES. unfold consumer_take in ES; change (@fw_key) with (@key_of) in ES. destruct (kget (n_cons n) (qkey pc g)); [injection ES as <- <-; apply SAME; reflexivity|].
      destruct (kslice (n_qs n) (qkey pc g)) as [|m q]; [injection ES as <- <-; apply SAME; reflexivity|]. cbv zeta in ES.
      destruct (m_pc m <? 0); [injection ES as <- <-; apply SAME; reflexivity|].
      destruct (ensure_run su _ now (key_of m) gen) as [[n2 j] o2] eqn:EE. injection ES as <- <-. cbn [fst snd] in *.
      destruct (ensure_plain _ _ _ _ _ _ _ _ EE) as [[E _]|M]; [apply SAME; exact E|exact (MK _ _ M)].
    - unfold consumer_deliver in ES. destruct (kget (n_cons n) (qkey pc g)) as [[j m]|] eqn:EC; [|injection ES as <- <-; apply SAME; reflexivity].
      destruct (nth_error (n_heap n) j) as [[k r]|] eqn:EN; [|discriminate].
      destruct (deliver_ok _ _ _ _ _ _ _ _ nonce ord HH (fine_init _ _ HF) HV EC EN) as (r' & t' & ED & RS). rewrite ED in ES. cbn [rbind] in ES. cbv zeta in ES. injection ES as <- <-.
      apply (AFT j k r (r', t') EN RS). reflexivity.
    - unfold run_tick in ES. destruct (nth_error (n_heap n) j) as [[k r]|] eqn:EN; [|injection ES as <- <-; apply SAME; reflexivity].
      destruct (now <? r_wake r); [injection ES as <- <-; apply SAME; reflexivity|].
      assert (HP : forall i l, Permutation.Permutation (ord i l) l) by (apply fine_last in HF; inversion HF; assumption).
      destruct (tick_ok _ _ _ _ _ _ now nonce ord HH HS HV HP EN) as (r' & t' & ED & RS). rewrite ED in ES. cbn [rbind] in ES. injection ES as <- <-.
      apply (AFT j k r (r', t') EN RS). reflexivity.
  Qed.

  (** ** Histories *)
  Lemma history_snoc evs ev n tr n' tr' : history (evs ++ [ev]) n' tr' -> nexec (start_node su until now0) evs = Ok (n, tr) -> exists o, nstep n ev = Ok (n', o) /\ tr' = tr ++ o.
  Proof.
    intros [_ HE] E. rewrite nexec_app, E in HE. cbn [rbind fst snd] in HE. cbn [Node.nexec] in HE. destruct (nstep n ev) as [[n1 o1]| |]; cbn in HE; try discriminate. injection HE as <- <-.
    rewrite app_nil_r. eauto.
  Qed.
  Lemma history_sv evs : forall n tr, history evs n tr -> single evs -> fine_events evs -> SV n.
  Proof.
    induction evs as [|ev evs IH] using rev_ind; intros n tr HH HS HF.
    - destruct HH as [_ HE]. injection HE as <- <-. intros [|j] k r H; discriminate.
    - assert (X : exists n0 tr0, history evs n0 tr0).
      { destruct HH as [HC HE]. rewrite nexec_app in HE. destruct (nexec (start_node su until now0) evs) as [[n0 tr0]| |] eqn:E; try discriminate. exists n0, tr0. split; [eapply nclock_app, HC|exact E]. }
      destruct X as (n0 & tr0 & H0). destruct (history_snoc _ _ _ _ _ _ HH (proj2 H0)) as (o & ES & _). pose proof (single_app _ _ HS) as HS0.
      eapply sv_step; [exact H0|exact HS0|exact HF|exact (IH _ _ H0 HS0 (fine_init _ _ HF))|exact ES].
  Qed.

  (** The one way to crash: a key generation whose request is collecting the shares, when a share is missing or some
      member did not qualify. *)
  Definition bad_share (n : node) (i : nat) (g : Z) : Prop :=
    exists r todo, nth_error (n_reqs n) i = Some r /\ rq_doc r = None /\ rq_phase r = RPop todo /\ In g todo /\
      forall s q, kget (n_outs n) (rq_key r g) = Some (VShare s q) -> (length q < length (su_members su))%nat.
  Lemma go_ok evs n tr i g : history evs n tr -> (exists n' o, request_go su n i g = Ok (n', o)) \/ bad_share n i g.
  Proof.
    intros HH. destruct (history_all _ _ _ HH) as ((T & W & R) & _ & HA). unfold request_go. destruct (nth_error (n_reqs n) i) as [r|] eqn:EN; [|left; eauto].
    destruct (rq_phase r) as [todo| |todo|todo|] eqn:EP; try (left; eauto; fail); (destruct (existsb (Z.eqb g) todo) eqn:EI; [|left; eauto]); cbv zeta; [left; eauto|left; eauto|].
    change (snd (pop_output (n_outs n) (rq_key r g))) with (kget (n_outs n) (rq_key r g)).
    assert (X : forall v, kget (n_outs n) (rq_key r g) = Some v -> exists k' pre, k_guest k' = g /\ k_run k' = rq_id r /\
      on_request ky keccak pshash su evs k' (OOutput (rq_pc r) v) /\ from_generator ky evs k' (OOutput (rq_pc r) v) /\ pre = tr).
    { intros v EV. destruct (oi_outs _ _ (a_oi _ _ _ HA) _ _ EV) as (k' & K1 & K2 & K3). apply in_split in K3. destruct K3 as (x & y & K3).
      destruct (r_tr _ _ _ _ _ _ _ _ R x _ y K3) as (_ & O1 & O2). exists k', tr. auto. }
    unfold bad_share. destruct (rq_doc r) as [d|] eqn:ED.
    - left. destruct (kget _ _) as [v|] eqn:EV; [|eauto]. destruct (X v eq_refl) as (k' & _ & _ & _ & O1 & _). unfold rq_pc in O1. rewrite ED in O1. cbn in O1.
      destruct (O1 eq_refl) as (doc & start & t & dd & ord & s & _ & _ & _ & _ & ->). eauto.
    - assert (BAD : (forall s q, kget (n_outs n) (rq_key r g) = Some (VShare s q) -> (length q < length (su_members su))%nat) -> exists r0 todo0, nth_error (n_reqs n) i = Some r0 /\ rq_doc r0 = None /\ rq_phase r0 = RPop todo0 /\ In g todo0 /\
        forall s q, kget (n_outs n) (rq_key r0 g) = Some (VShare s q) -> (length q < length (su_members su))%nat) by (intros H; exists r, todo; repeat split; auto; apply in_existsb; exact EI).
      destruct (kget _ _) as [v|] eqn:EV; [|right; apply BAD; discriminate]. destruct (X v eq_refl) as (k' & _ & _ & _ & _ & O2 & _). unfold rq_pc in O2. rewrite ED in O2. cbn in O2.
      destruct (O2 eq_refl) as (s & st1 & st2 & -> & _). destruct (Nat.ltb_spec (length (ky_qual ky st1)) (length (su_members su))) as [L|L]; [right|left; eauto].
      apply BAD. intros s0 q0 E0. injection E0 as _ <-. exact L.
  Qed.
  Lemma step_ok evs n tr ev : history evs n tr -> nclock now0 (evs ++ [ev]) -> single (evs ++ [ev]) -> fine_events (evs ++ [ev]) ->
    (exists n' o, nstep n ev = Ok (n', o)) \/ exists t i g, ev = VGo t i g /\ bad_share n i g.
  Proof.
    intros HH HC HS HF. pose proof (single_app _ _ HS) as HS0. pose proof (fine_init _ _ HF) as HF0. pose proof (history_sv _ _ _ HH HS0 HF0) as HV.
    assert (HI : exists T, INV evs tr n T /\ T <= ntime ev).
    { exists (tlast now0 evs). split; [exact (time_inv _ _ _ HH)|exact (nclock_last _ _ _ HC)]. }
    destruct HI as (T & HI & LT).
    assert (FW : forall fev, (forall t k a, fev <> EvAllow t k a) -> time_of fev = ntime ev -> exists n' o, firewall ky keccak pshash su n fev = Ok (n', o)).
    { intros fev H1 H2. eapply firewall_ok; [exact HI|lia|]. intros t k a E. destruct (H1 _ _ _ E). }
    destruct ev as [now base start doc|now i g|now i|now i g gen|now m|now|now k c|now pc g gen|now pc g nonce ord|now j nonce ord]; cbn [Node.nstep]; try (left; apply FW; [discriminate|reflexivity]); try (left; eauto; fail).
    - destruct (go_ok _ _ _ i g HH) as [X|X]; [left; exact X|right; eauto].
    - left. eapply guest_ok; eauto.
    - left. unfold consumer_take; change (@fw_key) with (@key_of). destruct (match _ with Some _ => _ | None => _ end) as [n1 o1]. eauto.
    - left. unfold consumer_deliver. destruct (kget (n_cons n) (qkey pc g)) as [[j m]|] eqn:EC; [|eauto].
      destruct (cons_msg _ _ _ _ _ _ HH HF0 EC) as (_ & _ & r & EN). rewrite EN. destruct (deliver_ok _ _ _ _ _ _ _ _ nonce ord HH HF0 HV EC EN) as (r' & t' & -> & _). cbn. eauto.
    - left. unfold run_tick. destruct (nth_error (n_heap n) j) as [[k r]|] eqn:EN; [|eauto]. destruct (now <? r_wake r); [eauto|].
      assert (HP : forall i l, Permutation.Permutation (ord i l) l) by (apply fine_last in HF; inversion HF; assumption).
      destruct (tick_ok _ _ _ _ _ _ now nonce ord HH HS0 HV HP EN) as (r' & t' & -> & _). cbn. unfold run_after. eauto.
  Qed.
  Lemma node_survives evs : nclock now0 evs -> single evs -> fine_events evs ->
    (exists n tr, history evs n tr) \/
    exists a t i g b n tr, evs = a ++ VGo t i g :: b /\ history a n tr /\ bad_share n i g.
  Proof.
    induction evs as [|ev evs IH] using rev_ind; intros HC HS HF; [left; eexists _, _; split; [exact I|reflexivity]|].
    destruct IH as [(n & tr & HH)|(a & t & i & g & b & n & tr & -> & X)]; [eapply nclock_app, HC|exact (single_app _ _ HS)|exact (fine_init _ _ HF)| |].
    - destruct (step_ok _ _ _ ev HH HC HS HF) as [(n' & o & ES)|(t & i & g & -> & B)].
      + left. exists n', (tr ++ o). split; [exact HC|]. rewrite nexec_app, (proj2 HH). cbn [rbind fst snd Node.nexec]. rewrite ES. cbn. rewrite app_nil_r. reflexivity.
      + right. exists evs, t, i, g, [], n, tr. auto.
    - right. exists a, t, i, g, (b ++ [ev]), n, tr. rewrite <- app_assoc. auto.
  Qed.
End NP.
