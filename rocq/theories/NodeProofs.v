(** Invariant of a running node. *)
From Coq Require Import ZArith List Lia Bool.
From Coq Require Import Init.Byte.
From Verif Require Import Params Bytes Res Secp Dto Dss Prot ProtSpec ProtProofs3 ProtProofs6 DkgProt DkgProofs KMap Firewall FwSpec FwProofs FwProofs2 FwProofs3 FwProofs4
  Outputs Node NodeSpec NodeRun NodeRun2 DkgSpec.
Import ListNotations.
Open Scope Z_scope.

(** ** Slots of the firewall *)
Section Slots.
  Context {D : Type}.
  Notation fw := (fw D). Notation fobs := (fobs D). Notation fevent := (fevent D).
  (** [x] of what the channel was told has been received. *)
  Definition slot_at (f : fw) (k : key) (c x : nat) : Prop :=
    exists s, nth_error (kslice (f_calls f) k) c = Some s /\ (x + length (sl_chan s) <= done s)%nat.
  Lemma slot_put (f g : fw) k c x k' n s s' : f_calls g = f_calls f -> nth_error (kslice (f_calls f) k') n = Some s ->
    (forall y, y + length (sl_chan s) <= done s -> y + length (sl_chan s') <= done s')%nat -> slot_at f k c x -> slot_at (put_slot g k' n s') k c x.
  Proof.
    intros EG EN H (s0 & E0 & L0). unfold slot_at, put_slot. cbn [set_calls f_calls]. rewrite kslice_kset, EG. destruct (key_eqb_spec k' k) as [->|]; [|eauto].
    rewrite put_nth. destruct (Nat.eqb_spec c n) as [->|]; [|eauto]. rewrite (nth_lt _ _ _ EN).
    rewrite EN in E0. injection E0 as <-. exists s'. split; [reflexivity|]. apply H, L0.
  Qed.
  Lemma told_len c v c' : told c v = Ok c' -> length c' = S (length c).
  Proof. unfold told. destruct (_ <? _)%nat; [|discriminate]. intros H. injection H as <-. rewrite app_length. cbn. lia. Qed.
  Lemma slot_step (f f' : fw) ev o k c x : fstep f ev = Ok (f', o) -> slot_at f k c x -> slot_at f' k c x.
  Proof.
    intros HS H. destruct ev as [now m|now|now k' a|now k' n|now k' n]; cbn [fstep] in HS.
    - injection HS as <- _. unfold fw_process; change (@fw_key) with (@key_of). destruct (_ || _); [exact H|]. destruct (kget _ _) as [st|]; [|exact H].
      destruct (st =? _); [destruct (_ <? _); exact H|]. destruct (st =? _); exact H.
    - destruct (_ && _); injection HS as <- _; exact H.
    - unfold fw_set_allowance in HS. destruct (negb _); [discriminate|]. destruct H as (s & E & L).
      destruct (kget _ _); injection HS as <- _; exists s; cbn; rewrite kslice_kset; (destruct (key_eqb_spec k' k) as [->|]; [|auto]);
      (rewrite nth_error_app1; [auto|]; apply nth_error_Some; congruence).
    - unfold fw_state_step in HS. destruct (nth_error _ n) as [s|] eqn:EN; [|injection HS as <- _; exact H].
      destruct (sl_thread s) as [[|a|a|a|]|] eqn:ET; try (injection HS as <- _; exact H);
        try (destruct (_ <? _); [injection HS as <- _; exact H|]; destruct (told _ _) as [c'| |] eqn:TT; try discriminate; apply told_len in TT); injection HS as <- _;
        (eapply slot_put; [|exact EN| |exact H]; [reflexivity|]; intros y; unfold done; rewrite ET; cbn; lia).
    - injection HS as <- _. unfold fw_recv. destruct (nth_error _ n) as [s|] eqn:EN; [|exact H].
      eapply slot_put; [|exact EN| |exact H]; [reflexivity|]. intros y. unfold done. cbn. destruct (sl_chan s); cbn; lia.
  Qed.
  Lemma slot_recv (f f' : fw) now o k c x : fstep f (EvRecv now k c) = Ok (f', o) ->
    match nth_error (kslice (f_calls f) k) c with Some s => match sl_chan s with [] => false | _ => true end | None => false end = true ->
    slot_at f k c x -> slot_at f' k c (S x).
  Proof.
    cbn [fstep]. intros HS HC (s & E & L). rewrite E in HC. injection HS as <- _. unfold fw_recv. rewrite E.
    destruct (sl_chan s) as [|v l] eqn:EC; [discriminate|]. exists (mkSlot (sl_thread s) l). unfold put_slot. cbn [set_calls f_calls].
    rewrite kslice_kset, key_eqb_refl, put_nth, Nat.eqb_refl, (nth_lt _ _ _ E). split; [reflexivity|]. unfold done in *. cbn [sl_thread sl_chan length] in *. lia.
  Qed.
  Lemma slot_new (f f' : fw) now o k a : fstep f (EvAllow now k a) = Ok (f', o) -> slot_at f' k (length (kslice (f_calls f) k)) 0.
  Proof.
    cbn [fstep]. unfold fw_set_allowance. destruct (negb _); [discriminate|].
    destruct (kget _ _); intros HS; injection HS as <- _; unfold slot_at; cbn; rewrite kslice_kset, key_eqb_refl, nth_error_app2, Nat.sub_diag by lia; eexists; (split; [reflexivity|cbn; lia]).
  Qed.
  (** What a channel is told has happened. *)
  Lemma told_phase (f f' : fw) ev o t k n v : fstep f ev = Ok (f', o) -> In (FTold t k n v) o -> In (FPhase t k v) o.
  Proof.
    intros HS. destruct ev as [now m|now|now k' a|now k' c|now k' c]; cbn [fstep] in HS.
    - injection HS as _ <-. unfold fw_process; change (@fw_key) with (@key_of). destruct (_ || _); [|destruct (kget _ _) as [st|]; [destruct (st =? _); [destruct (_ <? _)|destruct (st =? _)]|]]; cbn; intuition congruence.
    - destruct (_ && _); injection HS as _ <-; cbn; intuition congruence.
    - unfold fw_set_allowance in HS. destruct (negb _); [discriminate|]. destruct (kget _ _); injection HS as _ <-; cbn; intuition congruence.
    - unfold fw_state_step in HS. destruct (nth_error _ c) as [s|]; [|injection HS as _ <-; contradiction].
      destruct (sl_thread s) as [[|a|a|a|]|]; try (injection HS as _ <-; contradiction); destruct (_ <? _); try (injection HS as _ <-; contradiction);
        destruct (told _ _); try discriminate; injection HS as _ <-; rewrite ?in_app_iff; cbn; try (intuition congruence).
      intros [H|H]; [apply in_map_iff in H; destruct H as (m & X & _); discriminate X|intuition congruence].
    - injection HS as _ <-. contradiction.
  Qed.
  Lemma step_set (f f' : fw) ev o t k a : fstep f ev = Ok (f', o) -> In (FSet t k a) o -> ev = EvAllow t k a.
  Proof.
    intros HS HI. assert (E : fexec f [ev] = Ok (f', o ++ [])) by (cbn; rewrite HS; reflexivity).
    destruct (obs_from _ _ _ _ E) as [_ X]. destruct (X t k a) as [Y|[]]; [apply in_or_app; auto|exact Y].
  Qed.
End Slots.

Section NP.
  Context {G : Type}.
  Variable ky : kyber G.
  Variable keccak : bytes -> bytes.
  Variable pshash : Z -> Z -> bytes.
  Variable su : setup.
  Variables until now0 : Z.
  Notation message := (message payload).
  Notation nevent := (nevent (G := G)). Notation node := (node (G := G)).
  Implicit Types (evs : list nevent) (n : node) (tr : list nobs).
  Notation prot_of := (the_prot ky keccak pshash).
  Notation kn := (fun k => known (D := payload) (make_fw (D := payload) nprots (su_guests su) until now0) (k_pc k) (k_guest k)).
  Notation fw_sound := (sound (D := payload) (now0 <? until) until kn).

  Lemma fwt_app a b : fw_trace (a ++ b) = fw_trace a ++ fw_trace b. Proof. apply flat_map_app. Qed.
  Lemma guest_in g : is_guest su g = true <-> In g (su_guests su).
  Proof. unfold is_guest. rewrite existsb_exists. split; [intros (x & H & E); apply Z.eqb_eq in E; congruence|intros H; exists g; rewrite Z.eqb_refl; auto]. Qed.
  Lemma known_in (f : fw payload) k : consts f = consts (make_fw (D := payload) nprots (su_guests su) until now0) -> known f (k_pc k) (k_guest k) = true ->
    0 <= k_pc k < 2 /\ In (k_guest k) (su_guests su).
  Proof.
    unfold consts, known. intros E. injection E as -> -> _. rewrite !andb_true_iff, Z.leb_le, Z.ltb_lt. intros [[A B] C]. split; [unfold nprots in *; lia|apply guest_in, C].
  Qed.

  (** The operator asked for [k], with a start that is not after [T]. *)
  Definition req_by (evs : list nevent) (k : key) (T : Z) : Prop :=
    exists start doc t, requested su evs k start doc t /\ t <= T /\ start <= T.
  Definition docs_for (evs : list nevent) (k : key) (d : Z) : Prop := exists start t, requested su evs k start (Some d) t.

  Definition msg_ok (evs : list nevent) (tr : list nobs) (T : Z) (q : key) (m : message) : Prop :=
    q = qkey (Z.abs (m_pc m)) (m_rcpt m) /\ Z.abs (m_pc m) < 2 /\ In (m_rcpt m) (su_guests su) /\
    (0 <= m_pc m -> 0 <= m_op m < Z.of_nat (length (p_stages (prot_of (m_pc m)))) /\ req_by evs (key_of m) T) /\
    (m_pc m < 0 -> In (NCleanup (mkKey (- m_pc m) (m_rcpt m) (m_run m))) tr).
  Definition run_from (evs : list nevent) (tr : list nobs) (k : key) (r : rst payload (kd G)) : Prop :=
    (exists t, In (NCreate t k) tr) /\ 0 <= k_pc k < 2 /\
    exists gen pevs rtr, exec (prot_of (k_pc k)) (run_info su k) (new_run (new_kd su k gen)) pevs = Ok (r, rtr) /\ made_for evs (k_guest k) gen /\
      Forall (fun ev => env_from (docs_for evs (mkKey pc_dss (k_guest k) (k_run k))) (su_long su (k_guest k)) (drawn evs) (env_of ev)) pevs.
  Definition loc_ok (f : fw payload) (k : key) (start T : Z) (l : gloc) : Prop :=
    match l with
    | GAllow => True | GBuf c => slot_at f k c 0 | GSleep c => slot_at f k c 1
    | GTerm c | GClean2 c => start <= T /\ slot_at f k c 1 | GClean1 c => start <= T /\ slot_at f k c 2
    | GSignal | GEnd => start <= T /\ exists c, slot_at f k c 3
    end.
  Definition req_ok (evs : list nevent) (f : fw payload) (T : Z) (r : request) : Prop :=
    (exists t base, In (VRequest t base (rq_start r) (rq_doc r)) evs /\ t <= T /\ rq_id r = run_id_for base (rq_start r)) /\
    (forall todo, rq_phase r = RReg todo -> incl todo (su_guests su)) /\
    (forall g l, In (g, l) (rq_locs r) -> In g (su_guests su) /\ loc_ok f (rq_key r g) (rq_start r) T l).
  Definition ok_at (evs : list nevent) (pre : list nobs) (o : nobs) : Prop :=
    match o with
    | NCreate t k => req_by evs k t
    | NDelete k => In (NCleanup k) pre /\ k_pc k = pc_dss
    | NCleanup k => (exists t, In (NFw (FPhase t k fw_stopped)) pre) /\ exists t, req_by evs k t
    | NQueued m => in_range ky keccak pshash su m \/ m_pc m < 0 /\ In (NCleanup (mkKey (- m_pc m) (m_rcpt m) (m_run m))) pre
    | NRun k o => (exists t, In (NCreate t k) pre) /\ on_request ky keccak pshash su evs k o /\ from_generator ky evs k o
    | _ => True
    end.
  Definition good_tr (evs : list nevent) (tr : list nobs) : Prop := forall a o b, tr = a ++ o :: b -> ok_at evs a o.

  Record rest (evs : list nevent) (tr : list nobs) (n : node) (T : Z) : Prop := mkRest {
    r_q : forall q m, In m (kslice (n_qs n) q) -> msg_ok evs tr T q m;
    r_cons : forall q j m, kget (n_cons n) q = Some (j, m) -> msg_ok evs tr T q m /\ 0 <= m_pc m /\ exists r, nth_error (n_heap n) j = Some (key_of m, r);
    r_tab : forall k j, kget (n_table n) k = Some j -> exists r, nth_error (n_heap n) j = Some (k, r);
    r_heap : forall j k r, nth_error (n_heap n) j = Some (k, r) -> run_from evs tr k r;
    r_docs : forall g id d, kget (n_docs n) (dkey g id) = Some d -> docs_for evs (mkKey pc_dss g id) d;
    r_req : forall i r, nth_error (n_reqs n) i = Some r -> req_ok evs (n_fw n) T r;
    r_tr : good_tr evs tr }.
  Record fwok (evs : list nevent) (tr : list nobs) (f : fw payload) (T : Z) : Prop := mkFwok {
    w_sound : fw_sound f (fw_trace tr) T;
    w_consts : consts f = consts (make_fw (D := payload) nprots (su_guests su) until now0);
    w_set : forall t k a, In (FSet t k a) (fw_trace tr) -> exists start doc tq, requested su evs k start doc tq /\ tq <= t /\ a = allowance_for ky keccak pshash (k_pc k) start;
    w_told : forall t k c v, In (FTold t k c v) (fw_trace tr) -> In (FPhase t k v) (fw_trace tr);
    w_pass : forall t m, In (FPass t m) (fw_trace tr) -> 0 <= m_pc m < 2 /\ In (m_rcpt m) (su_guests su) /\ req_by evs (key_of m) t }.
  Definition INV evs tr n T := fwok evs tr (n_fw n) T /\ rest evs tr n T.

  (** *** Weakening *)
  Lemma requested_mono evs evs' k start doc t : incl evs evs' -> requested su evs k start doc t -> requested su evs' k start doc t.
  Proof. intros H (b & A & B). exists b. auto. Qed.
  Lemma req_by_mono evs evs' k T T' : incl evs evs' -> T <= T' -> req_by evs k T -> req_by evs' k T'.
  Proof. intros H L (s & d & t & A & B & C). exists s, d, t. split; [eapply requested_mono; eassumption|lia]. Qed.
  Lemma docs_mono evs evs' k d : incl evs evs' -> docs_for evs k d -> docs_for evs' k d.
  Proof. intros H (s & t & A). exists s, t. eapply requested_mono; eassumption. Qed.
  Lemma msg_mono evs evs' tr o T T' q m : incl evs evs' -> T <= T' -> msg_ok evs tr T q m -> msg_ok evs' (tr ++ o) T' q m.
  Proof.
    intros H L (A & B & C & E & F). repeat (split; [assumption|]). split.
    - intros X. destruct (E X) as [E1 E2]. split; [exact E1|]. eapply req_by_mono; eassumption.
    - intros X. apply in_or_app. auto.
  Qed.
  Lemma made_mono (evs evs' : list nevent) g (gen : G) : incl evs evs' -> made_for evs g gen -> made_for evs' g gen.
  Proof. intros H [(t & i & X)|(t & pc & X)]; [left; exists t, i; auto|right; exists t, pc; auto]. Qed.
  Lemma drawn_mono (evs evs' : list nevent) ord : incl evs evs' -> drawn evs ord -> drawn evs' ord.
  Proof. intros H [(t & pc & g & no & X)|(t & j & no & X)]; [left; exists t, pc, g, no; auto|right; exists t, j, no; auto]. Qed.
  Lemma gen_mono (evs evs' : list nevent) g (st : G) : incl evs evs' -> generator_of ky evs g st -> generator_of ky evs' g st.
  Proof. intros H (gen & A & B). exists gen. split; [eapply made_mono; eassumption|exact B]. Qed.
  Lemma instance_mono (evs evs' : list nevent) g doc d : incl evs evs' -> instance_for ky keccak pshash su evs g doc d -> instance_for ky keccak pshash su evs' g doc d.
  Proof. intros H (l & rd & st & d0 & cs & A & B & C). exists l, rd, st, d0, cs. split; [exact A|]. split; [eapply gen_mono; eassumption|exact C]. Qed.
  Lemma from_mono evs evs' k o : incl evs evs' -> from_generator ky evs k o -> from_generator ky evs' k o.
  Proof.
    intros H. destruct o; cbn; auto. intros X Y. destruct (X Y) as (s & st1 & st2 & A & B & C). exists s, st1, st2. split; [exact A|]. split; [eapply gen_mono; eassumption|exact C].
  Qed.
  Lemma run_mono evs evs' tr o k r : incl evs evs' -> run_from evs tr k r -> run_from evs' (tr ++ o) k r.
  Proof.
    intros H ((t & A) & B & gen & pevs & rtr & C & M & F). split; [exists t; apply in_or_app; auto|]. split; [exact B|]. exists gen, pevs, rtr. split; [exact C|].
    split; [eapply made_mono; eassumption|].
    eapply Forall_impl; [|exact F]. intros ev (E1 & E2 & E3). split; [exact E1|]. split; [|eapply drawn_mono; eassumption]. intros d X. eapply docs_mono; [exact H|auto].
  Qed.
  Lemma loc_mono f f' k start T T' l : T <= T' -> (forall c x, slot_at f k c x -> slot_at f' k c x) -> loc_ok f k start T l -> loc_ok f' k start T' l.
  Proof. intros L H. destruct l; cbn; auto; intros [A B]; (split; [lia|]); auto; destruct B as [c B]; eauto. Qed.
  Lemma req_mono evs evs' f f' T T' r : incl evs evs' -> T <= T' -> (forall k c x, slot_at f k c x -> slot_at f' k c x) -> req_ok evs f T r -> req_ok evs' f' T' r.
  Proof.
    intros H L S ((t & b & A1 & A2 & A3) & B & C). split; [exists t, b; split; [auto|split; [lia|exact A3]]|]. split; [exact B|].
    intros g l Hg. destruct (C g l Hg) as [C1 C2]. split; [exact C1|]. eapply loc_mono; [exact L|apply S|exact C2].
  Qed.
  Lemma on_mono evs evs' k o : incl evs evs' -> on_request ky keccak pshash su evs k o -> on_request ky keccak pshash su evs' k o.
  Proof.
    intros H. destruct o; cbn; auto; intros X Y; destruct (X Y) as (doc & start & t & R); exists doc, start, t;
    [destruct R as (d & d' & no & sg & w & R & Z1 & Z0); exists d, d', no, sg, w|destruct R as (d & d' & no & sg & w & R & Z1 & Z0); exists d, d', no, sg, w
    |destruct R as (d & ord & s & R & Z1 & Z2 & Z0); exists d, ord, s];
    (split; [eapply requested_mono; eassumption|]; split; [eapply instance_mono; eassumption|]); try exact Z0. split; [eapply drawn_mono; eassumption|exact Z0].
  Qed.
  Lemma ok_mono evs evs' pre o : incl evs evs' -> ok_at evs pre o -> ok_at evs' pre o.
  Proof.
    intros H. destruct o as [f|m|m|m|t k|k|k o|k|k v]; cbn; auto.
    - apply req_by_mono; [exact H|lia].
    - intros (A & B & C). split; [exact A|]. split; [eapply on_mono; eassumption|eapply from_mono; eassumption].
    - intros [A [t B]]. split; [exact A|]. exists t. eapply req_by_mono; [exact H|apply Z.le_refl|exact B].
  Qed.
  Lemma good_app evs tr o : good_tr evs tr -> (forall a x b, o = a ++ x :: b -> ok_at evs (tr ++ a) x) -> good_tr evs (tr ++ o).
  Proof.
    intros H1 H2 a x b E. apply app_eq_app in E. destruct E as (l & [[-> E]|[-> E]]).
    - destruct l as [|y l]; cbn in E; [subst; pose proof (H2 [] x b eq_refl) as X; rewrite !app_nil_r in X; exact X|].
      injection E as <- E. apply (H1 a x l). reflexivity.
    - apply (H2 l x b E).
  Qed.
  Lemma good_one evs tr x : good_tr evs tr -> ok_at evs tr x -> good_tr evs (tr ++ [x]).
  Proof.
    intros H1 H2. apply good_app; [exact H1|]. intros [|y a] z b E; cbn in E; [injection E as <- _; rewrite app_nil_r; exact H2|].
    injection E as _ E. destruct a; discriminate.
  Qed.

  Lemma rest_mono evs evs' tr n T T' : incl evs evs' -> T <= T' -> rest evs tr n T -> rest evs' tr n T'.
  Proof.
    intros H L [A B C E F I J]. constructor.
    - intros q m Hm. rewrite <- (app_nil_r tr). eapply msg_mono; eauto.
    - intros q j m Hm. destruct (B q j m Hm) as (B1 & B2 & B3). split; [|auto]. rewrite <- (app_nil_r tr). eapply msg_mono; eauto.
    - exact C.
    - intros j k r Hr. rewrite <- (app_nil_r tr). eapply run_mono; eauto.
    - intros g id d Hd. eapply docs_mono; eauto.
    - intros i r Hr. eapply req_mono; eauto.
    - intros a o b E0. eapply ok_mono; [exact H|]. eapply J, E0.
  Qed.
  Lemma fwok_mono evs evs' tr f T T' : incl evs evs' -> T <= T' -> fwok evs tr f T -> fwok evs' tr f T'.
  Proof.
    intros H L [(A1 & A2 & A3 & A4) B C E F]. constructor.
    - split; [exact A1|]. split; [exact A2|]. split; [exact A3|]. intros k. eapply ki_time; [exact L|apply A4].
    - exact B.
    - intros t k a Hs. destruct (C t k a Hs) as (s & d & tq & X1 & X2). exists s, d, tq. split; [eapply requested_mono; eassumption|exact X2].
    - exact E.
    - intros t m Hm. destruct (F t m Hm) as (F1 & F2 & F3). split; [exact F1|]. split; [exact F2|]. eapply req_by_mono; [exact H|apply Z.le_refl|exact F3].
  Qed.

  (** Appending to the trace. *)
  Lemma rest_tr evs tr o n T : rest evs tr n T -> (forall a x b, o = a ++ x :: b -> ok_at evs (tr ++ a) x) -> rest evs (tr ++ o) n T.
  Proof.
    intros [A B C E F I J] H. constructor; try assumption.
    - intros q m Hm. eapply msg_mono; [apply incl_refl|apply Z.le_refl|auto].
    - intros q j m Hm. destruct (B q j m Hm) as (B1 & B2 & B3). split; [|auto]. eapply msg_mono; [apply incl_refl|apply Z.le_refl|auto].
    - intros j k r Hr. eapply run_mono; [apply incl_refl|eauto].
    - apply good_app; assumption.
  Qed.

  (** *** Messages *)
  Lemma receive_rest evs tr n m n' o T : rest evs tr n T ->
    (0 <= m_pc m -> req_by evs (key_of m) T) -> (m_pc m < 0 -> In (NCleanup (mkKey (- m_pc m) (m_rcpt m) (m_run m))) tr) ->
    receive ky keccak pshash su n m = Ok (n', o) ->
    rest evs (tr ++ o) n' T /\ n_fw n' = n_fw n /\ n_reqs n' = n_reqs n /\ fw_trace o = [].
  Proof.
    intros R H1 H2. unfold receive. destruct (Z.leb_spec nprots (Z.abs (m_pc m))) as [|LP]; [discriminate|]. change nprots with 2 in LP.
    assert (NO : Ok (n, [NRefused m]) = Ok (n', o) -> rest evs (tr ++ o) n' T /\ n_fw n' = n_fw n /\ n_reqs n' = n_reqs n /\ fw_trace o = []).
    { intros E. injection E as <- <-. split; [|auto]. apply rest_tr; [exact R|]. intros [|y a] x b E; cbn in E; [injection E as <- _; exact I|injection E as _ E; destruct a; discriminate]. }
    assert (YES : is_guest su (m_rcpt m) = true -> (0 <= m_pc m -> 0 <= m_op m < Z.of_nat (length (p_stages (prot_of (m_pc m))))) ->
      Ok (set_qs n (kset (n_qs n) (qkey (Z.abs (m_pc m)) (m_rcpt m)) (kslice (n_qs n) (qkey (Z.abs (m_pc m)) (m_rcpt m)) ++ [m])), [NQueued m]) = Ok (n', o) ->
      rest evs (tr ++ o) n' T /\ n_fw n' = n_fw n /\ n_reqs n' = n_reqs n /\ fw_trace o = []).
    { intros HG HO E. injection E as <- <-. split; [|auto]. apply guest_in in HG.
      assert (MO : msg_ok evs tr T (qkey (Z.abs (m_pc m)) (m_rcpt m)) m) by (split; [reflexivity|]; split; [lia|]; split; [exact HG|]; split; [auto|auto]).
      destruct (rest_tr evs tr [NQueued m] n T R) as [A B C E F I0 J].
      { intros [|y a] x b E; cbn in E; [injection E as <- _|injection E as _ E; destruct a; discriminate]. rewrite app_nil_r. cbn.
        destruct (Z.ltb_spec (m_pc m) 0) as [L|L]; [right; auto|left]. split; [lia|]. split; [exact HG|auto]. }
      constructor; try assumption. cbn [set_qs n_qs]. intros q m0. rewrite kslice_kset. destruct (key_eqb_spec (qkey (Z.abs (m_pc m)) (m_rcpt m)) q) as [<-|]; [|apply A].
      intros Hm. apply in_app_or in Hm. destruct Hm as [Hm|[<-|[]]]; [apply A, Hm|]. eapply msg_mono; [apply incl_refl|apply Z.le_refl|exact MO]. }
    destruct (Z.ltb_spec (m_pc m) 0) as [L|L].
    - destruct (is_guest su (m_rcpt m)) eqn:EG; cbn [andb]; [|discriminate]. destruct (_ <? _); [|discriminate]. apply YES; [reflexivity|lia].
    - destruct (Z.leb_spec 0 (m_op m)) as [O1|]; cbn [andb negb]; [|exact NO].
      destruct (Z.ltb_spec (m_op m) (Z.of_nat (length (p_stages (prot_of (m_pc m)))))) as [O2|]; cbn [negb]; [|exact NO].
      destruct (is_guest su (m_rcpt m)) eqn:EG; cbn [andb]; [|exact NO]. destruct (_ <? _); [|exact NO]. apply YES; [reflexivity|lia].
  Qed.
  Lemma receive_all_rest evs T l : forall tr n n' o, rest evs tr n T ->
    (forall t m, In (FPass t m) l -> 0 <= m_pc m /\ req_by evs (key_of m) T) -> receive_all ky keccak pshash su n l = Ok (n', o) ->
    rest evs (tr ++ o) n' T /\ n_fw n' = n_fw n /\ n_reqs n' = n_reqs n /\ fw_trace o = l.
  Proof.
    induction l as [|x l IH]; intros tr n n' o R HP; cbn [receive_all].
    - intros E. injection E as <- <-. rewrite app_nil_r. auto.
    - destruct (match x with FPass _ m => receive ky keccak pshash su n m | _ => Ok (n, []) end) as [[n1 o1]| |] eqn:E1; cbn [rbind fst snd]; try discriminate.
      destruct (receive_all ky keccak pshash su n1 l) as [[n2 o2]| |] eqn:E2; cbn [rbind fst snd]; try discriminate. intros E. injection E as <- <-.
      assert (R0 : rest evs (tr ++ [NFw x]) n T).
      { apply rest_tr; [exact R|]. intros [|y a] z b E; cbn in E; [injection E as <- _; exact I|injection E as _ E; destruct a; discriminate]. }
      assert (X : rest evs ((tr ++ [NFw x]) ++ o1) n1 T /\ n_fw n1 = n_fw n /\ n_reqs n1 = n_reqs n /\ fw_trace o1 = []).
      { assert (NP : (n, []) = (n1, o1) -> rest evs ((tr ++ [NFw x]) ++ o1) n1 T /\ n_fw n1 = n_fw n /\ n_reqs n1 = n_reqs n /\ fw_trace o1 = []).
        { intros E. injection E as <- <-. rewrite app_nil_r. auto. }
        destruct x as [| | | | |t m]; try (apply NP; congruence). destruct (HP t m (or_introl eq_refl)) as [P1 P2].
        apply (receive_rest evs _ n m); auto. intros L. exfalso. lia. }
      destruct X as (X1 & X2 & X3 & X4). destruct (IH _ _ _ _ X1 (fun t m H => HP t m (or_intror H)) E2) as (Y1 & Y2 & Y3 & Y4).
      split; [|split; [congruence|split; [congruence|]]].
      + rewrite <- !app_assoc in Y1. exact Y1.
      + cbn. change (flat_map _ (o1 ++ o2)) with (fw_trace (o1 ++ o2)). rewrite fwt_app, X4, Y4. reflexivity.
  Qed.
  (** A step of the firewall. *)
  Lemma firewall_inv evs tr n ev n' o T : INV evs tr n T -> time_of ev = T ->
    (forall t k a, ev = EvAllow t k a -> exists start doc tq, requested su evs k start doc tq /\ tq <= t /\ a = allowance_for ky keccak pshash (k_pc k) start) ->
    firewall ky keccak pshash su n ev = Ok (n', o) ->
    INV evs (tr ++ o) n' T /\ n_reqs n' = n_reqs n /\ fstep (n_fw n) ev = Ok (n_fw n', fw_trace o).
  Proof.
    intros [[W1 W2 W3 W4 W5] R] HT HA. unfold firewall. destruct (fstep (n_fw n) ev) as [[f1 l]| |] eqn:ES; cbn [rbind fst snd]; try discriminate. intros ER.
    assert (LT : T <= time_of ev) by lia. destruct (step_sound _ _ _ _ _ _ _ _ _ LT W1 ES) as [S1 S2]. rewrite HT in S1.
    pose proof (consts_step _ _ _ _ ES) as SC.
    assert (R1 : rest evs tr (set_fw n f1) T).
    { destruct R as [A B C E F I0 J]. constructor; try assumption. intros i r Hr. cbn [set_fw n_reqs n_fw] in *.
      eapply req_mono; [apply incl_refl|apply Z.le_refl| |exact (I0 i r Hr)]. intros k c x. apply (slot_step _ _ _ _ k c x ES). }
    assert (W3' : forall t k a, In (FSet t k a) (fw_trace tr ++ l) -> exists start doc tq, requested su evs k start doc tq /\ tq <= t /\ a = allowance_for ky keccak pshash (k_pc k) start).
    { intros t k a H. apply in_app_or in H. destruct H as [H|H]; [eauto|]. apply (step_set _ _ _ _ _ _ _ ES) in H. eauto. }
    assert (HP' : forall t m, In (FPass t m) l -> t = T /\ (0 <= m_pc m < 2 /\ In (m_rcpt m) (su_guests su) /\ req_by evs (key_of m) t)).
    { intros t m Hm. apply in_split in Hm. destruct Hm as (x & y & El). pose proof (S2 x (FPass t m) y El) as P. cbn in P.
      destruct P as (t0 & a & a1 & a2 & tm & P1 & P2 & P3 & P4 & P5 & P6 & P7 & P8).
      assert (Ht : t = T).
      { clear - El ES HT. destruct ev as [now mm|now|now k' a|now k' c|now k' c]; cbn [fstep time_of] in *; subst T.
        - injection ES as _ ES. assert (IN : In (FPass t m) (FIn now mm :: snd (fw_process (n_fw n) now mm))) by (rewrite ES, El; apply in_elt).
          unfold fw_process in IN; change (@fw_key) with (@key_of) in IN. destruct IN as [IN|IN]; [discriminate|]. destruct (_ || _); [contradiction|]. destruct (kget _ _) as [st|]; [|contradiction].
          destruct (st =? _); [destruct (_ <? _); contradiction|]. destruct (st =? _); [|contradiction]. destruct IN as [IN|[]]. congruence.
        - destruct (_ && _); injection ES as _ <-; destruct x as [|? [|]]; discriminate.
        - unfold fw_set_allowance in ES. destruct (negb _); [discriminate|]. destruct (kget _ _); injection ES as _ <-; destruct x as [|? [|]]; discriminate.
        - assert (IN : In (FPass t m) l) by (rewrite El; apply in_elt). clear El. unfold fw_state_step in ES. destruct (nth_error _ c) as [s|]; [|injection ES as _ <-; contradiction].
          destruct (sl_thread s) as [[|a|a|a|]|]; try (injection ES as _ <-; contradiction); destruct (_ <? _); try (injection ES as _ <-; contradiction);
            destruct (told _ _); try discriminate; injection ES as _ <-; cbn [fst snd fw_flush] in IN; rewrite ?in_app_iff in IN; cbn in IN; try (intuition discriminate).
          destruct IN as [IN|IN]; [apply in_map_iff in IN; destruct IN as (m' & E & _); congruence|intuition discriminate].
        - injection ES as _ <-. destruct x; discriminate. }
      assert (IS : In (FSet t0 (key_of m) a) (fw_trace tr ++ l)).
      { rewrite El, app_assoc. apply in_or_app. left. rewrite P1. apply in_elt. }
      destruct (W3' _ _ _ IS) as (start & doc & tq & Q1 & Q2 & ->). cbn [allowance_for al_start] in P5. split; [exact Ht|]. split; [|split].
      - destruct Q1 as (b & _ & _ & Q3 & _). cbn in Q3. rewrite Q3. destruct doc; cbn; unfold pc_dss, pc_dkg; lia.
      - destruct Q1 as (b & _ & _ & _ & Q4). exact Q4.
      - exists start, doc, tq. split; [exact Q1|]. lia. }
    assert (HP : forall t m, In (FPass t m) l -> 0 <= m_pc m /\ req_by evs (key_of m) T).
    { intros t m Hm. destruct (HP' t m Hm) as (-> & P1 & _ & P2). split; [lia|exact P2]. }
    destruct (receive_all_rest evs T l tr (set_fw n f1) n' o R1 HP ER) as (Y1 & Y2 & Y3 & Y4). cbn [set_fw n_fw n_reqs] in Y2, Y3.
    split; [|split; [exact Y3|rewrite Y2, Y4; reflexivity]]. split; [|exact Y1]. rewrite Y2. constructor.
    - rewrite fwt_app, Y4. exact S1.
    - congruence.
    - rewrite fwt_app, Y4. exact W3'.
    - rewrite fwt_app, Y4. intros t k c v H. apply in_app_or in H. apply in_or_app. destruct H as [H|H]; [eauto|right]. eapply told_phase; eassumption.
    - rewrite fwt_app, Y4. intros t m H. apply in_app_or in H. destruct H as [H|H]; [eauto|]. apply (HP' t m H).
  Qed.
End NP.
