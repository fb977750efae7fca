(** The invariant holds in every history of a node. *)
From Coq Require Import ZArith List Lia Bool.
From Coq Require Import Init.Byte.
From Verif Require Import Params Bytes Res Secp Dto Dss Prot ProtSpec ProtProofs3 ProtProofs6 DkgProt DkgProofs KMap Firewall FwSpec FwProofs FwProofs2 FwProofs3 FwProofs4
  Outputs Node NodeSpec NodeRun NodeRun2 DkgSpec NodeProofs.
Import ListNotations.
Open Scope Z_scope.

Lemma nth_put {A} (l : list A) n x m y : nth_error (put l n x) m = Some y -> m = n /\ y = x \/ nth_error l m = Some y.
Proof. rewrite put_nth. destruct (Nat.eqb_spec m n) as [->|]; [|auto]. destruct (Nat.ltb _ _); [|discriminate]. intros E. injection E as ->. auto. Qed.
Lemma nth_snoc {A} (l : list A) x m y : nth_error (l ++ [x]) m = Some y -> m = length l /\ y = x \/ nth_error l m = Some y.
Proof.
  intros H. destruct (Nat.lt_ge_cases m (length l)) as [L|L]; [rewrite nth_error_app1 in H by exact L; auto|].
  rewrite nth_error_app2 in H by exact L. destruct (m - length l)%nat eqn:E; cbn in H; [injection H as <-; left; split; [lia|reflexivity]|destruct n; discriminate].
Qed.
Lemma exec_snoc {D A K E V} (p : protocol D A K E V) c evs : forall r ev r1 t1 r2 t2, exec p c r evs = Ok (r1, t1) -> step p c r1 ev = Ok (r2, t2) ->
  exec p c r (evs ++ [ev]) = Ok (r2, t1 ++ t2).
Proof.
  induction evs as [|e evs IH]; intros r ev r1 t1 r2 t2; cbn [app exec].
  - intros H1 H2. injection H1 as <- <-. rewrite H2. cbn. rewrite app_nil_r. reflexivity.
  - destruct (step p c r e) as [[r3 t3]| |]; cbn [rbind fst snd]; try discriminate.
    destruct (exec p c r3 evs) as [[r4 t4]| |] eqn:E4; cbn [rbind fst snd]; try discriminate. intros H1 H2. injection H1 as <- <-.
    rewrite (IH _ _ _ _ _ _ E4 H2). cbn. rewrite app_assoc. reflexivity.
Qed.
Lemma loc_in l g (x : gloc) : loc_of l g = Some x -> In (g, x) l.
Proof.
  induction l as [|[g' y] l IH]; cbn; [discriminate|]. destruct (Z.eqb_spec g' g) as [->|]; [|auto]. intros E. injection E as ->. auto.
Qed.
Lemma set_loc_in l g x g' y : In (g', y) (set_loc l g x) -> (g', y) = (g, x) /\ In g (map fst l) \/ In (g', y) l.
Proof.
  induction l as [|[h z] l IH]; cbn; [contradiction|]. destruct (Z.eqb_spec h g) as [->|]; cbn; intuition.
Qed.

Section NP.
  Context {G : Type}.
  Variable ky : kyber G.
  Variable keccak : bytes -> bytes.
  Variable pshash : Z -> Z -> bytes.
  Variable su : setup.
  Variables until now0 : Z.
  Notation message := (message payload).
  Notation nevent := (nevent (G := G)). Notation node := (node (G := G)).
  Implicit Types (evs : list nevent) (n : node) (tr : list nobs).
  Notation prot_of := (the_prot ky keccak pshash).
  Notation rest := (rest ky keccak pshash su). Notation ok_at := (ok_at ky keccak pshash su).
  Notation INV := (INV ky keccak pshash su until now0).
  Notation req_by := (req_by su). Notation docs_for := (docs_for su). Notation run_from := (run_from ky keccak pshash su).
  Notation req_ok := (req_ok su). Notation nstep := (nstep ky keccak pshash su).

  Lemma req_pc evs k T : req_by evs k T -> 0 <= k_pc k < 2.
  Proof. intros (s & [d|] & t & (b & _ & _ & E & _) & _); rewrite E; cbn; unfold pc_dss, pc_dkg; lia. Qed.

  Lemma ensure_rest evs tr n T k gen n' j o : rest evs tr n T -> req_by evs k T -> made_for evs (k_guest k) gen -> ensure_run su n T k gen = (n', j, o) ->
    rest evs (tr ++ o) n' T /\ n_fw n' = n_fw n /\ n_reqs n' = n_reqs n /\ n_cons n' = n_cons n /\ (exists r, nth_error (n_heap n') j = Some (k, r)) /\ fw_trace o = [].
  Proof.
    intros R HK HM. unfold ensure_run. destruct (kget (n_table n) k) as [j0|] eqn:ET.
    - intros E. injection E as <- <- <-. rewrite app_nil_r. split; [exact R|]. repeat split. exact (r_tab _ _ _ _ _ _ _ _ R k j0 ET).
    - intros E. injection E as <- <- <-.
      assert (X : rest evs (tr ++ [NCreate T k]) n T).
      { apply rest_tr; [exact R|]. intros [|y a] x b E; cbn in E; [injection E as <- _|injection E as _ E; destruct a; discriminate]. exact HK. }
      destruct X as [A B C E F I0 J].
      assert (OLD : forall i y, nth_error (n_heap n) i = Some y -> nth_error (n_heap n ++ [(k, new_run (new_kd su k gen))]) i = Some y).
      { intros i y H. rewrite nth_error_app1; [exact H|]. apply nth_error_Some. congruence. }
      assert (NEW : nth_error (n_heap n ++ [(k, new_run (new_kd su k gen))]) (length (n_heap n)) = Some (k, new_run (new_kd su k gen))).
      { rewrite nth_error_app2, Nat.sub_diag by lia. reflexivity. }
      split; [|split; [reflexivity|split; [reflexivity|split; [reflexivity|split; [eexists; exact NEW|reflexivity]]]]].
      constructor; cbn [set_table set_heap n_qs n_cons n_heap n_table n_docs n_reqs n_fw]; try assumption.
      + intros q i m H. destruct (B q i m H) as (B1 & B2 & r & B3). split; [exact B1|]. split; [exact B2|]. eauto.
      + intros k' i. rewrite kget_kset. destruct (key_eqb_spec k k') as [<-|]; [intros H; injection H as <-; eauto|]. intros H. destruct (C k' i H) as [r H']. eauto.
      + intros i k' r H. apply nth_snoc in H. destruct H as [[-> H]|H]; [|exact (E i k' r H)]. injection H as -> ->.
        split; [exists T; apply in_or_app; right; left; reflexivity|]. split; [eapply req_pc, HK|]. exists gen, [], []. split; [reflexivity|]. split; [exact HM|constructor].
  Qed.

  (** What a run does is on request; the key shares it outputs are its generator's. *)
  Notation env_ok_for := (fun evs k => env_from (docs_for evs (mkKey pc_dss (k_guest k) (k_run k))) (su_long su (k_guest k)) (drawn evs)).
  Lemma run_on_request evs tr k r o : run_from evs tr k r -> forall pev x, step (prot_of (k_pc k)) (run_info su k) r pev = Ok x ->
    env_ok_for evs k (env_of pev) -> In o (snd x) -> on_request ky keccak pshash su evs k o /\ from_generator ky evs k o.
  Proof.
    intros (_ & HP & gen & pevs & rtr & EX & MD & EF) pev [r' t'] ES HE HO. cbn [snd] in HO. pose proof (exec_snoc _ _ _ _ _ _ _ _ _ EX ES) as EX'.
    assert (EF' : Forall (fun ev => env_ok_for evs k (env_of ev)) (pevs ++ [pev])).
    { apply Forall_app. split; [exact EF|]. constructor; [exact HE|constructor]. }
    assert (HI : In o (rtr ++ t')) by (apply in_or_app; auto).
    assert (GO : forall g, evolves ky gen g -> generator_of ky evs (k_guest k) g) by (intros g H; exists gen; auto).
    destruct (act_of o) as [a|] eqn:EA; [|destruct o; try discriminate EA; split; exact I].
    split.
    - unfold the_prot in EX'. destruct (Z.eqb_spec (k_pc k) pc_dkg) as [EK|NK].
      + destruct (dkg_run_plain ky keccak pshash _ _ _ _ _ (eq_refl : kd_dss (new_kd su k gen) = None) EX') as [_ PL].
        pose proof (acts_each _ _ _ _ _ _ _ _ _ EX' PL HI EA) as P. destruct o; try exact I; injection EA as <-; cbn in P |- *.
        * intros X. contradiction. * intros X. contradiction. * intros X. rewrite P in X. discriminate X.
      + assert (K1 : k_pc k = pc_dss) by (unfold pc_dkg, pc_dss in *; lia).
        assert (KK : mkKey pc_dss (k_guest k) (k_run k) = k) by (destruct k; cbn in *; congruence). cbv beta in EF'. rewrite KK in EF'.
        assert (AR : kd_args (new_kd su k gen) = Some (mkArgs (su_secret su (k_guest k)) (su_members su) (su_T su))).
        { unfold new_kd. cbn [kd_args]. rewrite K1. reflexivity. }
        assert (HG : forall g g', generator_of ky evs (k_guest k) g -> kcall ky g g' -> generator_of ky evs (k_guest k) g').
        { intros g g' (g0 & Y1 & Y2) Y3. exists g0. split; [exact Y1|]. eapply ev_call; eassumption. }
        destruct (dss_run_good ky keccak pshash (docs_for evs k) (mkArgs (su_secret su (k_guest k)) (su_members su) (su_T su)) (su_long su (k_guest k))
          (generator_of ky evs (k_guest k)) (drawn evs) HG _ _ _ _ _ AR eq_refl (GO _ (ev_same ky gen)) EF' EX') as [_ GD].
        pose proof (acts_each _ _ _ _ _ _ _ _ _ EX' GD HI EA) as P. destruct o; try exact I; injection EA as <-; cbn in P |- *.
        * intros X. destruct (P X) as (d & d' & nonce & sg & w & (doc & l & rd & q & dd & cs & (st & t & RQ) & I2 & I3 & I4 & I5 & I6) & P2 & P3 & P4).
          exists doc, st, t, d, d', nonce, sg, w. split; [exact RQ|]. split; [exists l, rd, q, dd, cs; auto|auto].
        * intros X. destruct (P X) as (d & d' & nonce & sg & w & (doc & l & rd & q & dd & cs & (st & t & RQ) & I2 & I3 & I4 & I5 & I6) & P2 & P3 & P4).
          exists doc, st, t, d, d', nonce, sg, w. split; [exact RQ|]. split; [exists l, rd, q, dd, cs; auto|auto].
        * intros X. destruct (P X) as (d & ord & s & (doc & l & rd & q & dd & cs & (st & t & RQ) & I2 & I3 & I4 & I5 & I6) & P2 & P3).
          exists doc, st, t, d, ord, s. split; [exact RQ|]. split; [exists l, rd, q, dd, cs; auto|auto].
    - assert (PP : prot_of (k_pc k) = dkg_prot ky \/ prot_of (k_pc k) = dss_prot ky keccak pshash) by (unfold the_prot; destruct (_ =? _); auto).
      pose proof (share_outputs ky keccak pshash gen _ _ (new_kd su k gen) _ _ _ PP eq_refl EX') as SO.
      pose proof (acts_each _ _ _ _ _ _ _ _ _ EX' SO HI EA) as P. destruct o; try exact I; injection EA as <-; cbn in P |- *.
      intros X. destruct (P X) as (s & g1 & g2 & P1 & P2 & P3 & P4 & P5 & P6). exists s, g1, g2. auto 10.
  Qed.

  Lemma env_ok evs tr n T k nonce ord : rest evs tr n T -> drawn evs ord -> env_ok_for evs k (env_for su n k nonce ord).
  Proof. intros R H. split; [reflexivity|]. split; [|exact H]. intros d E. exact (r_docs _ _ _ _ _ _ _ _ R _ _ _ E). Qed.

  Lemma run_rest evs tr n T j k r pev x : rest evs tr n T -> nth_error (n_heap n) j = Some (k, r) ->
    step (prot_of (k_pc k)) (run_info su k) r pev = Ok x ->
    env_ok_for evs k (env_of pev) ->
    rest evs (tr ++ snd (run_after n j k x)) (fst (run_after n j k x)) T /\ fw_trace (snd (run_after n j k x)) = [].
  Proof.
    intros R EN ES HE. unfold run_after. cbn [fst snd].
    assert (TR : fw_trace (map (NRun k) (snd x)) = []) by (induction (snd x) as [|y l IH]; [reflexivity|exact IH]).
    split; [|exact TR]. pose proof (r_heap _ _ _ _ _ _ _ _ R j k r EN) as RF.
    assert (X : rest evs (tr ++ map (NRun k) (snd x)) n T).
    { apply rest_tr; [exact R|]. intros a y b E.
      assert (IN : In y (map (NRun k) (snd x))) by (rewrite E; apply in_elt). apply in_map_iff in IN. destruct IN as (o & <- & Ho).
      split; [destruct RF as ((t & RF) & _); exists t; apply in_or_app; auto|]. eapply run_on_request; eassumption. }
    destruct X as [A B C E F I0 J].
    assert (PN : forall i k' r', nth_error (n_heap n) i = Some (k', r') -> exists r'', nth_error (put (n_heap n) j (k, fst x)) i = Some (k', r'')).
    { intros i k' r' H. rewrite put_nth. destruct (Nat.eqb_spec i j) as [->|]; [|eauto]. rewrite (nth_lt _ _ _ H). rewrite EN in H. injection H as <- <-. eauto. }
    constructor; cbn [set_outs set_heap n_qs n_cons n_heap n_table n_docs n_reqs n_fw]; try assumption.
    - intros q i m H. destruct (B q i m H) as (B1 & B2 & r0 & B3). split; [exact B1|]. split; [exact B2|]. eauto.
    - intros k' i H. destruct (C k' i H) as [r0 H']. eauto.
    - intros i k' r0 H. apply nth_put in H. destruct H as [[-> H]|H]; [|exact (E i k' r0 H)]. injection H as -> ->.
      destruct (E j k r EN) as (E1 & E2 & gen & pevs & rtr & E3 & EM & E4). split; [exact E1|]. split; [exact E2|]. destruct x as [r1 t1].
      exists gen, (pevs ++ [pev]), (rtr ++ t1). split; [exact (exec_snoc _ _ _ _ _ _ _ _ _ E3 ES)|]. split; [exact EM|]. apply Forall_app. split; [exact E4|]. constructor; [exact HE|constructor].
  Qed.

  (** *** Requests *)
  Lemma reqs_rest evs tr n T x : rest evs tr n T -> (forall i r, nth_error x i = Some r -> req_ok evs (n_fw n) T r) -> rest evs tr (set_reqs n x) T.
  Proof. intros [A B C E F I0 J] H. constructor; assumption. Qed.
  Lemma put_rest evs tr n T i r : rest evs tr n T -> req_ok evs (n_fw n) T r -> rest evs tr (put_req n i r) T.
  Proof. intros R H. apply reqs_rest; [exact R|]. intros i0 r0 H0. apply nth_put in H0. destruct H0 as [[_ ->]|H0]; [exact H|]. exact (r_req _ _ _ _ _ _ _ _ R _ _ H0). Qed.
  Lemma spawn_ok evs f T r : req_ok evs f T r -> req_ok evs f T (spawn su r).
  Proof.
    intros (A & B & C). split; [exact A|]. split; [discriminate|]. intros g l H. cbn in H. apply in_map_iff in H. destruct H as (g' & E & H). injection E as <- <-. split; [exact H|exact I].
  Qed.
  Lemma phase_ok evs f T r p : req_ok evs f T r -> (forall todo, p = RReg todo -> incl todo (su_guests su)) -> req_ok evs f T (with_phase r p).
  Proof. intros (A & B & C) H. split; [exact A|]. split; [exact H|exact C]. Qed.
  Lemma key_requested evs f T r g : req_ok evs f T r -> In g (su_guests su) -> exists t, requested su evs (rq_key r g) (rq_start r) (rq_doc r) t /\ t <= T.
  Proof.
    intros ((t & base & A1 & A2 & A3) & _) H. exists t. split; [|exact A2]. exists base. split; [exact A1|]. split; [exact A3|]. split; [|exact H].
    cbn. unfold rq_pc, pc_for. reflexivity.
  Qed.
  Lemma remove_incl g l : incl (remove g l) l. Proof. intros x H. apply filter_In in H. tauto. Qed.

  Lemma go_inv evs tr n i g n' o T : INV evs tr n T -> request_go su n i g = Ok (n', o) -> INV evs (tr ++ o) n' T.
  Proof.
    intros [W R]. unfold request_go. destruct (nth_error (n_reqs n) i) as [r|] eqn:EN; [|intros E; injection E as <- <-; rewrite app_nil_r; split; assumption].
    pose proof (r_req _ _ _ _ _ _ _ _ R i r EN) as RQ.
    assert (NOP : Ok (n, []) = Ok (n', o) -> INV evs (tr ++ o) n' T) by (intros E; injection E as <- <-; rewrite app_nil_r; split; assumption).
    destruct (rq_phase r) as [todo| |todo|todo|] eqn:EP; try exact NOP.
    - destruct (existsb (Z.eqb g) todo) eqn:EX; [|exact NOP]. cbv zeta. intros E. injection E as <- <-. rewrite app_nil_r.
      assert (IG : In g (su_guests su)).
      { apply existsb_exists in EX. destruct EX as (y & Y1 & Y2). apply Z.eqb_eq in Y2. subst y. destruct RQ as (_ & B & _). exact (B todo EP g Y1). }
      assert (RK : req_ok evs (n_fw n) T match remove g todo with [] => spawn su r | _ => with_phase r (RReg (remove g todo)) end).
      { destruct (remove g todo) eqn:ER; [apply spawn_ok, RQ|]. rewrite <- ER. apply phase_ok; [exact RQ|]. intros td E. injection E as <-.
        eapply incl_tran; [apply remove_incl|]. destruct RQ as (_ & B & _). exact (B todo EP). }
      destruct (rq_doc r) as [d|] eqn:ED.
      + assert (R1 : rest evs tr (set_docs n (kset (n_docs n) (dkey g (rq_id r)) d)) T).
        { destruct R as [A B C E F I0 J]. constructor; try assumption. cbn [set_docs n_docs]. intros g' id d'. rewrite kget_kset.
          destruct (key_eqb_spec (dkey g (rq_id r)) (dkey g' id)) as [EK|]; [|apply F]. intros X. injection X as <-. injection EK as <- <-.
          destruct (key_requested _ _ _ _ g RQ IG) as (t & Q & _). rewrite ED in Q. exists (rq_start r), t. unfold rq_key, rq_pc in Q. rewrite ED in Q. exact Q. }
        split; [exact W|]. apply put_rest; [exact R1|exact RK].
      + split; [exact W|]. apply put_rest; [exact R|exact RK].
    - destruct (existsb (Z.eqb g) todo) eqn:EX; [|exact NOP]. cbv zeta. intros E. injection E as <- <-. rewrite app_nil_r. split; [exact W|]. apply put_rest.
      + destruct R as [A B C E F I0 J]. constructor; try assumption. cbn [set_docs n_docs]. intros g' id d'. rewrite kget_kdel. destruct (key_eqb _ _); [discriminate|apply F].
      + apply phase_ok; [exact RQ|]. destruct (remove g todo); discriminate.
    - destruct (existsb (Z.eqb g) todo) eqn:EX; [|exact NOP]. cbv zeta.
      assert (FIN : forall k v, (put_req (set_outs n (fst (pop_output (n_outs n) (rq_key r g)))) i (with_phase r match remove g todo with [] => RDone | _ => RPop (remove g todo) end), [NPop k v]) = (n', o) -> INV evs (tr ++ o) n' T).
      { intros k v E. injection E as <- <-. split.
        - destruct W as [W1 W2 W3 W4 W5]. constructor; rewrite ?fwt_app; cbn [fw_trace flat_map]; rewrite ?app_nil_r; assumption.
        - apply put_rest; [|apply phase_ok; [exact RQ|destruct (remove g todo); discriminate]].
          apply (rest_tr _ _ _ _ evs tr [NPop k v]) in R.
          + destruct R as [A B C E F I0 J]. constructor; assumption.
          + intros [|y a] z b E; cbn in E; [injection E as <- _; exact I|injection E as _ E; destruct a; discriminate]. }
      destruct (rq_doc r), (snd (pop_output (n_outs n) (rq_key r g))) as [[]|]; try discriminate; try (intros E; injection E as <- <-; eapply FIN; reflexivity).
      destruct (_ <? _)%nat; [discriminate|]. intros E; injection E as <- <-; eapply FIN; reflexivity.
  Qed.
  Lemma wait_inv evs tr n i T : INV evs tr n T -> INV evs tr (request_wait su n i) T.
  Proof.
    intros [W R]. unfold request_wait. destruct (nth_error (n_reqs n) i) as [r|] eqn:EN; [|split; assumption]. destruct (rq_phase r); try (split; assumption).
    destruct (forallb _ _); [|split; assumption]. split; [exact W|]. apply put_rest; [exact R|]. apply phase_ok; [exact (r_req _ _ _ _ _ _ _ _ R i r EN)|].
    destruct (rq_doc r); discriminate.
  Qed.
  Lemma new_inv evs tr n T now base start doc : INV evs tr n T -> In (VRequest now base start doc) evs -> now <= T ->
    INV evs tr (set_reqs n (n_reqs n ++ [new_request su base start doc])) T.
  Proof.
    intros [W R] HI HT. split; [exact W|]. apply reqs_rest; [exact R|]. intros i r H. apply nth_snoc in H. destruct H as [[_ ->]|H]; [|exact (r_req _ _ _ _ _ _ _ _ R _ _ H)].
    assert (X : req_ok evs (n_fw n) T (mkReq doc (run_id_for base start) start (RReg (su_guests su)) [])).
    { split; [exists now, base; auto|]. split; [intros td E; injection E as <-; apply incl_refl|contradiction]. }
    unfold new_request. destruct doc; [destruct (su_guests su) eqn:EG; rewrite <- EG in *|]; auto using spawn_ok.
  Qed.

  (** A guest's goroutine *)
  Lemma told_three (f : fw payload) k c (tr : list (fobs payload)) T : sound (D := payload) (now0 <? until) until (fun k => known (D := payload) (make_fw nprots (su_guests su) until now0) (k_pc k) (k_guest k)) f tr T ->
    slot_at f k c 3 -> exists t, In (FTold t k c fw_stopped) tr.
  Proof.
    intros (_ & _ & _ & HK) (s & E & L). destruct (HK k) as (_ & _ & C & _). specialize (C c). cbn [view_of v_calls] in C. rewrite E in C. destruct C as [C1 C2].
    assert (D3 : done s = 3%nat) by (unfold done in *; destruct (sl_thread s) as [[]|]; lia). rewrite D3 in C1. cbn in C1.
    assert (IN : In 3 (told_to k c tr)) by (rewrite C1; cbn; auto). unfold told_to in IN. apply in_flat_map in IN. destruct IN as (o & O1 & O2).
    destruct o as [| | | |t k' n' v|]; try contradiction. destruct (key_eqb_spec k' k) as [->|]; [|contradiction]. destruct (Nat.eqb_spec n' c) as [->|]; [|contradiction].
    destruct O2 as [->|[]]. exists t. exact O1.
  Qed.
  Lemma guest_inv evs tr n now k start l gen n' l' o g r : INV evs tr n now -> req_ok evs (n_fw n) now r -> In g (su_guests su) ->
    k = rq_key r g -> start = rq_start r -> made_for evs (k_guest k) gen -> loc_ok (n_fw n) k start now l ->
    guest_go ky keccak pshash su n now k start l gen = Ok (n', l', o) ->
    INV evs (tr ++ o) n' now /\ n_reqs n' = n_reqs n /\ loc_ok (n_fw n') k start now l' /\ (forall k c x, slot_at (n_fw n) k c x -> slot_at (n_fw n') k c x).
  Proof.
    intros HI RQ IG Hk Hs MD LO. destruct (key_requested _ _ _ _ g RQ IG) as (tq & RK & LQ). rewrite <- Hk, <- Hs in RK.
    assert (NOP : forall l2, loc_ok (n_fw n) k start now l2 -> Ok (n, l2, []) = Ok (n', l', o) ->
      INV evs (tr ++ o) n' now /\ n_reqs n' = n_reqs n /\ loc_ok (n_fw n') k start now l' /\ (forall k c x, slot_at (n_fw n) k c x -> slot_at (n_fw n') k c x)).
    { intros l2 L2 E. injection E as <- <- <-. rewrite app_nil_r. auto. }
    assert (RECV : forall c l2 x, slot_at (n_fw n) k c x -> (forall f, slot_at f k c (S x) -> loc_ok f k start now l2) -> 
      (if chan_ready n k c then x <- firewall ky keccak pshash su n (EvRecv now k c) ;; Ok (fst x, l2, snd x) else Ok (n, l, [])) = Ok (n', l', o) ->
      INV evs (tr ++ o) n' now /\ n_reqs n' = n_reqs n /\ loc_ok (n_fw n') k start now l' /\ (forall k c x, slot_at (n_fw n) k c x -> slot_at (n_fw n') k c x)).
    { intros c l2 x SL NX. destruct (chan_ready n k c) eqn:CR; [|apply NOP, LO]. destruct (firewall _ _ _ _ _ _) as [[n1 o1]| |] eqn:EF; cbn [rbind fst snd]; try discriminate.
      intros E. injection E as <- <- <-. destruct (firewall_inv ky keccak pshash su until now0 evs tr n (EvRecv now k c) n1 o1 now HI eq_refl) as (Y1 & Y2 & Y3); [discriminate|exact EF|].
      split; [exact Y1|]. split; [exact Y2|]. split; [|intros; eapply slot_step; eassumption]. apply NX. eapply slot_recv; [exact Y3|exact CR|exact SL]. }
    unfold guest_go. cbv zeta. destruct l as [|c|c|c|c|c| |]; cbn [loc_ok] in LO.
    - destruct (firewall _ _ _ _ _ _) as [[n1 o1]| |] eqn:EF; cbn [rbind fst snd]; try discriminate. intros E. injection E as <- <- <-.
      destruct (firewall_inv ky keccak pshash su until now0 evs tr n (EvAllow now k (allowance_for ky keccak pshash (k_pc k) start)) n1 o1 now HI eq_refl) with (2 := EF) as (Y1 & Y2 & Y3).
      { intros t k0 a E. injection E as <- <- <-. exists start, (rq_doc r), tq. auto. }
      split; [exact Y1|]. split; [exact Y2|]. split; [|intros; eapply slot_step; eassumption]. eapply slot_new. exact Y3.
    - apply (RECV c (GSleep c) 0%nat LO). intros f H. exact H.
    - destruct (Z.ltb_spec now start) as [L|L]; [apply NOP, LO|]. destruct (ensure_run su n now k gen) as [[n1 j] o1] eqn:EE. cbn [fst snd]. intros E. injection E as <- <- <-.
      destruct HI as [W R]. destruct (ensure_rest evs tr n now k gen n1 j o1 R) with (3 := EE) as (Y1 & Y2 & Y3 & Y4 & Y5 & Y6).
      { exists start, (rq_doc r), tq. auto. }
      { exact MD. }
      rewrite Y2. split; [split; [rewrite Y2; destruct W as [W1 W2 W3 W4 W5]; constructor; rewrite ?fwt_app, ?Y6, ?app_nil_r; assumption|exact Y1]|]. split; [exact Y3|]. split; [split; [lia|exact LO]|auto].
    - destruct (terminated_run n k); apply NOP; exact LO.
    - apply (RECV c (GClean1 c) 1%nat); [tauto|]. intros f H. split; [tauto|exact H].
    - apply (RECV c GSignal 2%nat); [tauto|]. intros f H. split; [tauto|eauto].
    - destruct (receive _ _ _ _ _ _) as [[n1 o1]| |] eqn:ER; [|apply NOP; exact LO|discriminate]. cbn [fst snd]. intros E. injection E as <- <- <-.
      destruct HI as [W R]. destruct LO as [LS (c & SL)].
      destruct (told_three _ _ _ _ _ (w_sound _ _ _ _ _ _ _ _ _ _ W) SL) as (t3 & T3). pose proof (w_told _ _ _ _ _ _ _ _ _ _ W _ _ _ _ T3) as P3.
      assert (RB : req_by evs k now) by (exists start, (rq_doc r), tq; auto).
      assert (R1 : rest evs (tr ++ [NCleanup k]) n now).
      { apply rest_tr; [exact R|]. intros [|y a] x b E; cbn in E; [injection E as <- _|injection E as _ E; destruct a; discriminate]. rewrite app_nil_r. split; [|eauto].
        unfold fw_trace in P3. apply in_flat_map in P3. destruct P3 as (y & Y1 & Y2). destruct y; try contradiction. destruct Y2 as [->|[]]. eauto. }
      destruct (receive_rest ky keccak pshash su evs _ n (signal nil_dto k) n1 o1 now R1) with (3 := ER) as (Y1 & Y2 & Y3 & Y4).
      { intros H. pose proof (req_pc _ _ _ RB) as PC. cbn in H |- *. replace (key_of (signal nil_dto k)) with k; [exact RB|]. destruct k; unfold signal, key_of; cbn in *. f_equal. lia. }
      { intros _. apply in_or_app. right. left. destruct k; unfold signal; cbn. rewrite Z.opp_involutive. reflexivity. }
      split; [split|].
      + rewrite Y2. destruct W as [W1 W2 W3 W4 W5]. change (NCleanup k :: o1) with ([NCleanup k] ++ o1). constructor; rewrite ?fwt_app, ?Y4; cbn [fw_trace flat_map]; rewrite ?app_nil_r; assumption.
      + rewrite <- app_assoc in Y1. exact Y1.
      + split; [exact Y3|]. rewrite Y2. split; [split; [exact LS|eauto]|auto].
    - apply NOP. exact LO.
  Qed.

  Lemma nstep_inv evs tr n T ev n' o : INV evs tr n T -> T <= ntime ev -> nstep n ev = Ok (n', o) -> INV (evs ++ [ev]) (tr ++ o) n' (ntime ev).
  Proof.
    intros [W R] HT HS. set (evs1 := evs ++ [ev]). assert (IE : incl evs evs1) by (intros x H; apply in_or_app; auto).
    assert (EV : In ev evs1) by (apply in_or_app; right; left; reflexivity).
    assert (HI : INV evs1 tr n (ntime ev)) by (split; [eapply fwok_mono; eassumption|eapply rest_mono; eassumption]). clearbody evs1. clear W R IE HT.
    assert (FW : forall fev, time_of fev = ntime ev -> (forall t k a, fev <> EvAllow t k a) -> firewall ky keccak pshash su n fev = Ok (n', o) -> INV evs1 (tr ++ o) n' (ntime ev)).
    { intros fev H1 H2 H3. apply (firewall_inv ky keccak pshash su until now0 evs1 tr n fev n' o (ntime ev) HI H1); [|exact H3]. intros t k a E. destruct (H2 _ _ _ E). }
    destruct ev as [now base start doc|now i g|now i|now i g gen|now m|now|now k c|now pc g gen|now pc g nonce ord|now j nonce ord]; cbn [Node.nstep ntime] in *.
    - injection HS as <- <-. rewrite app_nil_r. eapply new_inv; [exact HI|exact EV|lia].
    - eapply go_inv; eassumption.
    - injection HS as <- <-. rewrite app_nil_r. apply wait_inv, HI.
    - unfold request_guest in HS. destruct (nth_error (n_reqs n) i) as [r|] eqn:EN; [|injection HS as <- <-; rewrite app_nil_r; exact HI].
      destruct (loc_of (rq_locs r) g) as [l|] eqn:EL; [|injection HS as <- <-; rewrite app_nil_r; exact HI].
      destruct (guest_go _ _ _ _ _ _ _ _ _ _) as [[[n1 l1] o1]| |] eqn:EG; cbn [rbind fst snd] in HS; try discriminate. injection HS as <- <-.
      pose proof (r_req _ _ _ _ _ _ _ _ (proj2 HI) i r EN) as RQ. destruct (RQ) as (_ & _ & RC). destruct (RC g l (loc_in _ _ _ EL)) as [IG LO].
      destruct (guest_inv evs1 tr n now _ _ l gen n1 l1 o1 g r HI RQ IG eq_refl eq_refl (or_introl (ex_intro _ now (ex_intro _ i EV))) LO EG) as ([W R] & Y2 & Y3 & Y4).
      split; [exact W|]. apply put_rest; [exact R|].
      destruct (req_mono su evs1 evs1 (n_fw n) (n_fw n1) now now r (incl_refl _) (Z.le_refl _) Y4 RQ) as (A & B & C).
      split; [exact A|]. split; [exact B|]. cbn [with_locs rq_locs]. intros g' l' H. apply set_loc_in in H. destruct H as [[E _]|H]; [injection E as -> ->; split; [exact IG|exact Y3]|exact (C g' l' H)].
    - apply (FW (EvIn now m)); [reflexivity|discriminate|exact HS].
    - apply (FW (EvUndrop now)); [reflexivity|discriminate|exact HS].
    - apply (FW (EvWake now k c)); [reflexivity|discriminate|exact HS].
    - unfold consumer_take in HS; change (@fw_key) with (@key_of) in HS. destruct (kget (n_cons n) (qkey pc g)) as [|] eqn:EC; [injection HS as <- <-; rewrite app_nil_r; exact HI|].
      destruct (kslice (n_qs n) (qkey pc g)) as [|m q] eqn:EQ; [injection HS as <- <-; rewrite app_nil_r; exact HI|]. cbv zeta in HS.
      destruct HI as [W R]. assert (MO : msg_ok ky keccak pshash su evs1 tr now (qkey pc g) m) by (apply (r_q _ _ _ _ _ _ _ _ R); rewrite EQ; left; reflexivity).
      set (n1 := set_qs n (kset (n_qs n) (qkey pc g) q)) in *.
      assert (R1 : rest evs1 (tr ++ [NTake m]) n1 now).
      { assert (R1 : rest evs1 (tr ++ [NTake m]) n now).
        { apply rest_tr; [exact R|]. intros [|y a] x b E; cbn in E; [injection E as <- _; exact I|injection E as _ E; destruct a; discriminate]. }
        destruct R1 as [A B C E F I0 J]. constructor; try assumption. unfold n1. cbn [set_qs n_qs]. intros q0 m0. rewrite kslice_kset. destruct (key_eqb_spec (qkey pc g) q0) as [<-|]; [|apply A].
        intros H. apply A. rewrite EQ. right. exact H. }
      destruct MO as (M1 & M2 & M3 & M4 & M5). destruct (Z.ltb_spec (m_pc m) 0) as [L|L].
      + injection HS as <- <-. change [NTake m; NDelete (mkKey (- m_pc m) (m_rcpt m) (m_run m))] with ([NTake m] ++ [NDelete (mkKey (- m_pc m) (m_rcpt m) (m_run m))]).
        split; [destruct W as [W1 W2 W3 W4 W5]; constructor; rewrite ?fwt_app; cbn [fw_trace flat_map app]; rewrite ?app_nil_r; assumption|].
        rewrite app_assoc. apply (rest_tr _ _ _ _ _ _ [NDelete (mkKey (- m_pc m) (m_rcpt m) (m_run m))]) in R1.
        * destruct R1 as [A B C E F I0 J]. constructor; try assumption. cbn [set_table n_table]. intros k j. rewrite kget_kdel. destruct (key_eqb _ _); [discriminate|apply C].
        * intros [|y a] x b E; cbn in E; [injection E as <- _|injection E as _ E; destruct a; discriminate]. rewrite app_nil_r. split; [apply in_or_app; auto|]. cbn. unfold pc_dss. lia.
      + destruct (M4 L) as [M6 M7].
        assert (MK : made_for evs1 (k_guest (key_of m)) gen) by (injection M1 as _ M1; cbn; rewrite <- M1; right; exists now, pc; exact EV). destruct (ensure_run su n1 now (key_of m) gen) as [[n2 j] o2] eqn:EE. cbn [fst snd] in HS. injection HS as <- <-.
        destruct (ensure_rest _ _ _ _ _ _ _ _ _ R1 M7 MK EE) as (Y1 & Y2 & Y3 & Y4 & (r & Y5) & Y6). change (NTake m :: o2) with ([NTake m] ++ o2).
        split; [cbn [set_cons n_fw]; rewrite Y2; destruct W as [W1 W2 W3 W4 W5]; constructor; rewrite ?fwt_app, ?Y6; cbn [fw_trace flat_map app]; rewrite ?app_nil_r; assumption|].
        rewrite app_assoc. destruct Y1 as [A B C E F I0 J]. constructor; try assumption. cbn [set_cons n_cons n_heap]. intros q0 j0 m0. rewrite kget_kset.
        destruct (key_eqb_spec (qkey pc g) q0) as [<-|]; [|intros H; apply (B q0 j0 m0); rewrite Y4; exact H]. intros X. injection X as <- <-.
        split; [|split; [exact L|eauto]]. split; [exact M1|]. split; [exact M2|]. split; [exact M3|]. split; [exact M4|lia].
    - unfold consumer_deliver in HS. destruct (kget (n_cons n) (qkey pc g)) as [[j m]|] eqn:EC; [|injection HS as <- <-; rewrite app_nil_r; exact HI].
      destruct (nth_error (n_heap n) j) as [[k r]|] eqn:EN; [|discriminate].
      destruct (deliver _ _ _ _ _) as [x| |] eqn:ED; cbn [rbind] in HS; try discriminate. cbv zeta in HS. destruct HI as [W R].
      destruct (run_rest evs1 tr n now j k r (EMsg (env_for su n k nonce ord) m) x R EN ED) as [Y1 Y2]; [eapply env_ok; [exact R|left; exists now, pc, g, nonce; exact EV]|].
      destruct (run_after n j k x) as [n1 o1] eqn:ER. cbn [fst snd] in *. injection HS as <- <-. assert (EFW : n_fw n1 = n_fw n) by (unfold run_after in ER; injection ER as <- _; reflexivity).
      split; [cbn [set_cons n_fw]; rewrite EFW; destruct W as [W1 W2 W3 W4 W5]; constructor; rewrite ?fwt_app, ?Y2, ?app_nil_r; assumption|].
      destruct Y1 as [A B C E F I0 J]. constructor; try assumption. cbn [set_cons n_cons n_heap]. intros q0 j0 m0. rewrite kget_kdel. destruct (key_eqb _ _); [discriminate|apply B].
    - unfold run_tick in HS. destruct (nth_error (n_heap n) j) as [[k r]|] eqn:EN; [|injection HS as <- <-; rewrite app_nil_r; exact HI].
      destruct (now <? r_wake r); [injection HS as <- <-; rewrite app_nil_r; exact HI|].
      destruct (tick _ _ _ _ _) as [x| |] eqn:ED; cbn [rbind] in HS; try discriminate. destruct HI as [W R].
      destruct (run_rest evs1 tr n now j k r (ETick (env_for su n k nonce ord) now) x R EN ED) as [Y1 Y2]; [eapply env_ok; [exact R|right; exists now, j, nonce; exact EV]|].
      destruct (run_after n j k x) as [n1 o1] eqn:ER. cbn [fst snd] in *. injection HS as <- <-. assert (EFW : n_fw n1 = n_fw n) by (unfold run_after in ER; injection ER as <- _; reflexivity).
      split; [rewrite EFW; destruct W as [W1 W2 W3 W4 W5]; constructor; rewrite ?fwt_app, ?Y2, ?app_nil_r; assumption|exact Y1].
  Qed.

  Lemma nexec_inv l : forall evs tr n T n' o, INV evs tr n T -> nclock T l -> nexec ky keccak pshash su n l = Ok (n', o) -> exists T', INV (evs ++ l) (tr ++ o) n' T'.
  Proof.
    induction l as [|ev l IH]; intros evs tr n T n' o HI HC; cbn [nexec].
    - intros E. injection E as <- <-. exists T. rewrite !app_nil_r. exact HI.
    - destruct HC as [C1 C2]. destruct (nstep n ev) as [[n1 o1]| |] eqn:E1; cbn [rbind fst snd]; try discriminate.
      destruct (nexec ky keccak pshash su n1 l) as [[n2 o2]| |] eqn:E2; cbn [rbind fst snd]; try discriminate. intros E. injection E as <- <-.
      destruct (IH _ _ _ _ _ _ (nstep_inv _ _ _ _ _ _ _ HI C1 E1) C2 E2) as [T' X]. exists T'. rewrite <- !app_assoc in X. exact X.
  Qed.
  Lemma start_inv : INV [] [] (start_node su until now0) now0.
  Proof.
    split.
    - constructor; [apply made_sound|reflexivity|contradiction|contradiction|contradiction].
    - constructor; cbn; try contradiction; try discriminate.
      + intros [|j]; discriminate. + intros [|j]; discriminate. + intros [|a] x b E; discriminate.
  Qed.
  Lemma history_inv evs n tr : nhistory ky keccak pshash su until now0 evs n tr -> exists T, INV evs tr n T.
  Proof. intros [HC HE]. exact (nexec_inv evs [] [] _ now0 n tr start_inv HC HE). Qed.
End NP.
