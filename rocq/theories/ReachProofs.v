(** The way of a message through a node. *)
From Coq Require Import ZArith List Lia Bool Sorted.
From Coq Require Import Init.Byte.
From Verif Require Import Params Bytes Res Secp Dto Dss Prot ProtSpec ProtProofs TimeSpec TimeProofs DkgProt DkgProofs KMap Firewall FwSpec FwProofs FwProofs2 FwProofs3 FwProofs4
  Outputs Node NodeSpec NodeRun NodeProofs NodeProofs2 NodeProofs3 NodeProofs4 NodeProofs5 NodeProofs6 NodeProofs7 ObjSpec ObjProofs ObjProofs2 ObjProofs3 ReachSpec.
Import ListNotations.
Open Scope Z_scope.

Section NP.
  Context {G : Type}.
  Variable ky : kyber G.
  Variable keccak : bytes -> bytes.
  Variable pshash : Z -> Z -> bytes.
  Variable su : setup.
  Variables until now0 : Z.
  Notation message := (message payload).
  Notation nevent := (nevent (G := G)). Notation node := (node (G := G)).
  Implicit Types (evs : list nevent) (n : node) (tr : list nobs).
  Notation nstep := (nstep ky keccak pshash su).
  Notation prot_of := (the_prot ky keccak pshash).
  Notation hist := (run_history ky keccak pshash su).
  Notation history := (nhistory ky keccak pshash su until now0).
  Notation st0 := (start_node (G := G) su until now0).

  Lemma offered_app k a b : offered_for k (a ++ b) = offered_for k a ++ offered_for k b. Proof. apply flat_map_app. Qed.
  Lemma queuedf_app k a b : queued_for k (a ++ b) = queued_for k a ++ queued_for k b. Proof. apply flat_map_app. Qed.
  Lemma takenf_app k a b : taken_for k (a ++ b) = taken_for k a ++ taken_for k b. Proof. apply flat_map_app. Qed.
  Lemma takenf_run k k' l : taken_for k (map (NRun k') l) = []. Proof. induction l as [|x l IH]; [reflexivity|exact IH]. Qed.
  Lemma passed_app k (a b : list (fobs payload)) : passed k (a ++ b) = passed k a ++ passed k b. Proof. apply flat_map_app. Qed.

  (** *** The consumer *)
  Definition no_take (o : nobs) : Prop := match o with NTake _ => False | _ => True end.
  Lemma no_taken k o : Forall no_take o -> taken_for k o = [].
  Proof. induction 1 as [|x l H _ IH]; [reflexivity|]. cbn. destruct x; try exact IH. destruct H. Qed.
  Lemma calm_take o : Forall calm o -> Forall no_take o.
  Proof. apply Forall_impl. intros []; cbn; auto. Qed.

  Lemma cons_calm n ev n' o : nstep n ev = Ok (n', o) -> match ev with VDeliver _ _ _ _ _ | VTake _ _ _ _ => False | _ => True end -> n_cons n' = n_cons n /\ Forall no_take o.
  Proof.
    assert (FW : forall fev n', firewall ky keccak pshash su n fev = Ok (n', o) -> n_cons n' = n_cons n /\ Forall no_take o).
    { intros fev n1 EF. destruct (firewall_eff _ _ _ _ _ _ _ _ EF) as (A & _ & (_ & B & _) & _). split; [exact B|apply calm_take, A]. }
    destruct ev as [now base start doc|now i g|now i|now i g gen|now m|now|now k c|now pc g gen|now pc g nonce ord|now j nonce ord]; cbn [Node.nstep]; intros HS NM; try contradiction; try (apply (FW _ _ HS)).
    - injection HS as <- <-. auto.
    - unfold request_go in HS. destruct (nth_error (n_reqs n) i) as [r|] eqn:EN; [|injection HS as <- <-; auto].
      destruct (rq_phase r) as [todo| |todo|todo|]; try (injection HS as <- <-; auto; fail); (destruct (existsb (Z.eqb g) todo); [|injection HS as <- <-; auto]); cbv zeta in HS.
      + injection HS as <- <-. cbn. destruct (rq_doc r); auto.
      + injection HS as <- <-. auto.
      + destruct (rq_doc r), (snd (pop_output (n_outs n) (rq_key r g))) as [[]|]; try discriminate; try (injection HS as <- <-; split; [reflexivity|repeat constructor]).
        destruct (_ <? _)%nat; [discriminate|]. injection HS as <- <-; split; [reflexivity|repeat constructor].
    - injection HS as <- <-. unfold request_wait. destruct (nth_error (n_reqs n) i) as [r|]; [|auto]. destruct (rq_phase r); auto. destruct (forallb _ _); auto.
    - unfold request_guest in HS. destruct (nth_error (n_reqs n) i) as [r|] eqn:EN; [|injection HS as <- <-; auto].
      destruct (loc_of (rq_locs r) g) as [l|] eqn:EL; [|injection HS as <- <-; auto].
      destruct (guest_go _ _ _ _ _ _ _ _ _ _) as [[[n1 l1] o1]| |] eqn:EG; cbn [rbind fst snd] in HS; try discriminate. injection HS as <- <-. cbn [put_req set_reqs n_cons].
      assert (RV : forall fev l', (x <- firewall ky keccak pshash su n fev ;; Ok (fst x, l', snd x)) = Ok (n1, l1, o1) -> n_cons n1 = n_cons n /\ Forall no_take o1).
      { intros fev l'. destruct (firewall ky keccak pshash su n fev) as [[n2 o2]| |] eqn:EF; cbn [rbind fst snd]; try discriminate. intros E. injection E as <- _ <-. exact (FW _ _ EF). }
      unfold guest_go in EG. destruct l as [|c|c|c|c|c| |].
      + exact (RV _ _ EG).
      + destruct (chan_ready _ _ _); [exact (RV _ _ EG)|injection EG as <- _ <-; auto].
      + destruct (now <? rq_start r); [injection EG as <- _ <-; auto|]. destruct (ensure_run su n now (rq_key r g) gen) as [[n2 j] o2] eqn:EE. injection EG as <- _ <-. cbn [fst snd].
        destruct (ensure_eff _ _ _ _ _ _ _ _ EE) as (_ & A & _ & _ & _ & B). split; [exact A|]. destruct B as [(-> & _)|(-> & _)]; repeat constructor.
      + destruct (terminated_run _ _); injection EG as <- _ <-; auto.
      + destruct (chan_ready _ _ _); [exact (RV _ _ EG)|injection EG as <- _ <-; auto].
      + destruct (chan_ready _ _ _); [exact (RV _ _ EG)|injection EG as <- _ <-; auto].
      + destruct (receive _ _ _ _ _ _) as [[n2 o2]| |] eqn:ER; [|injection EG as <- _ <-; auto|discriminate]. injection EG as <- _ <-. cbn [fst snd].
        destruct (receive_eff _ _ _ _ _ _ _ _ ER) as (A & _ & (_ & B & _) & _). split; [exact B|]. constructor; [exact I|apply calm_take, A].
      + injection EG as <- _ <-; auto.
    - unfold run_tick in HS. destruct (nth_error (n_heap n) j) as [[k r]|]; [|injection HS as <- <-; auto]. destruct (now <? r_wake r); [injection HS as <- <-; auto|].
      destruct (tick _ _ _ _ _) as [x| |]; cbn [rbind] in HS; try discriminate. injection HS as <- <-. destruct (run_after_eff n j k x) as (_ & B & _ & _ & _ & A & _). split; [exact B|apply calm_take, A].
  Qed.

  Definition REACH (k : key) evs tr n : Prop := (requests_for k evs <= 1)%nat ->
    (objs k (n_heap n) = [] -> taken_for k tr = []) /\
    forall j r, nth_error (n_heap n) j = Some (k, r) -> taken_for k tr = received (untimed (hist st0 evs j)) ++ held_for k n.

  Lemma qkey_of evs tr T q m : msg_ok ky keccak pshash su evs tr T q m -> 0 <= m_pc m -> q = qkey (k_pc (key_of m)) (k_guest (key_of m)).
  Proof. intros (-> & _) L. cbn. rewrite Z.abs_eq by exact L. reflexivity. Qed.
  Lemma received_app (a b : list (event payload env)) : received (a ++ b) = received a ++ received b. Proof. apply flat_map_app. Qed.
  Lemma no_object k n j r : objs k (n_heap n) = [] -> nth_error (n_heap n) j = Some (k, r) -> False.
  Proof. intros E H. exact (objs_nil _ _ E _ _ H). Qed.

  Lemma hist_none j m : forall evs n tr, nexec ky keccak pshash su st0 evs = Ok (n, tr) -> length evs = m -> nth_error (n_heap n) j = None -> hist st0 evs j = [].
  Proof.
    induction m as [|m IHm]; intros evs n' tr' E L H; [destruct evs; [reflexivity|discriminate]|].
    destruct (rev_case evs) as [->|(a & x & ->)]; [reflexivity|]. rewrite nexec_app in E. destruct (nexec ky keccak pshash su st0 a) as [[n1 o1]| |] eqn:E1; cbn [rbind fst snd] in E; try discriminate.
    cbn [nexec] in E. destruct (nstep n1 x) as [[n2 o2]| |] eqn:E2; cbn [rbind fst snd] in E; try discriminate. injection E as <- <-.
    assert (H1 : nth_error (n_heap n1) j = None).
    { destruct (nth_error (n_heap n1) j) as [[k r]|] eqn:EN; [|reflexivity]. destruct (obj_step _ _ _ _ _ _ _ _ _ _ _ E2 EN) as (r' & os & X & _). congruence. }
    rewrite (hist_snoc _ _ _ _ _ _ _ _ x j E1), (IHm _ _ _ E1); [|rewrite app_length in L; cbn in L; lia|exact H1].
    destruct x; try reflexivity; cbn [event_of_run]; rewrite H1; reflexivity.
  Qed.
  Lemma history_cut evs ev n tr : history (evs ++ [ev]) n tr -> exists n1 tr1 o, history evs n1 tr1 /\ nstep n1 ev = Ok (n, o) /\ tr = tr1 ++ o.
  Proof.
    intros [HC HE]. apply nexec_prefix in HE. destruct HE as (n1 & t1 & t2 & A & B & ->). cbn [nexec] in B. destruct (nstep n1 ev) as [[n2 o2]| |] eqn:E2; cbn [rbind fst snd] in B; try discriminate.
    injection B as <- <-. exists n1, t1, o2. rewrite app_nil_r. split; [split; [|exact A]|auto]. clear - HC. revert HC. generalize now0. induction evs as [|e evs IH]; intros t; cbn; [auto|]. intros [H1 H2]. split; [exact H1|]. apply IH, H2.
  Qed.

  Lemma reach k : 0 <= k_pc k -> NoDup (su_guests su) -> forall evs n tr, history evs n tr -> REACH k evs tr n.
  Proof.
    intros KP ND evs. induction evs as [|ev evs IH] using rev_ind; intros n2 tr HH HR.
    - destruct HH as [_ E]. cbn in E. injection E as <- <-. split; [reflexivity|]. intros [|j] r E; discriminate.
    - destruct (history_cut _ _ _ _ HH) as (n1 & tr1 & o & H1 & HS & ->).
      assert (HR1 : (requests_for k evs <= 1)%nat) by (pose proof (requests_snoc k evs ev); lia).
      destruct (IH _ _ H1 HR1) as [I1 I2]. clear IH. pose proof H1 as [_ E1].
      destruct (history_one ky keccak pshash su until now0 _ _ _ k ND H1 HR1) as [O1 _]. destruct (history_one ky keccak pshash su until now0 _ _ _ k ND HH HR) as [O2 _].
      destruct (history_inv _ _ _ _ _ _ _ _ _ H1) as (T1 & _ & R1). destruct (history_inv _ _ _ _ _ _ _ _ _ HH) as (T2 & _ & R2).
      assert (HELD : objs k (n_heap n1) = [] -> held_for k n1 = []).
      { intros E. unfold held_for. destruct (kget _ _) as [[j m]|] eqn:EC; [|reflexivity]. destruct (r_cons _ _ _ _ _ _ _ _ R1 _ _ _ EC) as (_ & _ & r & EN). unfold for_run.
        destruct (key_eqb_spec (key_of m) k) as [<-|]; [|reflexivity]. destruct (no_object _ _ _ _ E EN). }
      assert (NEW : forall j r, nth_error (n_heap n1) j = None -> nth_error (n_heap n2) j = Some (k, r) -> taken_for k tr1 = [] /\ hist st0 (evs ++ [ev]) j = [] /\ held_for k n1 = []).
      { intros j r EN1 EN2. destruct (obj_new _ _ _ _ _ _ _ _ _ _ _ HS EN1 EN2) as (X1 & _ & X3 & _). rewrite X3, app_length in O2. cbn in O2.
        assert (EO : objs k (n_heap n1) = []) by (destruct (objs k (n_heap n1)); [reflexivity|cbn in O2; lia]). split; [apply I1, EO|]. split; [|apply HELD, EO].
        rewrite (hist_snoc _ _ _ _ _ _ _ _ ev j E1), X1, app_nil_r. eapply hist_none; [exact E1|reflexivity|exact EN1]. }
      assert (NONE : objs k (n_heap n2) = [] -> objs k (n_heap n1) = []).
      { intros E. pose proof (objs_grow _ _ _ _ _ _ _ _ k HS) as L. rewrite E in L. destruct (objs k (n_heap n1)); [reflexivity|cbn in L; lia]. }
      assert (GEN : taken_for k o = [] -> held_for k n2 = held_for k n1 -> (forall j r, nth_error (n_heap n1) j = Some (k, r) -> received (untimed (event_of_run su n1 j ev)) = []) ->
        (objs k (n_heap n2) = [] -> taken_for k (tr1 ++ o) = []) /\
        forall j r, nth_error (n_heap n2) j = Some (k, r) -> taken_for k (tr1 ++ o) = received (untimed (hist st0 (evs ++ [ev]) j)) ++ held_for k n2).
      { intros A B C. rewrite takenf_app, A, app_nil_r, B. split; [intros E; apply I1, NONE, E|]. intros j r EN. destruct (nth_error (n_heap n1) j) as [[k1 r1]|] eqn:EN1.
        - destruct (obj_step _ _ _ _ _ _ _ _ _ _ _ HS EN1) as (r' & os & X & _). rewrite EN in X. injection X as <- _.
          rewrite (hist_snoc _ _ _ _ _ _ _ _ ev j E1). unfold untimed. rewrite map_app, received_app. fold (untimed (hist st0 evs j)). fold (untimed (event_of_run su n1 j ev)). rewrite (C _ _ EN1), app_nil_r. apply (I2 _ _ EN1).
        - destruct (NEW _ _ EN1 EN) as (Y1 & Y2 & Y3). rewrite Y1, Y2, Y3. reflexivity. }
      assert (KQ : forall pc g, qkey pc g = mkKey (k_pc k) (k_guest k) [] \/ qkey pc g <> mkKey (k_pc k) (k_guest k) []).
      { intros pc g. destruct (key_eqb_spec (qkey pc g) (mkKey (k_pc k) (k_guest k) [])); auto. }
      destruct ev as [now base start doc|now i g|now i|now i g gen|now m|now|now k1 c|now pc g gen|now pc g nonce ord|now j0 nonce ord];
        try (destruct (cons_calm _ _ _ _ HS I) as [A B]; apply GEN; [apply no_taken, B|unfold held_for; rewrite A; reflexivity|intros j r EN; try reflexivity]).
      + (* VTake *)
        pose proof HS as HT. cbn [Node.nstep] in HT. injection HT as HT. unfold consumer_take in HT; change (@fw_key) with (@key_of) in HT.
        destruct (kget (n_cons n1) (qkey pc g)) as [x|] eqn:EC; [injection HT as <- <-; apply GEN; reflexivity|].
        destruct (kslice (n_qs n1) (qkey pc g)) as [|m q] eqn:EQ; [injection HT as <- <-; apply GEN; reflexivity|]. cbv zeta in HT.
        pose proof (r_q _ _ _ _ _ _ _ _ R1 (qkey pc g) m) as MO. rewrite EQ in MO. specialize (MO (or_introl eq_refl)).
        destruct (Z.ltb_spec (m_pc m) 0) as [L|L].
        { injection HT as <- <-. apply GEN; [|reflexivity|reflexivity]. cbn. unfold for_run. destruct (key_eqb_spec (key_of m) k) as [<-|]; [|reflexivity]. cbn in KP. lia. }
        pose proof (qkey_of _ _ _ _ _ MO L) as QK. destruct (ensure_run su _ now (key_of m) gen) as [[n3 j3] o3] eqn:EE. cbn [fst snd] in HT. injection HT as E2 <-.
        destruct (ensure_eff _ _ _ _ _ _ _ _ EE) as (_ & Y2 & _ & _ & _ & Y6).
        assert (T3 : taken_for k (NTake m :: o3) = for_run k m) by (cbn; destruct Y6 as [(-> & _)|(-> & _)]; cbn; apply app_nil_r).
        assert (C2 : n_cons n2 = kset (n_cons n1) (qkey pc g) (j3, m)) by (rewrite <- E2; reflexivity).
        destruct (key_eqb_spec (key_of m) k) as [EK|NK].
        * assert (HN1 : held_for k n1 = []) by (unfold held_for; rewrite <- EK; change (mkKey _ _ _) with (qkey (k_pc (key_of m)) (k_guest (key_of m))); rewrite <- QK, EC; reflexivity).
          assert (HN2 : held_for k n2 = [m]).
          { unfold held_for. rewrite C2. change (mkKey (k_pc k) (k_guest k) []) with (qkey (k_pc k) (k_guest k)). rewrite <- EK, <- QK, kget_kset_same. unfold for_run. rewrite EK, key_eqb_refl. reflexivity. }
          assert (FM : for_run k m = [m]) by (unfold for_run; rewrite EK, key_eqb_refl; reflexivity).
          rewrite takenf_app, T3, FM, HN2. split.
          -- intros EO. exfalso. assert (EC2 : kget (n_cons n2) (qkey pc g) = Some (j3, m)) by (rewrite C2; apply kget_kset_same).
             destruct (r_cons _ _ _ _ _ _ _ _ R2 _ _ _ EC2) as (_ & _ & r & EN). rewrite EK in EN. exact (no_object _ _ _ _ EO EN).
          -- intros j r EN. f_equal. destruct (nth_error (n_heap n1) j) as [[k1 r1]|] eqn:EN1.
             ++ destruct (obj_step _ _ _ _ _ _ _ _ _ _ _ HS EN1) as (r' & os & X & _). rewrite EN in X. injection X as <- _.
                rewrite (hist_snoc _ _ _ _ _ _ _ _ _ j E1). cbn [event_of_run]. rewrite app_nil_r, (I2 _ _ EN1), HN1, app_nil_r. reflexivity.
             ++ destruct (NEW _ _ EN1 EN) as (Y1 & Y3 & _). rewrite Y1, Y3. reflexivity.
        * assert (FM : for_run k m = []) by (unfold for_run; destruct (key_eqb_spec (key_of m) k); [contradiction|reflexivity]).
          apply GEN; [rewrite T3; exact FM| |reflexivity]. unfold held_for. rewrite C2, kget_kset. destruct (key_eqb_spec (qkey pc g) (mkKey (k_pc k) (k_guest k) [])) as [Q|Q]; [|reflexivity].
          rewrite <- Q, EC, FM. reflexivity.
      + (* VDeliver *)
        pose proof HS as HT. cbn [Node.nstep] in HT. unfold consumer_deliver in HT. destruct (kget (n_cons n1) (qkey pc g)) as [[j0 m]|] eqn:EC.
        2:{ injection HT as <- <-. apply GEN; [reflexivity|reflexivity|]. intros j r EN. cbn [event_of_run]. rewrite EN. change (mkKey pc g []) with (qkey pc g). rewrite EC. reflexivity. }
        destruct (r_cons _ _ _ _ _ _ _ _ R1 _ _ _ EC) as (MO & L & r0 & EN0). pose proof (qkey_of _ _ _ _ _ MO L) as QK. rewrite EN0 in HT.
        destruct (deliver _ _ _ _ _) as [x| |]; cbn [rbind] in HT; try discriminate. cbv zeta in HT. injection HT as E2 <-.
        assert (C2 : n_cons n2 = kdel (n_cons n1) (qkey pc g)) by (rewrite <- E2; reflexivity).
        assert (T3 : taken_for k (map (NRun (key_of m)) (snd x)) = []) by (apply takenf_run).
        destruct (key_eqb_spec (key_of m) k) as [EK|NK].
        * assert (FM : for_run k m = [m]) by (unfold for_run; rewrite EK, key_eqb_refl; reflexivity).
          assert (HN1 : held_for k n1 = [m]) by (unfold held_for; rewrite <- EK; change (mkKey _ _ _) with (qkey (k_pc (key_of m)) (k_guest (key_of m))); rewrite <- QK, EC, EK; exact FM).
          assert (HN2 : held_for k n2 = []) by (unfold held_for; rewrite C2, <- EK; change (mkKey _ _ _) with (qkey (k_pc (key_of m)) (k_guest (key_of m))); rewrite <- QK, kget_kdel_same; reflexivity).
          rewrite takenf_app, T3, app_nil_r, HN2. rewrite EK in EN0. split; [intros EO; destruct (no_object _ _ _ _ (NONE EO) EN0)|].
          intros j r EN. destruct (nth_error (n_heap n1) j) as [[k1 r1]|] eqn:EN1; [|destruct (NEW _ _ EN1 EN) as (_ & _ & Y); rewrite HN1 in Y; discriminate].
          destruct (obj_step _ _ _ _ _ _ _ _ _ _ _ HS EN1) as (r' & os & X & _). rewrite EN in X. injection X as <- _.
          assert (j = j0) by (eapply objs_two; [exact EN1|exact EN0|exact O1]). subst j0.
          rewrite (hist_snoc _ _ _ _ _ _ _ _ _ j E1). cbn [event_of_run]. rewrite EN1. change (mkKey pc g []) with (qkey pc g). rewrite EC, Nat.eqb_refl, app_nil_r.
          unfold untimed. rewrite map_app, received_app. cbn [map received flat_map snd app]. rewrite (I2 _ _ EN1), HN1. reflexivity.
        * assert (FM : for_run k m = []) by (unfold for_run; destruct (key_eqb_spec (key_of m) k); [contradiction|reflexivity]).
          apply GEN; [exact T3| |].
          -- unfold held_for. rewrite C2, kget_kdel. destruct (key_eqb_spec (qkey pc g) (mkKey (k_pc k) (k_guest k) [])) as [Q|Q]; [|reflexivity]. rewrite <- Q, EC, FM. reflexivity.
          -- intros j r EN. cbn [event_of_run]. rewrite EN. change (mkKey pc g []) with (qkey pc g). rewrite EC. destruct (Nat.eqb_spec j0 j) as [->|]; [|reflexivity]. congruence.
      + (* VTick *) cbn [event_of_run]. rewrite EN. destruct (_ && _); reflexivity.
  Qed.
End NP.
