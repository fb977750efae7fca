(** Where the outputs that requests return come from. *)
From Coq Require Import ZArith List Lia Bool.
From Coq Require Import Init.Byte.
From Verif Require Import Params Bytes Res Secp Dto Dss Prot DkgProt KMap Firewall Outputs Node NodeSpec NodeProofs NodeProofs2.
Import ListNotations.
Open Scope Z_scope.

Lemma rev_case {A} (l : list A) : l = [] \/ exists a x, l = a ++ [x].
Proof. destruct l as [|y l] using rev_ind; eauto. Qed.

Section NP.
  Context {G : Type}.
  Variable ky : kyber G.
  Variable keccak : bytes -> bytes.
  Variable pshash : Z -> Z -> bytes.
  Variable su : setup.
  Notation nevent := (nevent (G := G)). Notation node := (node (G := G)).
  Implicit Types (evs : list nevent) (n : node) (tr : list nobs).

  (** A run of that guest and id has output [v] under the protocol of [k]. *)
  Definition from_run (tr : list nobs) (k : key) (v : output) : Prop :=
    exists k', k_guest k' = k_guest k /\ k_run k' = k_run k /\ In (NRun k' (OOutput (k_pc k) v)) tr.
  Record OI (tr : list nobs) (n : node) : Prop := mkOI {
    oi_outs : forall k v, kget (n_outs n) k = Some v -> from_run tr k v;
    oi_pops : forall a k v b, tr = a ++ NPop k (Some v) :: b -> from_run a k v }.

  Lemma from_app tr o k v : from_run tr k v -> from_run (tr ++ o) k v.
  Proof. intros (k' & A & B & C). exists k'. split; [exact A|]. split; [exact B|]. apply in_or_app. auto. Qed.
  Definition no_pop (o : nobs) : Prop := match o with NPop _ _ => False | _ => True end.
  Lemma pops_app tr o (P : list nobs -> key -> output -> Prop) : (forall a k v b, tr = a ++ NPop k (Some v) :: b -> P a k v) -> Forall no_pop o ->
    forall a k v b, tr ++ o = a ++ NPop k (Some v) :: b -> P a k v.
  Proof.
    intros H1 H2 a k v b E. rewrite Forall_forall in H2.
    assert (X : forall (t : list nobs) a, t ++ o = a ++ NPop k (Some v) :: b -> exists c, t = a ++ NPop k (Some v) :: c).
    { induction t as [|x t IH]; intros a0 E0.
      - cbn in E0. exfalso. apply (H2 (NPop k (Some v))). rewrite E0. apply in_elt.
      - destruct a0 as [|y a0]; cbn in E0; injection E0 as -> E0; [exists t; reflexivity|]. destruct (IH a0 E0) as (c & ->). exists c. reflexivity. }
    destruct (X tr a E) as (c & E'). eapply H1, E'.
  Qed.
  Lemma oi_quiet tr o n n' : OI tr n -> n_outs n' = n_outs n -> Forall no_pop o -> OI (tr ++ o) n'.
  Proof.
    intros [A B] E H. constructor; [intros k v Hv; rewrite E in Hv; apply from_app, A, Hv|]. apply (pops_app tr o from_run B H).
  Qed.

  Lemma receive_outs n m n' o : receive ky keccak pshash su n m = Ok (n', o) -> n_outs n' = n_outs n /\ Forall no_pop o.
  Proof.
    unfold receive. destruct (_ <=? _); [discriminate|]. destruct (_ <? 0).
    - destruct (_ && _); [|discriminate]. intros E. injection E as <- <-. repeat constructor.
    - destruct (negb _); [intros E; injection E as <- <-; repeat constructor|]. destruct (_ && _); intros E; injection E as <- <-; repeat constructor.
  Qed.
  Lemma receive_all_outs l : forall n n' o, receive_all ky keccak pshash su n l = Ok (n', o) -> n_outs n' = n_outs n /\ Forall no_pop o.
  Proof.
    induction l as [|x l IH]; intros n n' o; cbn [receive_all]; [intros E; injection E as <- <-; repeat constructor|].
    destruct (match x with FPass _ m => receive ky keccak pshash su n m | _ => Ok (n, []) end) as [[n1 o1]| |] eqn:E1; cbn [rbind fst snd]; try discriminate.
    destruct (receive_all ky keccak pshash su n1 l) as [[n2 o2]| |] eqn:E2; cbn [rbind fst snd]; try discriminate. intros E. injection E as <- <-.
    destruct (IH _ _ _ E2) as [A B].
    assert (X : n_outs n1 = n_outs n /\ Forall no_pop o1).
    { destruct x; try (injection E1 as <- <-; repeat constructor). eapply receive_outs, E1. }
    destruct X as [C D]. split; [congruence|]. constructor; [exact I|]. apply Forall_app. auto.
  Qed.
  Lemma firewall_outs n ev n' o : firewall ky keccak pshash su n ev = Ok (n', o) -> n_outs n' = n_outs n /\ Forall no_pop o.
  Proof. unfold firewall. destruct (fstep _ _) as [[f l]| |]; cbn [rbind fst snd]; try discriminate. intros E. apply receive_all_outs in E. exact E. Qed.
  Lemma ensure_outs n T k gen n' j o : ensure_run su n T k gen = (n', j, o) -> n_outs n' = n_outs n /\ Forall no_pop o.
  Proof. unfold ensure_run. destruct (kget _ _); intros E; injection E as <- <- <-; repeat constructor. Qed.
  Lemma push_from k l : forall m k' v, kget (push_all m k l) k' = Some v ->
    kget m k' = Some v \/ (k_guest k = k_guest k' /\ k_run k = k_run k' /\ In (OOutput (k_pc k') v) l).
  Proof.
    induction l as [|x l IH]; intros m k' v; cbn [push_all]; [auto|].
    assert (W : forall m0, kget (push_all m0 k l) k' = Some v -> kget m0 k' = Some v \/ (k_guest k = k_guest k' /\ k_run k = k_run k' /\ In (OOutput (k_pc k') v) (x :: l))).
    { intros m0 H. destruct (IH m0 k' v H) as [H0|(A & B & C)]; [auto|]. right. split; [exact A|]. split; [exact B|right; exact C]. }
    destruct x; try apply W. intros H. destruct (W _ H) as [H0|H0]; [|auto]. unfold push_output in H0. rewrite kget_kset in H0.
    destruct (key_eqb_spec (mkKey pc (k_guest k) (k_run k)) k') as [<-|]; [|auto]. injection H0 as ->. right. cbn. auto.
  Qed.
  Lemma after_oi tr n j k x : OI tr n -> OI (tr ++ snd (run_after n j k x)) (fst (run_after n j k x)).
  Proof.
    intros [A B]. unfold run_after. cbn [fst snd]. constructor.
    - cbn [set_outs n_outs]. intros k' v H. apply push_from in H. destruct H as [H|(H1 & H2 & H3)]; [apply from_app, A, H|].
      exists k. split; [exact H1|]. split; [exact H2|]. apply in_or_app. right. apply in_map, H3.
    - apply (pops_app tr _ from_run B). apply Forall_forall. intros y Hy. apply in_map_iff in Hy. destruct Hy as (z & <- & _). exact I.
  Qed.

  Lemma nstep_oi tr n ev n' o : OI tr n -> nstep ky keccak pshash su n ev = Ok (n', o) -> OI (tr ++ o) n'.
  Proof.
    intros HI HS. assert (NOP : Ok (n, []) = Ok (n', o) -> OI (tr ++ o) n') by (intros E; injection E as <- <-; rewrite app_nil_r; exact HI).
    assert (FW : forall fev, firewall ky keccak pshash su n fev = Ok (n', o) -> OI (tr ++ o) n').
    { intros fev H. apply firewall_outs in H. eapply oi_quiet; [exact HI|apply H..]. }
    destruct ev as [now base start doc|now i g|now i|now i g gen|now m|now|now k c|now pc g gen|now pc g nonce ord|now j nonce ord]; cbn [Node.nstep] in HS.
    - injection HS as <- <-. apply (oi_quiet tr [] n); [exact HI|reflexivity|constructor].
    - unfold request_go in HS. destruct (nth_error _ i) as [r|]; [|auto]. destruct (rq_phase r) as [todo| |todo|todo|]; try (apply NOP; exact HS).
      + destruct (existsb _ _); [|auto]. cbv zeta in HS. injection HS as <- <-. apply (oi_quiet tr [] n); [exact HI| |constructor]. destruct (rq_doc r); reflexivity.
      + destruct (existsb _ _); [|auto]. cbv zeta in HS. injection HS as <- <-. apply (oi_quiet tr [] n); [exact HI| |constructor]. reflexivity.
      + destruct (existsb _ _); [|auto]. cbv zeta in HS.
        assert (FIN : forall n1, n_outs n1 = kdel (n_outs n) (rq_key r g) -> OI (tr ++ [NPop (rq_key r g) (kget (n_outs n) (rq_key r g))]) n1).
        { destruct HI as [A B]. intros n1 E1. constructor.
          - intros k v. rewrite E1, kget_kdel. destruct (key_eqb _ _); [discriminate|]. intros H. apply from_app, A, H.
          - intros a k v b E. destruct (rev_case b) as [->|(b' & y & ->)].
            + apply app_inj_tail in E. destruct E as [<- E]. injection E as <- E. apply A. exact E.
            + change (a ++ NPop k (Some v) :: b' ++ [y]) with (a ++ (NPop k (Some v) :: b') ++ [y]) in E. rewrite app_assoc in E. apply app_inj_tail in E. destruct E as [E _]. exact (B _ _ _ _ E). }
        cbn [pop_output fst snd] in HS.
        destruct (rq_doc r), (kget (n_outs n) (rq_key r g)) as [[]|]; try discriminate; try (injection HS as <- <-; apply FIN; reflexivity).
        destruct (_ <? _)%nat; [discriminate|]. injection HS as <- <-; apply FIN; reflexivity.
    - injection HS as <- <-. apply (oi_quiet tr [] n); [exact HI| |constructor]. unfold request_wait. destruct (nth_error _ i) as [r|]; [|reflexivity].
      destruct (rq_phase r); try reflexivity. destruct (forallb _ _); reflexivity.
    - unfold request_guest in HS. destruct (nth_error _ i) as [r|]; [|auto]. destruct (loc_of _ g) as [l|]; [|auto].
      destruct (guest_go _ _ _ _ _ _ _ _ _ _) as [[[n1 l1] o1]| |] eqn:EG; cbn [rbind fst snd] in HS; try discriminate. injection HS as <- <-.
      enough (X : n_outs n1 = n_outs n /\ Forall no_pop o1) by (eapply oi_quiet; [exact HI|apply X..]).
      assert (RECV : forall c l2, (if chan_ready n (rq_key r g) c then x <- firewall ky keccak pshash su n (EvRecv now (rq_key r g) c) ;; Ok (fst x, l2, snd x) else Ok (n, l, [])) = Ok (n1, l1, o1) ->
        n_outs n1 = n_outs n /\ Forall no_pop o1).
      { intros c l2. destruct (chan_ready _ _ _); [|intros E; injection E as <- <- <-; repeat constructor].
        destruct (firewall _ _ _ _ _ _) as [[n2 o2]| |] eqn:EF; cbn [rbind fst snd]; try discriminate. intros E. injection E as <- <- <-. eapply firewall_outs, EF. }
      unfold guest_go in EG. cbv zeta in EG. destruct l as [|c|c|c|c|c| |]; try (eapply RECV, EG).
      + destruct (firewall _ _ _ _ _ _) as [[n2 o2]| |] eqn:EF; cbn [rbind fst snd] in EG; try discriminate. injection EG as <- <- <-. eapply firewall_outs, EF.
      + destruct (_ <? _); [injection EG as <- <- <-; repeat constructor|]. destruct (ensure_run _ _ _ _ _) as [[n2 j2] o2] eqn:EE. cbn [fst snd] in EG. injection EG as <- <- <-. eapply ensure_outs, EE.
      + destruct (terminated_run _ _); injection EG as <- <- <-; repeat constructor.
      + destruct (receive _ _ _ _ _ _) as [[n2 o2]| |] eqn:ER; try discriminate; cbn [fst snd] in EG; injection EG as <- <- <-; [|repeat constructor].
        destruct (receive_outs _ _ _ _ ER) as [A B]. split; [exact A|]. constructor; [exact I|exact B].
      + injection EG as <- <- <-; repeat constructor.
    - eapply FW, HS.
    - eapply FW, HS.
    - eapply FW, HS.
    - unfold consumer_take in HS. destruct (kget (n_cons n) (qkey pc g)); [auto|]. destruct (kslice (n_qs n) (qkey pc g)) as [|m q]; [auto|]. cbv zeta in HS.
      destruct (_ <? 0); [injection HS as <- <-; eapply oi_quiet; [exact HI|reflexivity|repeat constructor]|].
      destruct (ensure_run _ _ _ _ _) as [[n2 j2] o2] eqn:EE. cbn [fst snd] in HS. injection HS as <- <-. apply ensure_outs in EE. destruct EE as [A B].
      eapply oi_quiet; [exact HI|exact A|constructor; [exact I|exact B]].
    - unfold consumer_deliver in HS. destruct (kget (n_cons n) (qkey pc g)) as [[j m]|]; [|auto]. destruct (nth_error (n_heap n) j) as [[k r]|]; [|discriminate].
      destruct (deliver _ _ _ _ _) as [x| |]; cbn [rbind] in HS; try discriminate. cbv zeta in HS. injection HS as <- <-.
      destruct (after_oi tr n j k x HI) as [A B]. constructor; [exact A|exact B].
    - unfold run_tick in HS. destruct (nth_error (n_heap n) j) as [[k r]|]; [|auto]. destruct (_ <? _); [auto|].
      destruct (tick _ _ _ _ _) as [x| |]; cbn [rbind] in HS; try discriminate. injection HS as <- <-.
      exact (after_oi tr n j k x HI).
  Qed.
  Lemma nexec_oi l : forall tr n n' o, OI tr n -> nexec ky keccak pshash su n l = Ok (n', o) -> OI (tr ++ o) n'.
  Proof.
    induction l as [|ev l IH]; intros tr n n' o HI; cbn [nexec]; [intros E; injection E as <- <-; rewrite app_nil_r; exact HI|].
    destruct (nstep ky keccak pshash su n ev) as [[n1 o1]| |] eqn:E1; cbn [rbind fst snd]; try discriminate.
    destruct (nexec ky keccak pshash su n1 l) as [[n2 o2]| |] eqn:E2; cbn [rbind fst snd]; try discriminate. intros E. injection E as <- <-.
    rewrite app_assoc. eapply IH; [eapply nstep_oi; eassumption|exact E2].
  Qed.
  Lemma history_oi until now0 evs n tr : nhistory ky keccak pshash su until now0 evs n tr -> OI tr n.
  Proof.
    intros [_ HE]. apply (nexec_oi _ [] _ _ _) in HE; [exact HE|]. constructor; [discriminate|]. intros [|x a] k v b E; discriminate.
  Qed.
  (** What a request takes for a guest fits the request. *)
  Definition fits (k : key) (v : option output) : Prop :=
    (k_pc k = pc_dss /\ forall w, v = Some w -> exists s, w = VSig s) \/
    (k_pc k = pc_dkg /\ exists s q, v = Some (VShare s q) /\ (length (su_members su) <= length q)%nat).
  Definition pops_fit (o : nobs) : Prop := match o with NPop k v => fits k v | _ => True end.
  Lemma no_pop_fit o : Forall no_pop o -> Forall pops_fit o.
  Proof. apply Forall_impl. intros [] H; try exact I. contradiction. Qed.
  Lemma nstep_fit n ev n' o : nstep ky keccak pshash su n ev = Ok (n', o) -> Forall pops_fit o.
  Proof.
    intros HS. assert (NOP : Ok (n, []) = Ok (n', o) -> Forall pops_fit o) by (intros E; injection E as <- <-; constructor).
    assert (FW : forall fev, firewall ky keccak pshash su n fev = Ok (n', o) -> Forall pops_fit o).
    { intros fev H. apply firewall_outs in H. apply no_pop_fit, H. }
    assert (AFT : forall j k x, Forall pops_fit (snd (run_after (G := G) n j k x))).
    { intros. apply no_pop_fit. unfold run_after. cbn [snd]. apply Forall_forall. intros y Hy. apply in_map_iff in Hy. destruct Hy as (z & <- & _). exact I. }
    destruct ev as [now base start doc|now i g|now i|now i g gen|now m|now|now k c|now pc g gen|now pc g nonce ord|now j nonce ord]; cbn [Node.nstep] in HS.
    - injection HS as <- <-. constructor.
    - unfold request_go in HS. destruct (nth_error _ i) as [r|]; [|auto]. destruct (rq_phase r) as [todo| |todo|todo|]; try (apply NOP; exact HS).
      + destruct (existsb _ _); [|auto]. cbv zeta in HS. injection HS as <- <-. constructor.
      + destruct (existsb _ _); [|auto]. cbv zeta in HS. injection HS as <- <-. constructor.
      + destruct (existsb _ _); [|auto]. cbv zeta in HS. cbn [pop_output fst snd] in HS.
        destruct (rq_doc r) as [doc|] eqn:ED, (kget (n_outs n) (rq_key r g)) as [[]|] eqn:EK; try discriminate;
          try (injection HS as <- <-; constructor; [|constructor]; left; unfold rq_key, rq_pc; rewrite ED; split; [reflexivity|]; intros w EW; try discriminate EW; injection EW as <-; eauto).
        destruct (_ <? _)%nat eqn:EL; [discriminate|]. injection HS as <- <-. constructor; [|constructor]. right. unfold rq_key, rq_pc. rewrite ED. split; [reflexivity|].
        apply Nat.ltb_ge in EL. eauto.
    - injection HS as <- <-. constructor.
    - unfold request_guest in HS. destruct (nth_error _ i) as [r|]; [|auto]. destruct (loc_of _ g) as [l|]; [|auto].
      destruct (guest_go _ _ _ _ _ _ _ _ _ _) as [[[n1 l1] o1]| |] eqn:EG; cbn [rbind fst snd] in HS; try discriminate. injection HS as <- <-.
      apply no_pop_fit.
      assert (RECV : forall c l2, (if chan_ready n (rq_key r g) c then x <- firewall ky keccak pshash su n (EvRecv now (rq_key r g) c) ;; Ok (fst x, l2, snd x) else Ok (n, l, [])) = Ok (n1, l1, o1) -> Forall no_pop o1).
      { intros c l2. destruct (chan_ready _ _ _); [|intros E; injection E as <- <- <-; constructor].
        destruct (firewall _ _ _ _ _ _) as [[n2 o2]| |] eqn:EF; cbn [rbind fst snd]; try discriminate. intros E. injection E as <- <- <-. eapply firewall_outs, EF. }
      unfold guest_go in EG. cbv zeta in EG. destruct l as [|c|c|c|c|c| |]; try (eapply RECV, EG).
      + destruct (firewall _ _ _ _ _ _) as [[n2 o2]| |] eqn:EF; cbn [rbind fst snd] in EG; try discriminate. injection EG as <- <- <-. eapply firewall_outs, EF.
      + destruct (_ <? _); [injection EG as <- <- <-; repeat constructor|]. destruct (ensure_run _ _ _ _ _) as [[n2 j2] o2] eqn:EE. cbn [fst snd] in EG. injection EG as <- <- <-. eapply ensure_outs, EE.
      + destruct (terminated_run _ _); injection EG as <- <- <-; repeat constructor.
      + destruct (receive _ _ _ _ _ _) as [[n2 o2]| |] eqn:ER; try discriminate; cbn [fst snd] in EG; injection EG as <- <- <-; [|repeat constructor].
        destruct (receive_outs _ _ _ _ ER) as [A B]. constructor; [exact I|exact B].
      + injection EG as <- <- <-; repeat constructor.
    - eapply FW, HS.
    - eapply FW, HS.
    - eapply FW, HS.
    - unfold consumer_take in HS. destruct (kget (n_cons n) (qkey pc g)); [auto|]. destruct (kslice (n_qs n) (qkey pc g)) as [|m q]; [auto|]. cbv zeta in HS.
      destruct (_ <? 0); [injection HS as <- <-; repeat constructor|].
      destruct (ensure_run _ _ _ _ _) as [[n2 j2] o2] eqn:EE. cbn [fst snd] in HS. injection HS as <- <-. apply ensure_outs in EE. destruct EE as [A B].
      constructor; [exact I|apply no_pop_fit, B].
    - unfold consumer_deliver in HS. destruct (kget (n_cons n) (qkey pc g)) as [[j m]|]; [|auto]. destruct (nth_error (n_heap n) j) as [[k r]|]; [|discriminate].
      destruct (deliver _ _ _ _ _) as [x| |]; cbn [rbind] in HS; try discriminate. cbv zeta in HS. injection HS as <- <-. exact (AFT j k x).
    - unfold run_tick in HS. destruct (nth_error (n_heap n) j) as [[k r]|]; [|auto]. destruct (_ <? _); [auto|].
      destruct (tick _ _ _ _ _) as [x| |]; cbn [rbind] in HS; try discriminate. injection HS as <- <-. exact (AFT j k x).
  Qed.
  Lemma nexec_fit l : forall n n' o, nexec ky keccak pshash su n l = Ok (n', o) -> Forall pops_fit o.
  Proof.
    induction l as [|ev l IH]; intros n n' o; cbn [nexec]; [intros E; injection E as <- <-; constructor|].
    destruct (nstep ky keccak pshash su n ev) as [[n1 o1]| |] eqn:E1; cbn [rbind fst snd]; try discriminate.
    destruct (nexec ky keccak pshash su n1 l) as [[n2 o2]| |] eqn:E2; cbn [rbind fst snd]; try discriminate. intros E. injection E as <- <-.
    apply Forall_app. split; [eapply nstep_fit, E1|eapply IH, E2].
  Qed.
End NP.
