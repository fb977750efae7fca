(** Statements about what a node outputs. *)
From Coq Require Import ZArith List Lia Bool Permutation.
From Coq Require Import Init.Byte.
From Verif Require Import Params NumTh Curve Order Bytes Res Secp Spec SecpProofs SecpProofs2 PublicKey Schnorr Dto DtoProofs
  Dss DssSpec DssProofs DssProofs2 DssProofs3 PropsDss Prot ProtSpec DkgProt DkgSpec KMap Firewall Outputs Node NodeSpec
  DkgProofs PropsOutputs NodeRun NodeProofs NodeProofs2 NodeProofs6 PropsNode.
Import ListNotations.
Open Scope Z_scope.

Section Statements.
  Context {G : Type}.
  Variable ky : kyber G.
  Variable keccak : bytes -> bytes.
  Variable pshash : Z -> Z -> bytes.
  Variable su : setup.
  Variables until now0 : Z.
  Notation history := (nhistory ky keccak pshash su until now0).

  (** ** C84.  Guest [g] is member [i], its long-term share is right and belongs to the public key [P], and so is every
      share that its nonce key generations give out. *)
  Definition well_dealt (evs : list nevent) (g i : Z) (P : point) : Prop :=
    member_at su g i /\
    (forall l, su_long su g = Some l -> right_share i (su_T su) l /\ exists Ps, dk_commits l = P :: Ps) /\
    (forall st s, generator_of ky evs g st -> ky_share ky st = Some s -> right_share i (su_T su) s).
  Definition orders_permute (evs : list (nevent (G := G))) : Prop := forall ord, drawn evs ord -> forall i l, Permutation (ord i l) l.
  Definition documents_fit (evs : list (nevent (G := G))) : Prop := forall t base start doc, In (VRequest t base start (Some doc)) evs -> uint256 doc.

  Theorem C84_output_verifies evs n tr k s i P : history evs n tr -> orders_permute evs -> documents_fit evs -> Z.of_nat (length (su_members su)) < N ->
    well_dealt evs (k_guest k) i P -> In (NRun k (OOutput pc_dss (VSig s))) tr ->
    exists doc start t, requested su evs k start (Some doc) t /\ verify keccak (KP P) doc s = Ok tt.
  Proof.
    intros HH HO HD HN (HM & HL & HR) HI.
    destruct (C75_only_requested_documents _ _ _ _ _ _ _ _ _ _ _ HH HI eq_refl)
      as (doc & start & t & d & ord & s' & RQ & (l & rnd & st & d0 & cs & EL & EG & ES & EN & ->) & DR & SG & EV).
    injection EV as <-. exists doc, start, t. split; [exact RQ|].
    destruct (HL l EL) as [(f & F0 & F1 & F2 & F3) (Ps & EP)]. destruct (HR st rnd EG ES) as (r & R0 & R1 & R2 & R3).
    pose proof (new_dss_ok keccak pshash _ _ _ _ _ _ _ _ EN) as (I & _ & _ & _ & _ & _ & D6 & D7 & _ & _ & _ & _ & DP & q & DQ & DE).
    assert (IX : d_index d0 = i).
    { unfold pt_equal in DE. apply andb_true_iff in DE. destruct DE as [DX DY]. apply fe_equal_spec in DX, DY.
      rewrite <- (HM _ q _ DP DQ DX DY), Z2Nat.id; [reflexivity|]. apply I. }
    eapply (C31_signature_verifies keccak pshash ord f r); [exact (HO ord DR)|exact HN|exact EN| | |exact EP| | |exact SG].
    - unfold shares_ok, commits_of. rewrite D6, D7, IX. cbn [share_of ks_commits ks_v]. auto.
    - destruct RQ as (base & RQ & _). eapply HD, RQ.
    - cbn [share_of ks_commits]. pose proof (Forall2_length _ _ _ F2) as X. rewrite <- X. exact F1.
    - cbn [share_of ks_commits]. pose proof (Forall2_length _ _ _ R2) as X. rewrite <- X. exact R1.
  Qed.
  (** What a request to sign returns for a guest is what its run output; if the run was asked for once, it is a
      signature of the document of the request. *)
  Theorem C84_returned_verifies evs n tr k s i P start doc t : history evs n tr -> orders_permute evs -> documents_fit evs ->
    Z.of_nat (length (su_members su)) < N -> well_dealt evs (k_guest k) i P -> k_pc k = pc_dss ->
    In (NPop k (Some (VSig s))) tr -> requested su evs k start (Some doc) t -> (requests_for k evs <= 1)%nat ->
    verify keccak (KP P) doc s = Ok tt.
  Proof.
    intros HH HO HD HN HW KP HI RQ HR. apply in_split in HI. destruct HI as (a & b & ET).
    destruct (oi_pops _ _ (history_oi _ _ _ _ _ _ _ _ _ HH) _ _ _ _ ET) as (k' & K1 & K2 & K3). rewrite KP in K3.
    assert (K4 : In (NRun k' (OOutput pc_dss (VSig s))) tr) by (rewrite ET; apply in_or_app; auto).
    rewrite <- K1 in HW. destruct (C84_output_verifies _ _ _ _ _ _ _ HH HO HD HN HW K4) as (doc' & start' & t' & RQ' & V).
    assert (X : Some doc' = Some doc); [|congruence].
    destruct RQ as (base & A1 & A2 & A3 & _), RQ' as (base' & B1 & B2 & B3 & _). unfold requests_for in HR.
    assert (IA : In (VRequest t base start (Some doc)) (filter (is_request k) evs)).
    { apply filter_In. split; [exact A1|]. cbn [is_request]. rewrite A3, Z.eqb_refl, A2. destruct (bytes_eqb_spec (run_id_for base start) (run_id_for base start)); [reflexivity|contradiction]. }
    assert (IB : In (VRequest t' base' start' (Some doc')) (filter (is_request k) evs)).
    { apply filter_In. split; [exact B1|]. cbn [is_request]. rewrite KP. change (pc_for (Some doc')) with pc_dss. rewrite Z.eqb_refl, <- K2, B2.
      destruct (bytes_eqb_spec (run_id_for base' start') (run_id_for base' start')); [reflexivity|contradiction]. }
    destruct (filter (is_request k) evs) as [|x [|y l]]; [contradiction| |cbn in HR; lia].
    destruct IA as [->|[]], IB as [IB|[]]. injection IB as _ _ _ <-. reflexivity.
  Qed.

  (** ** C85.  A key share that is output, or that a request for key generation returns, comes from a generator made for a
      run of that guest, finished and, before, certified with the qualified members named. *)
  Theorem C85_output_finished evs n tr k o : history evs n tr -> In (NRun k o) tr -> from_generator ky evs k o.
  Proof.
    intros HH H. destruct (history_inv _ _ _ _ _ _ _ _ _ HH) as [T [_ R]]. apply in_split in H. destruct H as (a & b & E).
    exact (proj2 (proj2 (r_tr _ _ _ _ _ _ _ _ R _ _ _ E))).
  Qed.
  Theorem C85_returned_finished evs n tr a k v b : history evs n tr -> tr = a ++ NPop k (Some v) :: b -> k_pc k = pc_dkg ->
    (exists k', k_guest k' = k_guest k /\ k_run k' = k_run k /\ In (NRun k' (OOutput pc_dkg v)) a) /\
    exists s st1 st2, v = VShare s (ky_qual ky st1) /\ generator_of ky evs (k_guest k) st1 /\ ky_certified ky st1 = true /\
      evolves ky st1 st2 /\ ky_finished ky st2 = true /\ ky_share ky st2 = Some s.
  Proof.
    intros HH ET KP. destruct (oi_pops _ _ (history_oi _ _ _ _ _ _ _ _ _ HH) _ _ _ _ ET) as (k' & K1 & K2 & K3). rewrite KP in K3.
    split; [eauto|]. assert (K4 : In (NRun k' (OOutput pc_dkg v)) tr) by (rewrite ET; apply in_or_app; auto).
    destruct (C85_output_finished _ _ _ _ _ HH K4 eq_refl) as (s & st1 & st2 & X). rewrite K1 in X. eauto.
  Qed.
  (** C79, about a node: what a request for key generation takes for a guest is a key share for which no fewer members
      qualified than there are. *)
  Theorem C79_node_returns_complete evs n tr k v : history evs n tr -> In (NPop k v) tr -> k_pc k = pc_dkg ->
    exists s q, v = Some (VShare s q) /\ (length (su_members su) <= length q)%nat.
  Proof.
    intros [_ HE] HI HK. pose proof (nexec_fit _ _ _ _ _ _ _ _ HE) as F. rewrite Forall_forall in F.
    destruct (F _ HI) as [[X _]|[_ X]]; [rewrite HK in X; discriminate|exact X].
  Qed.
End Statements.

Definition fine (ev : nevent (G := Z)) : Prop :=
  match ev with VDeliver _ _ _ _ o | VTick _ _ _ o => o = (fun _ l => l) | VRequest _ _ _ doc => doc = Some 10 | _ => True end.
Lemma ex_fine nonce n : Forall fine (ex_begin 0 (Some 10) ++ ex_go (Some 10) ++ ex_ticks nonce n).
Proof.
  apply Forall_app. split; [repeat (apply Forall_cons; [first [exact I | reflexivity]|]); apply Forall_nil|].
  apply Forall_app. split; [repeat (apply Forall_cons; [first [exact I | reflexivity]|]); apply Forall_nil|].
  apply Forall_forall. intros y H. apply in_map_iff in H. destruct H as (m & <- & _). reflexivity.
Qed.
Lemma some_inj {A} (x y : A) : Some x = Some y -> x = y. Proof. congruence. Qed.
Lemma two_members (A B : point) : pt_equal B A = false -> forall j Q P, Ok A = Ok P -> nth_error [A; B] j = Some Q -> eqP (fst Q) (fst P) -> eqP (snd Q) (snd P) -> Z.of_nat j = 0.
Proof.
  intros N j Q P EP EQ QX QY. injection EP as <-. destruct j as [|[|j]]; [reflexivity| |destruct j; discriminate EQ]. cbn in EQ. injection EQ as <-. exfalso.
  assert (Y : pt_equal B A = true) by (unfold pt_equal; rewrite andb_true_iff, !fe_equal_spec; auto). congruence.
Qed.
Lemma ne_63 : pt_equal (of_E (smul 6 eG)) (of_E (smul 3 eG)) = false.
Proof.
  assert (A : 0 <= 6 < N) by (split; [discriminate|reflexivity]). assert (B : 0 <= 3 < N) by (split; [discriminate|reflexivity]).
  assert (C : 6 <> 3) by discriminate. exact (demo_eqb 6 3 A B C).
Qed.
(** C84: the history of C75_ex; member 0 of two signs alone (threshold 1). *)
Example C84_ex : forall keccak pshash, exists (ky : kyber Z) su n tr evs s i P, nhistory ky keccak pshash su 0 0 evs n tr /\
  orders_permute evs /\ documents_fit evs /\ Z.of_nat (length (su_members su)) < N /\ well_dealt ky su evs 0 i P /\
  In (NRun (ex_key pc_dss) (OOutput pc_dss (VSig s))) tr /\ verify keccak (KP P) 10 s = Ok tt.
Proof.
  intros keccak pshash. set (dl := mkDks [of_E (smul 5 eG)] (mkPri 0 (poly [5] (0 + 1)))). set (dr := mkDks [of_E (smul 7 eG)] (mkPri 0 (poly [7] (0 + 1)))).
  pose proof (demo_new keccak 0 [5] [7] [0; 1] 10 1 (or_introl eq_refl)) as EN.
  destruct (demo_partial keccak pshash 0 5 [] 7 [] [0; 1] 10 1 9) as (v & ps & EP & EV); [split; reflexivity|auto|].
  set (d := demo_dss keccak 0 [5] [7] [0; 1] 10 1) in *. change (3 + 3 * 0) with 3 in EN.
  assert (W : exists w, to_wire (OPart ps) = Ok w).
  { cbn [to_wire]. unfold partsig_to_dto. rewrite EV. destruct (pri_ok (mkPri 0 v)) as [w ->]. eexists. reflexivity. }
  destruct W as [w EW].
  destruct (sig_total keccak (fun _ l => l) (add_partial d 0 v true)) as [_ [a [sv [ES _]]]].
  - intros i l. apply Permutation_refl.
  - pose proof (new_dss_ok keccak pshash _ _ _ _ _ _ _ _ EN) as (I & _). apply (inv_step keccak pshash d (CallPartial 9)) in I.
    cbn [Dss.step] in I. rewrite EP in I. exact I.
  - reflexivity.
  - discriminate.
  - cbn. lia.
  - destruct (sign_history keccak pshash dr dl _ _ d (add_partial d 0 v true) ps w (Sig a (Some sv)) 9 EN EP EW eq_refl ES) as (n & tr & EX & H1 & H2).
    set (su := mkSetup [0] [of_E (smul 3 eG); of_E (smul 6 eG)] 1 2 (fun _ => 3) (fun _ => Some dl)).
    set (evs := ex_begin 0 (Some 10) ++ ex_go (Some 10) ++ ex_ticks 9 25) in *.
    assert (FA : Forall fine evs) by apply ex_fine.
    rewrite Forall_forall in FA.
    assert (OP : orders_permute evs).
    { intros ord [(t & pc & g & nonce & H)|(t & j & nonce & H)] i l; rewrite (FA _ H); apply Permutation_refl. }
    assert (DF : documents_fit evs).
    { intros t base start doc H. pose proof (FA _ H) as X. cbn [fine] in X. injection X as ->. split; [discriminate|reflexivity]. }
    assert (RS : forall c, right_share 0 1 (mkDks [of_E (smul c eG)] (mkPri 0 (poly [c] (0 + 1))))).
    { intros c. exists [c]. split; [discriminate|]. split; [discriminate|]. split; [|reflexivity]. apply (demo_commits [c]). }
    match type of EX with nexec ?K _ _ _ _ _ = _ => set (kk := K) in * end.
    exists kk, su, n, tr, evs, (Sig a (Some sv)), 0, (of_E (smul 5 eG)).
    assert (HH : nhistory kk keccak pshash su 0 0 evs n tr) by (split; [|exact EX]; vm_compute; intuition discriminate).
    assert (WD : well_dealt kk su evs 0 0 (of_E (smul 5 eG))).
    2:{ split; [exact HH|]. split; [exact OP|]. split; [exact DF|]. split; [reflexivity|]. split; [exact WD|]. split; [exact H2|].
        destruct (C84_output_verifies _ _ _ _ _ _ _ _ _ (ex_key pc_dss) _ _ _ HH OP DF eq_refl WD H2) as (doc & start & t & (base & RQ & _) & V).
        pose proof (FA _ RQ) as X. cbn [fine] in X. injection X as ->. exact V. }
    split; [|split].
    + intros j Q P EM. cbn [su_secret su] in EM. rewrite pt_mul_base in EM by auto. 
      exact (two_members (of_E (smul 3 eG)) (of_E (smul 6 eG)) ne_63 j Q P EM).
    + intros l EL. rewrite <- (some_inj _ _ EL). split; [apply RS|exists []; reflexivity].
    + intros st s _ EQ. rewrite <- (some_inj _ _ EQ). apply RS.
Qed.
(** C85: the history of C56: a key generation whose request returns a share. *)
Example C85_ex : exists n a k v b, ex_history (Some []) (ex_all None) n (a ++ NPop k (Some v) :: b) /\ k_pc k = pc_dkg.
Proof.
  assert (X : exists n tr k v, ex_history (Some []) (ex_all None) n tr /\ In (NPop k (Some v)) tr /\ k_pc k = pc_dkg).
  { destruct (ex_run (Some []) (ex_all None)) as [[n tr]| |] eqn:E; [|vm_compute in E; discriminate..]. exists n, tr. vm_compute in E. injection E as <- <-.
    eexists _, _. split; [split; [apply ex_all_clock|vm_compute; reflexivity]|]. split; [repeat first [left; reflexivity | right]|reflexivity]. }
  destruct X as (n & tr & k & v & H & X & Y). apply in_split in X. destruct X as (a & b & ->). exists n, a, k, v, b. auto.
Qed.

Print Assumptions C84_output_verifies. Print Assumptions C84_returned_verifies. Print Assumptions C85_output_finished. Print Assumptions C85_returned_finished. Print Assumptions C79_node_returns_complete.
