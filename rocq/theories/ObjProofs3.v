(** Each request returns one output for each guest; run objects through the life of a node. *)
From Coq Require Import ZArith List Lia Bool.
From Coq Require Import Init.Byte.
From Verif Require Import Params Bytes Res Secp Dto Dss Prot ProtSpec ProtProofs TimeSpec TimeProofs DkgProt DkgProofs KMap Firewall FwSpec FwProofs
  Outputs Node NodeSpec NodeRun NodeProofs NodeProofs2 NodeProofs3 NodeProofs4 NodeProofs5 NodeProofs6 NodeProofs7 ObjSpec ObjProofs ObjProofs2.
Import ListNotations.
Open Scope Z_scope.

Section NP.
  Context {G : Type}.
  Variable ky : kyber G.
  Variable keccak : bytes -> bytes.
  Variable pshash : Z -> Z -> bytes.
  Variable su : setup.
  Variables until now0 : Z.
  Notation nevent := (nevent (G := G)). Notation node := (node (G := G)).
  Implicit Types (evs : list nevent) (n : node) (tr : list nobs).
  Notation nstep := (nstep ky keccak pshash su).
  Notation prot_of := (the_prot ky keccak pshash).
  Notation hist := (run_history ky keccak pshash su).
  Notation st0 := (start_node (G := G) su until now0).

  (** ** Pops *)
  Definition has_popped (k : key) (r : request) : bool :=
    matches k r && match rq_phase r with RPop todo => negb (existsb (Z.eqb (k_guest k)) todo) | RDone => true | _ => false end.
  Definition npop (k : key) (rs : list request) : nat := length (filter (has_popped k) rs).
  Lemma pops_app k a b : pops k (a ++ b) = (pops k a + pops k b)%nat.
  Proof. unfold pops. rewrite filter_app, app_length. reflexivity. Qed.
  Lemma pops_none k o : Forall no_pop o -> pops k o = 0%nat.
  Proof. induction 1 as [|x l H _ IH]; [reflexivity|]. unfold pops in *. cbn. destruct x; try exact IH. destruct H. Qed.
  Lemma npop_put k rs i r r' : nth_error rs i = Some r -> (npop k (put rs i r') + (if has_popped k r then 1 else 0) = npop k rs + (if has_popped k r' then 1 else 0))%nat.
  Proof.
    intros E. destruct (put_split rs i _ E) as (a & b & E1 & E2). rewrite E2, E1. unfold npop. rewrite !filter_app, !app_length. cbn.
    destruct (has_popped k r), (has_popped k r'); cbn; lia.
  Qed.
  Lemma remove_in g h l : existsb (Z.eqb h) (remove g l) = existsb (Z.eqb h) l && negb (h =? g).
  Proof.
    unfold remove. induction l as [|x l IH]; [reflexivity|]. cbn. destruct (Z.eqb_spec x g) as [->|N]; cbn; rewrite IH.
    - destruct (h =? g); cbn; [rewrite andb_false_r; reflexivity|reflexivity].
    - destruct (Z.eqb_spec h x) as [->|]; cbn; [|reflexivity]. destruct (Z.eqb_spec x g); [contradiction|reflexivity].
  Qed.
  Lemma pops_step k tr n ev n' o : In (k_guest k) (su_guests su) -> (pops k tr = npop k (n_reqs n))%nat -> nstep n ev = Ok (n', o) -> (pops k (tr ++ o) = npop k (n_reqs n'))%nat.
  Proof.
    intros KG H HS. rewrite pops_app.
    assert (GG : existsb (Z.eqb (k_guest k)) (su_guests su) = true) by (apply existsb_exists; exists (k_guest k); split; [exact KG|apply Z.eqb_refl]).
    destruct (req_kinds _ _ _ _ _ _ _ _ HS) as [(E & _ & F)|[(base & start & doc & E & _ & ->)|(i & r & r' & EN & E & RT)]].
    - rewrite E, (pops_none k o F). lia.
    - rewrite E. unfold npop. rewrite filter_app, app_length. cbn. unfold has_popped at 2. destruct (new_phase su base start doc) as [->|[-> _]]; rewrite andb_false_r; cbn; unfold pops in *; cbn; unfold npop in *; lia.
    - rewrite E. pose proof (npop_put k _ _ _ r' EN) as X.
      assert (SAME : pops k o = 0%nat -> has_popped k r' = has_popped k r -> (pops k tr + pops k o = npop k (put (n_reqs n) i r'))%nat) by (intros P Q; rewrite Q in X; lia).
      destruct RT as [g todo E1|g todo E1|g todo v E1 IT|E1|g l l' o _ _ _ F].
      + apply SAME; [reflexivity|]. unfold has_popped. rewrite E1. destruct (remove g todo); cbn; rewrite !andb_false_r; reflexivity.
      + apply SAME; [reflexivity|]. unfold has_popped. rewrite E1. destruct (remove g todo); cbn; rewrite ?GG; cbn; rewrite !andb_false_r; reflexivity.
      + assert (HP : has_popped k r = matches k r && negb (existsb (Z.eqb (k_guest k)) todo)) by (unfold has_popped; rewrite E1; reflexivity).
        assert (HP' : has_popped k (with_phase r (match remove g todo with [] => RDone | _ :: _ => RPop (remove g todo) end)) = matches k r && negb (existsb (Z.eqb (k_guest k)) (remove g todo))).
        { unfold has_popped. change (matches k (with_phase r (match remove g todo with [] => RDone | _ :: _ => RPop (remove g todo) end))) with (matches k r). cbn [with_phase rq_phase]. destruct (remove g todo); reflexivity. }
        rewrite HP, HP', remove_in in X.
        assert (PO : pops k [NPop (rq_key r g) v] = if matches k r && (k_guest k =? g) then 1%nat else 0%nat).
        { unfold pops. cbn. destruct (key_eqb_spec (rq_key r g) k) as [<-|N]; [rewrite matches_self; cbn; rewrite Z.eqb_refl; reflexivity|].
          destruct (matches k r) eqn:EM; [|reflexivity]. destruct (Z.eqb_spec (k_guest k) g) as [EG|]; [|reflexivity]. destruct N. apply matches_key; congruence. }
        rewrite PO. assert (EI : existsb (Z.eqb g) todo = true) by (apply existsb_exists; exists g; split; [exact IT|apply Z.eqb_refl]).
        destruct (matches k r); cbn [andb] in *; [|lia]. destruct (Z.eqb_spec (k_guest k) g) as [EG|]; [rewrite EG, EI in *|]; cbn in *; [lia|].
        rewrite andb_true_r in X. destruct (negb _); lia.
      + apply SAME; [reflexivity|]. unfold has_popped. rewrite E1. cbn. destruct (rq_doc r); cbn; rewrite ?GG; cbn; rewrite !andb_false_r; reflexivity.
      + apply SAME; [apply pops_none, F|]. reflexivity.
  Qed.
  Lemma history_pops evs n tr k : In (k_guest k) (su_guests su) -> nhistory ky keccak pshash su until now0 evs n tr -> (pops k tr <= requests_for k evs)%nat.
  Proof.
    intros KG HH. pose proof (history_sigs _ _ _ _ _ _ _ _ _ HH) as SG.
    assert (X : pops k tr = npop k (n_reqs n)).
    { destruct (history_ind ky keccak pshash su until now0 (fun _ tr n => pops k tr = npop k (n_reqs n))) with (3 := HH) as (_ & _ & X); [|reflexivity|exact X].
      intros evs0 tr0 n0 T ev n' o _ _ _ H HS. eapply pops_step; eassumption. }
    rewrite X. assert (L : requests_for k evs = length (filter (matches k) (n_reqs n))) by (rewrite matches_count, SG, <- requests_count; reflexivity). rewrite L.
    unfold npop. generalize (n_reqs n). induction l as [|r l IH]; [apply le_n|]. cbn. unfold has_popped at 1. destruct (matches k r); cbn; [|exact IH]. destruct (match rq_phase r with RPop _ => _ | _ => _ end); cbn; lia.
  Qed.

  (** ** Objects *)
  Lemma persist evs : forall n n' tr j k r, nexec ky keccak pshash su n evs = Ok (n', tr) -> nth_error (n_heap n) j = Some (k, r) -> exists r', nth_error (n_heap n') j = Some (k, r').
  Proof.
    induction evs as [|ev evs IH]; intros n n' tr j k r; cbn [nexec]; [intros E; injection E as <- _; eauto|].
    destruct (nstep n ev) as [[n1 o1]| |] eqn:E1; cbn [rbind fst snd]; try discriminate. destruct (nexec ky keccak pshash su n1 evs) as [[n2 o2]| |] eqn:E2; cbn [rbind fst snd]; try discriminate.
    intros E EN. injection E as <- _. destruct (obj_step _ _ _ _ _ _ _ _ _ _ _ E1 EN) as (r1 & os & X & _). eapply IH; eassumption.
  Qed.
  Lemma app_cmp {A} (a a' b b' : list A) x x' : a ++ x :: b = a' ++ x' :: b' -> a = a' /\ x = x' \/ (exists c, a' = a ++ x :: c) \/ (exists c, a = a' ++ x' :: c).
  Proof.
    revert a'. induction a as [|y a IH]; intros [|z a'] E; cbn in E.
    - injection E as -> ->. auto.
    - injection E as -> ->. right. left. eexists. reflexivity.
    - injection E as -> <-. right. right. eexists. reflexivity.
    - injection E as -> E. destruct (IH _ E) as [[-> ->]|[[c ->]|[c ->]]]; [auto|right; left; exists c; reflexivity|right; right; exists c; reflexivity].
  Qed.
  Lemma nexec_prefix a b n n' tr : nexec ky keccak pshash su n (a ++ b) = Ok (n', tr) -> exists n1 t1 t2, nexec ky keccak pshash su n a = Ok (n1, t1) /\ nexec ky keccak pshash su n1 b = Ok (n', t2) /\ tr = t1 ++ t2.
  Proof.
    intros E. rewrite nexec_app in E. destruct (nexec ky keccak pshash su n a) as [[n1 t1]| |] eqn:E1; cbn [rbind fst snd] in E; try discriminate.
    destruct (nexec ky keccak pshash su n1 b) as [[n2 t2]| |] eqn:E2; cbn [rbind fst snd] in E; try discriminate. injection E as <- <-. exists n1, t1, t2. auto.
  Qed.
  Lemma lives_unique evs j k k0 h k' k0' h' : lives ky keccak pshash su st0 evs j k k0 h -> lives ky keccak pshash su st0 evs j k' k0' h' -> k = k' /\ k0 = k0' /\ h = h'.
  Proof.
    assert (LT : forall a ev c n tr n' o k (k0 : kd G) n2 tr2, nexec ky keccak pshash su st0 a = Ok (n, tr) -> nstep n ev = Ok (n', o) -> nth_error (n_heap n') j = Some (k, new_run k0) ->
      nexec ky keccak pshash su st0 (a ++ ev :: c) = Ok (n2, tr2) -> nth_error (n_heap n2) j <> None).
    { intros a ev c n tr n' o k1 k2 n2 tr2 E1 E2 EN E3. apply nexec_prefix in E3. destruct E3 as (n1 & t1 & t2 & A & B & _). rewrite E1 in A. injection A as <- <-.
      cbn [nexec] in B. rewrite E2 in B. cbn [rbind fst snd] in B. destruct (nexec ky keccak pshash su n' c) as [[n3 t3]| |] eqn:E4; cbn [rbind fst snd] in B; try discriminate. injection B as <- _.
      destruct (persist _ _ _ _ _ _ _ E4 EN) as [r' ->]. discriminate. }
    intros (-> & a & ev & b & n & tr & n' & o & E & A1 & A2 & A3 & A4) (-> & a' & ev' & b' & m & tr' & m' & o' & E' & B1 & B2 & B3 & B4).
    rewrite E in E'. destruct (app_cmp _ _ _ _ _ _ E') as [[<- <-]|[[c ->]|[c ->]]].
    - rewrite A1 in B1. injection B1 as <- <-. rewrite A2 in B2. injection B2 as <- <-. rewrite A4 in B4. injection B4 as <- <-. auto.
    - exfalso. exact (LT _ _ _ _ _ _ _ _ _ _ _ A1 A2 A4 B1 B3).
    - exfalso. exact (LT _ _ _ _ _ _ _ _ _ _ _ B1 B2 B4 A1 A3).
  Qed.
  Lemma lives_object evs n tr j k k0 h : nexec ky keccak pshash su st0 evs = Ok (n, tr) -> lives ky keccak pshash su st0 evs j k k0 h ->
    exists r os, nth_error (n_heap n) j = Some (k, r) /\ exec (prot_of (k_pc k)) (run_info su k) (new_run k0) (untimed h) = Ok (r, os) /\
      timely (prot_of (k_pc k)) (run_info su k) (new_run k0) (untimed h) /\ ((length (objs k (n_heap n)) <= 1)%nat -> run_trace k tr = os).
  Proof.
    intros HE HL. pose proof HL as (EH & a & ev & b & n1 & t1 & n2 & o & E & A1 & A2 & A3 & A4).
    assert (P : exists r, nth_error (n_heap n) j = Some (k, r)).
    { rewrite E in HE. apply nexec_prefix in HE. destruct HE as (m1 & u1 & u2 & B1 & B2 & _). rewrite A1 in B1. injection B1 as <- <-. cbn [nexec] in B2. rewrite A2 in B2. cbn [rbind fst snd] in B2.
      destruct (nexec ky keccak pshash su n2 b) as [[n3 t3]| |] eqn:E4; cbn [rbind fst snd] in B2; try discriminate. injection B2 as <- _. eapply persist; eassumption. }
    destruct P as [r EN]. destruct (proj2 (objects _ _ _ _ _ _ _ _ _ HE) _ _ _ EN) as (k1 & os & L1 & _ & X1 & X2 & X3).
    destruct (lives_unique _ _ _ _ _ _ _ _ HL L1) as (_ & <- & ->). exists r, os. auto.
  Qed.

  (** An output is not lost. *)
  Lemma kept_last k a : kept k a = None -> forall x y k' v, a = x ++ NRun k' (OOutput (k_pc k) v) :: y -> k_guest k' = k_guest k -> k_run k' = k_run k -> exists w, In (NPop k w) y.
  Proof.
    induction a as [|z a IH] using rev_ind; intros HK x y k' v E G1 G2; [destruct x; discriminate|]. rewrite kept_app in HK. cbn in HK.
    destruct (rev_case y) as [->|(y' & z' & ->)].
    - apply app_inj_tail in E. destruct E as [_ ->]. cbn in HK. rewrite G1, G2 in HK. replace (mkKey (k_pc k) (k_guest k) (k_run k)) with k in HK by (destruct k; reflexivity). rewrite key_eqb_refl in HK. discriminate.
    - change (x ++ NRun k' (OOutput (k_pc k) v) :: y' ++ [z']) with (x ++ (NRun k' (OOutput (k_pc k) v) :: y') ++ [z']) in E. rewrite app_assoc in E. apply app_inj_tail in E. destruct E as [-> ->].
      assert (OLD : kept k (x ++ NRun k' (OOutput (k_pc k) v) :: y') = None -> exists w, In (NPop k w) (y' ++ [z'])).
      { intros H. destruct (IH H x y' k' v eq_refl G1 G2) as [w W]. exists w. apply in_or_app. auto. }
      destruct z' as [ | | | | | |k1 o1| |k1 v1]; try (apply OLD; exact HK).
      + destruct o1; try (apply OLD; exact HK). cbn in HK. destruct (key_eqb _ k); [discriminate|apply OLD; exact HK].
      + cbn in HK. destruct (key_eqb_spec k1 k) as [->|]; [|apply OLD; exact HK]. exists v1. apply in_or_app. right. left. reflexivity.
  Qed.
  Lemma kept_from k a v : kept k a = Some v -> exists k', k_guest k' = k_guest k /\ k_run k' = k_run k /\ In (NRun k' (OOutput (k_pc k) v)) a.
  Proof.
    induction a as [|z a IH] using rev_ind; intros HK; [discriminate|]. rewrite kept_app in HK. cbn in HK.
    assert (OLD : kept k a = Some v -> exists k', k_guest k' = k_guest k /\ k_run k' = k_run k /\ In (NRun k' (OOutput (k_pc k) v)) (a ++ [z])).
    { intros H. destruct (IH H) as (k' & A & B & C). exists k'. split; [exact A|]. split; [exact B|]. apply in_or_app. auto. }
    destruct z as [ | | | | | |k1 o1| |k1 v1]; try (apply OLD; exact HK).
    - destruct o1; try (apply OLD; exact HK). cbn in HK. destruct (key_eqb_spec (mkKey pc (k_guest k1) (k_run k1)) k) as [<-|]; [|apply OLD; exact HK]. injection HK as ->.
      exists k1. cbn. split; [reflexivity|]. split; [reflexivity|]. apply in_or_app. right. left. reflexivity.
    - cbn in HK. destruct (key_eqb k1 k); [discriminate|apply OLD; exact HK].
  Qed.
  Lemma returned evs n tr k v w : NoDup (su_guests su) -> In (k_guest k) (su_guests su) -> nhistory ky keccak pshash su until now0 evs n tr -> (requests_for k evs <= 1)%nat ->
    In (NRun k (OOutput (k_pc k) v)) tr -> In (NPop k w) tr -> exists v' k', w = Some v' /\ k_guest k' = k_guest k /\ k_run k' = k_run k /\ In (NRun k' (OOutput (k_pc k) v')) tr.
  Proof.
    intros ND KG HH HR HO HP. pose proof (history_pops _ _ _ _ KG HH) as PL.
    apply in_split in HP. destruct HP as (a & b & ET). destruct (history_silent _ _ _ _ _ _ _ _ _ k k ND HH) as (SL & _); [repeat split; exact KG|].
    destruct (SL HR a w b ET) as [_ S2]. pose proof (proj2 (history_kept _ _ _ _ _ _ _ _ _ (proj2 HH)) _ _ _ _ ET) as EW.
    assert (HA : In (NRun k (OOutput (k_pc k) v)) a).
    { rewrite ET in HO. apply in_app_or in HO. destruct HO as [HO|[HO|HO]]; [exact HO|discriminate|]. destruct (S2 _ HO). }
    destruct w as [v'|].
    - symmetry in EW. destruct (kept_from _ _ _ EW) as (k' & A & B & C). exists v', k'. split; [reflexivity|]. split; [exact A|]. split; [exact B|]. rewrite ET. apply in_or_app. auto.
    - exfalso. apply in_split in HA. destruct HA as (x & y & EA). destruct (kept_last k a (eq_sym EW) x y k v EA eq_refl eq_refl) as [w W].
      assert (X : (2 <= pops k tr)%nat).
      { rewrite ET, pops_app. assert (1 <= pops k a)%nat.
        { rewrite EA, pops_app. apply in_split in W. destruct W as (p & q & ->). change (NRun k (OOutput (k_pc k) v) :: p ++ NPop k w :: q) with ((NRun k (OOutput (k_pc k) v) :: p) ++ NPop k w :: q). rewrite pops_app.
          unfold pops at 3. cbn. rewrite key_eqb_refl. cbn. lia. }
        unfold pops at 2. cbn. rewrite key_eqb_refl. cbn. unfold pops in *. lia. }
      lia.
  Qed.
End NP.
Section More.
  Context {G : Type}.
  Variable ky : kyber G.
  Variable keccak : bytes -> bytes.
  Variable pshash : Z -> Z -> bytes.
  Variable su : setup.
  Variables until now0 : Z.
  Notation nevent := (nevent (G := G)). Notation node := (node (G := G)).
  Implicit Types (evs : list nevent) (n : node) (tr : list nobs).
  Notation history := (nhistory ky keccak pshash su until now0).

  Lemma in_run_trace k tr o : In o (run_trace k tr) <-> In (NRun k o) tr.
  Proof.
    unfold run_trace. rewrite in_flat_map. split.
    - intros (x & H & X). destruct x; try destruct X. destruct (key_eqb_spec k0 k) as [->|]; [|destruct X]. destruct X as [->|[]]. exact H.
    - intros H. exists (NRun k o). split; [exact H|]. rewrite key_eqb_refl. left. reflexivity.
  Qed.
  Lemma history_one evs n tr k : NoDup (su_guests su) -> history evs n tr -> (requests_for k evs <= 1)%nat ->
    (length (objs k (n_heap n)) <= 1)%nat /\ (objs k (n_heap n) <> [] -> in_table k tr = true \/ (1 <= deletes k tr)%nat).
  Proof.
    intros ND HH. destruct (history_ind ky keccak pshash su until now0 (fun evs tr n => (k_pc k = pc_dss -> U k evs tr n) /\ ONE k evs tr n)) with (3 := HH) as (_ & _ & _ & X); [| |exact X].
    - intros evs0 tr0 n0 T ev n' o HI HG HT (I1 & I2) HS.
      assert (HU : k_pc k = pc_dss -> U k (evs0 ++ [ev]) (tr0 ++ o) n') by (intros KP; eapply u_step; eauto). split; [exact HU|eapply one_step; eauto].
    - split; [intros KP; destruct (history_u ky keccak pshash su until now0 k [] (start_node su until now0) [] ND KP) as [_ X]; [split; [exact I|reflexivity]|exact X]|].
      intros _. cbn. split; [lia|congruence].
  Qed.
  Lemma history_ph evs n tr : history evs n tr -> PH n.
  Proof.
    intros HH. destruct (history_ind ky keccak pshash su until now0 (fun _ _ n => PH n)) with (3 := HH) as (_ & _ & X); [| |exact X].
    - intros evs0 tr0 n0 T ev n' o HI HG HT I1 HS. eapply ph_step; eauto.
    - intros [|i] r H; discriminate.
  Qed.
  Lemma in_hist evs j : forall n0 t e now, In (t, ETick e now) (run_history ky keccak pshash su n0 evs j) -> exists nonce ord k n, In (VTick now j nonce ord) evs /\ e = env_for su n k nonce ord.
  Proof.
    induction evs as [|ev evs IH]; intros n0 t e now H; [destruct H|]. cbn [run_history] in H. apply in_app_or in H. destruct H as [H|H].
    - destruct ev as [ | | | | | | | |now1 pc g nonce ord|now1 j1 nonce ord]; cbn [event_of_run] in H; try destruct H; destruct (nth_error (n_heap n0) j) as [[k r]|]; try destruct H.
      + destruct (kget (n_cons n0) (mkKey pc g [])) as [[j' m]|]; [|destruct H]. destruct (Nat.eqb j' j); [|destruct H]. destruct H as [H|[]]. discriminate.
      + destruct (Nat.eqb_spec j1 j) as [->|]; [|destruct H]. cbn in H. destruct (r_wake r <=? now1); [|destruct H]. destruct H as [H|[]]. injection H as _ <- <-.
        exists nonce, ord, k, n0. split; [left; reflexivity|reflexivity].
    - destruct (nstep ky keccak pshash su n0 ev) as [x| |]; [|destruct H..]. destruct (IH _ _ _ _ H) as (nonce & ord & k & n & A & B). exists nonce, ord, k, n. split; [right; exact A|exact B].
  Qed.
End More.
