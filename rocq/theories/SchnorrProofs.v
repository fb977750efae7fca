(** Proofs about the ethschnorr model. *)
From Coq Require Import ZArith Znumtheory List Lia Bool.
From Coq Require Import Init.Byte.
From Verif Require Import Params NumTh PrimeN Zmod ECGroup Curve Order
  Bytes Res Secp Spec SecpProofs SecpProofs2 PublicKey Schnorr.
Import ListNotations.
Open Scope Z_scope.

Lemma u256_card : u256_cardinality = 2 ^ 256.
Proof. reflexivity. Qed.

Section Hash.
  Variable keccak : bytes -> bytes.

  Lemma eth_address_spec P : eth_address keccak P = Ok (address_of keccak P).
  Proof. unfold eth_address. rewrite long_marshal_spec. reflexivity. Qed.

  Lemma challenge_hash_ok P a m e : challenge_hash keccak P a m = Ok e <->
    on_curve (fst P) (snd P) /\ e = be2z (keccak (challenge_input P a m)) mod N.
  Proof.
    unfold challenge_hash. destruct (pt_marshal P) as [b| |] eqn:E.
    - apply pt_marshal_ok in E. destruct E as [O ->]. cbn [is_ok negb andb].
      unfold sc_set_bytes, sc_mod, challenge_input. rewrite <- !app_assoc.
      split; [intros H|intros [_ H]].
      + split; [exact O|congruence].
      + congruence.
    - apply pt_marshal_err in E. cbn [is_ok negb]. destruct (true && _); split; try discriminate; tauto.
    - exfalso. exact (pt_marshal_no_panic P E).
  Qed.

  Lemma challenge_hash_err P a m : challenge_hash keccak P a m = Err <-> ~ on_curve (fst P) (snd P).
  Proof.
    unfold challenge_hash. destruct (pt_marshal P) as [b| |] eqn:E.
    - apply pt_marshal_ok in E. destruct E as [O ->]. cbn [is_ok negb andb].
      split; [discriminate|tauto].
    - apply pt_marshal_err in E. cbn [is_ok negb]. destruct (true && _); tauto.
    - exfalso. exact (pt_marshal_no_panic P E).
  Qed.

  Lemma challenge_hash_no_panic P a m : challenge_hash keccak P a m <> Panic.
  Proof.
    unfold challenge_hash. destruct (pt_marshal P) as [b| |] eqn:E; cbn [is_ok negb andb].
    - discriminate.
    - destruct (_ || _); discriminate.
    - intros _. exact (pt_marshal_no_panic P E).
  Qed.

  Definition chal (P : point) (a : bytes) (m : Z) : Z := challenge_of keccak P a m.

  Lemma valid_signature_spec a v : valid_signature (Sig a (Some v)) = Ok true <-> 0 <= v < N.
  Proof.
    cbn. destruct (Z.ltb_spec v N), (Z.ltb_spec v 0); cbn; split; intros X; try discriminate; try reflexivity; lia.
  Qed.

  Lemma range_check m : (m <? 0) || (max_uint256 <? m) = false <-> uint256 m.
  Proof.
    unfold max_uint256, uint256. rewrite u256_card, orb_false_iff, Z.ltb_ge, Z.ltb_ge. lia.
  Qed.

  Lemma pt_mul_total s P : exists Q, pt_mul s (KP P) = Ok Q.
  Proof. unfold pt_mul. rewrite sc_marshal_spec. eexists; reflexivity. Qed.

  Lemma verify_ok k m a z : verify keccak k m (Sig a (Some z)) = Ok tt <->
    exists P, k = KP P /\ on_curve (fst P) (snd P) /\ 0 <= z < N /\ uint256 m /\
      exists A B, pt_mul z KP_nil = Ok A /\ pt_mul (chal P a m) (KP P) = Ok B /\
        a = address_of keccak (pt_add A B).
  Proof.
    unfold verify. pose proof (valid_signature_spec a z) as V.
    destruct (valid_signature (Sig a (Some z))) as [v| |] eqn:EV; cbn [rbind].
    2,3: discriminate EV.
    destruct v; cbn [negb andb].
    2:{ split; [discriminate|]. intros (P & _ & _ & H & _). apply V in H. discriminate. }
    assert (Z1 : 0 <= z < N) by (apply V; reflexivity).
    destruct k as [| |P|]; cbn [is_secp_point valid_public_key negb andb];
      try (split; [discriminate|intros (P & H & _); discriminate]).
    pose proof (valid_public_key_spec P) as VP. unfold valid_public_key in VP.
    destruct (match fe_maybe_sqrt (fe_rhs (fst P)) with
              | Some y => fe_equal (snd P) y || fe_equal (snd P) (fe_neg y) | None => false end) eqn:EP;
      cbn [negb andb].
    2:{ split; [discriminate|]. intros (P' & H & O & _). injection H as <-.
        apply VP in O. discriminate. }
    assert (O : on_curve (fst P) (snd P)) by (apply VP; reflexivity).
    pose proof (range_check m) as RC.
    destruct ((m <? 0) || (max_uint256 <? m)) eqn:EM.
    { split; [discriminate|]. intros (P' & _ & _ & _ & H & _). apply RC in H. discriminate. }
    assert (U : uint256 m) by (apply RC; reflexivity).
    assert (EC : challenge_hash keccak P a m = Ok (chal P a m))
      by (apply challenge_hash_ok; split; [exact O|reflexivity]).
    rewrite EC. cbn [rbind]. unfold sc_mod. rewrite (Z.mod_small z N Z1).
    destruct (base_mul z KP_nil (or_introl eq_refl)) as (A & EA & _). rewrite EA. cbn [rbind].
    destruct (pt_mul_total (chal P a m) P) as [B EB]. rewrite EB. cbn [rbind].
    rewrite eth_address_spec. cbn [rbind].
    destruct (bytes_eqb_spec a (address_of keccak (pt_add A B))) as [E|E]; cbn [negb].
    - split; [intros _|reflexivity]. exists P. repeat (split; [assumption || reflexivity|]).
      exists A, B. tauto.
    - split; [discriminate|]. intros (P' & HP & _ & _ & _ & A' & B' & HA & HB & HE). injection HP as <-.
      exfalso. apply E. congruence.
  Qed.

  Lemma verify_no_panic k m a z : verify keccak k m (Sig a (Some z)) <> Panic.
  Proof.
    unfold verify. cbn [valid_signature rbind].
    set (v := (z <? N) && negb (z <? 0)). destruct v; cbn [negb andb]; [|discriminate].
    destruct k as [| |P|]; cbn [is_secp_point valid_public_key negb andb]; try discriminate.
    destruct (match fe_maybe_sqrt (fe_rhs (fst P)) with
              | Some y => fe_equal (snd P) y || fe_equal (snd P) (fe_neg y) | None => false end);
      cbn [negb andb]; [|discriminate].
    destruct ((m <? 0) || (max_uint256 <? m)); [discriminate|].
    destruct (challenge_hash keccak P a m) as [c| |] eqn:EC; cbn [rbind]; try discriminate.
    2:{ intros _. exact (challenge_hash_no_panic _ _ _ EC). }
    destruct (base_mul (sc_mod z) KP_nil (or_introl eq_refl)) as (A & EA & _). rewrite EA. cbn [rbind].
    destruct (pt_mul_total c P) as [B EB]. rewrite EB. cbn [rbind].
    rewrite eth_address_spec. cbn [rbind]. destruct (bytes_eqb _ _); discriminate.
  Qed.

  Lemma verify_nil k m : verify keccak k m SigNil = Panic /\ forall a, verify keccak k m (Sig a None) = Panic.
  Proof. split; reflexivity. Qed.

  Lemma sign_with_spec k x m : ~ (N | x) ->
    sign_with keccak k (KS x) m =
      let a := address_of keccak (of_E (smul k eG)) in
      Ok (Sig a (Some ((k - x * chal (of_E (smul x eG)) a m) mod N))).
  Proof.
    intros H. unfold sign_with. cbn [is_secp_scalar].
    rewrite pt_mul_base by tauto. cbn [rbind]. rewrite eth_address_spec. cbn [rbind].
    rewrite pt_mul_base by tauto. cbn [rbind]. unfold sc_mod. rewrite smul_modN. cbv zeta.
    destruct (key_sound x H) as (P & b & EP & C & _ & _).
    rewrite pt_mul_base in EP by tauto. injection EP as EP.
    assert (EC : forall a, challenge_hash keccak (of_E (smul x eG)) a m = Ok (chal (of_E (smul x eG)) a m)).
    { intros a. apply challenge_hash_ok. split; [rewrite EP; apply C|reflexivity]. }
    rewrite EC. cbn [rbind]. unfold sc_sub, sc_mul, sc_mod. do 3 f_equal.
    rewrite Zmult_mod_idemp_l, Zminus_mod_idemp_r. reflexivity.
  Qed.

  Lemma sign_with_zero k x m : (N | x) -> sign_with keccak k (KS x) m = Err.
  Proof.
    intros H. unfold sign_with. cbn [is_secp_scalar].
    rewrite pt_mul_base by tauto. cbn [rbind]. rewrite eth_address_spec. cbn [rbind].
    rewrite pt_mul_base by tauto. cbn [rbind]. unfold sc_mod. rewrite (Zdivide_mod _ _ H).
    change (of_E (smul 0 eG)) with (0, 0).
    match goal with |- rbind ?c _ = _ => assert (EC : c = Err) end.
    { apply challenge_hash_err. exact null_off_curve. }
    rewrite EC. reflexivity.
  Qed.

  Lemma sign_verify k x m sg P : uint256 m ->
    sign_with keccak k (KS x) m = Ok sg -> pt_mul x KP_nil = Ok P -> verify keccak (KP P) m sg = Ok tt.
  Proof.
    intros U ES EP. destruct (Zdivide_dec N x) as [D|D].
    { rewrite (sign_with_zero _ _ _ D) in ES. discriminate. }
    rewrite (sign_with_spec _ _ _ D) in ES. cbv zeta in ES. injection ES as <-.
    destruct (key_sound x D) as (P' & b & EP' & C & _ & _).
    assert (P' = P) by congruence. subst P'. rewrite pt_mul_base in EP by tauto. injection EP as <-.
    set (a := address_of keccak (of_E (smul k eG))).
    set (c := chal (of_E (smul x eG)) a m).
    apply verify_ok. exists (of_E (smul x eG)). split; [reflexivity|]. split; [apply C|].
    split; [apply modN_range|]. split; [exact U|].
    exists (of_E (smul (k - x * c) eG)), (of_E (smul c (smul x eG))).
    split; [rewrite pt_mul_base by tauto; rewrite smul_modN; reflexivity|].
    split; [apply pt_mul_of_E|].
    rewrite pt_add_of_E. unfold a. do 2 f_equal.
    rewrite <- smul_mul, <- smul_add. f_equal. ring.
  Qed.

  Lemma sign_bad_msg k x m sg P : ~ uint256 m ->
    sign_with keccak k (KS x) m = Ok sg -> pt_mul x KP_nil = Ok P -> verify keccak (KP P) m sg = Err.
  Proof.
    intros U ES EP. destruct (Zdivide_dec N x) as [D|D].
    { rewrite (sign_with_zero _ _ _ D) in ES. discriminate. }
    rewrite (sign_with_spec _ _ _ D) in ES. cbv zeta in ES. injection ES as <-.
    match goal with |- verify _ _ _ (Sig ?a (Some ?z)) = _ =>
      pose proof (verify_ok (KP P) m a z) as V; pose proof (verify_no_panic (KP P) m a z) as NP;
      destruct (verify keccak (KP P) m (Sig a (Some z))) as [[]| |] end.
    - exfalso. destruct (proj1 V eq_refl) as (_ & _ & _ & _ & H & _). contradiction.
    - reflexivity.
    - contradiction.
  Qed.

  Lemma nonce_reuse k x m1 m2 a1 a2 s1 s2 P :
    sign_with keccak k (KS x) m1 = Ok (Sig a1 (Some s1)) ->
    sign_with keccak k (KS x) m2 = Ok (Sig a2 (Some s2)) ->
    pt_mul x KP_nil = Ok P ->
    let e1 := chal P a1 m1 in let e2 := chal P a2 m2 in
    e1 <> e2 -> exists d, sc_div (sc_sub s1 s2) (sc_sub e2 e1) = Ok d /\ d = x mod N.
  Proof.
    intros H1 H2 HP e1 e2 NE.
    destruct (Zdivide_dec N x) as [D|D].
    { rewrite (sign_with_zero _ _ _ D) in H1. discriminate. }
    rewrite (sign_with_spec _ _ _ D) in H1. rewrite (sign_with_spec _ _ _ D) in H2. cbv zeta in H1, H2.
    rewrite pt_mul_base in HP by tauto. injection HP as <-.
    injection H1 as A1 S1. injection H2 as A2 S2.
    rewrite A1 in S1. rewrite A2 in S2. fold e1 in S1. fold e2 in S2.
    assert (ND : ~ (N | sc_sub e2 e1)).
    { intros X. apply Zdivide_mod in X. unfold sc_sub, sc_mod in X. rewrite Zmod_mod in X.
      apply NE. symmetry. apply eqN_small; try apply modN_range.
      unfold eqN. apply eqm_divide; [exact N_nz|]. apply Zmod_divide; [exact N_nz|exact X]. }
    destruct (sc_div_ok (sc_sub s1 s2) _ ND) as (c & EC & _ & _ & U).
    exists c. split; [exact EC|]. symmetry. apply U; [apply modN_range|].
    unfold eqN, sc_sub, sc_mod. rewrite Zmult_mod_idemp_l, Zmult_mod_idemp_r, Zmod_mod.
    rewrite <- S1, <- S2, <- Zminus_mod. f_equal. ring.
  Qed.

  Lemma long_form_inj P Q : group_elt P -> group_elt Q -> P <> Q ->
    be_fixed 32 (fst P mod p) ++ be_fixed 32 (snd P mod p) <>
    be_fixed 32 (fst Q mod p) ++ be_fixed 32 (snd Q mod p).
  Proof.
    intros HP HQ NE E. apply NE. rewrite <- (set_group P HP), <- (set_group Q HQ).
    unfold pt_set. rewrite !fe_set_spec.
    assert (E1 := f_equal (firstn 32) E). assert (E2 := f_equal (skipn 32) E).
    rewrite !firstn_fixed in E1. rewrite !skipn_fixed in E2.
    apply (f_equal be2z) in E1, E2. rewrite !be2z_fixed_p in E1, E2. congruence.
  Qed.

  Lemma second_response P m a s s' : curve_point P -> s <> s' ->
    verify keccak (KP P) m (Sig a (Some s)) = Ok tt ->
    verify keccak (KP P) m (Sig a (Some s')) = Ok tt ->
    exists R R', group_elt R /\ group_elt R' /\ R <> R' /\
      address_of keccak R = a /\ address_of keccak R' = a.
  Proof.
    intros C NE H1 H2. apply verify_ok in H1, H2.
    destruct H1 as (P1 & E1 & _ & Z1 & _ & A1 & B1 & HA1 & HB1 & HR1).
    destruct H2 as (P2 & E2 & _ & Z2 & _ & A2 & B2 & HA2 & HB2 & HR2).
    injection E1 as <-. injection E2 as <-.
    assert (B1 = B2) by congruence. subst B2.
    destruct (elt_of_E P (or_intror C)) as [e ->].
    rewrite pt_mul_of_E in HB1. injection HB1 as <-.
    rewrite pt_mul_base in HA1, HA2 by tauto. injection HA1 as <-. injection HA2 as <-.
    rewrite pt_add_of_E in HR1, HR2.
    eexists _, _. split; [apply of_E_elt|]. split; [apply of_E_elt|].
    split; [|split; [symmetry; exact HR1|symmetry; exact HR2]].
    intros X. apply of_E_inj, eadd_cancel_r in X.
    apply smul_G_inj in X. apply NE. apply eqN_small; assumption.
  Qed.

  Lemma app_inv_len {A} (a b c d : list A) : length a = length c -> a ++ b = c ++ d -> a = c /\ b = d.
  Proof.
    revert c. induction a as [|x a IH]; intros [|y c] L E; try discriminate; cbn in *; [tauto|].
    injection E as -> E. injection L as L. destruct (IH _ L E) as [-> ->]. tauto.
  Qed.
  Lemma app_inv_len_r {A} (a b c d : list A) : length b = length d -> a ++ b = c ++ d -> a = c /\ b = d.
  Proof.
    intros L E. apply app_inv_len; [|exact E].
    apply (f_equal (@length A)) in E. rewrite !app_length in E. lia.
  Qed.

  Lemma challenge_input_inj P Q a b m n : curve_point P -> curve_point Q -> length a = 20%nat -> length b = 20%nat ->
    challenge_input P a m = challenge_input Q b n -> P = Q /\ a = b /\ Z.abs m = Z.abs n.
  Proof.
    intros CP CQ La Lb E. unfold challenge_input in E.
    apply app_inv_len in E; [|rewrite !be_fixed_length; reflexivity]. destruct E as [EX E].
    apply app_inv_len in E; [|reflexivity]. destruct E as [EY E].
    apply app_inv_len_r in E; [|congruence]. destruct E as [EM EA].
    split; [|split; [exact EA|apply big_bytes_inj, EM]].
    apply (f_equal be2z) in EX. rewrite !be2z_fixed_p in EX.
    assert (MP : pt_marshal P = pt_marshal Q).
    { assert (X : pt_marshal P = Ok (be_fixed 32 (fst P mod p) ++ [if snd P mod 2 =? 0 then x00 else x01]))
        by (apply pt_marshal_ok; split; [apply CP|reflexivity]).
      assert (Y : pt_marshal Q = Ok (be_fixed 32 (fst Q mod p) ++ [if snd Q mod 2 =? 0 then x00 else x01]))
        by (apply pt_marshal_ok; split; [apply CQ|reflexivity]).
      rewrite X, Y, EX. do 2 f_equal. exact EY. }
    destruct (pt_marshal P) as [bp| |] eqn:EP.
    - pose proof (pt_roundtrip P bp CP EP) as R1. symmetry in MP.
      pose proof (pt_roundtrip Q bp CQ MP) as R2. congruence.
    - apply pt_marshal_err in EP. exfalso. apply EP, CP.
    - exfalso. exact (pt_marshal_no_panic _ EP).
  Qed.

  Lemma onchain_agree P a m : uint256 m -> (challenge_input P a m = onchain_input P a m <-> 2 ^ 248 <= m).
  Proof.
    intros U. unfold uint256 in U. unfold challenge_input, onchain_input.
    assert (L256 : 256 ^ Z.of_nat 32 = 2 ^ 256) by apply pow256_32.
    assert (L248 : 256 ^ Z.of_nat 31 = 2 ^ 248) by reflexivity.
    pose proof (nbytes_le m 32) as B32. pose proof (nbytes_le m 31) as B31. rewrite Z.abs_eq in * by lia.
    split.
    - intros E. apply app_inv_len in E; [|reflexivity]. destruct E as [_ E].
      apply app_inv_len in E; [|reflexivity]. destruct E as [_ E].
      apply (f_equal (@length _)) in E. rewrite !app_length, be_fixed_length, big_bytes_length in E. lia.
    - intros H. do 2 f_equal. f_equal.
      assert (nbytes m = 32%nat) by lia.
      pose proof (pad_big_bytes 32 m) as PB. rewrite Z.abs_eq in PB by lia. rewrite <- PB by lia.
      rewrite big_bytes_length, H0. reflexivity.
  Qed.

  Lemma onchain_length P a m : uint256 m -> m < 2 ^ 248 ->
    (length (challenge_input P a m) < length (onchain_input P a m))%nat.
  Proof.
    intros U H. unfold uint256 in U. unfold challenge_input, onchain_input.
    rewrite !app_length, !be_fixed_length, big_bytes_length.
    pose proof (nbytes_le m 31) as B31. rewrite Z.abs_eq in * by lia.
    change (256 ^ Z.of_nat 31) with (2 ^ 248) in B31. lia.
  Qed.
End Hash.
