From Coq Require Import ZArith Znumtheory List Lia Bool Permutation.
From Coq Require Import Init.Byte.
From Verif Require Import Params NumTh Bytes Res Secp Spec SecpProofs SecpProofs2 PublicKey Schnorr Dss Dto DtoSpec.
Import ListNotations.
Open Scope Z_scope.

Lemma pri_rt s : good_share s -> exists w, pri_share_to_dto s = Ok w /\ dto_to_pri_share w = Ok s.
Proof.
  intros H. unfold good_share in H. unfold pri_share_to_dto, dto_to_pri_share. rewrite sc_marshal_spec. cbn [rbind].
  eexists. split; [reflexivity|]. cbn [prd_v prd_i]. rewrite sc_unmarshal_spec, be_fixed_length, Nat.eqb_refl. cbn [rbind].
  rewrite be2z_be_fixed. pose proof N_2 as [L _]. rewrite (Z.mod_small (pr_v s) N H).
  replace (256 ^ Z.of_nat 32) with (2 ^ 256) by reflexivity.
  rewrite (Z.mod_small (pr_v s)) by lia. rewrite Z.mod_small by exact H. destruct s; reflexivity.
Qed.

Lemma all_rt l : Forall curve_point l -> exists w, marshal_all l = Ok w /\ unmarshal_all w = Ok l.
Proof.
  induction 1 as [|P l HP _ (w & E1 & E2)]; [exists []; split; reflexivity|].
  cbn [marshal_all]. destruct (pt_marshal P) as [b| |] eqn:E.
  - cbn [rbind]. rewrite E1. cbn [rbind]. exists (b :: w). split; [reflexivity|]. cbn [unmarshal_all].
    rewrite (pt_roundtrip _ _ HP E). cbn [rbind]. rewrite E2. reflexivity.
  - apply pt_marshal_err in E. destruct E. apply curve_point_on, HP.
  - destruct (pt_marshal_no_panic _ E).
Qed.

Lemma vss_rt d : good_deal d -> exists w, vss_deal_to_dto d = Ok w /\ dto_to_vss_deal w = Ok d.
Proof.
  intros (A & B & C). destruct (pri_rt _ A) as (wa & A1 & A2). destruct (pri_rt _ B) as (wb & B1 & B2).
  destruct (all_rt _ C) as (wc & C1 & C2). unfold vss_deal_to_dto. rewrite A1, B1, C1. cbn [rbind].
  eexists. split; [reflexivity|]. unfold dto_to_vss_deal. cbn. rewrite A2, B2, C2. cbn. destruct d; reflexivity.
Qed.

Lemma wire_rt o : good o -> exists w, to_wire o = Ok w /\ from_wire (obj_kind o) w = Ok o.
Proof.
  destruct o as [d|j|c|c|r|s]; cbn [good to_wire obj_kind].
  - intros H. destruct (all_rt [de_dhkey d]) as (w & E1 & E2); [constructor; [exact H|constructor]|].
    cbn [marshal_all] in E1. unfold deal_to_dto. destruct (pt_marshal (de_dhkey d)) as [b| |] eqn:E; cbn [rbind] in *; try discriminate.
    eexists. split; [reflexivity|]. cbn. unfold dto_to_deal. cbn. rewrite (pt_roundtrip _ _ H E). cbn. destruct d; reflexivity.
  - intros H. destruct (vss_rt _ H) as (w & E1 & E2). unfold justification_to_dto. rewrite E1. cbn [rbind].
    eexists. split; [reflexivity|]. cbn. unfold dto_to_justification. cbn. rewrite E2. cbn. destruct j; reflexivity.
  - intros H. destruct (all_rt _ H) as (w & E1 & E2). unfold commits_to_dto. rewrite E1. cbn [rbind].
    eexists. split; [reflexivity|]. cbn. unfold dto_to_commits. cbn. rewrite E2. cbn. destruct c; reflexivity.
  - intros H. destruct (vss_rt _ H) as (w & E1 & E2). unfold compl_commits_to_dto. rewrite E1. cbn [rbind].
    eexists. split; [reflexivity|]. cbn. unfold dto_to_compl_commits. cbn. rewrite E2. cbn. destruct c; reflexivity.
  - intros H. destruct (pri_rt _ H) as (w & E1 & E2). unfold recons_commits_to_dto. rewrite E1. cbn [rbind].
    eexists. split; [reflexivity|]. cbn. unfold dto_to_recons_commits. cbn. rewrite E2. cbn. destruct r; reflexivity.
  - intros (i & v & E & H). destruct (pri_rt (mkPri i v) H) as (w & E1 & E2). unfold partsig_to_dto. rewrite E, E1. cbn [rbind].
    eexists. split; [reflexivity|]. cbn. unfold dto_to_partsig. cbn. rewrite E2. cbn. destruct s; cbn in *; congruence.
Qed.

(** ** Decoding *)
Lemma pri_dec d : (is_scalar (prd_v d) -> exists s, dto_to_pri_share d = Ok s /\ good_share s) /\
  (~ is_scalar (prd_v d) -> dto_to_pri_share d = Err).
Proof.
  unfold dto_to_pri_share, is_scalar. rewrite sc_unmarshal_spec.
  destruct (Nat.eqb_spec (length (prd_v d)) 32) as [E|NE]; cbn [rbind]; (split; [intros H|intros H]); try contradiction; try reflexivity.
  eexists. split; [reflexivity|]. unfold good_share. cbn. apply modN_range.
Qed.
Lemma all_dec l : (Forall is_point l -> exists Ps, unmarshal_all l = Ok Ps /\ Forall curve_point Ps) /\
  (~ Forall is_point l -> unmarshal_all l = Err).
Proof.
  induction l as [|b l [IH1 IH2]]; cbn [unmarshal_all].
  - split; [intros _; exists []; split; [reflexivity|constructor]|]. intros H. destruct H. constructor.
  - destruct (pt_unmarshal b) as [P| |] eqn:E.
    + cbn [rbind]. split.
      * intros H. inversion H as [|? ? _ HL]; subst. destruct (IH1 HL) as (Ps & E2 & F). rewrite E2. exists (P :: Ps).
        split; [reflexivity|]. constructor; [apply (pt_unmarshal_point _ _ E)|exact F].
      * intros H. rewrite IH2; [reflexivity|]. intros HL. apply H. constructor; [exists P; exact E|exact HL].
    + cbn [rbind]. split; [|reflexivity]. intros H. inversion H as [|? ? [P EP] _]; subst. congruence.
    + destruct (pt_unmarshal_no_panic _ E).
Qed.
Lemma all_point_dec l : Forall is_point l \/ ~ Forall is_point l.
Proof.
  induction l as [|b l IH]; [left; constructor|].
  assert (D : is_point b \/ ~ is_point b).
  { unfold is_point. destruct (pt_unmarshal b) as [P| |]; [left; eauto|right; intros [P X]; discriminate..]. }
  destruct D as [D|D]; [|right; intros H; inversion H; contradiction].
  destruct IH as [IH|IH]; [left; constructor; assumption|right; intros H; inversion H; contradiction].
Qed.
Lemma scalar_dec b : is_scalar b \/ ~ is_scalar b.
Proof. unfold is_scalar. destruct (Nat.eq_dec (length b) 32); tauto. Qed.

Definition dec_ok {A} (r : res A) (P : A -> Prop) (C : Prop) : Prop :=
  (C -> exists x, r = Ok x /\ P x) /\ (~ C -> r = Err).

Lemma vss_dec d : dec_ok (dto_to_vss_deal d) good_deal (Forall is_scalar (deal_scalars d) /\ Forall is_point (vdd_commits d)).
Proof.
  unfold dto_to_vss_deal, deal_scalars.
  destruct (pri_dec (vdd_sec d)) as [A1 A2]. destruct (pri_dec (vdd_rnd d)) as [B1 B2]. destruct (all_dec (vdd_commits d)) as [C1 C2].
  destruct (scalar_dec (prd_v (vdd_sec d))) as [DA|DA].
  2:{ rewrite (A2 DA). split; [|reflexivity]. intros [F _]. inversion F; contradiction. }
  destruct (A1 DA) as (a & EA & GA). rewrite EA. cbn [rbind].
  destruct (scalar_dec (prd_v (vdd_rnd d))) as [DB|DB].
  2:{ rewrite (B2 DB). split; [|reflexivity]. intros [F _]. inversion F as [|? ? _ F2]; inversion F2; contradiction. }
  destruct (B1 DB) as (b & EB & GB). rewrite EB. cbn [rbind].
  destruct (all_point_dec (vdd_commits d)) as [DC|DC].
  2:{ rewrite (C2 DC). split; [|reflexivity]. tauto. }
  destruct (C1 DC) as (c & EC & GC). rewrite EC. cbn [rbind].
  split; [|intros H; destruct H; split; [constructor; [exact DA|constructor; [exact DB|constructor]]|exact DC]].
  intros _. eexists. split; [reflexivity|]. unfold good_deal. cbn. tauto.
Qed.

Lemma dec_map {A B} (r : res A) (f : A -> B) (P : A -> Prop) (Q : B -> Prop) C :
  (forall x, P x -> Q (f x)) -> dec_ok r P C -> dec_ok (x <- r ;; Ok (f x)) Q C.
Proof.
  intros H [A1 A2]. split.
  - intros c. destruct (A1 c) as (x & -> & Px). cbn. eauto.
  - intros c. rewrite (A2 c). reflexivity.
Qed.
Lemma dec_iff {A} (r : res A) P C C' : (C <-> C') -> dec_ok r P C -> dec_ok r P C'.
Proof. unfold dec_ok. tauto. Qed.

Lemma wire_dec w k : wire_kind w = Some k ->
  dec_ok (from_wire k w) (fun o => obj_kind o = k /\ good o) (Forall is_scalar (wire_scalars w) /\ Forall is_point (wire_points w)).
Proof.
  assert (F1 : forall b Q, @Forall bytes Q [b] <-> Q b).
  { intros b Q. split; [intros H; inversion H; assumption|intros H; constructor; [exact H|constructor]]. }
  assert (F0 : forall Q, @Forall bytes Q [] <-> True) by (intros Q; split; [tauto|constructor]).
  intros H. destruct w as [d|j|c|c|r|s|]; cbn in H; try discriminate; injection H as <-; cbn [from_wire].
  - apply (dec_map _ _ (fun x => curve_point (de_dhkey x))); [cbn; tauto|]. unfold dto_to_deal. cbn [wire_scalars wire_points].
    pose proof (all_dec [ded_dhkey d]) as [A1 A2]. cbn [unmarshal_all] in *.
    destruct (pt_unmarshal (ded_dhkey d)) as [P| |]; cbn [rbind] in *.
    + split.
      * intros [_ X]. destruct (A1 X) as (Ps & E & F). injection E as <-. eexists. split; [reflexivity|]. cbn. inversion F; assumption.
      * intros X. destruct X. split; [constructor|]. destruct (all_point_dec [ded_dhkey d]) as [Y|Y]; [exact Y|]. discriminate (A2 Y).
    + split; [|reflexivity]. intros [_ X]. destruct (A1 X) as (Ps & E & F). discriminate.
    + split.
      * intros [_ X]. destruct (A1 X) as (Ps & E & F). discriminate.
      * intros X. destruct (all_point_dec [ded_dhkey d]) as [Y|Y]; [|discriminate (A2 Y)]. destruct (A1 Y) as (? & ? & ?). discriminate.
  - apply (dec_map _ _ (fun x => good_deal (ju_deal x))); [cbn; tauto|]. unfold dto_to_justification. cbn [wire_scalars wire_points].
    apply (dec_map _ _ good_deal); [cbn; tauto|]. apply vss_dec.
  - apply (dec_map _ _ (fun x => Forall curve_point (co_commits x))); [cbn; tauto|]. unfold dto_to_commits. cbn [wire_scalars wire_points].
    apply (dec_map _ _ (Forall curve_point)); [cbn; tauto|]. apply (dec_iff _ _ (Forall is_point (cod_commits c))); [rewrite F0; tauto|].
    exact (all_dec _).
  - apply (dec_map _ _ (fun x => good_deal (cc_deal x))); [cbn; tauto|]. unfold dto_to_compl_commits. cbn [wire_scalars wire_points].
    apply (dec_map _ _ good_deal); [cbn; tauto|]. apply vss_dec.
  - apply (dec_map _ _ (fun x => good_share (rc_share x))); [cbn; tauto|]. unfold dto_to_recons_commits. cbn [wire_scalars wire_points].
    apply (dec_map _ _ good_share); [cbn; tauto|]. apply (dec_iff _ _ (is_scalar (prd_v (rcd_share r)))); [rewrite F0, F1; tauto|].
    exact (pri_dec _).
  - apply (dec_map _ _ (fun x => exists i v, ps_partial x = Some (i, Some v) /\ 0 <= v < N)); [cbn; tauto|]. unfold dto_to_partsig. cbn [wire_scalars wire_points].
    apply (dec_map _ _ good_share).
    + intros x G. cbn. eexists _, _. split; [reflexivity|exact G].
    + apply (dec_iff _ _ (is_scalar (prd_v (pad_partial s)))); [rewrite F0, F1; tauto|]. exact (pri_dec _).
Qed.

(** ** Maps *)
Lemma mget_mset {V} (m : list (Z * V)) k v k' : mget (mset m k v) k' = if k =? k' then Some v else mget m k'.
Proof.
  induction m as [|[a b] m IH]; cbn.
  - reflexivity.
  - destruct (Z.eqb_spec a k) as [->|NE]; cbn.
    + destruct (Z.eqb_spec k k'); reflexivity.
    + rewrite IH. destruct (Z.eqb_spec a k') as [->|]; destruct (Z.eqb_spec k k'); try reflexivity. congruence.
Qed.
Lemma mget_in {V} (m : list (Z * V)) k v : NoDup (map fst m) -> (mget m k = Some v <-> In (k, v) m).
Proof.
  induction m as [|[a b] m IH]; intros ND; cbn; [split; [discriminate|tauto]|].
  inversion ND as [|? ? NI ND']; subst. destruct (Z.eqb_spec a k) as [->|NE].
  - split.
    + intros E. injection E as ->. tauto.
    + intros [E|H]; [congruence|]. destruct NI. apply (in_map fst) in H. exact H.
  - rewrite (IH ND'). split; [tauto|]. intros [E|H]; [congruence|exact H].
Qed.
Lemma mget_none {V} (m : list (Z * V)) k : mget m k = None <-> ~ In k (map fst m).
Proof.
  induction m as [|[a b] m IH]; cbn; [tauto|]. destruct (Z.eqb_spec a k); [split; [discriminate|tauto]|]. rewrite IH. tauto.
Qed.
Lemma mset_keys {V} (m : list (Z * V)) k v k' : In k' (map fst (mset m k v)) <-> k' = k \/ In k' (map fst m).
Proof.
  induction m as [|[a b] m IH]; cbn; [intuition|]. destruct (Z.eqb_spec a k) as [->|]; cbn; [intuition|]. rewrite IH. intuition.
Qed.
Lemma mset_nodup {V} (m : list (Z * V)) k v : NoDup (map fst m) -> NoDup (map fst (mset m k v)).
Proof.
  induction m as [|[a b] m IH]; cbn; intros ND; [constructor; [tauto|constructor]|]. inversion ND as [|? ? NI ND']; subst.
  destruct (Z.eqb_spec a k) as [->|NE]; cbn; [constructor; assumption|].
  constructor; [|apply IH, ND']. rewrite mset_keys. intros [->|H]; [contradiction|contradiction].
Qed.

(** Converting every entry of a map. *)
Section Conv.
  Context {A B : Type} (f : A -> res B).
  Definition conv (l : list (Z * A)) (m0 : res (list (Z * B))) : res (list (Z * B)) :=
    fold_left (fun acc e => m <- acc ;; d <- f (snd e) ;; Ok (mset m (fst e) d)) l m0.

  Lemma conv_ok l : forall m0, NoDup (map fst l) -> NoDup (map fst m0) ->
    (forall k a, In (k, a) l -> exists b, f a = Ok b) ->
    exists m, conv l (Ok m0) = Ok m /\ NoDup (map fst m) /\
      forall k, match mget l k with
                | Some a => exists b, f a = Ok b /\ mget m k = Some b
                | None => mget m k = mget m0 k
                end.
  Proof.
    induction l as [|[k a] l IH]; intros m0 ND ND0 H.
    - exists m0. split; [reflexivity|]. split; [exact ND0|]. intros k. reflexivity.
    - inversion ND as [|? ? NI ND']; subst. destruct (H k a (or_introl eq_refl)) as [b Eb].
      cbn [conv fold_left fst snd]. cbn [rbind]. rewrite Eb. cbn [rbind].
      destruct (IH (mset m0 k b) ND' (mset_nodup _ _ _ ND0) (fun k' a' Hi => H k' a' (or_intror Hi))) as (m & Em & NDm & Hm).
      exists m. split; [exact Em|]. split; [exact NDm|]. intros k'. specialize (Hm k'). cbn [mget].
      destruct (Z.eqb_spec k k') as [<-|NE].
      + assert (MN : mget l k = None) by (apply mget_none; exact NI). rewrite MN, mget_mset, Z.eqb_refl in Hm. eauto.
      + destruct (mget l k') as [a'|]; [exact Hm|]. rewrite mget_mset in Hm. destruct (Z.eqb_spec k k'); [contradiction|exact Hm].
  Qed.

  Lemma conv_fail l : forall m0, (forall a, f a <> Panic) -> (exists k a, In (k, a) l /\ f a = Err) -> conv l (Ok m0) = Err.
  Proof.
    assert (E : forall l, conv l Err = Err) by (induction l0 as [|e l0 IH]; [reflexivity|exact IH]).
    intros m0 NP. revert m0. induction l as [|[k a] l IH]; intros m0 (k' & a' & Hi & Ef); [destruct Hi|].
    cbn [conv fold_left fst snd rbind]. destruct (f a) as [b| |] eqn:Fa; cbn [rbind].
    - destruct Hi as [Hi|Hi]; [congruence|]. apply IH. eauto.
    - apply E.
    - destruct (NP _ Fa).
  Qed.
End Conv.

Lemma dks_rt s : good_dks s -> exists w, dks_to_dto s = Ok w /\ dto_to_dks w = Ok s.
Proof.
  intros [A B]. destruct (all_rt _ A) as (wa & A1 & A2). destruct (pri_rt _ B) as (wb & B1 & B2).
  unfold dks_to_dto. rewrite A1, B1. cbn [rbind]. eexists. split; [reflexivity|].
  unfold dto_to_dks. cbn. rewrite A2, B2. cbn. destruct s; reflexivity.
Qed.

Lemma subset_spec {Q R} (xs : list (Z * Q)) (ys : list (Z * R)) :
  (verify_keys_subset xs ys = Ok tt <-> forall k, In k (map fst xs) -> exists v, mget ys k = Some v) /\
  (verify_keys_subset xs ys = Ok tt \/ verify_keys_subset xs ys = Err).
Proof.
  induction xs as [|[k q] xs [IH1 IH2]]; cbn.
  - split; [|tauto]. split; [intros _ k []|reflexivity].
  - destruct (mget ys k) as [v|] eqn:E.
    + split; [|exact IH2]. rewrite IH1. split; [intros H k' [<-|Hk]; [eauto|auto]|intros H k' Hk; apply H; tauto].
    + split; [|tauto]. split; [discriminate|]. intros H. destruct (H k (or_introl eq_refl)) as [v X]. congruence.
Qed.

Lemma save_load G (guests : list (Z * G)) lts ord ord' :
  NoDup (map fst lts) -> (forall k s, In (k, s) lts -> good_dks s) ->
  (forall l : list (Z * dks), Permutation (ord l) l) -> (forall l : list (Z * dks_dto), Permutation (ord' l) l) ->
  exists file lts', save_longterms (ord lts) = Ok file /\ dto_to_lts (ord' file) = Ok lts' /\
    NoDup (map fst lts') /\ (forall k, mget lts' k = mget lts k).
Proof.
  intros ND G0 HO HO'.
  assert (ND1 : NoDup (map fst (ord lts))).
  { eapply Permutation_NoDup; [|exact ND]. apply Permutation_map, Permutation_sym, HO. }
  destruct (conv_ok dks_to_dto (ord lts) [] ND1 (NoDup_nil _)) as (file & E & NDf & HF).
  { intros k s Hi. destruct (dks_rt s) as (w & E & _); [|eauto]. apply (G0 k). eapply Permutation_in; [apply HO|exact Hi]. }
  exists file. unfold save_longterms.
  assert (GL : forall k, mget (ord lts) k = mget lts k).
  { intros k. destruct (mget lts k) as [s|] eqn:X.
    - apply mget_in; [exact ND1|]. eapply Permutation_in; [apply Permutation_sym, HO|]. apply mget_in; assumption.
    - apply mget_none. apply mget_none in X. intros Y. apply X. eapply Permutation_in; [apply Permutation_map, HO|exact Y]. }
  assert (NDf1 : NoDup (map fst (ord' file))).
  { eapply Permutation_NoDup; [|exact NDf]. apply Permutation_map, Permutation_sym, HO'. }
  assert (GF : forall k, mget (ord' file) k = mget file k).
  { intros k. destruct (mget file k) as [s|] eqn:X.
    - apply mget_in; [exact NDf1|]. eapply Permutation_in; [apply Permutation_sym, HO'|]. apply mget_in; assumption.
    - apply mget_none. apply mget_none in X. intros Y. apply X. eapply Permutation_in; [apply Permutation_map, HO'|exact Y]. }
  destruct (conv_ok dto_to_dks (ord' file) [] NDf1 (NoDup_nil _)) as (lts' & E' & ND' & HF').
  { intros k w Hi. apply mget_in in Hi; [|exact NDf1]. rewrite GF in Hi. specialize (HF k). rewrite GL in HF.
    destruct (mget lts k) as [s|] eqn:X.
    - destruct HF as (w' & E1 & E2). assert (w' = w) by congruence. subst w'. apply mget_in in X; [|exact ND].
      destruct (dks_rt s (G0 _ _ X)) as (w2 & E3 & E4). assert (w2 = w) by congruence. subst w2. eauto.
    - cbn in HF. congruence. }
  exists lts'. change (lts_to_dto (ord lts)) with (conv dks_to_dto (ord lts) (Ok [])). rewrite E. split; [reflexivity|].
  split; [exact E'|]. split; [exact ND'|].
  intros k. specialize (HF k). specialize (HF' k). rewrite GL in HF. rewrite GF in HF'. destruct (mget lts k) as [s|] eqn:X.
  - destruct HF as (w & E1 & E2). rewrite E2 in HF'. destruct HF' as (s' & E3 & E4). apply mget_in in X; [|exact ND].
    destruct (dks_rt s (G0 _ _ X)) as (w2 & E5 & E6). assert (w2 = w) by congruence. subst w2. congruence.
  - rewrite HF in HF'. cbn in HF'. exact HF'.
Qed.

Lemma load_iff G (guests : list (Z * G)) file lts :
  dto_to_lts file = Ok lts ->
  (load_longterms guests file = Ok lts <-> forall k, In k (map fst guests) -> exists s, mget lts k = Some s) /\
  (load_longterms guests file = Ok lts \/ load_longterms guests file = Panic).
Proof.
  intros E. unfold load_longterms. rewrite E. cbn [assert_nil rbind].
  destruct (subset_spec guests lts) as [A [B|B]]; rewrite B in *; cbn [assert_nil rbind].
  - split; [|tauto]. split; [intros _; apply A; reflexivity|reflexivity].
  - split; [|tauto]. split; [discriminate|]. intros H. apply A in H. discriminate.
Qed.

Lemma dks_dec w : dec_ok (dto_to_dks w) good_dks (Forall is_point (dkd_commits w) /\ is_scalar (prd_v (dkd_share w))).
Proof.
  unfold dto_to_dks. destruct (all_dec (dkd_commits w)) as [A1 A2]. destruct (pri_dec (dkd_share w)) as [B1 B2].
  destruct (all_point_dec (dkd_commits w)) as [DA|DA].
  2:{ rewrite (A2 DA). split; [tauto|reflexivity]. }
  destruct (A1 DA) as (a & -> & GA). cbn [rbind].
  destruct (scalar_dec (prd_v (dkd_share w))) as [DB|DB].
  2:{ rewrite (B2 DB). split; [tauto|reflexivity]. }
  destruct (B1 DB) as (b & -> & GB). cbn [rbind]. split; [|tauto]. intros _. eexists. split; [reflexivity|].
  split; [exact GA|exact GB].
Qed.
