(** Proofs about the DKG and DSS stages. *)
From Coq Require Import ZArith List Lia Bool.
From Coq Require Import Init.Byte.
From Verif Require Import Params Bytes Res Secp Spec SecpProofs PublicKey Schnorr Dss DssSpec DssProofs DssProofs2 DssProofs3
  Dto DtoSpec DtoProofs Prot ProtSpec ProtProofs ProtProofs2 ProtProofs3 ProtProofs4 ProtProofs5 DkgProt DkgSpec.
Import ListNotations.
Open Scope Z_scope.

Ltac each_stage_upto k n H :=
  lazymatch k with
  | O => destruct n; discriminate H
  | S ?k' => destruct n as [|n]; [cbn in H; injection H as <-|each_stage_upto k' n H]
  end.
Ltac each_stage n H := each_stage_upto 12%nat n H.

Section Dkg.
  Context {G : Type}.
  Variable ky : kyber G.
  Variable keccak : bytes -> bytes.
  Variable pshash : Z -> Z -> bytes.
  Notation dkgp := (dkg_prot ky). Notation dssp := (dss_prot ky keccak pshash).

  Lemma dss_stage_nat k s : stage_at dssp k = Some s -> exists n, k = Z.of_nat n /\ nth_error (dss_stages ky keccak pshash) n = Some s.
  Proof.
    unfold stage_at. destruct (Z.ltb_spec k 0); [discriminate|]. intros E. exists (Z.to_nat k). split; [lia|exact E].
  Qed.
  Lemma dkg_stage k s : stage_at dkgp k = Some s -> stage_at dssp k = Some s /\ 0 <= k <= 8.
  Proof.
    unfold stage_at. destruct (Z.ltb_spec k 0); [discriminate|]. cbn [p_stages dkg_prot dss_prot]. unfold dss_stages.
    intros E. assert (L : (Z.to_nat k < length (dkg_stages ky))%nat) by (apply nth_error_Some; intros X; pose proof (eq_trans (eq_sym E) X) as Y; discriminate Y).
    split; [etransitivity; [exact (nth_error_app1 _ _ L)|exact E]|]. cbn [length dkg_stages] in L. lia.
  Qed.

  (** ** Timeouts *)
  Lemma dkg_timeout : protocol_timeout dkgp = 525 * ms. Proof. reflexivity. Qed.
  Lemma dss_timeout : protocol_timeout dssp = 650 * ms. Proof. reflexivity. Qed.
  Lemma dkg_last : no_last_proc dkgp. Proof. intros s H. injection H as <-. reflexivity. Qed.
  Lemma dss_last : no_last_proc dssp. Proof. intros s H. injection H as <-. reflexivity. Qed.

  (** ** Tidiness *)
  Lemma multicast_ok k q ci op (d : payload) : op <= k + 1 -> Forall (okact (V := output) k) (multicast q ci op d).
  Proof.
    intros H. unfold multicast. induction q as [|i q IH]; [constructor|]. cbn [flat_map]. apply Forall_app. split; [|exact IH].
    unfold send1. destruct (i =? i_guest ci); [constructor|]. constructor; [exact H|constructor].
  Qed.
  Lemma broadcast_ok k ci op (d : payload) : op <= k + 1 -> Forall (okact (V := output) k) (broadcast ci op d).
  Proof.
    intros H. unfold broadcast. induction (seq 0 _) as [|i q IH]; [constructor|]. cbn [flat_map]. apply Forall_app. split; [|exact IH].
    unfold send1. destruct (Z.of_nat i =? i_guest ci); [constructor|]. constructor; [exact H|constructor].
  Qed.
  Lemma bq_ok k ci (kd : kd G) op w acts : op <= k + 1 -> broadcast_qual ci kd op w = Ok acts -> Forall (okact k) acts.
  Proof.
    intros H. unfold broadcast_qual. destruct w as [d| |]; [|intros E; injection E as <-; constructor|discriminate].
    destruct (kd_qual kd) as [q|]; [|discriminate]. intros E. injection E as <-. apply multicast_ok, H.
  Qed.
  Lemma deals_ok k (ds : list (Z * enc_deal)) : op_deal <= k + 1 ->
    Forall (okact (V := output) k) (flat_map (fun e => match deal_to_dto (snd e) with Ok d => [ASend (fst e) op_deal (PWire (WDeal d))] | _ => [] end) ds).
  Proof.
    intros H. induction ds as [|e ds IH]; [constructor|]. cbn [flat_map]. apply Forall_app. split; [|exact IH].
    destruct (deal_to_dto (snd e)); constructor; [exact H|constructor].
  Qed.

  Ltac fin H := injection H as <- <-; first [left; reflexivity | right; constructor; fail | right; repeat constructor].
  Lemma dss_tidy : tidy dssp.
  Proof.
    intros k s H. apply dss_stage_nat in H. destruct H as (n & -> & H).
    each_stage n H; (split; [intros f ci e kd kd' acts E X; try discriminate E; injection E as <-|
                             intros f ci e kd a kd' acts E X; try discriminate E; injection E as <-]).
    - fin X.
    - unfold step_deal in X. destruct (ky_deals ky (kd_gen kd)) as [g [ds|]]; injection X as <- <-; [right|left; reflexivity].
      apply deals_ok. unfold op_deal. lia.
    - unfold process_deal in X. destruct a as [[]|]; try discriminate X. injection X as <- <-.
      destruct (snd _) as [[r|]|]; try constructor. apply broadcast_ok. unfold op_response. lia.
    - unfold process_response in X. destruct a as [|r]; try discriminate X. injection X as <- <-.
      destruct (snd _) as [[j|]|]; try constructor. destruct (justification_to_dto j); try constructor. apply broadcast_ok. unfold op_justification. lia.
    - unfold process_justification in X. destruct a as [[]|]; try discriminate X. injection X as <- <-. constructor.
    - fin X.
    - unfold step_commits in X. destruct (kd_qual kd); [|discriminate X]. cbv zeta in X. destruct (negb _); [injection X as <- <-; left; reflexivity|].
      destruct (snd _) as [sc|]; [|injection X as <- <-; left; reflexivity].
      destruct (broadcast_qual _ _ _ _) as [ac| |] eqn:B; cbn [rbind] in X; try discriminate X. injection X as <- <-. right.
      eapply bq_ok; [|exact B]. unfold op_commits. lia.
    - unfold process_commits in X. destruct a as [[]|]; try discriminate X. cbv zeta in X.
      destruct (snd _) as [[sc|]|]; try (injection X as <- <-; constructor).
      destruct (broadcast_qual _ _ _ _) as [ac| |] eqn:B; cbn [rbind] in X; try discriminate X. injection X as <- <-.
      eapply bq_ok; [|exact B]. unfold op_compl_commits. lia.
    - unfold process_compl_commits in X. destruct a as [[]|]; try discriminate X. cbv zeta in X.
      destruct (snd _) as [[sc|]|]; try (injection X as <- <-; constructor).
      destruct (broadcast_qual _ _ _ _) as [ac| |] eqn:B; cbn [rbind] in X; try discriminate X. injection X as <- <-.
      eapply bq_ok; [|exact B]. unfold op_recons_commits. lia.
    - unfold process_recons_commits in X. destruct a as [[]|]; try discriminate X. injection X as <- <-. constructor.
    - unfold step_final in X. destruct (ky_finished _ _); [|fin X]. destruct (ky_share _ _); [|fin X]. destruct (kd_qual kd); [fin X|discriminate X].
    - unfold st_init in X. destruct (ky_share _ _); [|fin X]. destruct (kd_args kd); [|discriminate X]. cbv zeta in X.
      destruct (e_long e).
      + destruct (new_dss _ _ _ _ _ _ _ _); [fin X|fin X|discriminate X].
      + destruct (new_dss _ _ _ _ _ _ _ _); [discriminate X|fin X|discriminate X].
    - unfold st_partsig in X. destruct (kd_dss kd) as [[d [|]]|]; try discriminate X.
      destruct (partial_sig _ _ _ _) as [[[d' sg] [|]]| |]; try discriminate X; [|fin X].
      destruct (broadcast_qual _ _ _ _) as [ac| |] eqn:B; cbn [rbind] in X; try discriminate X. injection X as <- <-. right.
      eapply bq_ok; [|exact B]. unfold op_dss_partsig, op_dkg_final. lia.
    - unfold pr_partsig in X. destruct a as [[]|]; try discriminate X. destruct (kd_dss kd) as [[d b]|]; try discriminate X.
      destruct (process _ _ _ _) as [d' [| |]]; try discriminate X; injection X as <- <-; constructor.
    - unfold dss_st_final in X. destruct (kd_dss kd) as [[d b]|]; try discriminate X. destruct (negb _); [fin X|].
      destruct (signature _ _ _); [fin X|fin X|discriminate X].
  Qed.
  Lemma dkg_tidy : tidy dkgp.
  Proof. intros k s H. apply dkg_stage in H. apply (dss_tidy k s), H. Qed.

  (** ** Senders *)
  Lemma u32_small x n : 0 <= x < n -> n <= 2 ^ 32 -> u32 x = x.
  Proof. intros. apply Z.mod_small. lia. Qed.
  Lemma claims k s d a snd n : stage_at dssp k = Some s -> sg_proc s <> None -> sg_unm s d = Ok a ->
    0 <= snd < n -> n <= 2 ^ 32 -> sg_valid s a snd = Ok true ->
    decodes k d a /\ claimed a <> [] /\ Forall (eq snd) (claimed a).
  Proof.
    intros H NP EU HR HN EV. apply dss_stage_nat in H. destruct H as (m & -> & H). pose proof (u32_small snd n HR HN) as US.
    each_stage m H; cbn [ps0 ps sg_proc sg_unm sg_valid] in *; try (exfalso; apply NP; reflexivity); clear NP.
    - unfold unm in EU. destruct d as [w|]; [|discriminate]. destruct (from_wire KDeal w) as [o| |] eqn:EF; try discriminate. injection EU as <-.
      destruct o; try discriminate EV. cbn [deal_v] in EV. injection EV as EV. apply Z.eqb_eq in EV. rewrite US in EV.
      split; [right; exists KDeal, w; eexists; repeat split; eassumption|]. cbn. split; [discriminate|repeat constructor; congruence].
    - unfold identity_unm in EU. destruct d as [|r]; [discriminate|]. injection EU as <-. cbn [response_v] in EV.
      cbn [claimed]. destruct (rs_inner r) as [v|]; [|discriminate]. injection EV as EV. apply Z.eqb_eq in EV. rewrite US in EV.
      split; [left; split; [reflexivity|eauto]|]. split; [discriminate|repeat constructor; congruence].
    - unfold unm in EU. destruct d as [w|]; [|discriminate]. destruct (from_wire KJust w) as [o| |] eqn:EF; try discriminate. injection EU as <-.
      destruct o; try discriminate EV. cbn [justification_v] in EV. injection EV as EV. apply andb_true_iff in EV.
      rewrite !Z.eqb_eq, US in EV. destruct EV as [E1 E2].
      split; [right; exists KJust, w; eexists; repeat split; eassumption|]. cbn. split; [discriminate|repeat constructor; congruence].
    - unfold unm in EU. destruct d as [w|]; [|discriminate]. destruct (from_wire KCommits w) as [o| |] eqn:EF; try discriminate. injection EU as <-.
      destruct o; try discriminate EV. cbn [commits_v] in EV. injection EV as EV. apply Z.eqb_eq in EV. rewrite US in EV.
      split; [right; exists KCommits, w; eexists; repeat split; eassumption|]. cbn. split; [discriminate|repeat constructor; congruence].
    - unfold unm in EU. destruct d as [w|]; [|discriminate]. destruct (from_wire KCompl w) as [o| |] eqn:EF; try discriminate. injection EU as <-.
      destruct o; try discriminate EV. cbn [compl_commits_v] in EV. injection EV as EV. apply Z.eqb_eq in EV. rewrite US in EV.
      split; [right; exists KCompl, w; eexists; repeat split; eassumption|]. cbn. split; [discriminate|repeat constructor; congruence].
    - unfold unm in EU. destruct d as [w|]; [|discriminate]. destruct (from_wire KRecons w) as [o| |] eqn:EF; try discriminate. injection EU as <-.
      destruct o; try discriminate EV. cbn [recons_commits_v] in EV. injection EV as EV. apply Z.eqb_eq in EV. rewrite US in EV.
      split; [right; exists KRecons, w; eexists; repeat split; eassumption|]. cbn. split; [discriminate|repeat constructor; congruence].
    - unfold unm in EU. destruct d as [w|]; [|discriminate]. destruct (from_wire KPart w) as [o| |] eqn:EF; try discriminate. injection EU as <-.
      destruct o as [| | | | |q]; try discriminate EV. cbn [partsig_v] in EV. cbn [claimed]. destruct (ps_partial q) as [[i v]|]; [|discriminate].
      injection EV as EV. apply Z.eqb_eq in EV.
      split; [right; exists KPart, w; eexists; repeat split; eassumption|]. split; [discriminate|repeat constructor; congruence].
  Qed.

  (** ** No panic *)
  Section Safe.
    Variable c : info.
    Notation n := (i_members c).
    Hypothesis HQ : i_queues c = n.
    Hypothesis HN : n < N.
    Hypothesis HK : kyber_ok n ky.

    Definition calm (m : message payload) : Prop := ~ bare_response m /\ ~ unsigned_partial m.
    Definition okd (d : dss) : Prop := inv keccak d /\ (exists h, hash_sig keccak d = Ok h) /\
      Z.of_nat (length (d_participants d)) = n /\ 1 <= d_T d.
    Definition args_ok (k : kd G) : Prop := exists a, kd_args k = Some a /\ Z.of_nat (length (ka_parts a)) = n /\ 1 <= ka_T a.
    Definition SS (b : bool) (k : Z) (x : kd G) : Prop :=
      (0 <= k -> exists q, kd_qual x = Some q /\ Forall (fun i => 0 <= i < n) q) /\
      (b = true -> args_ok x) /\ (9 <= k -> exists d, kd_dss x = Some (d, true) /\ okd d).

    Lemma SS_gen b k k' (x : kd G) g : (0 <= k -> exists q, kd_qual x = Some q /\ Forall (fun i => 0 <= i < n) q) -> (b = true -> args_ok x) ->
      (9 <= k -> exists d, kd_dss x = Some (d, true) /\ okd d) -> (0 <= k' -> 0 <= k) -> (9 <= k' -> 9 <= k) -> SS b k' (set_gen x g).
    Proof. intros H1 H2 H3 L1 L2. unfold SS, args_ok in *. cbn. split; [auto|]. split; [exact H2|auto]. Qed.

    Lemma mc_rcpt q op (d : payload) : Forall (fun i => 0 <= i < n) q -> okrcpt (V := output) c (multicast q c op d).
    Proof.
      intros H. unfold multicast, okrcpt. induction H as [|i q Hi _ IH]; [constructor|]. cbn [flat_map]. apply Forall_app. split; [|exact IH].
      unfold send1. destruct (i =? i_guest c); [constructor|]. constructor; [unfold okr; lia|constructor].
    Qed.
    Lemma bc_rcpt op (d : payload) : okrcpt (V := output) c (broadcast c op d).
    Proof.
      unfold broadcast, okrcpt. apply Forall_forall. intros a Ha. apply in_flat_map in Ha. destruct Ha as (i & Hi & Ha).
      apply in_seq in Hi. unfold send1 in Ha. destruct (_ =? _); [destruct Ha|]. destruct Ha as [<-|[]]. unfold okr. lia.
    Qed.
    Lemma marshal_all_np l : marshal_all l <> Panic.
    Proof.
      induction l as [|P l IH]; cbn [marshal_all]; [discriminate|]. pose proof (pt_marshal_no_panic P).
      destruct (pt_marshal P); cbn [rbind]; try congruence. destruct (marshal_all l); cbn [rbind]; congruence.
    Qed.
    Lemma pri_ok s : exists d, pri_share_to_dto s = Ok d.
    Proof. unfold pri_share_to_dto. rewrite sc_marshal_spec. cbn [rbind]. eauto. Qed.
    Lemma vss_np d : vss_deal_to_dto d <> Panic.
    Proof.
      unfold vss_deal_to_dto. destruct (pri_ok (vd_sec d)) as [a ->]. destruct (pri_ok (vd_rnd d)) as [b ->]. cbn [rbind].
      pose proof (marshal_all_np (vd_commits d)). destruct (marshal_all _); cbn [rbind]; congruence.
    Qed.
    Lemma bq_safe (x : kd G) op w q : w <> Panic -> kd_qual x = Some q -> Forall (fun i => 0 <= i < n) q ->
      exists acts, broadcast_qual c x op w = Ok acts /\ okrcpt c acts.
    Proof.
      intros NW EQ HF. unfold broadcast_qual. rewrite EQ. destruct w as [d| |]; [|exists []; split; [reflexivity|constructor]|congruence].
      eexists. split; [reflexivity|]. apply mc_rcpt, HF.
    Qed.
    Lemma commits_np x : to_wire (OCommits x) <> Panic.
    Proof.
      cbn [to_wire]. unfold commits_to_dto. pose proof (marshal_all_np (co_commits x)). destruct (marshal_all _); cbn [rbind]; congruence.
    Qed.
    Lemma compl_np x : to_wire (OCompl x) <> Panic.
    Proof.
      cbn [to_wire]. unfold compl_commits_to_dto. pose proof (vss_np (cc_deal x)). destruct (vss_deal_to_dto _); cbn [rbind]; congruence.
    Qed.
    Lemma recons_np x : to_wire (ORecons x) <> Panic.
    Proof. cbn [to_wire]. unfold recons_commits_to_dto. destruct (pri_ok (rc_share x)) as [a ->]. discriminate. Qed.

    Lemma okd_step d cl : okd d -> okd (Dss.step keccak pshash d cl).
    Proof.
      intros (I & (h & Eh) & L & T). pose proof (step_static keccak pshash d cl) as ST.
      split; [apply inv_step, I|]. split; [exists h; rewrite (hash_sig_static _ _ d); assumption|].
      unfold static in ST. injection ST as _ _ _ E1 E2 _ _ _ _ _. rewrite E1, E2. auto.
    Qed.

    (** Unmarshalling never panics on the right type. *)
    Lemma scalars_dec l : Forall is_scalar l \/ ~ Forall is_scalar l.
    Proof.
      induction l as [|b l IH]; [left; constructor|]. destruct (scalar_dec b) as [D|D]; [|right; intros H; inversion H; contradiction].
      destruct IH as [IH|IH]; [left; constructor; assumption|right; intros H; inversion H; contradiction].
    Qed.
    Lemma unm_np k d : is_kind k d = true -> unm k d = Err \/ exists w o, d = PWire w /\ from_wire k w = Ok o /\ unm k d = Ok (AObj o) /\ obj_kind o = k /\ good o.
    Proof.
      unfold unm. destruct d as [w|]; [|destruct k; discriminate]. intros HI.
      assert (WK : wire_kind w = Some k) by (destruct k, w; (reflexivity || discriminate)).
      destruct (wire_dec w k WK) as [X Y].
      assert (DC : Forall is_scalar (wire_scalars w) /\ Forall is_point (wire_points w) \/ ~ (Forall is_scalar (wire_scalars w) /\ Forall is_point (wire_points w))).
      { destruct (all_point_dec (wire_points w)); destruct (scalars_dec (wire_scalars w)); tauto. }
      destruct DC as [DC|DC].
      - destruct (X DC) as (o & EF & OK & GO). right. exists w, o. rewrite EF. cbn [rbind]. tauto.
      - left. rewrite (Y DC). reflexivity.
    Qed.

    Ltac keep := split; [|right].
    Ltac sg := eapply SS_gen; [eassumption..|intros; lia|intros; lia].
    Lemma safe_step b : forall k s, stage_at dssp k = Some s -> b = true \/ k <= 8 -> forall x e, SS b (k - 1) x -> (8 < k -> env_ok e) ->
      match sg_step s with Some f => exists x' acts, f c e x = Ok (x', acts) /\ keeps c (SS b) k acts x' | None => SS b k x end.
    Proof.
      intros k s H HB x e (S1 & S2 & S3) HE. apply dss_stage_nat in H. destruct H as (m & -> & H). destruct HK as (K1 & K2 & K3).
      each_stage m H; cbn [ps0 ps sg_step].
      - eexists _, _. split; [reflexivity|]. keep; [constructor|]. split; [|split; [exact S2|intros; lia]].
        intros _. exists []. split; [reflexivity|constructor].
      - unfold step_deal. pose proof (K1 (kd_gen x)) as KD. destruct (ky_deals ky (kd_gen x)) as [g [ds|]]; cbn [fst snd];
        (eexists _, _; split; [reflexivity|]); [keep|split; [repeat constructor|left; left; reflexivity]].
        + specialize (KD _ _ eq_refl). unfold okrcpt. induction KD as [|d ds Hd _ IH]; [constructor|]. cbn [flat_map]. apply Forall_app. split; [|exact IH].
          destruct (deal_to_dto (snd d)); constructor; [unfold okr; lia|constructor].
        + sg.
      - split; [intros; apply S1; lia|]. split; [exact S2|intros; lia].
      - split; [intros; apply S1; lia|]. split; [exact S2|intros; lia].
      - eexists _, _. split; [reflexivity|]. keep; [constructor|]. unfold step_vss_done. sg.
      - unfold step_commits. destruct (S1 ltac:(lia)) as (q & EQ & FQ). rewrite EQ. cbv zeta.
        set (x1 := set_qual x (ky_qual ky (kd_gen x))).
        destruct (negb _); [eexists _, _; split; [reflexivity|]; split; [repeat constructor|left; left; reflexivity]|].
        destruct (ky_commits ky (kd_gen x1)) as [g [sc|]]; cbn [fst snd];
        [|eexists _, _; split; [reflexivity|]; split; [repeat constructor|left; left; reflexivity]].
        destruct (bq_safe (set_gen x1 g) op_commits (to_wire (OCommits sc)) (ky_qual ky (kd_gen x)) (commits_np sc) eq_refl (K2 _)) as (acts & -> & OA).
        cbn [rbind]. eexists _, _. split; [reflexivity|]. keep; [exact OA|]. split; [|split; [exact S2|intros; lia]].
        intros _. eexists. split; [reflexivity|apply K2].
      - split; [intros; apply S1; lia|]. split; [exact S2|intros; lia].
      - split; [intros; apply S1; lia|]. split; [exact S2|intros; lia].
      - unfold step_final. destruct (ky_finished _ _); [|eexists _, _; split; [reflexivity|]; split; [repeat constructor|left; left; reflexivity]].
        destruct (ky_share _ _); [|eexists _, _; split; [reflexivity|]; split; [repeat constructor|left; left; reflexivity]].
        destruct (S1 ltac:(lia)) as (q & EQ & FQ). rewrite EQ. eexists _, _. split; [reflexivity|]. keep; [repeat constructor|].
        split; [intros; apply S1; lia|]. split; [exact S2|intros; lia].
      - destruct HB as [->|HB]; [|lia]. destruct (S2 eq_refl) as (a & EA & LA & TA). destruct (HE ltac:(lia)) as (HD & _ & (l & P & Ps & EL & EC & OC)).
        unfold st_init. pose proof (K3 (kd_gen x)) as KS. destruct (ky_share ky (kd_gen x)) as [rnd|];
        [|eexists _, _; split; [reflexivity|]; split; [repeat constructor|left; left; reflexivity]].
        rewrite EA, EL. cbv zeta.
        destruct (new_dss _ _ _ _ _ _ _ _) as [d| |] eqn:EN.
        + pose proof EN as EN'. apply (new_dss_ok keccak pshash) in EN'.
          destruct EN' as (I & _ & _ & _ & _ & EP & E1 & E2 & _ & _ & ET & _).
          destruct (e_doc e) as [doc|]; [|congruence]. eexists _, _. split; [reflexivity|]. keep; [constructor|].
          split; [intros _; exact (S1 ltac:(lia))|]. split; [exact S2|]. intros _. exists d. split; [reflexivity|].
          split; [exact I|]. split; [|split; [rewrite EP; exact LA|rewrite ET; exact TA]].
          destruct (dk_commits rnd) as [|V Vs] eqn:EV; [destruct (KS rnd eq_refl EV)|].
          eexists. apply hash_sig_ok. rewrite E1, E2. cbn [share_of ks_commits]. rewrite EC, EV. do 4 eexists. repeat split. exact OC.
        + eexists _, _. split; [reflexivity|]. split; [repeat constructor|left; left; reflexivity].
        + exfalso. unfold new_dss in EN. rewrite pt_mul_base in EN by tauto. cbn [rbind] in EN. destruct (find_index _ _ _); discriminate.
      - destruct (S1 ltac:(lia)) as (q & EQ & FQ). destruct (S3 ltac:(lia)) as (d & ED & OD). unfold st_partsig. rewrite ED.
        destruct OD as (I & (h & Eh) & L & T).
        destruct (partial_sig keccak pshash (e_nonce e) d) as [[[d' sg] ok]| |] eqn:EP.
        + pose proof EP as EP'. apply (partial_sig_ok keccak pshash) in EP'. destruct EP' as (h' & _ & X). cbv zeta in X. destruct X as (_ & ES & _).
          assert (OD' : okd d').
          { pose proof (okd_step d (CallPartial (e_nonce e))) as X. cbn [Dss.step] in X. rewrite EP in X. apply X. split; [exact I|]. split; [eauto|auto]. }
          assert (SX : SS b (Z.of_nat 10) (set_dss x (Some (d', true)))).
          { split; [intros _; exists q; split; [exact EQ|exact FQ]|]. split; [exact S2|]. intros _. exists d'. split; [reflexivity|exact OD']. }
          destruct ok; [|eexists _, _; split; [reflexivity|]; split; [repeat constructor|left; left; reflexivity]].
          assert (NW : to_wire (OPart sg) <> Panic).
          { cbn [to_wire]. unfold partsig_to_dto. rewrite ES. cbn [ps_partial]. destruct (pri_ok (mkPri (d_index d) (own_value d h'))) as [w ->]. discriminate. }
          destruct (bq_safe (set_dss x (Some (d', true))) op_dss_partsig _ q NW EQ FQ) as (acts & -> & OA). cbn [rbind].
          eexists _, _. split; [reflexivity|]. keep; [exact OA|exact SX].
        + exfalso. unfold partial_sig in EP. rewrite Eh in EP. cbn [rbind] in EP. destruct (sign_with _ _ _ _) eqn:EW; try discriminate.
        + exfalso. pose proof (proj2 (partial_sig_ok keccak pshash (e_nonce e) d _ _ _) (ex_intro _ h (conj Eh (conj eq_refl (conj eq_refl eq_refl))))) as X.
          congruence.
      - destruct (S3 ltac:(lia)) as (d & ED & OD). unfold dss_st_final. rewrite ED. pose proof OD as (I & _ & L & T). destruct (HE ltac:(lia)) as (_ & HO & _).
        destruct (negb (enough d)); [eexists _, _; split; [reflexivity|]; split; [repeat constructor|left; left; reflexivity]|].
        destruct (sig_total keccak (e_ord e) d HO I) as [A1 A2]; [lia|exact T|].
        destruct (Z_lt_ge_dec (Z.of_nat (ndk (d_partials d))) (d_T d)) as [LT|GE].
        + rewrite (A1 LT). eexists _, _. split; [reflexivity|]. split; [repeat constructor|left; left; reflexivity].
        + destruct (A2 ltac:(lia)) as (ad & sv & -> & _). eexists _, _. split; [reflexivity|]. keep; [repeat constructor|].
          split; [intros; apply S1; lia|]. split; [exact S2|]. intros _. exists d. tauto.
    Qed.
    Lemma safe_proc b : forall k s f, stage_at dssp k = Some s -> b = true \/ k <= 8 -> sg_proc s = Some f ->
      forall m e x, calm m -> m_op m = k -> SS b k x -> sg_type s (m_dto m) = true ->
      sg_unm s (m_dto m) = Err \/ exists a, sg_unm s (m_dto m) = Ok a /\
        (0 <= m_sender m < n -> sg_valid s a (m_sender m) = Ok false \/
          (sg_valid s a (m_sender m) = Ok true /\ exists x' acts, f c e x a = Ok (x', acts) /\ keeps c (SS b) k acts x')).
    Proof.
      intros k s f H HB EP mm e x [C1 C2] EO (S1 & S2 & S3) ET. apply dss_stage_nat in H. destruct H as (m & -> & H).
      destruct (S1 ltac:(lia)) as (q & EQ & FQ).
      each_stage m H; try discriminate EP; cbn [ps sg_proc sg_type sg_unm sg_valid] in *; injection EP as <-.
      - destruct (unm_np KDeal (m_dto mm) ET) as [X|(w & o & ED & EF & EU & OK & GO)]; [left; exact X|right].
        rewrite EU. eexists. split; [reflexivity|]. intros HR. destruct o; try discriminate OK. cbn [deal_v].
        destruct (_ =? _); [right|left; reflexivity]. split; [reflexivity|]. eexists _, _. split; [reflexivity|]. keep; [|sg].
        destruct (snd _) as [[r|]|]; try constructor. apply bc_rcpt.
      - right. unfold identity_unm. destruct (m_dto mm) as [|r] eqn:ED; [discriminate|]. eexists. split; [reflexivity|]. intros HR.
        cbn [response_v]. destruct (rs_inner r) as [v|] eqn:EI.
        2:{ exfalso. apply C1. split; [rewrite EO; reflexivity|]. rewrite ED. exists (rs_index r). destruct r; cbn in *. congruence. }
        destruct (_ =? _); [right|left; reflexivity]. split; [reflexivity|]. eexists _, _. split; [reflexivity|]. keep; [|sg].
        destruct (snd _) as [[j|]|]; try constructor. destruct (justification_to_dto j); try constructor. apply bc_rcpt.
      - destruct (unm_np KJust (m_dto mm) ET) as [X|(w & o & ED & EF & EU & OK & GO)]; [left; exact X|right].
        rewrite EU. eexists. split; [reflexivity|]. intros HR. destruct o; try discriminate OK. cbn [justification_v].
        destruct (_ && _); [right|left; reflexivity]. split; [reflexivity|]. eexists _, _. split; [reflexivity|]. keep; [constructor|sg].
      - destruct (unm_np KCommits (m_dto mm) ET) as [X|(w & o & ED & EF & EU & OK & GO)]; [left; exact X|right].
        rewrite EU. eexists. split; [reflexivity|]. intros HR. destruct o; try discriminate OK. cbn [commits_v].
        destruct (_ =? _); [right|left; reflexivity]. split; [reflexivity|]. unfold process_commits. cbv zeta.
        destruct (ky_process_commits _ _ _) as [g [[cc|]|]]; cbn [fst snd]; try (eexists _, _; split; [reflexivity|]; keep; [constructor|sg]).
        destruct (bq_safe (set_gen x g) op_compl_commits _ q (compl_np cc) EQ FQ) as (acts & -> & OA). cbn [rbind].
        eexists _, _. split; [reflexivity|]. keep; [exact OA|sg].
      - destruct (unm_np KCompl (m_dto mm) ET) as [X|(w & o & ED & EF & EU & OK & GO)]; [left; exact X|right].
        rewrite EU. eexists. split; [reflexivity|]. intros HR. destruct o; try discriminate OK. cbn [compl_commits_v].
        destruct (_ =? _); [right|left; reflexivity]. split; [reflexivity|]. unfold process_compl_commits. cbv zeta.
        destruct (ky_compl _ _ _) as [g [[cc|]|]]; cbn [fst snd]; try (eexists _, _; split; [reflexivity|]; keep; [constructor|sg]).
        destruct (bq_safe (set_gen x g) op_recons_commits _ q (recons_np cc) EQ FQ) as (acts & -> & OA). cbn [rbind].
        eexists _, _. split; [reflexivity|]. keep; [exact OA|sg].
      - destruct (unm_np KRecons (m_dto mm) ET) as [X|(w & o & ED & EF & EU & OK & GO)]; [left; exact X|right].
        rewrite EU. eexists. split; [reflexivity|]. intros HR. destruct o; try discriminate OK. cbn [recons_commits_v].
        destruct (_ =? _); [right|left; reflexivity]. split; [reflexivity|]. eexists _, _. split; [reflexivity|]. keep; [constructor|sg].
      - destruct (unm_np KPart (m_dto mm) ET) as [X|(w & o & ED & EF & EU & OK & GO)]; [left; exact X|right].
        rewrite EU. eexists. split; [reflexivity|]. intros HR. destruct o as [| | | | |sg]; try discriminate OK.
        destruct GO as (i & v & EPS & RV). cbn [partsig_v]. rewrite EPS. destruct (Z.eqb_spec i (m_sender mm)) as [EI|NE]; [right|left; reflexivity].
        split; [reflexivity|]. destruct (S3 ltac:(lia)) as (d & EDS & OD). unfold pr_partsig. rewrite EDS.
        pose proof OD as (I & (h & Eh) & L & T).
        assert (NP : snd (process keccak pshash d sg) <> Panic).
        { intros X. apply process_panic in X. destruct X as [X|(i' & v' & X & Y)]; [congruence|]. rewrite EPS in X. injection X as <- <-.
          destruct Y as [Y|(_ & _ & Y)]; [lia|].
          assert (US : (exists pd, w = WPart pd /\ pad_sig pd = ps_sig sg)).
          { destruct w; try discriminate EF. cbn in EF. unfold dto_to_partsig in EF. destruct (dto_to_pri_share _); try discriminate EF.
            cbn in EF. injection EF as <-. eexists. split; reflexivity. }
          destruct US as (pd & -> & US).
          destruct Y as [Y|[Y|[Y|(qq & ww & _ & _ & _ & _ & _ & Y)]]]; [discriminate| | |congruence].
          - apply C2. split; [rewrite EO; reflexivity|]. exists pd. rewrite US. tauto.
          - apply C2. split; [rewrite EO; reflexivity|]. exists pd. rewrite US. tauto. }
        pose proof (okd_step d (CallProcess sg) OD) as OD'. cbn [Dss.step] in OD'.
        destruct (process keccak pshash d sg) as [d' [| |]]; cbn [fst snd] in *; [| |congruence];
        (eexists _, _; split; [reflexivity|]; keep; [constructor|]; split; [exact S1|]; split; [exact S2|]; intros _; exists d'; split; [reflexivity|exact OD']).
    Qed.

    Lemma dss_step_safe : step_safe dssp c env_ok (SS true).
    Proof. intros k s ES x e HS HE. apply safe_step; auto. Qed.
    Lemma dss_proc_safe : proc_safe dssp c env_ok calm (SS true).
    Proof. intros k s f ES EP m e x HM HO _. apply safe_proc; auto. Qed.
    Lemma dkg_step_safe : step_safe dkgp c (fun _ => True) (SS false).
    Proof. intros k s ES x e HS _. apply dkg_stage in ES. apply safe_step; try tauto; try (right; lia). intros; lia. Qed.
    Lemma dkg_proc_safe : proc_safe dkgp c (fun _ => True) calm (SS false).
    Proof. intros k s f ES EP m e x HM HO _. apply dkg_stage in ES. apply safe_proc; tauto || (right; lia). Qed.
    Lemma dss_safe k0 evs : args_ok k0 ->
      Forall (fun ev => match ev with ETick e _ => env_ok e | EMsg e m => env_ok e /\ calm m /\ 0 <= m_op m <= 11 end) evs ->
      exists r t, exec dssp c (new_run k0) evs = Ok (r, t).
    Proof.
      intros HA HF. apply (run_safe dssp c env_ok calm (SS true)).
      - exact dss_step_safe.
      - exact dss_proc_safe.
      - apply dss_last.
      - discriminate.
      - split; [intros; lia|]. split; [auto|intros; lia].
      - exact HF.
    Qed.
    Lemma dkg_safe k0 evs :
      Forall (fun ev => match ev with ETick _ _ => True | EMsg _ m => calm m /\ 0 <= m_op m <= 8 end) evs ->
      exists r t, exec dkgp c (new_run k0) evs = Ok (r, t).
    Proof.
      intros HF. apply (run_safe dkgp c (fun _ => True) calm (SS false)).
      - exact dkg_step_safe.
      - exact dkg_proc_safe.
      - apply dkg_last.
      - discriminate.
      - split; [intros; lia|]. split; [discriminate|intros; lia].
      - eapply Forall_impl; [|exact HF]. intros [e t|e m]; auto.
    Qed.
  End Safe.

  (** ** Outputs *)
  Definition BB (o : list (Z * output)) : Prop :=
    (forall v, In (pc_dss, v) o -> exists s q, In (pc_dkg, VShare s q) o) /\
    Forall (fun e => (exists s q, e = (pc_dkg, VShare s q)) \/ exists sg, e = (pc_dss, VSig sg)) o.
  Definition QQ (k : Z) (x : kd G) (b : bool) (o : list (Z * output)) : Prop :=
    (b = false -> 8 <= k -> exists s q, In (pc_dkg, VShare s q) o) /\ BB o.
  Lemma QQ_quiet k k' x x' b (acts : list (action payload output)) o : QQ k x false o -> acts_out acts = [] -> (8 <= k' -> 8 <= k) -> QQ k' x' b (o ++ acts_out acts).
  Proof. intros [A B] -> L. rewrite app_nil_r. split; [auto|exact B]. Qed.
  Lemma QQ_ab k x' (acts : list (action payload output)) o : BB o -> acts = [AAbandon] ->
    QQ k x' (has_ab acts) (o ++ acts_out acts).
  Proof. intros B ->. cbn. rewrite app_nil_r. split; [discriminate|exact B]. Qed.
  Lemma sends_quiet (l : list (action payload output)) : Forall (fun a => match a with ASend _ _ _ => True | _ => False end) l -> acts_out l = [].
  Proof. induction 1 as [|a l Ha _ IH]; [reflexivity|]. destruct a; try contradiction. exact IH. Qed.
  Lemma mc_quiet q ci op (d : payload) : acts_out (V := output) (multicast q ci op d) = [].
  Proof.
    unfold multicast. induction q as [|i q IH]; [reflexivity|]. cbn [flat_map]. unfold acts_out in *. rewrite flat_map_app, IH, app_nil_r.
    unfold send1. destruct (_ =? _); reflexivity.
  Qed.
  Lemma bc_quiet ci op (d : payload) : acts_out (V := output) (broadcast ci op d) = [].
  Proof.
    unfold broadcast. induction (seq _ _) as [|i q IH]; [reflexivity|]. cbn [flat_map]. unfold acts_out in *. rewrite flat_map_app, IH, app_nil_r.
    unfold send1. destruct (_ =? _); reflexivity.
  Qed.
  Lemma bq_quiet ci (x : kd G) op w acts : broadcast_qual ci x op w = Ok acts -> acts_out acts = [].
  Proof.
    unfold broadcast_qual. destruct w as [d| |]; [|intros E; injection E as <-; reflexivity|discriminate].
    destruct (kd_qual x) as [q|]; [|discriminate]. intros E. injection E as <-. apply mc_quiet.
  Qed.

  Lemma out_run c k0 evs r tr : exec dssp c (new_run k0) evs = Ok (r, tr) -> QQ (r_state r) (r_k r) (r_abandon r) (outputs_of tr).
  Proof.
    apply (run_out dssp c QQ).
    - intros k s H x o HQ. apply dss_stage_nat in H. destruct H as (m & -> & H). pose proof HQ as [_ HB].
      each_stage m H; cbn [ps0 ps sg_step]; try (destruct HQ as [A B]; split; [intros; apply A; [reflexivity|lia]|exact B]);
      intros e x' acts X.
      + injection X as <- <-. eapply QQ_quiet; [exact HQ|reflexivity|intros; lia].
      + unfold step_deal in X. destruct (ky_deals ky (kd_gen x)) as [g [ds|]]; injection X as <- <-; [|apply QQ_ab; auto].
        eapply QQ_quiet; [exact HQ| |intros; lia]. induction ds as [|d ds IH]; [reflexivity|].
        cbn [flat_map]. unfold acts_out in *. rewrite flat_map_app, IH, app_nil_r. destruct (deal_to_dto (snd d)); reflexivity.
      + injection X as <- <-. eapply QQ_quiet; [exact HQ|reflexivity|intros; lia].
      + unfold step_commits in X. destruct (kd_qual x); [|discriminate X]. cbv zeta in X. destruct (negb _); [injection X as <- <-; apply QQ_ab; auto|].
        destruct (snd _) as [sc|]; [|injection X as <- <-; apply QQ_ab; auto].
        destruct (broadcast_qual _ _ _ _) as [ac| |] eqn:B; cbn [rbind] in X; try discriminate X. injection X as <- <-.
        eapply QQ_quiet; [exact HQ|eapply bq_quiet; exact B|intros; lia].
      + unfold step_final in X. destruct (ky_finished _ _); [|injection X as <- <-; apply QQ_ab; auto].
        destruct (ky_share _ _) as [s|]; [|injection X as <- <-; apply QQ_ab; auto]. destruct (kd_qual x) as [q|]; [|discriminate X].
        injection X as <- <-. cbn. assert (IN : In (pc_dkg, VShare s q) (o ++ [(pc_dkg, VShare s q)])) by (apply in_app_iff; right; left; reflexivity).
        split; [intros; eauto|]. split; [intros; eauto|]. apply Forall_app. split; [apply HB|]. constructor; [left; eauto|constructor].
      + unfold st_init in X. destruct (ky_share _ _); [|injection X as <- <-; apply QQ_ab; auto]. destruct (kd_args x); [|discriminate X]. cbv zeta in X.
        destruct (e_long e); destruct (new_dss _ _ _ _ _ _ _ _); try discriminate X; injection X as <- <-;
        solve [apply QQ_ab; auto | eapply QQ_quiet; [exact HQ|reflexivity|intros; lia]].
      + unfold st_partsig in X. destruct (kd_dss x) as [[d [|]]|]; try discriminate X.
        destruct (partial_sig _ _ _ _) as [[[d' sg] [|]]| |]; try discriminate X; [|injection X as <- <-; apply QQ_ab; auto].
        destruct (broadcast_qual _ _ _ _) as [ac| |] eqn:B; cbn [rbind] in X; try discriminate X. injection X as <- <-.
        eapply QQ_quiet; [exact HQ|eapply bq_quiet; exact B|intros; lia].
      + unfold dss_st_final in X. destruct (kd_dss x) as [[d b]|]; try discriminate X. destruct (negb _); [injection X as <- <-; apply QQ_ab; auto|].
        destruct (signature _ _ _) as [sv| |]; try discriminate X; injection X as <- <-; [|apply QQ_ab; auto]. cbn.
        destruct HQ as [A _]. destruct (A eq_refl ltac:(lia)) as (s1 & q1 & IN).
        assert (IN' : In (pc_dkg, VShare s1 q1) (o ++ [(pc_dss, VSig sv)])) by (apply in_app_iff; left; exact IN).
        split; [intros; eauto|]. split; [intros; eauto|]. apply Forall_app. split; [apply HB|]. constructor; [right; eauto|constructor].
    - intros k x o [A B]. split; [discriminate|exact B].
    - intros k s f H EP e x o a x' acts HQ X. apply dss_stage_nat in H. destruct H as (m & -> & H).
      assert (Q0 : acts_out acts = []).
      { each_stage m H; try discriminate EP; cbn [ps sg_proc] in EP; injection EP as <-.
        - unfold process_deal in X. destruct a as [[]|]; try discriminate X. injection X as <- <-.
          destruct (snd _) as [[rr|]|]; try reflexivity. apply bc_quiet.
        - unfold process_response in X. destruct a as [|rr]; try discriminate X. injection X as <- <-.
          destruct (snd _) as [[j|]|]; try reflexivity. destruct (justification_to_dto j); try reflexivity. apply bc_quiet.
        - unfold process_justification in X. destruct a as [[]|]; try discriminate X. injection X as <- <-. reflexivity.
        - unfold process_commits in X. destruct a as [[]|]; try discriminate X. cbv zeta in X.
          destruct (snd _) as [[sc|]|]; try (injection X as <- <-; reflexivity).
          destruct (broadcast_qual _ _ _ _) as [ac| |] eqn:B; cbn [rbind] in X; try discriminate X. injection X as <- <-. eapply bq_quiet, B.
        - unfold process_compl_commits in X. destruct a as [[]|]; try discriminate X. cbv zeta in X.
          destruct (snd _) as [[sc|]|]; try (injection X as <- <-; reflexivity).
          destruct (broadcast_qual _ _ _ _) as [ac| |] eqn:B; cbn [rbind] in X; try discriminate X. injection X as <- <-. eapply bq_quiet, B.
        - unfold process_recons_commits in X. destruct a as [[]|]; try discriminate X. injection X as <- <-. reflexivity.
        - unfold pr_partsig in X. destruct a as [[]|]; try discriminate X. destruct (kd_dss x) as [[d b]|]; try discriminate X.
          destruct (process _ _ _ _) as [d' [| |]]; try discriminate X; injection X as <- <-; reflexivity. }
      eapply QQ_quiet; [exact HQ|exact Q0|auto].
    - intros x b o H. exact H.
    - split; [intros; lia|]. split; [intros v []|constructor].
  Qed.
End Dkg.
