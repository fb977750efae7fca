(** What runs do with documents: instances, partial signatures and outputs. *)
From Coq Require Import ZArith List Lia Bool.
From Coq Require Import Init.Byte.
From Verif Require Import Params Bytes Res Secp Spec PublicKey Schnorr Dss DssSpec DssProofs DssProofs2 DssProofs3
  Dto DtoSpec DtoProofs Prot ProtSpec ProtProofs ProtProofs2 ProtProofs3 ProtProofs4 ProtProofs5 ProtProofs6 DkgProt DkgSpec DkgProofs.
Import ListNotations.
Open Scope Z_scope.

Section NodeRun.
  Context {G : Type}.
  Variable ky : kyber G.
  Variable keccak : bytes -> bytes.
  Variable pshash : Z -> Z -> bytes.
  Notation dkgp := (dkg_prot ky). Notation dssp := (dss_prot ky keccak pshash).
  Notation act := (action payload output).

  Definition plain_act (a : act) : Prop :=
    match a with ASend _ op _ => op <> op_dss_partsig | AOutput pc _ => pc = pc_dkg | AAbandon => True end.
  Definition plain (x x' : kd G) (acts : list act) : Prop :=
    kd_args x' = kd_args x /\ kd_dss x' = kd_dss x /\ evolves ky (kd_gen x) (kd_gen x') /\ Forall plain_act acts.
  Lemma ev_trans g1 g2 g3 : evolves ky g1 g2 -> evolves ky g2 g3 -> evolves ky g1 g3.
  Proof. intros H1 H2. induction H2; [exact H1|]. eapply ev_call; eassumption. Qed.
  Lemma ev_one g1 g2 : kcall ky g1 g2 -> evolves ky g1 g2.
  Proof. intros H. eapply ev_call; [apply ev_same|exact H]. Qed.

  Lemma mc_plain q ci op (d : payload) : op <> op_dss_partsig -> Forall plain_act (multicast q ci op d).
  Proof.
    intros H. unfold multicast. induction q as [|i q IH]; [constructor|]. cbn [flat_map]. apply Forall_app. split; [|exact IH].
    unfold send1. destruct (_ =? _); repeat constructor. exact H.
  Qed.
  Lemma bc_plain ci op (d : payload) : op <> op_dss_partsig -> Forall plain_act (broadcast ci op d).
  Proof.
    intros H. unfold broadcast. induction (seq _ _) as [|i q IH]; [constructor|]. cbn [flat_map]. apply Forall_app. split; [|exact IH].
    unfold send1. destruct (_ =? _); repeat constructor. exact H.
  Qed.
  Lemma bq_plain ci (x : kd G) op w acts : op <> op_dss_partsig -> broadcast_qual ci x op w = Ok acts -> Forall plain_act acts.
  Proof.
    intros H. unfold broadcast_qual. destruct w as [d| |]; [|intros E; injection E as <-; constructor|discriminate].
    destruct (kd_qual x) as [q|]; [|discriminate]. intros E. injection E as <-. apply mc_plain, H.
  Qed.
  Ltac same_kd := split; [reflexivity|split; [reflexivity|split; [cbn [kd_gen set_gen set_qual set_dss fst]; first [apply ev_same|apply ev_one; constructor|apply ev_one; assumption]|]]].

  Lemma low_step k s f ci e x x' acts : stage_at dssp k = Some s -> k <= 8 -> sg_step s = Some f ->
    f ci e x = Ok (x', acts) -> plain x x' acts.
  Proof.
    intros H L ES X. apply dss_stage_nat in H. destruct H as (m & -> & H).
    each_stage m H; cbn [ps0 ps sg_step] in ES; try discriminate ES; try injection ES as <-; try (exfalso; lia).
    - injection X as <- <-. same_kd. constructor.
    - pose proof (kc_deals ky (kd_gen x)) as KC. unfold step_deal in X. destruct (ky_deals ky (kd_gen x)) as [g [ds|]]; injection X as <- <-; same_kd; [|repeat constructor].
      clear KC. induction ds as [|d ds IH]; [constructor|]. cbn [flat_map]. apply Forall_app. split; [|exact IH].
      destruct (deal_to_dto (snd d)); repeat constructor. discriminate.
    - injection X as <- <-. same_kd. constructor.
    - unfold step_commits in X. destruct (kd_qual x); [|discriminate X]. cbv zeta in X. destruct (negb _); [injection X as <- <-; same_kd; repeat constructor|].
      destruct (snd _) as [sc|]; [|injection X as <- <-; same_kd; repeat constructor].
      destruct (broadcast_qual _ _ _ _) as [ac| |] eqn:B; cbn [rbind] in X; try discriminate X. injection X as <- <-. same_kd.
      eapply bq_plain; [|exact B]. discriminate.
    - unfold step_final in X. destruct (ky_finished _ _); [|injection X as <- <-; same_kd; repeat constructor].
      destruct (ky_share _ _) as [s|]; [|injection X as <- <-; same_kd; repeat constructor]. destruct (kd_qual x) as [q|]; [|discriminate X].
      injection X as <- <-. same_kd. repeat constructor.
  Qed.
  Lemma low_proc k s f ci e x a x' acts : stage_at dssp k = Some s -> k <= 8 -> sg_proc s = Some f ->
    f ci e x a = Ok (x', acts) -> plain x x' acts.
  Proof.
    intros H L EP X. apply dss_stage_nat in H. destruct H as (m & -> & H).
    each_stage m H; cbn [ps0 ps sg_proc] in EP; try discriminate EP; try injection EP as <-; try (exfalso; lia).
    - unfold process_deal in X. destruct a as [[]|]; try discriminate X. injection X as <- <-. same_kd.
      destruct (snd _) as [[rr|]|]; try constructor. apply bc_plain. discriminate.
    - unfold process_response in X. destruct a as [|rr]; try discriminate X. injection X as <- <-. same_kd.
      destruct (snd _) as [[j|]|]; try constructor. destruct (justification_to_dto j); try constructor. apply bc_plain. discriminate.
    - unfold process_justification in X. destruct a as [[]|]; try discriminate X. injection X as <- <-. same_kd. constructor.
    - unfold process_commits in X. destruct a as [[]|]; try discriminate X. cbv zeta in X.
      destruct (snd _) as [[sc|]|]; try (injection X as <- <-; same_kd; constructor).
      destruct (broadcast_qual _ _ _ _) as [ac| |] eqn:B; cbn [rbind] in X; try discriminate X. injection X as <- <-. same_kd.
      eapply bq_plain; [|exact B]. discriminate.
    - unfold process_compl_commits in X. destruct a as [[]|]; try discriminate X. cbv zeta in X.
      destruct (snd _) as [[sc|]|]; try (injection X as <- <-; same_kd; constructor).
      destruct (broadcast_qual _ _ _ _) as [ac| |] eqn:B; cbn [rbind] in X; try discriminate X. injection X as <- <-. same_kd.
      eapply bq_plain; [|exact B]. discriminate.
    - unfold process_recons_commits in X. destruct a as [[]|]; try discriminate X. injection X as <- <-. same_kd. constructor.
  Qed.

  (** What is sent was created. *)
  Lemma sent_created (p : protocol payload arg (kd G) env output) c k0 evs r tr m : exec p c (new_run k0) evs = Ok (r, tr) ->
    In (OSent m) tr -> In (OCreate m) tr.
  Proof.
    intros E H. apply run_inv in E. pose proof (iv_snd _ _ _ _ _ E (m_op m)) as X.
    assert (I : In m (for_op (m_op m) (created tr))).
    { rewrite X. apply in_or_app. left. apply filter_In. split; [|apply Z.eqb_refl].
      unfold sent. apply in_flat_map. exists (OSent m). split; [exact H|left; reflexivity]. }
    apply filter_In in I. destruct I as [I _]. unfold created in I. apply in_flat_map in I. destruct I as (o & I1 & I2).
    destruct o; try contradiction. destruct I2 as [->|[]]. exact I1.
  Qed.
  (** Conditions on what was done, for one observation. *)
  Definition act_of (o : obs payload arg output) : option act :=
    match o with OCreate m | OSent m => Some (ASend (m_rcpt m) (m_op m) (m_dto m)) | OOutput pc v => Some (AOutput pc v) | _ => None end.
  Lemma acts_each (P : act -> Prop) (p : protocol payload arg (kd G) env output) c k0 evs r tr o a : exec p c (new_run k0) evs = Ok (r, tr) ->
    Forall P (acts_of tr) -> In o tr -> act_of o = Some a -> P a.
  Proof.
    intros E F H HA. rewrite Forall_forall in F.
    assert (C : forall m, In (OCreate m) tr -> P (ASend (m_rcpt m) (m_op m) (m_dto m))).
    { intros m Hm. apply F. unfold acts_of. apply in_flat_map. exists (OCreate m). split; [exact Hm|left; reflexivity]. }
    destruct o; try discriminate HA; injection HA as <-.
    - apply C, H.
    - apply C. eapply sent_created; eassumption.
    - apply F. unfold acts_of. apply in_flat_map. eexists. split; [exact H|left; reflexivity].
  Qed.

  (** Key generation never makes a DSS instance, partial signature or signature. *)
  Definition QK (k : Z) (x : kd G) (b : bool) (o : list act) : Prop := kd_dss x = None /\ Forall plain_act o.
  Lemma dkg_run_plain c k0 evs r tr : kd_dss k0 = None -> exec dkgp c (new_run k0) evs = Ok (r, tr) ->
    kd_dss (r_k r) = None /\ Forall plain_act (acts_of tr).
  Proof.
    intros H0 E. apply (run_acts dkgp c (fun _ => True) QK k0 evs r tr); try assumption.
    - intros k s H x o [A B]. apply (dkg_stage ky keccak pshash) in H. destruct H as [H L]. destruct (sg_step s) as [f|] eqn:ES; [|split; assumption].
      intros e x' acts _ X. destruct (low_step k s f c e x x' acts H (proj2 L) ES X) as (_ & P2 & _ & P3).
      split; [congruence|]. apply Forall_app. auto.
    - intros k x o H. exact H.
    - intros k s f H EP e x o a x' acts _ [A B] X. apply (dkg_stage ky keccak pshash) in H. destruct H as [H L].
      destruct (low_proc k s f c e x a x' acts H (proj2 L) EP X) as (_ & P2 & _ & P3). split; [congruence|]. apply Forall_app. auto.
    - intros x b o H. exact H.
    - apply Forall_forall. auto.
    - split; [exact H0|constructor].
  Qed.

  (** Signing.  [R]: the documents the environment may hand out. *)
  Section Sign.
    Variable R : Z -> Prop.
    Variable a0 : kargs.
    Variable long : option dks.
    (** [GP]: the states the library can be in; [RO]: the orders of iteration. *)
    Variable GP : G -> Prop.
    Variable RO : (Z -> list (Z * Z) -> list (Z * Z)) -> Prop.
    Hypothesis HGP : forall g g', GP g -> kcall ky g g' -> GP g'.
    Definition env_from (e : env) : Prop := e_long e = long /\ (forall d, e_doc e = Some d -> R d) /\ RO (e_ord e).
    Lemma gp_evolves g g' : evolves ky g g' -> GP g -> GP g'.
    Proof. induction 1; eauto. Qed.
    (** An instance made and used. *)
    Definition inst (d : dss) : Prop :=
      exists doc l random g d0 calls, R doc /\ long = Some l /\ GP g /\ ky_share ky g = Some random /\
        new_dss keccak (ka_secret a0) (ka_parts a0) (share_of l) (share_of random) (ky_qual ky g) doc (ka_T a0) = Ok d0 /\
        d = Dss.run keccak pshash d0 calls.
    Definition good_act (a : act) : Prop :=
      match a with
      | ASend _ op w => op = op_dss_partsig -> exists d d' nonce sg w', inst d /\
          partial_sig keccak pshash nonce d = Ok (d', sg, true) /\ to_wire (OPart sg) = Ok w' /\ w = PWire w'
      | AOutput pc v => pc = pc_dss -> exists d ord s, inst d /\ RO ord /\ signature keccak ord d = Ok s /\ v = VSig s
      | AAbandon => True
      end.
    Definition QS (k : Z) (x : kd G) (b : bool) (o : list act) : Prop :=
      (k <= 10 -> kd_args x = Some a0) /\ (forall d, kd_dss x = Some (d, true) -> inst d) /\
      (b = false -> k = 10 -> exists d, kd_dss x = Some (d, true)) /\ Forall good_act o /\ GP (kd_gen x).
    Lemma plain_good a : plain_act a -> good_act a.
    Proof. destruct a as [i op w| |pc v]; cbn; [intros; contradiction|auto|intros ->; discriminate]. Qed.
    Lemma inst_step d c : inst d -> inst (Dss.step keccak pshash d c).
    Proof.
      intros (doc & l & rn & q & d0 & cs & A & B & C & D & E & ->). exists doc, l, rn, q, d0, (cs ++ [c]).
      repeat (split; [assumption|]). unfold Dss.run. rewrite fold_left_app. reflexivity.
    Qed.
    Lemma QS_plain k k' x x' b acts o : QS k x false o -> k' <= 9 -> k <= 10 -> plain x x' acts -> QS k' x' b (o ++ acts).
    Proof.
      intros (A & B & C & D & GG) L L2 (P1 & P2 & P4 & P3). split; [intros _; rewrite P1; apply A; lia|]. split; [intros d E; apply B; congruence|].
      split; [lia|]. split; [|eapply gp_evolves; eassumption]. apply Forall_app. split; [exact D|]. eapply Forall_impl; [|exact P3]. exact plain_good.
    Qed.

    Lemma dss_run_good c k0 evs r tr : kd_args k0 = Some a0 -> kd_dss k0 = None -> GP (kd_gen k0) -> Forall (fun ev => env_from (env_of ev)) evs ->
      exec dssp c (new_run k0) evs = Ok (r, tr) ->
      (forall d, kd_dss (r_k r) = Some (d, true) -> inst d) /\ Forall good_act (acts_of tr).
    Proof.
      intros H0 H1 HG HF E.
      assert (X: QS (r_state r) (r_k r) (r_abandon r) (acts_of tr)); [|destruct X as (_ & X2 & _ & X4 & _); auto].
      apply (run_acts dssp c env_from QS k0 evs r tr); try assumption.
      - intros k s H x o HQ. pose proof H as H'. apply dss_stage_nat in H. destruct H as (m & -> & H).
        assert (LT: (m <= 8 \/ m = 9 \/ m = 10 \/ m = 11)%nat).
        { assert (m < length (dss_stages ky keccak pshash))%nat by (apply nth_error_Some; congruence). cbn in H2. lia. }
        destruct LT as [L|[->|[->| ->]]].
        + destruct (sg_step s) as [f|] eqn:ES.
          * intros e x' acts _ X. apply (QS_plain (Z.of_nat m - 1) _ x); [exact HQ|lia|lia|].
            apply (low_step (Z.of_nat m) s f c e); auto. lia.
          * destruct HQ as (A & B & C & D & GG). split; [intros _; apply A; lia|]. split; [exact B|]. split; [lia|]. split; [exact D|exact GG].
        + cbn in H. injection H as <-. cbn [ps0 sg_step]. intros e x' acts (EL & ED & EO) X. destruct HQ as (A & B & C & D & GG).
          unfold st_init in X.
          assert (AB: forall y, kd_args y = kd_args x -> (forall d, kd_dss y = Some (d, true) -> inst d) -> kd_gen y = kd_gen x -> QS 9 y true (o ++ [AAbandon])).
          { intros y Y1 Y2 Y3. split; [intros _; rewrite Y1; apply A; lia|]. split; [exact Y2|]. split; [lia|]. split; [|rewrite Y3; exact GG]. apply Forall_app. split; [exact D|repeat constructor]. }
          destruct (ky_share ky (kd_gen x)) as [rd|] eqn:SH; [|injection X as <- <-; apply AB; [reflexivity|exact B|reflexivity]].
          rewrite A in X by lia. cbv zeta in X. rewrite EL in X. destruct long as [l|] eqn:LL.
          * destruct (new_dss _ _ _ _ _ _ _ _) as [d0| |] eqn:EN; try discriminate X; injection X as <- <-.
            -- cbn [app has_ab existsb]. rewrite app_nil_r. split; [intros _; apply A; lia|]. split; [|split; [lia|split; [exact D|exact GG]]].
               cbn [set_dss kd_dss]. intros d EE. injection EE as <- EB. destruct (e_doc e) as [doc|] eqn:EDOC; [|discriminate EB].
               exists doc, l, rd, (kd_gen x), d0, []. repeat (split; [auto|]). reflexivity.
            -- apply AB; [reflexivity|discriminate|reflexivity].
          * destruct (new_dss _ _ _ _ _ _ _ _) as [d0| |] eqn:EN; try discriminate X; injection X as <- <-. apply AB; [reflexivity|discriminate|reflexivity].
        + cbn in H. injection H as <-. cbn [ps sg_step]. intros e x' acts HE X. destruct HQ as (A & B & C & D & GG).
          unfold st_partsig in X. destruct (kd_dss x) as [[d [|]]|] eqn:EK; try discriminate X.
          destruct (partial_sig keccak pshash (e_nonce e) d) as [[[d' sg] ok]| |] eqn:EP; try discriminate X.
          assert (ID: inst d) by auto.
          assert (ID': inst d').
          { pose proof (inst_step d (CallPartial (e_nonce e)) ID) as Y. cbn [Dss.step] in Y. rewrite EP in Y. exact Y. }
          destruct ok.
          * destruct (broadcast_qual _ _ _ _) as [ac| |] eqn:BQ; cbn [rbind] in X; try discriminate X. injection X as <- <-.
            split; [intros _; apply A; lia|]. split; [cbn; intros d1 EE; injection EE as <-; exact ID'|]. split; [cbn; eauto|].
            split; [|exact GG]. apply Forall_app. split; [exact D|]. unfold broadcast_qual in BQ.
            destruct (to_wire (OPart sg)) as [w'| |] eqn:EW; try discriminate BQ; [|injection BQ as <-; constructor].
            destruct (kd_qual _) as [q|]; [|discriminate BQ]. injection BQ as <-. unfold multicast.
            induction q as [|i q IH]; [constructor|]. cbn [flat_map]. apply Forall_app. split; [|exact IH].
            unfold send1. destruct (_ =? _); repeat constructor. intros _. exists d, d', (e_nonce e), sg, w'. auto.
          * injection X as <- <-. split; [intros _; apply A; lia|]. split; [cbn; intros d1 EE; injection EE as <-; exact ID'|].
            split; [discriminate|]. split; [|exact GG]. apply Forall_app. split; [exact D|repeat constructor].
        + cbn in H. injection H as <-. cbn [ps0 sg_step]. intros e x' acts HE X. destruct HQ as (A & B & C & D & GG).
          unfold dss_st_final in X. destruct (C eq_refl eq_refl) as (d & EK). rewrite EK in X.
          assert (AB: QS 11 x true (o ++ [AAbandon])).
          { split; [lia|]. split; [exact B|]. split; [lia|]. split; [|exact GG]. apply Forall_app. split; [exact D|repeat constructor]. }
          destruct (negb _); [injection X as <- <-; exact AB|].
          destruct (signature keccak (e_ord e) d) as [sg| |] eqn:ESG; try discriminate X; injection X as <- <-; [|exact AB].
          split; [lia|]. split; [exact B|]. split; [lia|]. split; [|exact GG]. apply Forall_app. split; [exact D|]. repeat constructor. intros _.
          exists d, (e_ord e), sg. destruct HE as (_ & _ & HO). auto.
      - intros k x o (A & B & C & D & GG). split; [intros; apply A; lia|]. split; [exact B|]. split; [discriminate|]. split; [exact D|exact GG].
      - intros k s f H EP e x o a x' acts HE HQ X. pose proof H as H'. apply dss_stage_nat in H. destruct H as (m & -> & H).
        assert (LT: (m <= 8 \/ m = 9 \/ m = 10 \/ m = 11)%nat).
        { assert (m < length (dss_stages ky keccak pshash))%nat by (apply nth_error_Some; congruence). cbn in H2. lia. }
        destruct LT as [L|[->|[->| ->]]].
        + apply (QS_plain (Z.of_nat m) _ x); [exact HQ|lia|lia|]. apply (low_proc (Z.of_nat m) s f c e x a); auto. lia.
        + cbn in H. injection H as <-. discriminate EP.
        + cbn in H. injection H as <-. cbn [ps sg_proc] in EP. injection EP as <-. destruct HQ as (A & B & C & D & GG).
          unfold pr_partsig in X. destruct a as [[| | | | |pp]|]; try discriminate X. destruct (kd_dss x) as [[d b]|] eqn:EK; try discriminate X.
          assert (PP: fst (process keccak pshash d pp) = Dss.step keccak pshash d (CallProcess pp)) by reflexivity.
          destruct (process keccak pshash d pp) as [d' [| |]]; cbn [fst] in PP; try discriminate X; injection X as <- <-; rewrite app_nil_r;
          (split; [intros _; apply A; lia|]; split; [cbn; intros d1 EE; injection EE as <- ->; rewrite PP; apply inst_step, B; reflexivity|];
           split; [|split; [exact D|exact GG]]; intros _ _; destruct (C eq_refl eq_refl) as (d2 & E2); injection E2 as <- ->; cbn; eauto).
        + cbn in H. injection H as <-. discriminate EP.
      - intros x b o (A & B & C & D & GG). split; [cbn; lia|]. split; [discriminate|]. split; [cbn; lia|]. split; [exact D|exact GG].
      - split; [auto|]. split; [intros d EE; cbn in EE; congruence|]. split; [lia|]. split; [constructor|exact HG].
    Qed.
  End Sign.
End NodeRun.
