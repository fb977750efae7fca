(** What runs output: shares of finished key generations. *)
From Coq Require Import ZArith List Lia Bool.
From Coq Require Import Init.Byte.
From Verif Require Import Params Bytes Res Secp Spec PublicKey Schnorr Dss DssSpec DssProofs DssProofs2 DssProofs3
  Dto DtoSpec DtoProofs Prot ProtSpec ProtProofs ProtProofs2 ProtProofs3 ProtProofs4 ProtProofs5 ProtProofs6 DkgProt DkgSpec DkgProofs NodeRun.
Import ListNotations.
Open Scope Z_scope.

Section Shares.
  Context {G : Type}.
  Variable ky : kyber G.
  Variable keccak : bytes -> bytes.
  Variable pshash : Z -> Z -> bytes.
  Notation dkgp := (dkg_prot ky). Notation dssp := (dss_prot ky keccak pshash).
  Notation act := (action payload output).
  Variable gen : G.

  Definition certified_qual (x : kd G) (g1 : G) : Prop :=
    evolves ky gen g1 /\ ky_certified ky g1 = true /\ kd_qual x = Some (ky_qual ky g1) /\ evolves ky g1 (kd_gen x).
  Definition good_out (v : output) : Prop :=
    exists s g1 g2, v = VShare s (ky_qual ky g1) /\ evolves ky gen g1 /\ ky_certified ky g1 = true /\ evolves ky g1 g2 /\
      ky_finished ky g2 = true /\ ky_share ky g2 = Some s.
  Definition out_act (a : act) : Prop := match a with AOutput pc v => pc = pc_dkg -> good_out v | _ => True end.
  Definition QO (k : Z) (x : kd G) (b : bool) (o : list act) : Prop :=
    evolves ky gen (kd_gen x) /\ (b = false -> 5 <= k <= 8 -> exists g1, certified_qual x g1) /\ Forall out_act o.

  (** Sends and abandonment only. *)
  Definition no_out (a : act) : Prop := match a with AOutput _ _ => False | _ => True end.
  Lemma no_out_ok l : Forall no_out l -> Forall out_act l.
  Proof. apply Forall_impl. intros []; cbn; tauto. Qed.
  Lemma mc_no q ci op (d : payload) : Forall no_out (multicast q ci op d).
  Proof.
    unfold multicast. induction q as [|i q IH]; [constructor|]. cbn [flat_map]. apply Forall_app. split; [|exact IH].
    unfold send1. destruct (_ =? _); repeat constructor.
  Qed.
  Lemma bc_no ci op (d : payload) : Forall no_out (broadcast ci op d).
  Proof.
    unfold broadcast. induction (seq _ _) as [|i q IH]; [constructor|]. cbn [flat_map]. apply Forall_app. split; [|exact IH].
    unfold send1. destruct (_ =? _); repeat constructor.
  Qed.
  Lemma bq_no ci (x : kd G) op w acts : broadcast_qual ci x op w = Ok acts -> Forall no_out acts.
  Proof.
    unfold broadcast_qual. destruct w as [d| |]; [|intros E; injection E as <-; constructor|discriminate].
    destruct (kd_qual x) as [q|]; [|discriminate]. intros E. injection E as <-. apply mc_no.
  Qed.

  Lemma QO_none k k' x x' b acts o : QO k x false o -> evolves ky (kd_gen x) (kd_gen x') -> Forall no_out acts ->
    (5 <= k' <= 8 -> 5 <= k <= 8 /\ kd_qual x' = kd_qual x) -> QO k' x' b (o ++ acts).
  Proof.
    intros (A & B & C) E N HK. split; [eapply ev_trans; eassumption|]. split.
    - intros _ L. destruct (HK L) as [L1 EQ]. destruct (B eq_refl L1) as (g1 & D1 & D2 & D3 & D4). exists g1.
      split; [exact D1|]. split; [exact D2|]. split; [congruence|]. eapply ev_trans; eassumption.
    - apply Forall_app. split; [exact C|]. apply no_out_ok, N.
  Qed.
  Ltac quiet := eapply QO_none; [eassumption|cbn [kd_gen set_gen set_qual set_dss fst]; first [apply ev_same|apply ev_one; constructor|apply ev_one; assumption]| |first [lia|intros _; split; [lia|reflexivity]]].

  Lemma step_QO k s c x o : stage_at dssp k = Some s -> QO (k - 1) x false o ->
    match sg_step s with
    | Some f => forall e x' acts, f c e x = Ok (x', acts) -> QO k x' (has_ab acts) (o ++ acts)
    | None => QO k x false o
    end.
  Proof.
    intros H HQ. apply dss_stage_nat in H. destruct H as (m & -> & H).
    each_stage m H; cbn [ps0 ps sg_step]; try (intros e x' acts X).
    - injection X as <- <-. quiet. constructor.
    - pose proof (kc_deals ky (kd_gen x)) as KC. unfold step_deal in X. destruct (ky_deals ky (kd_gen x)) as [g [ds|]]; injection X as <- <-; quiet; [|repeat constructor].
      clear KC. induction ds as [|d ds IH]; [constructor|]. cbn [flat_map]. apply Forall_app. split; [|exact IH].
      destruct (deal_to_dto (snd d)); repeat constructor.
    - destruct HQ as (A & B & C). split; [exact A|]. split; [lia|exact C].
    - destruct HQ as (A & B & C). split; [exact A|]. split; [lia|exact C].
    - injection X as <- <-. quiet. constructor.
    - unfold step_commits in X. destruct (kd_qual x); [|discriminate X]. cbv zeta in X. cbn [kd_gen set_qual] in X. destruct HQ as (A & B & C).
      destruct (ky_certified ky (kd_gen x)) eqn:EC; cbn [negb] in X.
      + pose proof (kc_commits ky (kd_gen x)) as KC.
        assert (OK : forall acts b, Forall no_out acts -> QO 5 (set_gen (set_qual x (ky_qual ky (kd_gen x))) (fst (ky_commits ky (kd_gen x)))) b (o ++ acts)).
        { intros ac b N. split; [cbn; eapply ev_call; eassumption|]. split; [|apply Forall_app; split; [exact C|apply no_out_ok, N]].
          intros _ _. exists (kd_gen x). split; [exact A|]. split; [exact EC|]. split; [reflexivity|]. cbn. apply ev_one, KC. }
        destruct (snd _) as [sc|]; [|injection X as <- <-; apply OK; repeat constructor].
        destruct (broadcast_qual _ _ _ _) as [ac| |] eqn:BQ; cbn [rbind] in X; try discriminate X. injection X as <- <-. apply OK. eapply bq_no, BQ.
      + injection X as <- <-. split; [exact A|]. split; [discriminate|]. apply Forall_app. split; [exact C|repeat constructor].
    - destruct HQ as (A & B & C). split; [exact A|]. split; [|exact C]. intros E _. apply B; [exact E|lia].
    - destruct HQ as (A & B & C). split; [exact A|]. split; [|exact C]. intros E _. apply B; [exact E|lia].
    - unfold step_final in X. destruct (ky_finished _ _) eqn:EF; [|injection X as <- <-; quiet; repeat constructor].
      destruct (ky_share _ _) as [s|] eqn:ES; [|injection X as <- <-; quiet; repeat constructor]. destruct HQ as (A & B & C).
      destruct (B eq_refl) as (g1 & D1 & D2 & D3 & D4); [lia|]. rewrite D3 in X. injection X as <- <-. split; [exact A|]. split.
      + intros _ _. exists g1. split; [exact D1|]. split; [exact D2|]. split; [exact D3|exact D4].
      + apply Forall_app. split; [exact C|]. repeat constructor. intros _. exists s, g1, (kd_gen x). split; [reflexivity|]. auto.
    - unfold st_init in X. destruct (ky_share _ _); [|injection X as <- <-; quiet; repeat constructor]. destruct (kd_args x); [|discriminate X]. cbv zeta in X.
      destruct (e_long e).
      + destruct (new_dss _ _ _ _ _ _ _ _); try discriminate X; injection X as <- <-; quiet; repeat constructor.
      + destruct (new_dss _ _ _ _ _ _ _ _); try discriminate X; injection X as <- <-; quiet; repeat constructor.
    - unfold st_partsig in X. destruct (kd_dss x) as [[d [|]]|]; try discriminate X.
      destruct (partial_sig _ _ _ _) as [[[d' sg] [|]]| |]; try discriminate X; [|injection X as <- <-; quiet; repeat constructor].
      destruct (broadcast_qual _ _ _ _) as [ac| |] eqn:BQ; cbn [rbind] in X; try discriminate X. injection X as <- <-. quiet. eapply bq_no, BQ.
    - unfold dss_st_final in X. destruct (kd_dss x) as [[d b]|]; try discriminate X. destruct (negb _); [injection X as <- <-; quiet; repeat constructor|].
      destruct (signature _ _ _); try discriminate X; injection X as <- <-; [|quiet; repeat constructor].
      destruct HQ as (A & B & C). split; [exact A|]. split; [lia|]. apply Forall_app. split; [exact C|]. repeat constructor. discriminate.
  Qed.
  Lemma proc_QO k s f c e x o a x' acts : stage_at dssp k = Some s -> sg_proc s = Some f -> QO k x false o ->
    f c e x a = Ok (x', acts) -> QO k x' (has_ab acts) (o ++ acts).
  Proof.
    intros H EP HQ X. apply dss_stage_nat in H. destruct H as (m & -> & H).
    each_stage m H; cbn [ps0 ps sg_proc] in EP; try discriminate EP; try injection EP as <-.
    - unfold process_deal in X. destruct a as [[]|]; try discriminate X. injection X as <- <-. quiet.
      destruct (snd _) as [[rr|]|]; try constructor. apply bc_no.
    - unfold process_response in X. destruct a as [|rr]; try discriminate X. injection X as <- <-. quiet.
      destruct (snd _) as [[j|]|]; try constructor. destruct (justification_to_dto j); try constructor. apply bc_no.
    - unfold process_justification in X. destruct a as [[]|]; try discriminate X. injection X as <- <-. quiet. constructor.
    - unfold process_commits in X. destruct a as [[]|]; try discriminate X. cbv zeta in X.
      destruct (snd _) as [[sc|]|]; try (injection X as <- <-; quiet; constructor).
      destruct (broadcast_qual _ _ _ _) as [ac| |] eqn:BQ; cbn [rbind] in X; try discriminate X. injection X as <- <-. quiet. eapply bq_no, BQ.
    - unfold process_compl_commits in X. destruct a as [[]|]; try discriminate X. cbv zeta in X.
      destruct (snd _) as [[sc|]|]; try (injection X as <- <-; quiet; constructor).
      destruct (broadcast_qual _ _ _ _) as [ac| |] eqn:BQ; cbn [rbind] in X; try discriminate X. injection X as <- <-. quiet. eapply bq_no, BQ.
    - unfold process_recons_commits in X. destruct a as [[]|]; try discriminate X. injection X as <- <-. quiet. constructor.
    - unfold pr_partsig in X. destruct a as [[]|]; try discriminate X. destruct (kd_dss x) as [[d b]|]; try discriminate X.
      destruct (process _ _ _ _) as [d' [| |]]; try discriminate X; injection X as <- <-; quiet; constructor.
  Qed.

  Lemma share_outputs p c k0 evs r tr : p = dkgp \/ p = dssp -> kd_gen k0 = gen -> exec p c (new_run k0) evs = Ok (r, tr) ->
    Forall out_act (acts_of tr).
  Proof.
    intros HP HG E. assert (X : QO (r_state r) (r_k r) (r_abandon r) (acts_of tr)); [|apply X].
    assert (ST : forall k s, stage_at p k = Some s -> stage_at dssp k = Some s).
    { destruct HP as [->| ->]; [intros k s H; apply (dkg_stage ky keccak pshash), H|auto]. }
    apply (run_acts p c (fun _ => True) QO k0 evs r tr); try assumption.
    - intros k s H x o HQ. pose proof (step_QO k s c x o (ST _ _ H) HQ) as Y. destruct (sg_step s); [|exact Y]. intros e x' acts _ X. eapply Y, X.
    - intros k x o (A & B & C). split; [exact A|]. split; [discriminate|exact C].
    - intros k s f H EP e x o a x' acts _ HQ X. eapply proc_QO; [exact (ST _ _ H)|exact EP|exact HQ|exact X].
    - intros x b o (A & B & C). destruct HP as [->| ->]; (split; [exact A|]; split; [|exact C]); [exact B|]. cbn. lia.
    - apply Forall_forall. auto.
    - split; [rewrite HG; apply ev_same|]. split; [lia|constructor].
  Qed.
End Shares.
