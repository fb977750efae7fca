(** DKG and DSS send only on entering a stage. *)
From Coq Require Import ZArith List Lia Bool.
From Coq Require Import Init.Byte.
From Verif Require Import Params Bytes Res Secp PublicKey Schnorr Dss Dto DtoProofs Prot ProtSpec ProtProofs ProtProofs2 DkgProt DkgSpec DkgProofs TimeSpec TimeProofs.
Import ListNotations.
Open Scope Z_scope.

Section Dkg.
  Context {G : Type}.
  Variable ky : kyber G.
  Variable keccak : bytes -> bytes.
  Variable pshash : Z -> Z -> bytes.
  Notation dkgp := (dkg_prot ky). Notation dssp := (dss_prot ky keccak pshash).

  Section Sends.
    Variable P : Z -> Prop.
    Notation so := (sends_only (D := payload) (V := output) P).
    Lemma multicast_so q ci op (d : payload) : P op -> Forall so (multicast q ci op d).
    Proof.
      intros H. unfold multicast. induction q as [|i q IH]; [constructor|]. cbn [flat_map]. apply Forall_app. split; [|exact IH].
      unfold send1. destruct (i =? i_guest ci); [constructor|]. constructor; [exact H|constructor].
    Qed.
    Lemma broadcast_so ci op (d : payload) : P op -> Forall so (broadcast ci op d).
    Proof.
      intros H. unfold broadcast. induction (seq 0 _) as [|i q IH]; [constructor|]. cbn [flat_map]. apply Forall_app. split; [|exact IH].
      unfold send1. destruct (Z.of_nat i =? i_guest ci); [constructor|]. constructor; [exact H|constructor].
    Qed.
    Lemma bq_so ci (kd : kd G) op w acts : P op -> broadcast_qual ci kd op w = Ok acts -> Forall so acts.
    Proof.
      intros H. unfold broadcast_qual. destruct w as [d| |]; [|intros E; injection E as <-; constructor|discriminate].
      destruct (kd_qual kd) as [q|]; [|discriminate]. intros E. injection E as <-. apply multicast_so, H.
    Qed.
    Lemma deals_so (ds : list (Z * enc_deal)) : P op_deal ->
      Forall so (flat_map (fun e => match deal_to_dto (snd e) with Ok d => [ASend (fst e) op_deal (PWire (WDeal d))] | _ => [] end) ds).
    Proof.
      intros H. induction ds as [|e ds IH]; [constructor|]. cbn [flat_map]. apply Forall_app. split; [|exact IH].
      destruct (deal_to_dto (snd e)); constructor; [exact H|constructor].
    Qed.
  End Sends.

  Ltac okop := split; [reflexivity|eexists; split; [reflexivity|discriminate]].
  Ltac fin H := injection H as <- <-; repeat constructor.
  (** For any protocol with the same stages where messages are sent. *)
  Lemma dss_prompt_with (tk : Z -> Prop) n s : tk 1 -> tk 2 -> tk 3 -> tk 5 -> tk 6 -> tk 7 -> (n = 10%nat -> tk 10) ->
    nth_error (dss_stages ky keccak pshash) n = Some s ->
    (forall f ci e kd kd' acts, sg_step s = Some f -> f ci e kd = Ok (kd', acts) -> Forall (sends_only (fun op => op = Z.of_nat n /\ tk op)) acts) /\
    (forall f ci e kd arg kd' acts, sg_proc s = Some f -> f ci e kd arg = Ok (kd', acts) -> Forall (sends_only (fun op => op = Z.of_nat n + 1 /\ tk op)) acts).
  Proof.
    intros T1 T2 T3 T5 T6 T7 T10 H.
    each_stage n H; (split; [intros f ci e kd kd' acts E X; try discriminate E; injection E as <-|
                             intros f ci e kd a kd' acts E X; try discriminate E; injection E as <-]).
    - fin X.
    - unfold step_deal in X. destruct (ky_deals ky (kd_gen kd)) as [g [ds|]]; injection X as <- <-; [|repeat constructor].
      apply deals_so. auto.
    - unfold process_deal in X. destruct a as [[]|]; try discriminate X. injection X as <- <-.
      destruct (snd _) as [[r|]|]; try constructor. apply broadcast_so. auto.
    - unfold process_response in X. destruct a as [|r]; try discriminate X. injection X as <- <-.
      destruct (snd _) as [[j|]|]; try constructor. destruct (justification_to_dto j); try constructor. apply broadcast_so. auto.
    - unfold process_justification in X. destruct a as [[]|]; try discriminate X. injection X as <- <-. constructor.
    - fin X.
    - unfold step_commits in X. destruct (kd_qual kd); [|discriminate X]. cbv zeta in X. destruct (negb _); [fin X|].
      destruct (snd _) as [sc|]; [|fin X].
      destruct (broadcast_qual _ _ _ _) as [ac| |] eqn:B; cbn [rbind] in X; try discriminate X. injection X as <- <-.
      eapply bq_so; [|exact B]. auto.
    - unfold process_commits in X. destruct a as [[]|]; try discriminate X. cbv zeta in X.
      destruct (snd _) as [[sc|]|]; try (injection X as <- <-; constructor).
      destruct (broadcast_qual _ _ _ _) as [ac| |] eqn:B; cbn [rbind] in X; try discriminate X. injection X as <- <-.
      eapply bq_so; [|exact B]. auto.
    - unfold process_compl_commits in X. destruct a as [[]|]; try discriminate X. cbv zeta in X.
      destruct (snd _) as [[sc|]|]; try (injection X as <- <-; constructor).
      destruct (broadcast_qual _ _ _ _) as [ac| |] eqn:B; cbn [rbind] in X; try discriminate X. injection X as <- <-.
      eapply bq_so; [|exact B]. auto.
    - unfold process_recons_commits in X. destruct a as [[]|]; try discriminate X. injection X as <- <-. constructor.
    - unfold step_final in X. destruct (ky_finished _ _); [|fin X]. destruct (ky_share _ _); [|fin X]. destruct (kd_qual kd); [fin X|discriminate X].
    - unfold st_init in X. destruct (ky_share _ _); [|fin X]. destruct (kd_args kd); [|discriminate X]. cbv zeta in X.
      destruct (e_long e).
      + destruct (new_dss _ _ _ _ _ _ _ _); [fin X|fin X|discriminate X].
      + destruct (new_dss _ _ _ _ _ _ _ _); [discriminate X|fin X|discriminate X].
    - unfold st_partsig in X. destruct (kd_dss kd) as [[d [|]]|]; try discriminate X.
      destruct (partial_sig _ _ _ _) as [[[d' sg] [|]]| |]; try discriminate X; [|fin X].
      destruct (broadcast_qual _ _ _ _) as [ac| |] eqn:B; cbn [rbind] in X; try discriminate X. injection X as <- <-.
      eapply bq_so; [|exact B]. auto.
    - unfold pr_partsig in X. destruct a as [[]|]; try discriminate X. destruct (kd_dss kd) as [[d b]|]; try discriminate X.
      destruct (process _ _ _ _) as [d' [| |]]; try discriminate X; injection X as <- <-; constructor.
    - unfold dss_st_final in X. destruct (kd_dss kd) as [[d b]|]; try discriminate X. destruct (negb _); [fin X|].
      destruct (signature _ _ _); [fin X|fin X|discriminate X].
  Qed.
  Lemma dss_prompt : prompt dssp.
  Proof.
    intros k s H. apply dss_stage_nat in H. destruct H as (n & -> & H).
    apply dss_prompt_with; try exact H; try intros _; (eexists; split; [reflexivity|discriminate]).
  Qed.
  Lemma dkg_prompt : prompt dkgp.
  Proof.
    intros k s H. destruct (dkg_stage ky keccak pshash _ _ H) as [H1 R]. apply dss_stage_nat in H1. destruct H1 as (n & -> & H1).
    apply dss_prompt_with; try exact H1; try (eexists; split; [reflexivity|discriminate]). lia.
  Qed.
  Lemma both_prompt p : p = dkgp \/ p = dssp -> prompt p.
  Proof. intros [->| ->]; [exact dkg_prompt|exact dss_prompt]. Qed.
  Lemma takes_timeout (p : protocol payload arg (kd G) env output) k : takes p k -> 0 <= k /\ elapsed p (k + 1) = elapsed p k + 75 * ms.
  Proof.
    intros (s & ES & EP). split.
    - unfold stage_at in ES. destruct (Z.ltb_spec k 0); [discriminate|lia].
    - rewrite (elapsed_next p k s ES). unfold stage_timeout. destruct (sg_proc s); [reflexivity|contradiction].
  Qed.
End Dkg.
