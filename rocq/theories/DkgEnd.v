(** What a signing run holds after its end. *)
From Coq Require Import ZArith List Lia Bool.
From Verif Require Import Params Bytes Res Secp Dss Dto Prot DkgProt.
Import ListNotations.
Open Scope Z_scope.

Section End.
  Context {G : Type}.
  Variable ky : kyber G.
  Variable keccak : bytes -> bytes.
  Variable pshash : Z -> Z -> bytes.
  Variable c : info.
  Notation pr := (dss_prot ky keccak pshash).
  Notation run := (rst payload (kd G)).
  Definition no_term (o : list (obs payload arg output)) : Prop := forall t, ~ In (OTerm t) o.

  Lemma nt_nil : no_term []. Proof. intros t []. Qed.
  Lemma nt_app a b : no_term a -> no_term b -> no_term (a ++ b).
  Proof. intros A B t H. apply in_app_or in H. destruct H; [eapply A|eapply B]; eassumption. Qed.
  Lemma nt_cons x l : match x with OTerm _ => False | _ => True end -> no_term l -> no_term (x :: l).
  Proof. intros H L t [->|E]; [exact H|exact (L t E)]. Qed.
  Hint Resolve nt_nil nt_app : core.
  Hint Extern 1 (no_term (_ :: _)) => (apply nt_cons; [exact I|]) : core.

  Lemma do_loc l : forall (r : run) x, do_actions (A := arg) c r l = Ok x -> r_loc (fst x) = r_loc r /\ no_term (snd x).
  Proof.
    induction l as [|a l IH]; intros r x H; cbn in H; [injection H as <-; cbn; auto|].
    assert (D1 : forall y, do_action (A := arg) c r a = Ok y -> r_loc (fst y) = r_loc r /\ no_term (snd y)).
    { intros y. destruct a as [i op d| |pc v]; cbn; [|intros E; injection E as <-; cbn; auto..].
      unfold send, try_send. destruct (_ <? _); [intros E; injection E as <-; cbn; auto|].
      destruct (_ && _); cbn; [|discriminate]. intros E; injection E as <-; cbn; auto. }
    destruct (do_action c r a) as [y| |] eqn:EY; cbn [rbind] in H; try discriminate. destruct (do_actions c (fst y) l) as [z| |] eqn:EZ; cbn [rbind] in H; try discriminate.
    injection H as <-. destruct (D1 y eq_refl) as [Y1 Y2], (IH _ _ EZ) as [Z1 Z2]. cbn [fst snd]. split; [congruence|auto].
  Qed.
  Lemma perform_loc (r : run) x y : perform (A := arg) c r x = Ok y -> r_loc (fst y) = r_loc r /\ no_term (snd y).
  Proof. unfold perform. destruct x as [ka| |]; cbn [rbind]; try discriminate. intros H. exact (do_loc _ _ _ H). Qed.
  Lemma stage_end k s : final pr <= k -> stage_at pr k = Some s -> sg_proc s = None.
  Proof.
    intros L ES. assert (EK : k = 11).
    { unfold stage_at in ES. destruct (Z.ltb_spec k 0); [discriminate|]. assert (X : (Z.to_nat k < length (p_stages pr))%nat) by (apply nth_error_Some; congruence).
      change (length (p_stages pr)) with 12%nat in X. change (final pr) with 11 in L. lia. }
    subst k. cbn in ES. injection ES as <-. reflexivity.
  Qed.
  Lemma msg_loc e (r : run) m x : process_msg pr c e r m = Ok x ->
    r_loc (fst x) = r_loc r /\ no_term (snd x) /\ (final pr <= m_op m -> fst x = r).
  Proof.
    unfold process_msg. assert (NO : Ok (r, [OHandle m]) = Ok x -> r_loc (fst x) = r_loc r /\ no_term (snd x) /\ (final pr <= m_op m -> fst x = r)).
    { intros E. injection E as <-. cbn [fst snd]. auto. }
    destruct (r_abandon r); [exact NO|]. destruct (stage_at pr (m_op m)) as [s|] eqn:ES; [|discriminate]. destruct (sg_proc s) as [f|] eqn:EP; [|exact NO].
    destruct (negb _); [exact NO|]. destruct (sg_unm _ _) as [ar| |]; [|exact NO|discriminate]. destruct (_ && _); [|exact NO].
    destruct (sg_valid s ar (m_sender m)) as [[|]| |]; cbn [rbind]; try discriminate; [|exact NO].
    destruct (perform c r _) as [y| |] eqn:EY; cbn [rbind]; try discriminate. intros E. injection E as <-. cbn [fst snd]. destruct (perform_loc _ _ _ EY) as [Y1 Y2].
    split; [exact Y1|]. split; [auto|]. intros L. rewrite (stage_end _ _ L ES) in EP. discriminate EP.
  Qed.
  Lemma all_loc e l : forall (r : run) x, process_all pr c e r l = Ok x -> r_loc (fst x) = r_loc r /\ no_term (snd x).
  Proof.
    induction l as [|m l IH]; intros r x H; cbn in H; [injection H as <-; cbn; auto|].
    destruct (process_msg pr c e r m) as [y| |] eqn:EY; cbn [rbind] in H; try discriminate. destruct (process_all pr c e (fst y) l) as [z| |] eqn:EZ; cbn [rbind] in H; try discriminate.
    injection H as <-. destruct (msg_loc _ _ _ _ EY) as (Y1 & Y2 & _), (IH _ _ EZ) as [Z1 Z2]. cbn [fst snd]. split; [congruence|auto].
  Qed.
  Lemma sent_nt l : forall o, try_send_all (D := payload) (A := arg) (V := output) c l = Ok o -> no_term o.
  Proof.
    induction l as [|m l IH]; cbn; intros o H; [injection H as <-; auto|]. unfold try_send in H. destruct (_ && _); cbn in H; try discriminate.
    destruct (try_send_all c l) as [o2| |]; cbn in H; try discriminate. injection H as <-. auto.
  Qed.
  Lemma enter_loc e now (r : run) x : enter_stage pr c e now r = Ok x -> r_loc (fst x) = LStage /\ no_term (snd x).
  Proof.
    unfold enter_stage. destruct (stage_at pr _) as [s|]; [|discriminate]. cbv zeta. unfold flush_snd_buf.
    destruct (try_send_all c _) as [o| |] eqn:EO; cbn [rbind fst snd]; try discriminate.
    destruct (run_step c e s _) as [y| |] eqn:EY; cbn [rbind]; try discriminate. destruct (process_all pr c e (fst y) _) as [z| |] eqn:EZ; cbn [rbind]; try discriminate.
    intros E. injection E as <-. cbn [fst snd]. split; [reflexivity|]. apply nt_cons; [exact I|]. apply nt_app; [eapply sent_nt, EO|]. apply nt_app; [|eapply all_loc, EZ].
    unfold run_step in EY. destruct (r_abandon _); [injection EY as <-; auto|]. destruct (sg_step s) as [f|]; [|injection EY as <-; auto].
    destruct (perform c _ _) as [w| |] eqn:EW; cbn [rbind] in EY; try discriminate. injection EY as <-. cbn [snd]. apply nt_cons; [exact I|]. eapply perform_loc, EW.
  Qed.

  Definition clean (r : run) : Prop := r_loc r = LEnd -> final pr <= r_state r /\ kd_args (r_k r) = None /\ kd_dss (r_k r) = None.
  Lemma step_clean (r r1 : run) ev t1 : clean r -> Prot.step pr c r ev = Ok (r1, t1) ->
    clean r1 /\ (forall t, In (OTerm t) t1 -> r_loc r1 = LEnd) /\ (r_loc r = LEnd -> r_loc r1 = LEnd).
  Proof.
    intros HI ES. assert (SAME : forall r2, r_loc r2 = r_loc r -> r_state r2 = r_state r -> r_k r2 = r_k r -> clean r2).
    { intros r2 E1 E2 E3 L. rewrite E2, E3. apply HI. congruence. }
    destruct ev as [e now|e m]; cbn [Prot.step] in ES.
    - assert (TOP : loop_top pr c e now r = Ok (r1, t1) -> r_loc r <> LEnd -> clean r1 /\ (forall t, In (OTerm t) t1 -> r_loc r1 = LEnd) /\ (r_loc r = LEnd -> r_loc r1 = LEnd)).
      { unfold loop_top. intros H NL. split; [|split; [|intros X; destruct (NL X)]]; revert H; (destruct (Z.ltb_spec (r_state r) (final pr)) as [L|L]; [destruct (_ <? _)|]).
        - intros E. injection E as <- <-. discriminate.
        - intros E X. destruct (enter_loc _ _ _ _ E) as [X1 _]. cbn [fst] in X1. congruence.
        - intros E. injection E as <- <-. intros _. cbn. auto.
        - intros E. injection E as <- <-. intros t [H|[]]. discriminate H.
        - intros E t H. destruct (proj2 (enter_loc _ _ _ _ E) t H).
        - intros E. injection E as <- <-. reflexivity. }
      unfold tick in ES. destruct (r_loc r) eqn:EL; try (apply TOP; [exact ES|discriminate]).
      + injection ES as <- <-. split; [discriminate|]. split; [intros t [H|[]]; discriminate H|discriminate].
      + destruct (enter_loc _ _ _ _ ES) as [X1 X2]. cbn [fst snd] in *. split; [intros X; congruence|]. split; [intros t H; destruct (X2 t H)|discriminate].
      + injection ES as <- <-. split; [exact HI|]. split; [intros t []|auto].
    - unfold deliver in ES. destruct (Z.ltb_spec (m_op m) (r_state r)) as [L0|L0]; cbn [orb] in ES; [injection ES as <- <-; split; [exact HI|]; split; [intros t [H|[]]; discriminate H|auto]|].
      destruct (_ && _); [injection ES as <- <-; split; [exact HI|]; split; [intros t [H|[]]; discriminate H|auto]|].
      destruct (Z.ltb_spec (r_state r) (m_op m)) as [L|L]; [injection ES as <- <-; split; [apply SAME; reflexivity|]; split; [intros t []|auto]|].
      destruct (msg_loc _ _ _ _ ES) as (X1 & X2 & X3). cbn [fst snd] in *. split; [|split; [intros t H; destruct (X2 t H)|congruence]].
      intros E. rewrite X1 in E. destruct (Z.le_gt_cases (final pr) (m_op m)) as [LE|LE]; [rewrite (X3 LE); apply HI, E|].
      exfalso. pose proof (proj1 (HI E)). lia.
  Qed.
  Lemma exec_clean evs : forall (r r' : run) tr, clean r -> exec pr c r evs = Ok (r', tr) ->
    clean r' /\ (forall t, In (OTerm t) tr -> r_loc r' = LEnd) /\ (r_loc r = LEnd -> r_loc r' = LEnd).
  Proof.
    induction evs as [|ev evs IH]; intros r r' tr HI; cbn [exec]; [intros E; injection E as <- <-; split; [exact HI|]; split; [intros t []|auto]|].
    destruct (Prot.step pr c r ev) as [[r1 t1]| |] eqn:ES; cbn [rbind fst snd]; try discriminate.
    destruct (exec pr c r1 evs) as [[r2 t2]| |] eqn:EX; cbn [rbind fst snd]; try discriminate. intros E. injection E as <- <-.
    destruct (step_clean _ _ _ _ HI ES) as (A & B & C), (IH _ _ _ (proj1 (step_clean _ _ _ _ HI ES)) EX) as (A2 & B2 & C2).
    split; [exact A2|]. split; [|auto]. intros t H. apply in_app_or in H. destruct H as [H|H]; eauto.
  Qed.
End End.
