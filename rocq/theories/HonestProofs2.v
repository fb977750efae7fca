(** A key generation, stage by stage, from what each member sends to what the others make of it. *)
From Coq Require Import ZArith List Bool Lia Permutation.
From Coq Require Import Init.Byte.
From Verif Require Import Params Bytes Res Secp Spec Dss DssSpec Dto DtoSpec DtoProofs Prot ProtSpec ProtProofs3 TimeSpec DkgProt SignSpec FlowSpec FlowProofs HonestSpec HonestProofs PropsDto.
Import ListNotations.
Open Scope Z_scope.

Section One.
  Context {D A K E V : Type}.
  Variable p : protocol D A K E V.
  Variable c : info.
  Variable e : E.
  Lemma through_S (n : nat) k0 ms x s : through p c e (S n) k0 ms = Ok x -> stage_at p (Z.of_nat n) = Some s ->
    exists y z, through p c e n k0 ms = Ok y /\ begin c e s y = Ok z /\ take_all c e s z (ms (Z.of_nat n)) = Ok x.
  Proof.
    cbn [FlowSpec.through]. intros H ES. rewrite ES in H. destruct (through p c e n k0 ms) as [y| |]; cbn [rbind] in H; try discriminate.
    destruct (begin c e s y) as [z| |] eqn:EB; cbn [rbind] in H; try discriminate. exists y, z. auto.
  Qed.
  Lemma take_all_noproc (s : stage D A K E V) x l : sg_proc s = None -> take_all c e s x l = Ok x.
  Proof. intros H. induction l as [|m l IH]; [reflexivity|]. cbn [FlowSpec.take_all]. unfold take at 1. rewrite H. destruct (fl_ab x); exact IH. Qed.
  Lemma take_one (s : stage D A K E V) f x m a : fl_ab x = false -> sg_proc s = Some f -> sg_type s (m_dto m) = true -> sg_unm s (m_dto m) = Ok a ->
    0 <= m_sender m < i_members c -> sg_valid s a (m_sender m) = Ok true -> take c e s x m = call x (fun k => f c e k a).
  Proof.
    intros H1 H2 H3 H4 H5 H6. unfold take. rewrite H1, H2, H3, H4. rewrite (proj2 (Z.leb_le _ _)) by lia. rewrite (proj2 (Z.ltb_lt _ _)) by lia. cbn [andb]. rewrite H6. reflexivity.
  Qed.
End One.

Section Emit.
  Context {A K E : Type}.
  Variable c : info.
  Variable e : E.
  Lemma call_only l (x y : flow (D := payload) (K := K) (V := output)) f : (forall kd kd' acts, f kd = Ok (kd', acts) -> Forall (only l) acts) -> call x f = Ok y ->
    exists acts, fl_acts y = fl_acts x ++ acts /\ Forall (only l) acts.
  Proof.
    intros H. unfold call. destruct (fl_ab x); [intros Q; injection Q as <-; exists []; rewrite app_nil_r; auto|].
    destruct (f (fl_k x)) as [[k acts]| |] eqn:EF; cbn [rbind]; try discriminate. intros Q. injection Q as <-. exists acts. split; [reflexivity|]. exact (H _ _ _ EF).
  Qed.
  Lemma take_all_only l (s : stage payload A K E output) ml : (forall f, sg_proc s = Some f -> forall kd a kd' acts, f c e kd a = Ok (kd', acts) -> Forall (only l) acts) ->
    forall x y, take_all c e s x ml = Ok y -> exists acts, fl_acts y = fl_acts x ++ acts /\ Forall (only l) acts.
  Proof.
    intros H. assert (NO : forall x : flow (D := payload) (K := K) (V := output), exists acts, fl_acts x = fl_acts x ++ acts /\ Forall (only l) acts) by (intros x; exists []; rewrite app_nil_r; auto).
    induction ml as [|m ml IH]; intros x y; cbn [FlowSpec.take_all]; [intros Q; injection Q as <-; apply NO|].
    destruct (take c e s x m) as [z| |] eqn:ET; cbn [rbind]; try discriminate. intros Q. destruct (IH _ _ Q) as (a2 & E2 & F2).
    assert (S1 : exists acts, fl_acts z = fl_acts x ++ acts /\ Forall (only l) acts).
    { unfold take in ET. destruct (fl_ab x); [injection ET as <-; apply NO|]. destruct (sg_proc s) as [f|] eqn:EP; [|injection ET as <-; apply NO].
      destruct (sg_type s (m_dto m)); [|injection ET as <-; apply NO]. destruct (sg_unm s (m_dto m)) as [a| |]; [|injection ET as <-; apply NO|discriminate].
      destruct (_ && _); [|injection ET as <-; apply NO]. destruct (sg_valid s a (m_sender m)) as [[|]| |]; cbn [rbind] in ET; try discriminate; [|injection ET as <-; apply NO].
      apply (call_only l x z (fun k => f c e k a)); [|exact ET]. intros kd kd' acts. apply (H f eq_refl). }
    destruct S1 as (a1 & E1 & F1). exists (a1 ++ a2). rewrite E2, E1, app_assoc. split; [reflexivity|apply Forall_app; auto].
  Qed.
  Lemma begin_only l (s : stage payload A K E output) : (forall f, sg_step s = Some f -> forall kd kd' acts, f c e kd = Ok (kd', acts) -> Forall (only l) acts) ->
    forall x y, begin c e s x = Ok y -> exists acts, fl_acts y = fl_acts x ++ acts /\ Forall (only l) acts.
  Proof.
    intros H x y. unfold begin. destruct (sg_step s) as [f|]; [|intros Q; injection Q as <-; exists []; rewrite app_nil_r; auto].
    apply call_only. intros kd kd' acts. apply (H f eq_refl).
  Qed.
  Lemma multicast_only l q op d : In op l -> Forall (only l) (multicast (V := output) q c op (d : payload)).
  Proof. intros H. rewrite multicast_eq. apply Forall_forall. intros a I. apply in_map_iff in I. destruct I as (k & <- & _). exact H. Qed.
  Lemma broadcast_only l op d : In op l -> Forall (only l) (broadcast (V := output) c op (d : payload)).
  Proof. intros H. rewrite broadcast_eq. apply Forall_forall. intros a I. apply in_map_iff in I. destruct I as (k & <- & _). exact H. Qed.
End Emit.

Section Core.
  Context {G : Type}.
  Variable ky : kyber G.
  Variables (n : Z) (f : list Z) (F : list point) (g : Z -> G) (D : Z -> Z -> enc_deal -> Prop) (R : Z -> Z -> resp -> Prop) (C : Z -> commits -> Prop).
  Hypothesis W : works ky n f F g D R C.
  Hypothesis NR : n <= 2 ^ 32.
  Notation prot := (dkg_prot ky).
  Notation kd := (kd G).
  Notation flow := (flow (D := payload) (K := kd) (V := output)).
  Definition s_deal : pstage (G := G) := ps (Some (step_deal ky)) (process_deal ky) (unm KDeal) deal_v (is_kind KDeal).
  Definition s_resp : pstage (G := G) := ps None (process_response ky) identity_unm response_v is_resp.
  Definition s_just : pstage (G := G) := ps None (process_justification ky) (unm KJust) justification_v (is_kind KJust).
  Definition s_vss : pstage (G := G) := ps0 (step_vss_done ky).
  Definition s_commits : pstage (G := G) := ps (Some (step_commits ky)) (process_commits ky) (unm KCommits) commits_v (is_kind KCommits).
  Definition s_compl : pstage (G := G) := ps None (process_compl_commits ky) (unm KCompl) compl_commits_v (is_kind KCompl).
  Definition s_recons : pstage (G := G) := ps None (process_recons_commits ky) (unm KRecons) recons_commits_v (is_kind KRecons).
  Definition s_final : pstage (G := G) := ps0 (step_final ky).

  Lemma bq_only ci k op w l acts : In op l -> broadcast_qual (G := G) ci k op w = Ok acts -> Forall (only l) acts.
  Proof. intros HI. unfold broadcast_qual. destruct w as [d| |]; [|intros Q; injection Q as <-; constructor|discriminate]. destruct (kd_qual k); [|discriminate]. intros Q. injection Q as <-. apply multicast_only, HI. Qed.

  Section Member.
    Variable c : info.
    Variable e : env.
    Lemma begin_deal_only x y : begin c e s_deal x = Ok y -> exists acts, fl_acts y = fl_acts x ++ acts /\ Forall (only [1]) acts.
    Proof.
      apply begin_only. intros h Q kd kd' acts. cbn in Q. injection Q as <-. unfold step_deal. destruct (snd (ky_deals ky (kd_gen kd))) as [ds|]; intros Q; injection Q as <- <-; [|repeat constructor].
      apply Forall_forall. intros a I. apply in_flat_map in I. destruct I as (d & _ & I). destruct (deal_to_dto (snd d)); [|destruct I|destruct I]. destruct I as [<-|[]]. left. reflexivity.
    Qed.
    Lemma take_deal_only l x y : take_all c e s_deal x l = Ok y -> exists acts, fl_acts y = fl_acts x ++ acts /\ Forall (only [2]) acts.
    Proof.
      apply take_all_only. intros h Q kd a kd' acts. cbn in Q. injection Q as <-. unfold process_deal. destruct a as [[d| | | | |]|]; try discriminate. intros Q. injection Q as <- <-.
      destruct (snd _) as [[r|]|]; try constructor. apply broadcast_only. left. reflexivity.
    Qed.
    Lemma take_resp_only l x y : take_all c e s_resp x l = Ok y -> exists acts, fl_acts y = fl_acts x ++ acts /\ Forall (only [3]) acts.
    Proof.
      apply take_all_only. intros h Q kd a kd' acts. cbn in Q. injection Q as <-. unfold process_response. destruct a as [|r]; try discriminate. intros Q. injection Q as <- <-.
      destruct (snd _) as [[j|]|]; try constructor. destruct (justification_to_dto j); try constructor. apply broadcast_only. left. reflexivity.
    Qed.
    Lemma take_just_only l x y : take_all c e s_just x l = Ok y -> exists acts, fl_acts y = fl_acts x ++ acts /\ Forall (only []) acts.
    Proof.
      apply take_all_only. intros h Q kd a kd' acts. cbn in Q. injection Q as <-. unfold process_justification. destruct a as [[| j| | | |]|]; try discriminate. intros Q. injection Q as <- <-. constructor.
    Qed.
    Lemma begin_vss_only x y : begin c e s_vss x = Ok y -> exists acts, fl_acts y = fl_acts x ++ acts /\ Forall (only []) acts.
    Proof. apply begin_only. intros h Q kd kd' acts. cbn in Q. injection Q as <-. unfold step_vss_done. intros Q. injection Q as <- <-. constructor. Qed.
    Lemma begin_commits_only x y : begin c e s_commits x = Ok y -> exists acts, fl_acts y = fl_acts x ++ acts /\ Forall (only [5]) acts.
    Proof.
      apply begin_only. intros h Q kd kd' acts. cbn in Q. injection Q as <-. unfold step_commits. destruct (kd_qual kd); [|discriminate].
      destruct (negb _); [intros Q; injection Q as <- <-; repeat constructor|]. destruct (snd _) as [sc|]; [|intros Q; injection Q as <- <-; repeat constructor].
      destruct (broadcast_qual _ _ _ _) as [as'| |] eqn:EB; cbn [rbind]; try discriminate. intros Q. injection Q as <- <-. apply (fun HI => bq_only _ _ _ _ _ _ HI EB); left; reflexivity.
    Qed.
    Lemma take_commits_only l x y : take_all c e s_commits x l = Ok y -> exists acts, fl_acts y = fl_acts x ++ acts /\ Forall (only [6]) acts.
    Proof.
      apply take_all_only. intros h Q kd a kd' acts. cbn in Q. injection Q as <-. unfold process_commits. destruct a as [[| | j| | |]|]; try discriminate.
      destruct (snd _) as [[cc|]|]; [|intros Q; injection Q as <- <-; constructor|intros Q; injection Q as <- <-; constructor].
      destruct (broadcast_qual _ _ _ _) as [as'| |] eqn:EB; cbn [rbind]; try discriminate. intros Q. injection Q as <- <-. apply (fun HI => bq_only _ _ _ _ _ _ HI EB); left; reflexivity.
    Qed.
    Lemma take_compl_only l x y : take_all c e s_compl x l = Ok y -> exists acts, fl_acts y = fl_acts x ++ acts /\ Forall (only [7]) acts.
    Proof.
      apply take_all_only. intros h Q kd a kd' acts. cbn in Q. injection Q as <-. unfold process_compl_commits. destruct a as [[| | | j| |]|]; try discriminate.
      destruct (snd _) as [[cc|]|]; [|intros Q; injection Q as <- <-; constructor|intros Q; injection Q as <- <-; constructor].
      destruct (broadcast_qual _ _ _ _) as [as'| |] eqn:EB; cbn [rbind]; try discriminate. intros Q. injection Q as <- <-. apply (fun HI => bq_only _ _ _ _ _ _ HI EB); left; reflexivity.
    Qed.
    Lemma take_recons_only l x y : take_all c e s_recons x l = Ok y -> exists acts, fl_acts y = fl_acts x ++ acts /\ Forall (only []) acts.
    Proof.
      apply take_all_only. intros h Q kd a kd' acts. cbn in Q. injection Q as <-. unfold process_recons_commits. destruct a as [[| | | | j|]|]; try discriminate. intros Q. injection Q as <- <-. constructor.
    Qed.
    Lemma begin_final_mails x y i op : begin c e s_final x = Ok y -> mails i op (fl_acts y) = mails i op (fl_acts x).
    Proof.
      unfold begin. cbn [s_final ps0 sg_step]. unfold call. destruct (fl_ab x); [intros Q; injection Q as <-; reflexivity|]. unfold step_final.
      destruct (ky_finished _ _); [destruct (ky_share _ _); [destruct (kd_qual (fl_k x)); [|discriminate]|]|]; cbn; intros Q; injection Q as <-; cbn [fl_acts]; rewrite mails_app; cbn; apply app_nil_r.
    Qed.

    Lemma spread k0 ms x : through prot c e 9 k0 ms = Ok x -> exists y1 x2 x3 x4 x5 y5 x6 x7 x8,
      begin c e s_deal (mkFlow (set_qual k0 []) false []) = Ok y1 /\ take_all c e s_deal y1 (ms 1) = Ok x2 /\ take_all c e s_resp x2 (ms 2) = Ok x3 /\
      take_all c e s_just x3 (ms 3) = Ok x4 /\ begin c e s_vss x4 = Ok x5 /\ begin c e s_commits x5 = Ok y5 /\ take_all c e s_commits y5 (ms 5) = Ok x6 /\
      take_all c e s_compl x6 (ms 6) = Ok x7 /\ take_all c e s_recons x7 (ms 7) = Ok x8 /\ begin c e s_final x8 = Ok x /\
      (forall i, mails i 1 (fl_acts x) = mails i 1 (fl_acts y1) /\ mails i 2 (fl_acts x) = mails i 2 (fl_acts x2) /\ mails i 3 (fl_acts x) = mails i 3 (fl_acts x3) /\
         mails i 5 (fl_acts x) = mails i 5 (fl_acts y5) /\ mails i 6 (fl_acts x) = mails i 6 (fl_acts x6) /\ mails i 7 (fl_acts x) = mails i 7 (fl_acts x7)).
    Proof.
      intros H. destruct (through_S prot c e 8 k0 ms x s_final H eq_refl) as (x8 & y8 & H8 & B8 & T8). rewrite take_all_noproc in T8 by reflexivity. injection T8 as ->.
      destruct (through_S prot c e 7 k0 ms x8 s_recons H8 eq_refl) as (x7 & y7 & H7 & B7 & T7). injection B7 as ->.
      destruct (through_S prot c e 6 k0 ms y7 s_compl H7 eq_refl) as (x6 & y6 & H6 & B6 & T6). injection B6 as ->.
      destruct (through_S prot c e 5 k0 ms y6 s_commits H6 eq_refl) as (x5 & y5 & H5 & B5 & T5).
      destruct (through_S prot c e 4 k0 ms x5 s_vss H5 eq_refl) as (x4 & y4 & H4 & B4 & T4). rewrite take_all_noproc in T4 by reflexivity. injection T4 as ->.
      destruct (through_S prot c e 3 k0 ms x4 s_just H4 eq_refl) as (x3 & y3 & H3 & B3 & T3). injection B3 as ->.
      destruct (through_S prot c e 2 k0 ms y3 s_resp H3 eq_refl) as (x2 & y2 & H2 & B2 & T2). injection B2 as ->.
      destruct (through_S prot c e 1 k0 ms y2 s_deal H2 eq_refl) as (x1 & y1 & H1 & B1 & T1).
      destruct (through_S prot c e 0 k0 ms x1 (ps0 step_init) H1 eq_refl) as (x0 & y0 & H0 & B0 & T0). rewrite take_all_noproc in T0 by reflexivity. injection T0 as ->.
      cbn in H0. injection H0 as <-. cbn in B0. injection B0 as <-.
      exists y1, y2, y3, x4, x5, y5, y6, y7, x8. do 10 (split; [assumption|]).
      destruct (begin_deal_only _ _ B1) as (a1 & E1 & F1). cbn [fl_acts app] in E1. destruct (take_deal_only _ _ _ T1) as (a2 & E2 & F2). destruct (take_resp_only _ _ _ T2) as (a3 & E3 & F3).
      destruct (take_just_only _ _ _ T3) as (a4 & E4 & F4). destruct (begin_vss_only _ _ B4) as (a4' & E4' & F4'). destruct (begin_commits_only _ _ B5) as (a5 & E5 & F5).
      destruct (take_commits_only _ _ _ T5) as (a6 & E6 & F6). destruct (take_compl_only _ _ _ T6) as (a7 & E7 & F7). destruct (take_recons_only _ _ _ T7) as (a8 & E8 & F8).
      intros i. rewrite !(begin_final_mails _ _ i _ B8), E8, E7, E6, E5, E4', E4, E3, E2, E1, !mails_app.
      assert (NN : forall l a op, Forall (only l) a -> ~ In op l -> mails i op a = []) by (intros l a op X Y; exact (mails_none i op l a X Y)).
      Ltac nin := intros X; cbn in X; intuition discriminate.
      repeat split; repeat first [rewrite (NN _ a1 _ F1) by nin|rewrite (NN _ a2 _ F2) by nin|rewrite (NN _ a3 _ F3) by nin|rewrite (NN _ a4 _ F4) by nin|rewrite (NN _ a4' _ F4') by nin|
        rewrite (NN _ a5 _ F5) by nin|rewrite (NN _ a6 _ F6) by nin|rewrite (NN _ a7 _ F7) by nin|rewrite (NN _ a8 _ F8) by nin]; rewrite ?app_nil_r; reflexivity.
    Qed.
  End Member.
End Core.
