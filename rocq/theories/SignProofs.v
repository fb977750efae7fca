(** The signing stages (9 to 11) of a run that gets ready to sign. *)
From Coq Require Import ZArith List Lia Bool Permutation.
From Coq Require Import Init.Byte.
From Verif Require Import Params Bytes Res Secp Spec SecpProofs PublicKey Schnorr Dss DssSpec DssProofs DssProofs2 DssProofs3
  Dto DtoSpec DtoProofs Prot ProtSpec ProtProofs ProtProofs2 ProtProofs3 ProtProofs5 DkgProt DkgSpec DkgProofs TimeProofs SignSpec.
Import ListNotations.
Open Scope Z_scope.

Section Sign.
  Context {G : Type}.
  Variable ky : kyber G.
  Variable keccak : bytes -> bytes.
  Variable pshash : Z -> Z -> bytes.
  Variable c : info.
  Notation p := (dss_prot ky keccak pshash).
  Notation drun := (Dss.run keccak pshash).
  Notation run := (rst payload (kd G)).
  Notation obs := (obs payload arg output).

  (** Entering a stage whose step is [f]. *)
  Lemma enter_parts e now (r : run) tr rcvd s f r' (t' : list obs) : Inv p c rcvd r tr -> r_abandon r = false ->
    stage_at p (r_state r + 1) = Some s -> sg_step s = Some f -> enter_stage p c e now r = Ok (r', t') ->
    exists k acts r3 ta r4 tz,
      f c e (r_k r) = Ok (k, acts) /\
      do_actions c (set_k (set_snd (set_stage r (r_state r + 1) false) (mdel (r_snd r) (r_state r + 1))) k) acts = Ok (r3, ta) /\
      r_k r3 = k /\ r_state r3 = r_state r + 1 /\ r_abandon r3 = has_ab acts /\ outputs_of ta = acts_out acts /\
      process_all p c e r3 (mslice (r_rcv r) (r_state r + 1)) = Ok (r4, tz) /\
      r_k r' = r_k r4 /\ r_state r' = r_state r4 /\ r_abandon r' = r_abandon r4 /\
      t' = OEnter (r_state r + 1) now :: map OSent (mslice (r_snd r) (r_state r + 1)) ++ (OStep (r_state r + 1) :: ta) ++ tz.
  Proof.
    intros HI HA ES EF. unfold enter_stage. rewrite ES. unfold flush_snd_buf. cbn [set_stage r_state r_snd].
    destruct (try_send_all c (mslice (r_snd r) (r_state r + 1))) as [ox| |] eqn:EO; cbn [rbind fst snd]; try discriminate.
    destruct (try_send_all_spec c _ _ EO) as [-> _].
    set (r2 := set_snd (set_stage r (r_state r + 1) false) (mdel (r_snd r) (r_state r + 1))).
    unfold run_step. change (r_abandon r2) with (r_abandon r). rewrite HA, EF. unfold perform.
    destruct (f c e (r_k r2)) as [[k acts]| |] eqn:EA; cbn [rbind fst snd]; try discriminate.
    destruct (do_actions c (set_k r2 k) acts) as [[r3 ta]| |] eqn:ED; cbn [rbind fst snd]; try discriminate.
    destruct (acts_outs c (fun _ _ _ _ => True) acts _ r3 ta ED) as (O1 & K1 & A1 & (S1 & _ & S3 & _)). cbn [set_k r_state r_k r_rcv] in *.
    replace (r_rcv r3) with (r_rcv r) by (symmetry; exact S3).
    destruct (process_all p c e r3 (mslice (r_rcv r) (r_state r + 1))) as [[r4 tz]| |] eqn:EZ; cbn [rbind fst snd]; try discriminate.
    intros H. injection H as <- <-. exists k, acts, r3, ta, r4, tz.
    split; [exact EA|]. split; [exact ED|]. split; [exact K1|]. split; [exact S1|].
    split; [rewrite A1; cbn [set_k r_abandon r2 set_snd set_stage]; rewrite HA; reflexivity|]. split; [exact O1|]. split; [exact EZ|].
    repeat (split; [reflexivity|]). reflexivity.
  Qed.
  (** Stages without processor. *)
  Lemma process_none e k s l : stage_at p k = Some s -> sg_proc s = None -> forall (r : run) r' (t : list obs), Forall (fun m => m_op m = k) l ->
    process_all p c e r l = Ok (r', t) -> r' = r /\ created t = [] /\ outputs_of t = [] /\ handled t = l.
  Proof.
    intros ES EP. induction l as [|m l IH]; intros r r' t HF; cbn [process_all].
    - intros H. injection H as <- <-. auto.
    - inversion HF as [|? ? Hm HF']; subst.
      assert (PM : process_msg p c e r m = Ok (r, [OHandle m : obs])).
      { unfold process_msg. destruct (r_abandon r); [reflexivity|]. rewrite ES, EP. reflexivity. }
      rewrite PM. cbn [rbind fst snd]. destruct (process_all p c e r l) as [[r2 t2]| |] eqn:E2; cbn [rbind fst snd]; try discriminate.
      intros H. injection H as <- <-. destruct (IH r r2 t2 HF' E2) as (-> & C2 & O2 & H2).
      split; [reflexivity|]. cbn. split; [exact C2|]. split; [exact O2|]. f_equal. exact H2.
  Qed.

  (** Sends of the current stage. *)
  Lemma multicast_trace (w : payload) l : forall (r r' : run) (t : list obs), r_state r = op_dss_partsig ->
    do_actions c r (multicast l c op_dss_partsig w) = Ok (r', t) ->
    created t = map (fun j => make_msg c j op_dss_partsig w) (filter (fun j => negb (j =? i_guest c)) l) /\
    handled t = [] /\ r_state r' = r_state r /\ has_ab (V := output) (multicast l c op_dss_partsig w) = false.
  Proof.
    unfold multicast. induction l as [|j l IH]; intros r r' t ES; cbn [flat_map filter].
    - intros H. injection H as <- <-. auto.
    - unfold send1 at 1 3. destruct (Z.eqb_spec j (i_guest c)) as [->|NE]; cbn [negb app]; [apply IH, ES|].
      cbn [do_actions do_action]. unfold send. rewrite ES, Z.ltb_irrefl. unfold try_send.
      destruct (_ && _); cbn [rbind fst snd]; [|discriminate].
      destruct (do_actions c r _) as [[r2 t2]| |] eqn:E2; cbn [rbind fst snd]; try discriminate.
      intros H. injection H as <- <-. destruct (IH r r2 t2 ES E2) as (C2 & H2 & S2 & B2).
      cbn [created handled map app flat_map]. split; [f_equal; exact C2|]. split; [exact H2|]. split; [exact (eq_trans S2 ES)|]. exact B2.
  Qed.

  Variable d0 : dss.
  Variable q : list Z.
  Hypothesis I0 : inv keccak d0.
  Hypothesis U0 : d_signed d0 = false.
  (** Its partial signature can be made and sent. *)
  Hypothesis P0 : forall k, exists d1 ps w, partial_sig keccak pshash k d0 = Ok (d1, ps, true) /\ to_wire (OPart ps) = Ok w.

  (** A message that carries a partial signature of [j] that is accepted unless
      [j]'s has been collected already. *)
  Definition goodm (m : message payload) (j : Z) : Prop :=
    m_op m = op_dss_partsig /\ m_sender m = j /\ 0 <= j < i_members c /\
    exists w ps v, m_dto m = PWire w /\ is_kind KPart (PWire w) = true /\ from_wire KPart w = Ok (OPart ps) /\
      ps_partial ps = Some (j, v) /\
      forall cs, ~ In j (d_partialsIdx (drun d0 cs)) -> snd (process keccak pshash (drun d0 cs) ps) = Ok tt.
  Notation held cs := (map fst (d_partials (drun d0 cs))).

  Lemma held_step d k j : In j (map fst (d_partials d)) -> In j (map fst (d_partials (Dss.step keccak pshash d k))).
  Proof.
    intros H. destruct (step_cases keccak pshash d k) as [->|[(? & ? & _ & _ & _ & ->)|(? & ? & ? & ? & _ & _ & _ & _ & _ & _ & _ & ->)]]; [exact H| |];
    cbn; rewrite map_app; apply in_or_app; left; exact H.
  Qed.
  Lemma held_app cs cs' j : In j (held cs) -> In j (held (cs ++ cs')).
  Proof.
    unfold Dss.run. rewrite fold_left_app. generalize (fold_left (Dss.step keccak pshash) cs d0) as d.
    induction cs' as [|k cs' IH]; intros d H; [exact H|]. cbn [fold_left]. apply IH, held_step, H.
  Qed.
  Lemma drun_snoc cs k : drun d0 (cs ++ [k]) = Dss.step keccak pshash (drun d0 cs) k.
  Proof. unfold Dss.run. rewrite fold_left_app. reflexivity. Qed.

  Definition tracks (r : run) (cs : list call) : Prop :=
    r_state r = op_dss_partsig /\ r_abandon r = false /\ kd_dss (r_k r) = Some (drun d0 cs, true).
  Definition quiet (t : list obs) : Prop := created t = [] /\ outputs_of t = [].

  Lemma proc10 e (r : run) cs m r' t : tracks r cs -> m_op m = op_dss_partsig -> process_msg p c e r m = Ok (r', t) ->
    exists cs', tracks r' (cs ++ cs') /\ quiet t /\ handled t = [m] /\ forall j, goodm m j -> In j (held (cs ++ cs')).
  Proof.
    intros (T1 & T2 & T3) EO. unfold process_msg. rewrite T2, EO.
    change (stage_at p op_dss_partsig) with (Some (ps (Some (st_partsig keccak pshash)) (pr_partsig (G := G) keccak pshash) (unm KPart) partsig_v (is_kind KPart))).
    cbn [ps sg_proc sg_type sg_unm sg_valid].
    assert (TR : (forall j, ~ goodm m j) -> Ok (r, [OHandle m : obs]) = Ok (r', t) ->
      exists cs', tracks r' (cs ++ cs') /\ quiet t /\ handled t = [m] /\ forall j, goodm m j -> In j (held (cs ++ cs'))).
    { intros NG H. injection H as <- <-. exists []. rewrite app_nil_r. split; [split; [exact T1|split; [exact T2|exact T3]]|].
      split; [split; reflexivity|]. split; [reflexivity|]. intros j HG. destruct (NG j HG). }
    destruct (is_kind KPart (m_dto m)) eqn:EK; cbn [negb].
    2:{ apply TR. intros j (_ & _ & _ & w & ps & v & E1 & E2 & _). rewrite E1, E2 in EK. discriminate. }
    destruct (m_dto m) as [w|rs] eqn:ED; [|discriminate EK]. cbn [unm].
    destruct (from_wire KPart w) as [o| |] eqn:EW; cbn [rbind]; [| |discriminate].
    2:{ apply TR. intros j (_ & _ & _ & w' & ps & v & E1 & _ & E2 & _). assert (w' = w) by congruence. subst w'. congruence. }
    destruct ((0 <=? m_sender m) && (m_sender m <? i_members c)) eqn:ER.
    2:{ apply TR. intros j (_ & <- & R & _). apply andb_false_iff in ER. rewrite Z.leb_gt, Z.ltb_ge in ER. lia. }
    destruct (partsig_v (AObj o) (m_sender m)) as [b| |] eqn:EV; cbn [rbind]; try discriminate.
    destruct o as [| | | | |sg]; try discriminate EV.
    destruct b.
    2:{ apply TR. intros j (_ & <- & R & w' & ps & v & E1 & _ & E2 & E3 & _). assert (w' = w) by congruence. subst w'.
        assert (ps = sg) by congruence. subst ps. cbn in EV. rewrite E3, Z.eqb_refl in EV. discriminate. }
    unfold pr_partsig. rewrite T3.
    pose proof (process_cases keccak pshash (drun d0 cs) sg) as PC. pose proof (drun_snoc cs (CallProcess sg)) as DS. cbn [Dss.step] in DS.
    destruct (process keccak pshash (drun d0 cs) sg) as [d' u] eqn:EP. cbn [fst snd] in *.
    assert (K : Ok (set_k r (set_dss (r_k r) (Some (d', true))), OHandle m :: OProc m (AObj (OPart sg)) :: []) = Ok (r', t) ->
      exists cs', tracks r' (cs ++ cs') /\ quiet t /\ handled t = [m] /\ forall j, goodm m j -> In j (held (cs ++ cs'))).
    { intros H. injection H as <- <-. exists [CallProcess sg]. split; [split; [exact T1|split; [exact T2|]]|].
      - cbn. rewrite DS. reflexivity.
      - split; [split; reflexivity|]. split; [reflexivity|].
        intros j (_ & _ & R & w' & ps & v & E1 & _ & E2 & E3 & E4). assert (w' = w) by congruence. subst w'.
        assert (ps = sg) by congruence. subst ps. rewrite DS.
        destruct (in_dec Z.eq_dec j (d_partialsIdx (drun d0 cs))) as [Y|Y].
        + apply (inv_keys keccak _ (inv_run keccak pshash cs d0 I0)) in Y. rewrite <- DS. apply held_app, Y.
        + specialize (E4 cs Y). rewrite EP in E4. cbn in E4. destruct PC as [[PC _]|(_ & i & v' & h & A1 & _ & _ & _ & _ & A2)]; [contradiction|].
          rewrite A2. cbn. rewrite map_app. apply in_or_app. right. left. cbn. congruence. }
    unfold perform. destruct u as [[]| |]; cbn [rbind fst snd do_actions]; [exact K|exact K|discriminate].
  Qed.
  Lemma procs10 e l : forall (r : run) cs r' t, tracks r cs -> Forall (fun m => m_op m = op_dss_partsig) l -> process_all p c e r l = Ok (r', t) ->
    exists cs', tracks r' (cs ++ cs') /\ quiet t /\ handled t = l /\ forall m j, In m l -> goodm m j -> In j (held (cs ++ cs')).
  Proof.
    induction l as [|m l IH]; intros r cs r' t HT HF; cbn [process_all].
    - intros H. injection H as <- <-. exists []. rewrite app_nil_r. split; [exact HT|]. split; [split; reflexivity|]. split; [reflexivity|]. intros ? ? [].
    - inversion HF as [|? ? Hm HF']; subst.
      destruct (process_msg p c e r m) as [[r1 t1]| |] eqn:E1; cbn [rbind fst snd]; try discriminate.
      destruct (process_all p c e r1 l) as [[r2 t2]| |] eqn:E2; cbn [rbind fst snd]; try discriminate.
      intros H. injection H as <- <-. destruct (proc10 _ _ _ _ _ _ HT Hm E1) as (c1 & A1 & [A2 A2'] & A3 & A4).
      destruct (IH _ _ _ _ A1 HF' E2) as (c2 & B1 & [B2 B2'] & B3 & B4). exists (c1 ++ c2). rewrite app_assoc. split; [exact B1|].
      split; [|split].
      + unfold quiet, created, outputs_of in *. rewrite !flat_map_app, A2, A2', B2, B2'. auto.
      + unfold handled in *. rewrite flat_map_app, A3, B3. reflexivity.
      + intros x j [<-|IN] HG; [apply held_app, (A4 j HG)|exact (B4 x j IN HG)].
  Qed.

  (** What holds from stage 9 on. *)
  Definition told (tr : list obs) (k : Z) : Prop := exists d1 ps w,
    partial_sig keccak pshash k d0 = Ok (d1, ps, true) /\ to_wire (OPart ps) = Ok w /\
    for_op op_dss_partsig (created tr) = map (fun j => make_msg c j op_dss_partsig (PWire w)) (filter (fun j => negb (j =? i_guest c)) q).
  Definition unsigned (tr : list obs) : Prop := forall v, ~ In (pc_dss, v) (outputs_of tr).
  Definition phase (E : env -> Prop) (r : run) (tr : list obs) : Prop :=
    (r_state r = op_dkg_final + 1 /\ r_abandon r = false /\ kd_dss (r_k r) = Some (d0, true) /\ kd_qual (r_k r) = Some q /\
       for_op op_dss_partsig (created tr) = [] /\ unsigned tr) \/
    (exists k cs, tracks r (CallPartial k :: cs) /\ told tr k /\ unsigned tr /\
       (forall m j, In m (handled tr) -> goodm m j -> In j (held (CallPartial k :: cs)))) \/
    (r_state r = 11 /\ exists k cs e, E e /\ told tr k /\
       (forall m j, In m (handled tr) -> goodm m j -> In j (held (CallPartial k :: cs))) /\
       (forall v, In (pc_dss, v) (outputs_of tr) <->
          exists sg, v = VSig sg /\ enough (drun d0 (CallPartial k :: cs)) = true /\ signature keccak (e_ord e) (drun d0 (CallPartial k :: cs)) = Ok sg)).

  Lemma created_app (a b : list obs) : created (a ++ b) = created a ++ created b. Proof. apply flat_map_app. Qed.
  Lemma handled_app (a b : list obs) : handled (a ++ b) = handled a ++ handled b. Proof. apply flat_map_app. Qed.
  Lemma outputs_app (a b : list obs) : outputs_of (a ++ b) = outputs_of a ++ outputs_of b. Proof. apply flat_map_app. Qed.
  Lemma for_op_app k (a b : list (message payload)) : for_op k (a ++ b) = for_op k a ++ for_op k b. Proof. apply filter_app. Qed.
  Lemma sent_made (l : list (message payload)) : created (map OSent l : list obs) = [] /\ handled (map OSent l : list obs) = [] /\ outputs_of (map OSent l : list obs) = [].
  Proof. induction l as [|m l (A1 & A2 & A3)]; [auto|]. cbn. auto. Qed.
  Lemma for_op_make k w l : for_op k (map (fun j => make_msg c j k w) l : list (message payload)) = map (fun j => make_msg c j k w) l.
  Proof. induction l as [|j l IH]; [reflexivity|]. cbn. rewrite Z.eqb_refl. f_equal. exact IH. Qed.

  (** Entering the signing stages. *)
  Lemma enter10 (E : env -> Prop) e now (r : run) tr rcvd r' t' : Inv p c rcvd r tr -> phase E r tr -> r_state r = op_dkg_final + 1 ->
    enter_stage p c e now r = Ok (r', t') -> phase E r' (tr ++ t').
  Proof.
    intros HI [(P1 & P2 & P3 & P4 & P5 & P6)|[(? & ? & (P1 & _) & _)|(P1 & _)]] ES; [|rewrite P1 in ES; discriminate|rewrite P1 in ES; discriminate].
    intros H. destruct (enter_parts e now r tr rcvd (ps (Some (st_partsig keccak pshash)) (pr_partsig (G := G) keccak pshash) (unm KPart) partsig_v (is_kind KPart))
      (st_partsig keccak pshash) r' t' HI P2) as (k & acts & r3 & ta & r4 & tz & A1 & A2 & A3 & A4 & A5 & A6 & A7 & A8 & A9 & A10 & ->);
      [rewrite ES; reflexivity|reflexivity|exact H|].
    rewrite ES in *. change (op_dkg_final + 1 + 1) with op_dss_partsig in *.
    unfold st_partsig in A1. rewrite P3 in A1. destruct (P0 (e_nonce e)) as (d1 & ps & w & EP & EW).
    rewrite EP in A1. cbv zeta in A1. unfold broadcast_qual in A1. rewrite EW in A1. cbn [set_dss kd_qual] in A1. rewrite P4 in A1. cbn [rbind] in A1.
    injection A1 as <- <-. match type of A2 with do_actions _ ?x _ = _ => destruct (multicast_trace (PWire w) q x r3 ta eq_refl A2) as (M1 & M2 & M3 & M4) end.
    assert (T3 : tracks r3 [CallPartial (e_nonce e)]).
    { split; [exact A4|]. split; [rewrite A5; exact M4|]. rewrite A3. cbn [set_dss kd_dss]. unfold Dss.run. cbn [fold_left Dss.step]. rewrite EP. reflexivity. }
    assert (F3 : Forall (fun m => m_op m = op_dss_partsig) (mslice (r_rcv r) op_dss_partsig)) by (apply (iv_keyed _ _ _ _ _ HI)).
    destruct (procs10 e _ r3 _ r4 tz T3 F3 A7) as (cs & B1 & [B2 B2'] & B3 & B4).
    right. left. exists (e_nonce e), cs. split; [|split; [|split]].
    - destruct B1 as (X1 & X2 & X3). split; [congruence|]. split; [congruence|]. rewrite A8. exact X3.
    - exists d1, ps, w. split; [exact EP|]. split; [exact EW|].
      rewrite created_app, for_op_app, P5. change (OEnter op_dss_partsig now :: map OSent (mslice (r_snd r) op_dss_partsig) ++ (OStep op_dss_partsig :: ta) ++ tz)
        with ([OEnter op_dss_partsig now : obs] ++ map OSent (mslice (r_snd r) op_dss_partsig) ++ ([OStep op_dss_partsig] ++ ta) ++ tz).
      rewrite !created_app, B2, M1, (proj1 (sent_made _)). cbn [created flat_map app]. rewrite app_nil_r. apply for_op_make.
    - intros v HV. rewrite outputs_app in HV. apply in_app_or in HV. destruct HV as [HV|HV]; [exact (P6 v HV)|].
      change (OEnter op_dss_partsig now :: map OSent (mslice (r_snd r) op_dss_partsig) ++ (OStep op_dss_partsig :: ta) ++ tz)
        with ([OEnter op_dss_partsig now : obs] ++ map OSent (mslice (r_snd r) op_dss_partsig) ++ ([OStep op_dss_partsig] ++ ta) ++ tz) in HV.
      rewrite !outputs_app, B2', A6, mc_quiet, (proj2 (proj2 (sent_made _))) in HV. destruct HV.
    - intros m j HM HG. rewrite handled_app in HM. apply in_app_or in HM. destruct HM as [HM|HM].
      + exfalso. destruct HG as (EO & _). assert (X : In m (for_op op_dss_partsig (handled tr))) by (apply filter_In; split; [exact HM|apply Z.eqb_eq, EO]).
        destruct (iv_rcv_future _ _ _ _ _ HI op_dss_partsig) as [Y _]; [rewrite ES; reflexivity|]. rewrite Y in X. destruct X.
      + change (OEnter op_dss_partsig now :: map OSent (mslice (r_snd r) op_dss_partsig) ++ (OStep op_dss_partsig :: ta) ++ tz)
          with ([OEnter op_dss_partsig now : obs] ++ map OSent (mslice (r_snd r) op_dss_partsig) ++ ([OStep op_dss_partsig] ++ ta) ++ tz) in HM.
        rewrite !handled_app, B3, M2, (proj1 (proj2 (sent_made _))) in HM. cbn [handled flat_map app] in HM. exact (B4 m j HM HG).
  Qed.
  Lemma enter11 (E : env -> Prop) e now (r : run) tr rcvd r' t' : Inv p c rcvd r tr -> phase E r tr -> r_state r = op_dss_partsig -> E e ->
    enter_stage p c e now r = Ok (r', t') -> phase E r' (tr ++ t').
  Proof.
    intros HI [(P1 & _)|[(k & cs & (P1 & P2 & P3) & P4 & P5 & P6)|(P1 & _)]] ES HE; [rewrite P1 in ES; discriminate| |rewrite P1 in ES; discriminate].
    intros H. destruct (enter_parts e now r tr rcvd (ps0 (dss_st_final (G := G) keccak)) (dss_st_final keccak) r' t' HI P2)
      as (kk & acts & r3 & ta & r4 & tz & A1 & A2 & A3 & A4 & A5 & A6 & A7 & A8 & A9 & A10 & ->);
      [rewrite ES; reflexivity|reflexivity|exact H|].
    rewrite ES in *. change (op_dss_partsig + 1) with 11 in *. set (d := drun d0 (CallPartial k :: cs)) in *.
    assert (F3 : Forall (fun m => m_op m = 11) (mslice (r_rcv r) 11)) by (apply (iv_keyed _ _ _ _ _ HI)).
    destruct (process_none e 11 (ps0 (dss_st_final (G := G) keccak)) (mslice (r_rcv r) 11) eq_refl eq_refl r3 r4 tz F3 A7) as (-> & B2 & B2' & B3).
    assert (AC : created ta = [] /\ handled ta = [] /\
      forall v, In (pc_dss, v) (outputs_of ta) <-> exists sg, v = VSig sg /\ enough d = true /\ signature keccak (e_ord e) d = Ok sg).
    { unfold dss_st_final in A1. rewrite P3 in A1. fold d in A1. destruct (enough d) eqn:EN; cbn [negb] in A1.
      - destruct (signature keccak (e_ord e) d) as [s| |] eqn:EG; [| |discriminate A1]; injection A1 as <- <-; cbn [do_actions do_action rbind fst snd app] in A2; injection A2 as <- <-.
        + split; [reflexivity|]. split; [reflexivity|]. intros v. cbn. split.
          * intros [X|[]]. injection X as <-. eauto.
          * intros (sg & -> & _ & X). injection X as <-. auto.
        + split; [reflexivity|]. split; [reflexivity|]. intros v. cbn. split; [intros []|]. intros (sg & _ & _ & X). discriminate X.
      - injection A1 as <- <-. cbn [do_actions do_action rbind fst snd app] in A2; injection A2 as <- <-.
        split; [reflexivity|]. split; [reflexivity|]. intros v. cbn. split; [intros []|]. intros (sg & _ & X & _). discriminate X. }
    destruct AC as (C1 & C2 & C3). destruct (sent_made (mslice (r_snd r) 11)) as (N1 & N2 & N3).
    change (OEnter 11 now :: map OSent (mslice (r_snd r) 11) ++ (OStep 11 :: ta) ++ tz)
      with ([OEnter 11 now : obs] ++ map OSent (mslice (r_snd r) 11) ++ ([OStep 11] ++ ta) ++ tz).
    right. right. split; [congruence|]. exists k, cs, e. split; [exact HE|]. split; [|split].
    - destruct P4 as (d1 & ps & w & X1 & X2 & X3). exists d1, ps, w. split; [exact X1|]. split; [exact X2|].
      rewrite !created_app, N1, C1, B2. cbn [created flat_map app]. rewrite app_nil_r. exact X3.
    - intros m j HM HG. rewrite !handled_app, N2, C2, B3 in HM. cbn [handled flat_map app] in HM. apply in_app_or in HM. destruct HM as [HM|HM]; [exact (P6 m j HM HG)|].
      exfalso. rewrite Forall_forall in F3. specialize (F3 m HM). destruct HG as (EO & _). rewrite F3 in EO. discriminate EO.
    - intros v. fold d. rewrite <- (C3 v), !outputs_app, N3, B2'. cbn [outputs_of flat_map app]. rewrite app_nil_r. split.
      + intros X. apply in_app_or in X. destruct X as [X|X]; [destruct (P5 v X)|exact X].
      + intros X. apply in_or_app. right. exact X.
  Qed.

  Lemma phase_quiet (E : env -> Prop) (r r' : run) tr t : phase E r tr -> r_state r' = r_state r -> r_abandon r' = r_abandon r ->
    r_k r' = r_k r \/ r_state r = 11 -> quiet t -> (forall m, In m (handled t) -> m_op m <> op_dss_partsig) -> phase E r' (tr ++ t).
  Proof.
    intros HP ES EA EK [Q1 Q2] HH. unfold phase, tracks, told, unsigned. rewrite !created_app, !outputs_app, !handled_app, Q1, Q2, !app_nil_r, ES, EA.
    assert (HX : forall cs, (forall m j, In m (handled tr) -> goodm m j -> In j (held cs)) -> forall m j, In m (handled tr ++ handled t) -> goodm m j -> In j (held cs)).
    { intros cs X m j HM HG. apply in_app_or in HM. destruct HM as [HM|HM]; [exact (X m j HM HG)|]. exfalso. destruct HG as (EO & _). exact (HH m HM EO). }
    destruct HP as [(P1 & P2 & P3 & P4 & P5 & P6)|[(k & cs & (P1 & P2 & P3) & P4 & P5 & P6)|(P1 & k & cs & e & P2 & P3 & P4 & P5)]].
    - destruct EK as [EK|EK]; [|rewrite EK in P1; discriminate]. rewrite EK. left. auto 10.
    - destruct EK as [EK|EK]; [|rewrite EK in P1; discriminate]. rewrite EK. right. left. exists k, cs. split; [auto|]. split; [exact P4|]. split; [exact P5|]. apply HX, P6.
    - right. right. split; [exact P1|]. exists k, cs, e. split; [exact P2|]. split; [exact P3|]. split; [apply HX, P4|exact P5].
  Qed.

  Lemma phase_state (E : env -> Prop) (r : run) tr : phase E r tr -> r_state r = op_dkg_final + 1 \/ r_state r = op_dss_partsig \/ r_state r = 11.
  Proof. intros [(P1 & _)|[(k & cs & (P1 & _) & _)|(P1 & _)]]; auto. Qed.

  Ltac pq := match goal with HP : phase ?E ?r _ |- _ => apply (phase_quiet E r); [exact HP|reflexivity|reflexivity|auto|split; reflexivity|intros ? []] end.
  Lemma phase_step (E : env -> Prop) rcvd (r : run) tr ev r' t' : Inv p c rcvd r tr -> phase E r tr ->
    (forall e now, ev = ETick e now -> E e) -> Prot.step p c r ev = Ok (r', t') -> phase E r' (tr ++ t').
  Proof.
    intros HI HP HE H. pose proof (phase_state _ _ _ HP) as ST. destruct ev as [e now|e m]; cbn [Prot.step] in H.
    - pose proof (iv_loc _ _ _ _ _ HI) as HL.
      destruct (tick_cases p c _ _ _ _ _ _ _ HI H) as [(X1 & -> & ->)|[(X1 & X2 & X3 & X4)|[(X1 & X2 & -> & ->)|[(X1 & X2 & -> & ->)|(X1 & -> & ->)]]]].
      + pq.
      + destruct X1 as [X1|X1]; rewrite X1 in HL; [exfalso; unfold op_dss_partsig, op_dkg_final in ST; lia|].
        change (final p) with 11 in HL. destruct ST as [ST|[ST|ST]]; [eapply enter10; eassumption|eapply enter11; eauto|lia].
      + pq.
      + pq.
      + pq.
    - unfold deliver in H. destruct ((m_op m <? r_state r) || ((m_op m =? r_state r) && r_paused r)) eqn:ED.
      { injection H as <- <-. pq. }
      apply orb_false_iff in ED. rewrite Z.ltb_ge in ED. destruct ED as [GE ED].
      destruct (Z.ltb_spec (r_state r) (m_op m)) as [LT|LE].
      { injection H as <- <-. pq. }
      assert (EQ : m_op m = r_state r) by lia.
      assert (NP : forall s, stage_at p (m_op m) = Some s -> sg_proc s = None -> r_state r <> op_dss_partsig -> phase E r' (tr ++ t')).
      { intros s ES EP NE. assert (PM : process_msg p c e r m = Ok (r, [OHandle m : obs])).
        { unfold process_msg. destruct (r_abandon r); [reflexivity|]. rewrite ES, EP. reflexivity. }
        rewrite PM in H. injection H as <- <-. apply (phase_quiet E r); [exact HP|reflexivity|reflexivity|left; reflexivity|split; reflexivity|]. intros x [<-|[]]. congruence. }
      destruct ST as [ST|[ST|ST]].
      + eapply NP; [rewrite EQ, ST; reflexivity|reflexivity|rewrite ST; discriminate].
      + destruct HP as [(P1 & _)|[(k & cs & P1 & P4 & P5 & P6)|(P1 & _)]]; [rewrite P1 in ST; discriminate| |rewrite P1 in ST; discriminate].
        destruct (proc10 e r _ m r' t' P1 (eq_trans EQ ST) H) as (cs' & A1 & [A2 A2'] & A3 & A4).
        right. left. exists k, (cs ++ cs'). split; [exact A1|]. unfold told, unsigned. rewrite created_app, outputs_app, handled_app, A2, A2', A3, !app_nil_r.
        split; [exact P4|]. split; [exact P5|]. intros x j HX HG. apply in_app_or in HX. destruct HX as [HX|[<-|[]]]; [|exact (A4 j HG)].
        change (CallPartial k :: cs ++ cs') with ((CallPartial k :: cs) ++ cs'). apply held_app, (P6 x j HX HG).
      + eapply NP; [rewrite EQ, ST; reflexivity|reflexivity|rewrite ST; discriminate].
  Qed.
  Lemma phase_exec (E : env -> Prop) evs : forall rcvd (r : run) tr r' t', Inv p c rcvd r tr -> phase E r tr ->
    (forall e now, In (ETick e now) evs -> E e) -> exec p c r evs = Ok (r', t') -> phase E r' (tr ++ t').
  Proof.
    induction evs as [|ev evs IH]; intros rcvd r tr r' t' HI HP HE; cbn [exec].
    - intros H. injection H as <- <-. rewrite app_nil_r. exact HP.
    - destruct (Prot.step p c r ev) as [[r1 t1]| |] eqn:E1; cbn [rbind fst snd]; try discriminate.
      destruct (exec p c r1 evs) as [[r2 t2]| |] eqn:E2; cbn [rbind fst snd]; try discriminate.
      intros H. injection H as <- <-. rewrite app_assoc. destruct (step_inv p c _ _ _ _ _ _ HI E1) as [rc1 HI1].
      eapply IH; [exact HI1| | |exact E2].
      + eapply phase_step; [exact HI|exact HP| |exact E1]. intros e now ->. apply (HE e now). left. reflexivity.
      + intros e now X. apply (HE e now). right. exact X.
  Qed.
End Sign.
