From Coq Require Import ZArith List Lia Bool Permutation Arith.
From Verif Require Import Bytes Res Dto DtoProofs Prot ProtSpec ProtProofs.
Import ListNotations.
Open Scope Z_scope.

Section More.
  Context {D A K E V : Type}.
  Notation message := (message D). Notation rst := (rst D K). Notation obs := (obs D A V).
  Notation action := (action D V). Notation stage := (stage D A K E V). Notation event := (event D E).
  Variable p : protocol D A K E V.
  Variable c : info.
  Notation final := (final p).

  (** ** From per-stage lists to one permutation *)
  Lemma for_op_perm : forall l1 l2 : list message, (forall k, for_op k l1 = for_op k l2) -> Permutation l1 l2.
  Proof.
    induction l1 as [|m l1 IH]; intros l2 H.
    - destruct l2 as [|m l2]; [constructor|]. specialize (H (m_op m)). unfold for_op in H. cbn in H. rewrite Z.eqb_refl in H. discriminate.
    - pose proof (H (m_op m)) as Hm. unfold for_op in Hm. cbn in Hm. rewrite Z.eqb_refl in Hm.
      assert (S : exists a b, l2 = a ++ m :: b /\ for_op (m_op m) a = []).
      { clear IH H. unfold for_op. revert Hm. induction l2 as [|x l2 IH2]; cbn; [discriminate|].
        destruct (Z.eqb_spec (m_op x) (m_op m)) as [Ex|NE].
        - intros X. injection X as -> _. exists [], l2. split; reflexivity.
        - intros X. destruct (IH2 X) as (a & b & -> & F). exists (x :: a), b. split; [reflexivity|]. cbn.
          destruct (Z.eqb_spec (m_op x) (m_op m)); [contradiction|exact F]. }
      destruct S as (a & b & -> & F). apply Permutation_cons_app. apply IH. intros k. specialize (H k).
      rewrite for_op_app in *. unfold for_op in *. cbn in H. destruct (Z.eqb_spec (m_op m) k) as [Ek|NE]; [|exact H].
      subst k. rewrite F in *. cbn in *. congruence.
  Qed.

  Lemma in_upto k j : In j (upto k) <-> 0 <= j <= k.
  Proof.
    unfold upto. rewrite in_map_iff. split.
    - intros (n & <- & H). apply in_seq in H. lia.
    - intros H. exists (Z.to_nat j). split; [lia|]. apply in_seq. lia.
  Qed.
  Lemma nodup_upto k : NoDup (upto k).
  Proof. unfold upto. apply FinFun.Injective_map_NoDup; [|apply seq_NoDup]. intros x y H. lia. Qed.
  Lemma for_op_slices (b : list (Z * list message)) ks k : keyed b -> NoDup ks ->
    for_op k (flat_map (mslice b) ks) = if existsb (Z.eqb k) ks then mslice b k else [].
  Proof.
    intros KB. induction ks as [|x ks IH]; intros ND; [reflexivity|]. inversion ND as [|? ? NI ND']; subst.
    cbn [flat_map existsb]. rewrite for_op_app, (IH ND'). destruct (Z.eqb_spec k x) as [->|NE]; cbn.
    - rewrite (for_op_self x) by apply KB. destruct (existsb (Z.eqb x) ks) eqn:EX; [|apply app_nil_r].
      apply existsb_exists in EX. destruct EX as (y & Hy & EQ). apply Z.eqb_eq in EQ. subst. contradiction.
    - rewrite (for_op_other x k) by (try apply KB; congruence). reflexivity.
  Qed.

  Lemma conserved k evs r tr : exec p c (new_run k) evs = Ok (r, tr) ->
    (forall m, In m (received evs) -> 0 <= m_op m <= final) ->
    Permutation (received evs) (handled tr ++ dropped tr ++ flat_map (mslice (r_rcv r)) (upto final)).
  Proof.
    intros H HO. apply run_inv in H. apply for_op_perm. intros op. rewrite !for_op_app, (iv_rcv _ _ _ _ _ H). f_equal. f_equal.
    rewrite for_op_slices by (try apply nodup_upto; apply (iv_keyed _ _ _ _ _ H)).
    destruct (existsb (Z.eqb op) (upto final)) eqn:EX; [reflexivity|].
    destruct (mslice (r_rcv r) op) as [|m l] eqn:ES; [reflexivity|].
    pose proof (iv_rcv _ _ _ _ _ H op) as X. rewrite ES in X.
    assert (IN : In m (received evs)).
    { assert (I2 : In m (for_op op (received evs))) by (rewrite X; rewrite !in_app_iff; cbn; tauto). apply filter_In in I2. tauto. }
    assert (MO : m_op m = op).
    { pose proof (iv_keyed _ _ _ _ _ H op) as Y. rewrite ES in Y. inversion Y; assumption. }
    specialize (HO m IN). rewrite MO in HO. assert (T : existsb (Z.eqb op) (upto final) = true); [|congruence].
    apply existsb_exists. exists op. split; [apply in_upto; exact HO|apply Z.eqb_refl].
  Qed.
  (** Nothing stays buffered for a stage already entered. *)
  Lemma buffered_empty k evs r tr : exec p c (new_run k) evs = Ok (r, tr) -> r_term r = true ->
    flat_map (mslice (r_rcv r)) (upto final) = [].
  Proof.
    intros H HT. apply run_inv in H. assert (S : r_state r = final).
    { pose proof (iv_loc _ _ _ _ _ H) as L. destruct (r_loc r); intuition congruence. }
    assert (F : forall op, In op (upto final) -> mslice (r_rcv r) op = []).
    { intros op Hop. apply (iv_rcv_past _ _ _ _ _ H). apply in_upto in Hop. lia. }
    clear - F. induction (upto final) as [|x l IH]; [reflexivity|]. cbn. rewrite F by (left; reflexivity). apply IH. intros op Hop. apply F. right. exact Hop.
  Qed.

  (** ** Steps of a run that is not abandoned *)
  Notation has_step := (has_step p).
  Definition steps_ok (r : rst) (tr : list obs) : Prop := r_abandon r = false -> stepped tr = filter has_step (upto (r_state r)).

  Lemma tick_cases (e : E) now rcvd r tr r' t' : Inv p c rcvd r tr -> tick p c e now r = Ok (r', t') ->
    (r_loc r = LFresh /\ r' = set_clock r LStart now now /\ t' = [OStart now]) \/
    ((r_loc r = LStart \/ r_loc r = LPause) /\ r_term r = false /\ (r_loc r = LStart -> r_state r < final) /\ enter_stage p c e now r = Ok (r', t')) \/
    (r_loc r = LStage /\ r_state r < final /\ r' = set_clock (set_stage r (r_state r) true) LPause (r_t r) (now + pause) /\ t' = [OPause (r_state r)]) \/
    ((r_loc r = LStart \/ r_loc r = LStage) /\ r_state r = final /\ t' = [OTerm now] /\
       r' = mkRst (p_cleanup p (r_k r)) (r_state r) (r_paused r) (r_rcv r) (r_snd r) (r_abandon r) true LEnd (r_t r) (r_wake r)) \/
    (r_loc r = LEnd /\ r' = r /\ t' = []).
  Proof.
    intros HI. pose proof (iv_loc _ _ _ _ _ HI) as HL. pose proof (iv_range _ _ _ _ _ HI) as HR. unfold tick, loop_top. destruct (r_loc r) eqn:EL.
    - intros H. injection H as <- <-. tauto.
    - destruct HL as (HS & HP & HT). destruct (Z.ltb_spec (r_state r) final).
      + destruct (Z.ltb_spec (-1) (r_state r)); [lia|]. intros HE. right. left. tauto.
      + intros HE. injection HE as <- <-. right. right. right. left. repeat split; auto. lia.
    - destruct HL as (HS & HP & HT). destruct (Z.ltb_spec (r_state r) final).
      + destruct (Z.ltb_spec (-1) (r_state r)); [|lia]. intros HE. injection HE as <- <-. right. right. left. tauto.
      + intros HE. injection HE as <- <-. right. right. right. left. repeat split; auto. lia.
    - intros HE. right. left. split; [tauto|]. split; [tauto|]. split; [congruence|exact HE].
    - intros HE. injection HE as <- <-. right. right. right. right. auto.
  Qed.

  (** Which kinds of observations actions, processors and steps leave. *)
  Lemma proc_obs e r m r' t' pre : link r pre -> process_msg p c e r m = Ok (r', t') ->
    link r' (pre ++ t') /\ forall o, In o t' -> match o with OStart _ | OEnter _ _ | OTerm _ | OStep _ | OPause _ | ODrop _ => False | _ => True end.
  Proof.
    intros HL H. unfold process_msg in H.
    assert (TR : r' = r -> t' = [OHandle m] -> link r' (pre ++ t') /\ forall o, In o t' -> match o with OStart _ | OEnter _ _ | OTerm _ | OStep _ | OPause _ | ODrop _ => False | _ => True end).
    { intros Er Et. rewrite Er, Et. split; [apply link_other; [exact HL|exact I]|]. intros o [<-|[]]. exact I. }
    destruct (r_abandon r); [inversion H; subst; exact (TR eq_refl eq_refl)|].
    destruct (stage_at p (m_op m)) as [s|]; [|discriminate H].
    destruct (sg_proc s) as [proc|]; [|inversion H; subst; exact (TR eq_refl eq_refl)].
    destruct (negb (sg_type s (m_dto m))); [inversion H; subst; exact (TR eq_refl eq_refl)|].
    destruct (sg_unm s (m_dto m)) as [arg| |]; [|inversion H; subst; exact (TR eq_refl eq_refl)|discriminate H].
    destruct ((0 <=? m_sender m) && (m_sender m <? i_members c)); [|inversion H; subst; exact (TR eq_refl eq_refl)].
    destruct (sg_valid s arg (m_sender m)) as [[|]| |]; cbn [rbind] in H; try discriminate H; [|inversion H; subst; exact (TR eq_refl eq_refl)].
    destruct (perform c r (proc c e (r_k r) arg)) as [[r1 t1]| |] eqn:EF; cbn [rbind fst snd] in H; try discriminate H.
    injection H as <- <-.
    assert (HL2 : link r ((pre ++ [OHandle m]) ++ [OProc m arg])) by (apply link_other; [apply link_other; [exact HL|exact I]|exact I]).
    destruct (perform_spec p c _ _ _ _ _ HL2 EF) as (X & _ & _ & F & _). split; [rewrite <- !app_assoc in X; exact X|].
    intros o Ho. destruct Ho as [<-|[<-|Ho]]; [exact I|exact I|]. rewrite Forall_forall in F. specialize (F o Ho). destruct o; cbn in *; tauto.
  Qed.

  Lemma deliver_same (e : E) rcvd r tr m r' t' : Inv p c rcvd r tr -> deliver p c e r m = Ok (r', t') ->
    r_state r' = r_state r /\ r_paused r' = r_paused r /\ r_loc r' = r_loc r /\ r_t r' = r_t r /\ r_wake r' = r_wake r /\ r_term r' = r_term r /\
    entered t' = [] /\ stepped t' = [] /\ (forall o, In o t' -> match o with OStart _ | OEnter _ _ | OTerm _ | OStep _ | OPause _ => False | _ => True end).
  Proof.
    intros HI. unfold deliver. destruct ((m_op m <? r_state r) || ((m_op m =? r_state r) && r_paused r)) eqn:ED.
    - intros H. injection H as <- <-. repeat split; auto. intros o [<-|[]]. exact I.
    - apply orb_false_iff in ED. rewrite Z.ltb_ge in ED. destruct ED as [GE ED].
      destruct (Z.ltb_spec (r_state r) (m_op m)) as [LT|LE].
      + intros H. injection H as <- <-. repeat split; auto. intros o [].
      + assert (EQ : r_state r = m_op m) by lia.
        assert (HP : r_paused r = false) by (rewrite <- EQ, Z.eqb_refl in ED; exact ED).
        intros H. destruct (process_msg_spec p c _ _ _ _ _ _ (iv_link _ _ _ _ _ HI) EQ HP H) as (_ & _ & (E1 & E2 & E3 & E4 & E5 & E6 & E7) & _ & _ & S6 & S7 & _).
        repeat split; auto. intros o Ho.
        pose proof (proj2 (proc_obs _ _ _ _ _ _ (iv_link _ _ _ _ _ HI) H) o Ho) as X. destruct o; exact I || exact X.
  Qed.

  Lemma abandon_mono rcvd r tr rcvd' r' t' : Inv p c rcvd r tr -> Inv p c rcvd' r' (tr ++ t') -> r_abandon r' = false -> r_abandon r = false.
  Proof.
    intros H1 H2 H. destruct (iv_link _ _ _ _ _ H1) as (_ & <- & _). destruct (iv_link _ _ _ _ _ H2) as (_ & X & _). rewrite H in X.
    rewrite abandoned_app in X. apply orb_false_iff in X. apply X.
  Qed.

  Lemma steps_exec evs : forall rcvd r tr r' t', Inv p c rcvd r tr -> steps_ok r tr -> exec p c r evs = Ok (r', t') -> steps_ok r' (tr ++ t').
  Proof.
    induction evs as [|ev evs IH]; intros rcvd r tr r' t' HI HS; cbn [exec].
    - intros H. injection H as <- <-. rewrite app_nil_r. exact HS.
    - destruct (step p c r ev) as [[r1 t1]| |] eqn:E1; cbn [rbind fst snd]; try discriminate.
      destruct (exec p c r1 evs) as [[r2 t2]| |] eqn:E2; cbn [rbind fst snd]; try discriminate.
      intros H. injection H as <- <-. rewrite app_assoc.
      assert (X : exists rcvd1, Inv p c rcvd1 r1 (tr ++ t1) /\ steps_ok r1 (tr ++ t1)).
      { destruct ev as [e now|e m]; cbn [step] in E1.
        - pose proof (tick_inv p c _ _ _ _ _ _ _ HI E1) as HI1. exists rcvd. split; [exact HI1|]. intros HA.
          pose proof (HS (abandon_mono _ _ _ _ _ _ HI HI1 HA)) as HS1.
          destruct (tick_cases _ _ _ _ _ _ _ HI E1) as [(X1 & -> & ->)|[(X1 & X2 & X3 & X4)|[(X1 & X2 & -> & ->)|[(X1 & X2 & -> & ->)|(X1 & -> & ->)]]]].
          + rewrite stepped_app. cbn. rewrite app_nil_r. exact HS1.
          + destruct (enter_inv p c _ _ _ _ _ _ _ HI X2 X4) as (_ & ST & _ & (s & ES & _) & (t2' & -> & _ & SS)).
            rewrite stepped_app. change (stepped (OEnter (r_state r + 1) now :: t2')) with (stepped t2'). rewrite SS, HS1, ST.
            rewrite (abandon_mono _ _ _ _ _ _ HI HI1 HA), ES.
            rewrite upto_next by (apply (iv_range _ _ _ _ _ HI)). rewrite filter_app. f_equal. cbn. unfold has_step. rewrite ES. destruct (sg_step s); reflexivity.
          + rewrite stepped_app. cbn. rewrite app_nil_r. exact HS1.
          + rewrite stepped_app. cbn. rewrite app_nil_r. exact HS1.
          + rewrite app_nil_r. exact HS1.
        - pose proof (deliver_inv p c _ _ _ _ _ _ _ HI E1) as HI1. eexists. split; [exact HI1|]. intros HA.
          destruct (deliver_same _ _ _ _ _ _ _ HI E1) as (ST & _ & _ & _ & _ & _ & _ & SP & _).
          rewrite stepped_app, SP, app_nil_r, ST. apply HS, (abandon_mono _ _ _ _ _ _ HI HI1 HA). }
      destruct X as (rcvd1 & HI1 & HS1). eapply IH; eassumption.
  Qed.
  Lemma steps_run k evs r tr : exec p c (new_run k) evs = Ok (r, tr) -> r_abandon r = false -> stepped tr = filter has_step (upto (r_state r)).
  Proof. intros H. apply (steps_exec evs [] _ [] _ _ (inv_new p c k) ltac:(intros _; reflexivity) H). Qed.

  (** ** Number of wake-ups *)
  Definition rank (r : rst) : Z :=
    let n := Z.of_nat (length (p_stages p)) in
    match r_loc r with
    | LFresh => 2 * n + 1 | LStart => 2 * n | LStage => 2 * (n - 1 - r_state r) + 1 | LPause => 2 * (n - 1 - r_state r) | LEnd => 0
    end.
  Lemma ticks_exec evs : p_stages p <> [] -> forall rcvd r tr r' t' n0, Inv p c rcvd r tr ->
    (r_loc r <> LEnd -> n0 + rank r = 2 * Z.of_nat (length (p_stages p)) + 1) ->
    (r_loc r = LEnd -> 2 * Z.of_nat (length (p_stages p)) + 1 <= n0) ->
    exec p c r evs = Ok (r', t') ->
    (r_loc r' <> LEnd -> n0 + Z.of_nat (ticks evs) + rank r' = 2 * Z.of_nat (length (p_stages p)) + 1) /\
    (r_loc r' = LEnd -> 2 * Z.of_nat (length (p_stages p)) + 1 <= n0 + Z.of_nat (ticks evs)).
  Proof.
    intros NE. assert (NL : (1 <= length (p_stages p))%nat) by (destruct (p_stages p); cbn; [congruence|lia]).
    induction evs as [|ev evs IH]; intros rcvd r tr r' t' n0 HI H1 H2; cbn [exec].
    - intros H. injection H as <- <-. cbn. rewrite Z.add_0_r. split; assumption.
    - destruct (step p c r ev) as [[r1 t1]| |] eqn:E1; cbn [rbind fst snd]; try discriminate.
      destruct (exec p c r1 evs) as [[r2 t2]| |] eqn:E2; cbn [rbind fst snd]; try discriminate.
      intros H. injection H as <- <-. destruct ev as [e now|e m]; cbn [step] in E1.
      + pose proof (tick_inv p c _ _ _ _ _ _ _ HI E1) as HI1.
        replace (n0 + Z.of_nat (ticks (ETick e now :: evs))) with ((n0 + 1) + Z.of_nat (ticks evs)) by (change (ticks (ETick e now :: evs)) with (S (ticks evs)); lia).
        eapply IH; [exact HI1| | |exact E2].
        * pose proof (iv_loc _ _ _ _ _ HI) as HL.
          destruct (tick_cases _ _ _ _ _ _ _ HI E1) as [(X1 & -> & ->)|[(X1 & X2 & X3 & X4)|[(X1 & X2 & -> & ->)|[(X1 & X2 & -> & ->)|(X1 & -> & ->)]]]].
          -- intros _. rewrite X1 in *. unfold rank in *. rewrite X1 in H1. cbn [set_clock r_loc]. specialize (H1 ltac:(discriminate)). lia.
          -- intros _. destruct (enter_inv p c _ _ _ _ _ _ _ HI X2 X4) as (_ & ST & LO & _). unfold rank in *. rewrite LO, ST.
             destruct X1 as [X1|X1]; rewrite X1 in *; specialize (H1 ltac:(discriminate)); cbn beta iota in H1; [destruct HL as (HL & _)|]; lia.
          -- intros _. unfold rank in *. rewrite X1 in *. cbn [set_clock set_stage r_loc r_state]. specialize (H1 ltac:(discriminate)). lia.
          -- cbn. congruence.
          -- congruence.
        * destruct (tick_cases _ _ _ _ _ _ _ HI E1) as [(X1 & -> & ->)|[(X1 & X2 & X3 & X4)|[(X1 & X2 & -> & ->)|[(X1 & X2 & -> & ->)|(X1 & -> & ->)]]]].
          -- discriminate.
          -- destruct (enter_inv p c _ _ _ _ _ _ _ HI X2 X4) as (_ & ST & LO & _). congruence.
          -- discriminate.
          -- intros _. pose proof (iv_loc _ _ _ _ _ HI) as HL. unfold rank, Prot.final in *.
             destruct X1 as [X1|X1]; rewrite X1 in *; specialize (H1 ltac:(discriminate)); cbn beta iota in H1; lia.
          -- intros _. specialize (H2 X1). lia.
      + pose proof (deliver_inv p c _ _ _ _ _ _ _ HI E1) as HI1.
        destruct (deliver_same _ _ _ _ _ _ _ HI E1) as (ST & _ & LO & _).
        change (ticks (EMsg e m :: evs)) with (ticks evs). eapply IH; [exact HI1| | |exact E2]; rewrite LO; [|exact H2].
        unfold rank in *. rewrite LO, ST. exact H1.
  Qed.
  Lemma ticks_run k evs r tr : p_stages p <> [] -> exec p c (new_run k) evs = Ok (r, tr) ->
    (terminated_in tr = true <-> (2 * length (p_stages p) + 1 <= ticks evs)%nat).
  Proof.
    intros NE H. pose proof (run_inv p c _ _ _ _ H) as HI.
    assert (NL : (1 <= length (p_stages p))%nat) by (destruct (p_stages p); cbn; [congruence|lia]).
    assert (X1 : r_loc (new_run (D := D) k) <> LEnd -> 0 + rank (new_run k) = 2 * Z.of_nat (length (p_stages p)) + 1) by (intros _; unfold rank; cbn; lia).
    assert (X2 : r_loc (new_run (D := D) k) = LEnd -> 2 * Z.of_nat (length (p_stages p)) + 1 <= 0) by discriminate.
    destruct (ticks_exec evs NE [] _ [] _ _ 0 (inv_new p c k) X1 X2 H) as [A1 A2].
    destruct (iv_link _ _ _ _ _ HI) as (_ & _ & ->). pose proof (iv_loc _ _ _ _ _ HI) as HL. pose proof (iv_range _ _ _ _ _ HI) as HR.
    unfold rank, Prot.final in *. destruct (r_loc r); try (specialize (A1 ltac:(discriminate)); split; [intuition congruence|intros; lia]).
    specialize (A2 eq_refl). split; [intros _; lia|]. intros _. apply HL.
  Qed.

  (** ** Time *)
  Notation elapsed := (elapsed p).
  Lemma start_of_app (a b : list obs) : start_of (a ++ b) = match start_of a with Some s => Some s | None => start_of b end.
  Proof. induction a as [|o a IH]; [reflexivity|]. cbn. destruct o; exact IH || reflexivity. Qed.

  Definition tobs (a : list obs) (o : obs) : Prop :=
    match o with
    | OEnter k now => exists s, start_of a = Some s /\ s + elapsed k + (if k =? 0 then 0 else pause) <= now
    | OTerm now => exists s, start_of a = Some s /\ s + elapsed (final + 1) <= now
    | OStart _ => start_of a = None
    | _ => True
    end.
  Definition tinv (r : rst) (tr : list obs) : Prop :=
    always tobs tr /\
    match r_loc r with
    | LFresh => start_of tr = None
    | LStart => start_of tr = Some (r_t r) /\ r_wake r = r_t r
    | LStage => exists s, start_of tr = Some s /\ r_t r = s + elapsed (r_state r + 1) /\ r_wake r = r_t r
    | LPause => exists s, start_of tr = Some s /\ r_t r = s + elapsed (r_state r + 1) /\ r_t r + pause <= r_wake r
    | LEnd => exists s, start_of tr = Some s
    end.
  Lemma elapsed_next k s : stage_at p k = Some s -> elapsed (k + 1) = elapsed k + stage_timeout s.
  Proof.
    unfold stage_at, elapsed. destruct (Z.ltb_spec k 0); [discriminate|]. replace (Z.to_nat (k + 1)) with (S (Z.to_nat k)) by lia.
    generalize (Z.to_nat k) as n. clear. intros n. revert n. induction (p_stages p) as [|x l IH]; intros [|n] Hn; try discriminate.
    - injection Hn as ->. cbn. lia.
    - cbn [nth_error] in Hn. specialize (IH n Hn). rewrite firstn_cons. cbn [fold_right]. rewrite (firstn_cons n). cbn [fold_right]. lia.
  Qed.
  Lemma elapsed_total : elapsed (final + 1) = protocol_timeout p.
  Proof.
    unfold elapsed, Prot.final, protocol_timeout. replace (Z.to_nat _) with (length (p_stages p)) by lia. rewrite firstn_all.
    assert (G : forall l a, fold_left (fun t s => t + stage_timeout s) l a = a + fold_right (fun (s : stage) t => stage_timeout s + t) 0 l).
    { induction l as [|x l IH]; intros a; cbn; [lia|]. rewrite IH. lia. }
    rewrite G. lia.
  Qed.

  Lemma tobs_other pre (t : list obs) : (forall o, In o t -> match o with OStart _ | OEnter _ _ | OTerm _ => False | _ => True end) ->
    alw tobs pre t /\ start_of t = None.
  Proof.
    intros H. split.
    - intros a o b E0. specialize (H o). rewrite E0 in H. specialize (H (in_elt _ _ _)). destruct o; cbn; tauto.
    - induction t as [|o t IH]; [reflexivity|]. pose proof (H o (or_introl eq_refl)) as Ho. cbn. destruct o; try contradiction; apply IH; intros o' X; apply H; right; exact X.
  Qed.

  Lemma procs_obs (e : E) l : forall r r' t' (pre : list obs), link r pre -> process_all p c e r l = Ok (r', t') ->
    forall o, In o t' -> match o with OStart _ | OEnter _ _ | OTerm _ | OStep _ | OPause _ | ODrop _ => False | _ => True end.
  Proof.
    induction l as [|m l IH]; intros r r' t' pre HL; cbn [process_all].
    - intros H. injection H as <- <-. intros o [].
    - destruct (process_msg p c e r m) as [[r1 t1]| |] eqn:E1; cbn [rbind fst snd]; try discriminate.
      destruct (process_all p c e r1 l) as [[r2 t2]| |] eqn:E2; cbn [rbind fst snd]; try discriminate.
      intros H. injection H as <- <-. destruct (proc_obs _ _ _ _ _ _ HL E1) as [L1 O1]. intros o Ho. apply in_app_iff in Ho.
      destruct Ho as [Ho|Ho]; [apply O1, Ho|]. eapply IH; eassumption.
  Qed.
  Lemma enter_obs (e : E) now r (tr : list obs) r' t' : link r tr -> enter_stage p c e now r = Ok (r', t') ->
    exists t1, t' = OEnter (r_state r + 1) now :: t1 /\
      forall o, In o t1 -> match o with OStart _ | OEnter _ _ | OTerm _ | OPause _ | ODrop _ => False | _ => True end.
  Proof.
    intros HL. unfold enter_stage. destruct (stage_at p (r_state r + 1)) as [s|]; [|discriminate].
    unfold flush_snd_buf. cbn [set_stage r_state r_snd].
    destruct (try_send_all c (mslice (r_snd r) (r_state r + 1))) as [ox| |] eqn:EO; cbn [rbind fst snd]; try discriminate.
    destruct (try_send_all_spec c _ _ EO) as [-> _].
    set (r2 := set_snd (set_stage r (r_state r + 1) false) (mdel (r_snd r) (r_state r + 1))).
    assert (L2 : exists pre2 : list obs, link r2 pre2).
    { exists (tr ++ [OEnter (r_state r + 1) now]). destruct HL as (X1 & X2 & X3). unfold link. rewrite stage_now_snoc, abandoned_app, terminated_app. cbn. rewrite !orb_false_r. auto. }
    destruct L2 as [pre2 L2].
    destruct (run_step c e s r2) as [[r3 ty]| |] eqn:EY; cbn [rbind fst snd]; try discriminate.
    assert (Y : (exists pre3 : list obs, link r3 pre3) /\ forall o, In o ty -> match o with OStart _ | OEnter _ _ | OTerm _ | OPause _ | ODrop _ => False | _ => True end).
    { unfold run_step in EY. destruct (r_abandon r2); [injection EY as <- <-; split; [eauto|intros o []]|].
      destruct (sg_step s) as [f|]; [|injection EY as <- <-; split; [eauto|intros o []]].
      destruct (perform c r2 (f c e (r_k r2))) as [[r1 t1]| |] eqn:EF; cbn [rbind fst snd] in EY; try discriminate. injection EY as <- <-.
      destruct (perform_spec p c _ _ _ _ _ L2 EF) as (X & _ & _ & F & _). split; [eauto|].
      intros o [<-|Ho]; [exact I|]. rewrite Forall_forall in F. specialize (F o Ho). destruct o; cbn in *; tauto. }
    destruct Y as [[pre3 L3] OY].
    destruct (process_all p c e r3 (mslice (r_rcv r3) (r_state r + 1))) as [[r4 tz]| |] eqn:EZ; cbn [rbind fst snd]; try discriminate.
    pose proof (procs_obs _ _ _ _ _ _ L3 EZ) as OZ. intros H. injection H as _ <-. eexists. split; [reflexivity|].
    intros o Ho. rewrite !in_app_iff in Ho. destruct Ho as [Ho|[Ho|Ho]].
    - apply in_map_iff in Ho. destruct Ho as (m & <- & _). exact I.
    - apply OY, Ho.
    - specialize (OZ o Ho). destruct o; tauto.
  Qed.

  Lemma time_exec evs : forall rcvd r tr r' t', Inv p c rcvd r tr -> tinv r tr -> timely p c r evs -> exec p c r evs = Ok (r', t') -> tinv r' (tr ++ t').
  Proof.
    induction evs as [|ev evs IH]; intros rcvd r tr r' t' HI HV HT; cbn [exec].
    - intros H. injection H as <- <-. rewrite app_nil_r. exact HV.
    - cbn [timely] in HT. destruct HT as [HW HT].
      destruct (step p c r ev) as [[r1 t1]| |] eqn:E1; cbn [rbind fst snd]; try discriminate. cbn [fst] in HT.
      destruct (exec p c r1 evs) as [[r2 t2]| |] eqn:E2; cbn [rbind fst snd]; try discriminate.
      intros H. injection H as <- <-. rewrite app_assoc.
      destruct ev as [e now|e m]; cbn [step] in E1.
      + pose proof (tick_inv p c _ _ _ _ _ _ _ HI E1) as HI1. eapply IH; [exact HI1| |exact HT|exact E2].
        destruct HV as [AV LV]. pose proof (iv_loc _ _ _ _ _ HI) as HL.
        destruct (tick_cases _ _ _ _ _ _ _ HI E1) as [(X1 & -> & ->)|[(X1 & X2 & X3 & X4)|[(X1 & X2 & -> & ->)|[(X1 & X2 & -> & ->)|(X1 & -> & ->)]]]].
        * rewrite X1 in *. split.
          -- apply always_app; [exact AV|]. apply alw_cons; [exact LV|apply alw_nil].
          -- cbn [set_clock r_loc r_t r_wake]. rewrite start_of_app, LV. cbn. auto.
        * destruct (enter_inv p c _ _ _ _ _ _ _ HI X2 X4) as (_ & ST & LO & (s & ES & RT & RW) & _).
          destruct (enter_obs _ _ _ _ _ _ (iv_link _ _ _ _ _ HI) X4) as (t3 & -> & O3).
          assert (EX : exists s0, start_of tr = Some s0 /\ r_t r = s0 + elapsed (r_state r + 1) /\
                       s0 + elapsed (r_state r + 1) + (if r_state r + 1 =? 0 then 0 else pause) <= now).
          { destruct X1 as [X1|X1]; rewrite X1 in *.
            - destruct LV as [L1 L2]. destruct HL as (HS & _). exists (r_t r). rewrite HS. cbn. change (elapsed 0) with 0. repeat split; [exact L1|lia|lia].
            - destruct LV as (s0 & L1 & L2 & L3). exists s0. destruct HL as (HS & _). destruct (Z.eqb_spec (r_state r + 1) 0); [lia|]. repeat split; [exact L1|exact L2|lia]. }
          destruct EX as (s0 & S1 & S2 & S3).
          destruct (tobs_other (tr ++ [OEnter (r_state r + 1) now]) t3) as [A3 N3].
          { intros o Ho. specialize (O3 o Ho). destruct o; tauto. }
          split.
          -- apply always_app; [exact AV|]. apply alw_cons; [exists s0; auto|exact A3].
          -- rewrite LO. exists s0. rewrite start_of_app, S1. split; [reflexivity|]. rewrite ST, RT, S2, (elapsed_next _ _ ES). split; [lia|]. rewrite RW, RT, S2. reflexivity.
        * rewrite X1 in *. split.
          -- apply always_app; [exact AV|]. apply alw_cons; [exact I|apply alw_nil].
          -- cbn [set_clock set_stage r_loc r_t r_wake r_state]. destruct LV as (s0 & L1 & L2 & L3). exists s0. rewrite start_of_app, L1. repeat split; [exact L2|lia].
        * assert (EX : exists s0, start_of tr = Some s0 /\ r_wake r = s0 + elapsed (r_state r + 1)).
          { destruct X1 as [X1|X1]; rewrite X1 in *.
            - destruct LV as [L1 L2]. destruct HL as (HS & _). exists (r_t r). rewrite HS. cbn. change (elapsed 0) with 0. split; [exact L1|lia].
            - destruct LV as (s0 & L1 & L2 & L3). exists s0. split; [exact L1|lia]. }
          destruct EX as (s0 & S1 & S2). split.
          -- apply always_app; [exact AV|]. apply alw_cons; [|apply alw_nil]. exists s0. split; [exact S1|]. rewrite <- X2. lia.
          -- cbn [r_loc]. exists s0. rewrite start_of_app, S1. reflexivity.
        * rewrite app_nil_r. split; assumption.
      + pose proof (deliver_inv p c _ _ _ _ _ _ _ HI E1) as HI1. eapply IH; [exact HI1| |exact HT|exact E2].
        destruct (deliver_same _ _ _ _ _ _ _ HI E1) as (ST & PA & LO & RT & RW & _ & _ & _ & O1).
        destruct (tobs_other tr t1) as [A3 N3]. { intros o Ho. specialize (O1 o Ho). destruct o; tauto. }
        destruct HV as [AV LV]. split; [apply always_app; assumption|]. rewrite LO, start_of_app, N3, ST, RT, RW.
        destruct (r_loc r).
        -- rewrite LV. reflexivity.
        -- destruct LV as [-> ->]. auto.
        -- destruct LV as (s0 & -> & ?). exists s0. tauto.
        -- destruct LV as (s0 & -> & ?). exists s0. tauto.
        -- destruct LV as (s0 & ->). eauto.
  Qed.
  Lemma time_run k evs r tr : timely p c (new_run k) evs -> exec p c (new_run k) evs = Ok (r, tr) -> tinv r tr.
  Proof.
    intros HT H. apply (time_exec evs [] _ [] _ _ (inv_new p c k)); [|exact HT|exact H]. split; [|reflexivity].
    intros a o b X. destruct a; discriminate.
  Qed.
End More.
