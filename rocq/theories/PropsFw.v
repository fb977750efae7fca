(** The properties of the firewall, C61 to C66. *)
From Coq Require Import ZArith List Lia Bool.
From Verif Require Import Bytes Res Prot KMap Firewall FwSpec FwProofs FwProofs2 FwProofs3 FwProofs4.
Import ListNotations.
Open Scope Z_scope.

Section Props.
  Context {D : Type}.
  Notation message := (message D). Notation fobs := (fobs D). Notation fevent := (fevent D). Notation fw := (fw D).

  (** A history of a firewall made at [now0] with initial dropping until [until]. *)
  Definition history (nprots : Z) (guests : list Z) (until now0 : Z) (evs : list fevent) (f : fw) (tr : list fobs) : Prop :=
    clock now0 evs /\ fexec (make_fw nprots guests until now0) evs = Ok (f, tr).

  Lemma history_sound nprots guests until now0 evs f tr : history nprots guests until now0 evs f tr ->
    sound (now0 <? until) until (fun k => known (make_fw (D := D) nprots guests until now0) (k_pc k) (k_guest k)) f tr (last_time now0 evs) /\
    alw until [] tr.
  Proof. intros [HC HE]. exact (exec_sound _ _ _ evs _ f tr [] now0 HC (made_sound nprots guests until now0) HE). Qed.

  (** ** C61 *)
  Theorem C61_deny_by_default nprots guests until now0 evs f tr : history nprots guests until now0 evs f tr ->
    forall pre t m post, tr = pre ++ FPass t m :: post ->
    exists t0 a a1 a2 tm,
      (* the last allowance for the message's protocol, recipient and run, not yet stopped *)
      pre = a1 ++ FSet t0 (key_of m) a :: a2 /\
      existsb (is_set (key_of m)) a2 = false /\ existsb (is_phase (key_of m) 3) a2 = false /\
      In (EvAllow t0 (key_of m) a) evs /\
      (* its arrival *)
      In (FIn tm m) a2 /\ In (EvIn tm m) evs /\
      (* the times *)
      al_start a <= t /\ al_buf a <= tm /\ t0 <= tm <= t /\ until <= tm.
  Proof.
    intros H pre t m post ->. destruct (history_sound _ _ _ _ _ _ _ H) as [_ AL]. destruct (AL pre (FPass t m) post eq_refl) as (t0 & a & a1 & a2 & tm & E & H1 & H2 & H3 & H4 & H5 & H6 & H7).
    cbn [app] in E. destruct (obs_from evs _ _ _ (proj2 H)) as [OA OB]. exists t0, a, a1, a2, tm. subst pre.
    split; [reflexivity|]. split; [exact H1|]. split; [exact H2|]. split; [apply OB; rewrite <- app_assoc; apply in_or_app; right; left; reflexivity|].
    split; [exact H3|]. split; [apply OA; rewrite <- app_assoc; apply in_or_app; right; right; apply in_or_app; left; exact H3|]. tauto.
  Qed.

  (** ** C62 *)
  Theorem C62_order_and_multiplicity nprots guests until now0 evs f tr : history nprots guests until now0 evs f tr ->
    forall k,
    (* nothing before the first allowance *)
    (forall a c, tr = a ++ c -> existsb (is_set k) a = false -> passed k a = []) /\
    (* in the time of one allowance, up to the next one or to the end *)
    (forall a t al b c, tr = a ++ FSet t k al :: b ++ c -> existsb (is_set k) b = false ->
      (c = [] \/ exists t' al' c', c = FSet t' k al' :: c') ->
      let buffered := firstn 2048 (arrivals (now0 <? until) k 1 (a ++ [FSet t k al]) b) in
      let direct := arrivals (now0 <? until) k 2 (a ++ [FSet t k al]) b in
      passed k b = (if existsb (is_phase k 2) b then buffered else []) ++ direct).
  Proof.
    intros H k. split.
    - intros a c -> HA. destruct (history_sound _ _ _ _ _ _ _ H) as [_ AL]. unfold passed. destruct (flat_map _ a) as [|m l] eqn:EF; [reflexivity|]. exfalso.
      assert (HI : In m (flat_map (fun o => match o with FPass _ m => if key_eqb (key_of m) k then [m] else [] | _ => [] end) a)) by (rewrite EF; left; reflexivity).
      apply in_flat_map in HI. destruct HI as (o & HO & HM). destruct o as [| | | | |t' m']; try contradiction. destruct (key_eqb_spec (key_of m') k) as [EK|]; [|contradiction]. destruct HM as [->|[]].
      apply in_split in HO. destruct HO as (x & y & ->). destruct (AL x (FPass t' m) (y ++ c)) as (t0 & al & a1 & a2 & tm & E & _); [rewrite <- app_assoc; reflexivity|].
      cbn [app] in E. subst x. rewrite <- app_assoc, existsb_app in HA. cbn in HA. rewrite EK, key_eqb_refl in HA. apply orb_false_iff in HA. destruct HA as [_ HA]. discriminate.
    - intros a t al b c E HB HC0. cbv zeta.
      assert (X : exists evs' f', history nprots guests until now0 evs' f' (a ++ FSet t k al :: b)).
      { destruct HC0 as [->|(t' & al' & c' & ->)]; [rewrite app_nil_r in E; exists evs, f; rewrite <- E; exact H|].
        destruct H as [HC HE]. rewrite E in HE. change (a ++ FSet t k al :: b ++ FSet t' k al' :: c') with (a ++ (FSet t k al :: b) ++ FSet t' k al' :: c') in HE. rewrite app_assoc in HE.
        destruct (cut_at_set evs _ _ _ _ _ _ _ _ HC HE) as (e1 & e2 & f1 & -> & HE1 & C1). exists e1, f1. split; assumption. }
      destruct X as (evs' & f' & H'). destruct (history_sound _ _ _ _ _ _ _ H') as [(_ & _ & _ & KK) _]. destruct (KK k) as (_ & _ & _ & [(_ & _ & _ & _ & I5)|(n & s & a0 & t0 & a1 & a2 & _ & _ & _ & _ & X5 & X6 & _ & _ & X9 & _)]).
      + destruct I5 as [(_ & _ & J)|(t0 & a0 & a1 & a2 & J1 & J2 & _ & _ & J5)].
        * rewrite existsb_app in J. cbn in J. rewrite key_eqb_refl in J. apply orb_false_iff in J. destruct J as [_ J]. discriminate.
        * destruct (last_set_unique k _ _ _ _ _ _ _ _ J1 HB J2) as (-> & Z1 & ->). injection Z1 as -> ->. exact J5.
      + destruct (last_set_unique k _ _ _ _ _ _ _ _ X5 HB X6) as (-> & Z1 & ->). injection Z1 as -> ->. exact X9.
  Qed.

  (** ** C63 *)
  Theorem C63_buffers_bounded nprots guests until now0 evs f tr : history nprots guests until now0 evs f tr ->
    forall k, (length (kslice (f_buf f) k) <= 2048)%nat /\ (kslice (f_buf f) k <> [] -> phase k tr = Some 1).
  Proof.
    intros H k. destruct (history_sound _ _ _ _ _ _ _ H) as [(_ & _ & _ & KK) _].
    destruct (KK k) as (_ & _ & _ & [(_ & _ & I3 & _ & _)|(n & s & a0 & t0 & a1 & a2 & _ & _ & _ & _ & _ & _ & _ & _ & _ & X10)]); cbn [view_of v_buf] in *.
    - rewrite I3. split; [apply Nat.le_0_l|congruence].
    - destruct (sl_thread s) as [[|b|b|b|]|]; try contradiction.
      + destruct X10 as (_ & _ & -> & _). split; [apply Nat.le_0_l|congruence].
      + destruct X10 as (_ & _ & _ & -> & _). split; [apply Nat.le_0_l|congruence].
      + destruct X10 as (_ & _ & EP & _ & _ & _ & -> & _). split; [rewrite firstn_length; lia|intros _; exact EP].
      + destruct X10 as (_ & _ & _ & _ & _ & -> & _). split; [apply Nat.le_0_l|congruence].
  Qed.
  (** In particular it is empty whenever an allowance has just been set. *)
  Theorem C63_fresh_allowance_starts_empty nprots guests until now0 evs t k al f tr pre :
    history nprots guests until now0 (evs ++ [EvAllow t k al]) f tr -> tr = pre ++ [FSet t k al] -> kslice (f_buf f) k = [].
  Proof.
    intros H ->. destruct (kslice (f_buf f) k) as [|m l] eqn:E; [reflexivity|]. exfalso.
    destruct (C63_buffers_bounded _ _ _ _ _ _ _ H k) as [_ P]. rewrite E in P. specialize (P ltac:(discriminate)). rewrite phase_snoc, key_eqb_refl in P. discriminate.
  Qed.

  (** ** C64 *)
  Theorem C64_revocation_complete nprots guests until now0 evs f tr : history nprots guests until now0 evs f tr ->
    forall k a t b c, tr = a ++ FPhase t k 3 :: b ++ c -> existsb (is_set k) b = false -> passed k b = [].
  Proof.
    intros H k a t b c -> HB. destruct (history_sound _ _ _ _ _ _ _ H) as [_ AL]. unfold passed. destruct (flat_map _ b) as [|m l] eqn:EF; [reflexivity|]. exfalso.
    assert (HI : In m (flat_map (fun o => match o with FPass _ m => if key_eqb (key_of m) k then [m] else [] | _ => [] end) b)) by (rewrite EF; left; reflexivity).
    apply in_flat_map in HI. destruct HI as (o & HO & HM). destruct o as [| | | | |t' m']; try contradiction. destruct (key_eqb_spec (key_of m') k) as [EK|]; [|contradiction]. destruct HM as [->|[]].
    apply in_split in HO. destruct HO as (x & y & ->). destruct (AL (a ++ FPhase t k 3 :: x) (FPass t' m) (y ++ c)) as (t0 & al & a1 & a2 & tm & E & N1 & N2 & _); [rewrite <- !app_assoc; cbn; reflexivity|].
    rewrite existsb_app in HB. apply orb_false_iff in HB. destruct HB as [HB _]. rewrite EK in *. cbn [app] in E. clear - E HB N1 N2. revert a1 E. induction a as [|z a IH]; intros [|w a1] E; cbn in E.
    - discriminate E.
    - injection E as _ ->. rewrite existsb_app in HB. cbn in HB. rewrite key_eqb_refl in HB. apply orb_false_iff in HB. destruct HB as [_ HB]. discriminate.
    - injection E as _ <-. rewrite existsb_app in N2. cbn in N2. rewrite key_eqb_refl in N2. apply orb_false_iff in N2. destruct N2 as [_ N2]. discriminate.
    - injection E as _ E. apply (IH a1 E).
  Qed.

  (** ** C65 *)
  (** What is observed of a run (its messages coming in and going out, its phases, what
      its callers are told, each with its time and in its order) is what would be
      observed if only the events of that run happened, so it is the same in any two
      histories that differ in other runs' events only. *)
  Theorem C65_runs_isolated nprots guests until now0 (evs : list fevent) f tr k :
    fexec (make_fw nprots guests until now0) evs = Ok (f, tr) ->
    exists f', fexec (make_fw nprots guests until now0) (filter (about k) evs) = Ok (f', filter (about_obs k) tr).
  Proof.
    intros HE. destruct (isolated (fun _ => true) k evs (make_fw nprots guests until now0) (make_fw nprots guests until now0) f tr) as (g & G & _); auto; [intros x m []|]. exists g. exact G.
  Qed.
  Theorem C65_other_runs_do_not_matter nprots guests until now0 (evs evs' : list fevent) f f' tr tr' k :
    fexec (make_fw nprots guests until now0) evs = Ok (f, tr) -> fexec (make_fw nprots guests until now0) evs' = Ok (f', tr') ->
    filter (about k) evs = filter (about k) evs' -> filter (about_obs k) tr = filter (about_obs k) tr' /\ passed k tr = passed k tr'.
  Proof.
    intros H1 H2 E. destruct (C65_runs_isolated _ _ _ _ _ _ _ k H1) as (g1 & G1). destruct (C65_runs_isolated _ _ _ _ _ _ _ k H2) as (g2 & G2).
    rewrite E in G1. rewrite G1 in G2. injection G2 as _ EO. split; [exact EO|].
    assert (X : forall l : list fobs, passed k (filter (about_obs k) l) = passed k l).
    { induction l as [|o l IH]; [reflexivity|]. cbn [filter]. destruct (about_obs k o) eqn:EA; cbn [passed flat_map]; fold (passed k l); [fold (passed k (filter (about_obs k) l)); rewrite IH; reflexivity|].
      rewrite IH. destruct o; cbn in EA; rewrite ?EA; reflexivity. }
    rewrite <- (X tr), <- (X tr'), EO. reflexivity.
  Qed.

  (** ** C66 *)
  (** The number of the call for [k] that comes after [e1]. *)
  Definition call_number (k : key) (e1 : list fevent) : nat := length (filter (is_call k) e1).
  (** No allowance is in place: none was set, or the last one was stopped. *)
  Definition free (k : key) (tr : list fobs) : Prop := phase k tr = None \/ phase k tr = Some 3.

  Lemma call_split nprots guests until now0 e1 t k al e2 f tr : history nprots guests until now0 (e1 ++ EvAllow t k al :: e2) f tr ->
    exists f1 tr1 f2 o2, history nprots guests until now0 e1 f1 tr1 /\ clock t e2 /\ last_time now0 e1 <= t /\
      fstep f1 (EvAllow t k al) = Ok (f2, o2) /\ exists o3, fexec f2 e2 = Ok (f, o3) /\ tr = (tr1 ++ o2) ++ o3.
  Proof.
    intros [HC HE]. assert (CK : clock now0 e1 /\ last_time now0 e1 <= t /\ clock t e2).
    { clear HE. revert now0 HC. induction e1 as [|ev l IH]; intros T HC; cbn in *; [tauto|]. destruct HC as [L HC]. specialize (IH _ HC). tauto. }
    rewrite fexec_app in HE. destruct (fexec (make_fw nprots guests until now0) e1) as [[f1 tr1]| |] eqn:E1; try discriminate. cbn [rbind fst fexec] in HE.
    destruct (fstep f1 (EvAllow t k al)) as [[f2 o2]| |] eqn:E2; try discriminate. cbn [rbind fst snd] in HE. destruct (fexec f2 e2) as [[f3 o3]| |] eqn:E3; try discriminate. cbn in HE. injection HE as <- <-.
    exists f1, tr1, f2, o2. split; [split; [tauto|exact E1]|]. split; [tauto|]. split; [tauto|]. split; [exact E2|]. exists o3. split; [exact E3|]. apply app_assoc.
  Qed.

  Lemma in_place nprots guests until now0 evs f tr k : history nprots guests until now0 evs f tr ->
    match kget (f_allow f) k with None => free k tr | Some _ => ~ free k tr end.
  Proof.
    intros H. destruct (history_sound _ _ _ _ _ _ _ H) as [(_ & _ & _ & KK) _]. unfold free.
    destruct (KK k) as (_ & _ & _ & [(I1 & _ & _ & _ & I5)|(n & s & a0 & t0 & a1 & a2 & _ & _ & X3 & _ & _ & _ & _ & _ & _ & X10)]); cbn [view_of v_allow] in *.
    - rewrite I1. destruct I5 as [(J & _)|(t0 & a & a1 & a2 & _ & _ & J & _)]; auto.
    - rewrite X3. destruct (sl_thread s) as [[|b|b|b|]|]; try contradiction.
      + destruct X10 as (_ & -> & _). intros [|]; discriminate.
      + destruct X10 as (_ & _ & -> & _). intros [|]; discriminate.
      + destruct X10 as (_ & _ & -> & _). intros [|]; discriminate.
      + destruct X10 as (_ & _ & -> & _). intros [|]; discriminate.
  Qed.

  (** A fresh allowance: its channel is told buffering, forwarding, stopped in order, and
      all of them once its goroutine has been scheduled four times after the deadlines. *)
  Theorem C66_fresh_told_each_phase nprots guests until now0 e1 t k al e2 f tr f1 tr1 :
    history nprots guests until now0 (e1 ++ EvAllow t k al :: e2) f tr ->
    history nprots guests until now0 e1 f1 tr1 -> free k tr1 ->
    (exists j, told_to k (call_number k e1) tr = firstn j [1; 2; 3]) /\
    ((length (filter (late_wake al k (call_number k e1)) e2) >= 4)%nat -> told_to k (call_number k e1) tr = [1; 2; 3]).
  Proof.
    intros H H1 HF. destruct (call_split _ _ _ _ _ _ _ _ _ _ _ H) as (f1' & tr1' & f2 & o2 & H1' & C2 & LT & E2 & o3 & E3 & ->).
    assert (f1' = f1 /\ tr1' = tr1) as [-> ->] by (destruct H1 as [_ A]; destruct H1' as [_ B]; rewrite A in B; injection B as -> ->; auto). clear H1'.
    pose proof (in_place _ _ _ _ _ _ _ k H1) as IP. destruct (history_sound _ _ _ _ _ _ _ H1) as [S1 _]. destruct (history_sound _ _ _ _ _ _ _ H) as [SF _].
    cbn [fstep] in E2. pose proof E2 as E2'. unfold fw_set_allowance in E2. destruct (negb _); [discriminate|]. destruct (kget (f_allow f1) k) as [a0|] eqn:EG; [contradiction (IP HF)|].
    assert (CN : length (kslice (f_calls f1) k) = call_number k e1).
    { rewrite (exec_calls k e1 _ _ _ (proj2 H1)). reflexivity. }
    assert (R0 : at_rank al k (call_number k e1) f2 0).
    { injection E2 as <- _. exists (mkSlot (Some FNew) []), FNew. cbn [f_calls f_allow set_calls set_state set_allow sl_thread rank]. rewrite kslice_kset, kget_kset, key_eqb_refl, nth_error_app2, CN, Nat.sub_diag by lia. auto. }
    destruct (step_sound _ _ _ f1 f2 (EvAllow t k al) o2 tr1 _ LT S1 E2') as [S2 _].
    destruct (rank_exec _ _ _ al k (call_number k e1) e2 f2 f o3 _ _ 0 C2 S2 R0 E3) as (r & (s & th & EN & ET & ER & _) & LR).
    destruct SF as (_ & _ & _ & KK). destruct (KK k) as (_ & _ & CH & _). specialize (CH (call_number k e1)). cbn [view_of v_calls] in CH. rewrite EN in CH. destruct CH as [CH _].
    split; [exists (done s); exact CH|]. intros L4. rewrite CH. unfold done. rewrite ET. assert (r = 4%nat \/ (r < 4)%nat) as [R4|R4] by (destruct th; cbn in ER; lia); [|lia].
    destruct th; cbn in ER; try lia. reflexivity.
  Qed.

  (** An allowance that is already in place: nothing is observed, nothing but the record
      of the call changes, and its channel is never told anything. *)
  Theorem C66_repeated_changes_nothing nprots guests until now0 e1 t k al e2 f tr f1 tr1 :
    history nprots guests until now0 (e1 ++ EvAllow t k al :: e2) f tr ->
    history nprots guests until now0 e1 f1 tr1 -> ~ free k tr1 ->
    (exists f2, fstep f1 (EvAllow t k al) = Ok (f2, []) /\ f_allow f2 = f_allow f1 /\ f_state f2 = f_state f1 /\ f_buf f2 = f_buf f1 /\ f_drop f2 = f_drop f1) /\
    told_to k (call_number k e1) tr = [].
  Proof.
    intros H H1 HF. destruct (call_split _ _ _ _ _ _ _ _ _ _ _ H) as (f1' & tr1' & f2 & o2 & H1' & C2 & LT & E2 & o3 & E3 & ->).
    assert (f1' = f1 /\ tr1' = tr1) as [-> ->] by (destruct H1 as [_ A]; destruct H1' as [_ B]; rewrite A in B; injection B as -> ->; auto). clear H1'.
    pose proof (in_place _ _ _ _ _ _ _ k H1) as IP. destruct (history_sound _ _ _ _ _ _ _ H1) as [S1 _]. destruct (history_sound _ _ _ _ _ _ _ H) as [SF _].
    pose proof E2 as E2'. cbn [fstep] in E2. unfold fw_set_allowance in E2. destruct (negb _); [discriminate|]. destruct (kget (f_allow f1) k) as [a0|] eqn:EG; [|contradiction (HF IP)].
    assert (CN : length (kslice (f_calls f1) k) = call_number k e1).
    { rewrite (exec_calls k e1 _ _ _ (proj2 H1)). reflexivity. }
    assert (R0 : hit k (call_number k e1) f2).
    { injection E2 as <- _. exists (mkSlot None []). cbn. rewrite kslice_kset, key_eqb_refl, nth_error_app2, CN, Nat.sub_diag by lia. auto. }
    destruct (step_sound _ _ _ f1 f2 (EvAllow t k al) o2 tr1 _ LT S1 E2') as [S2 _]. split.
    - exists f2. injection E2 as <- <-. split; [exact E2'|]. repeat split.
    - destruct (hit_exec _ _ _ k (call_number k e1) e2 f2 f o3 _ _ C2 S2 R0 E3) as (s & EN & ET).
      destruct SF as (_ & _ & _ & KK). destruct (KK k) as (_ & _ & CH & _). specialize (CH (call_number k e1)). cbn [view_of v_calls] in CH. rewrite EN in CH. destruct CH as [-> _].
      unfold done. rewrite ET. reflexivity.
  Qed.

  (** No goroutine ever blocks on a channel while it has the lock, and the firewall
      crashes only if an allowance is set for a protocol or guest that is not local. *)
  Theorem C66_never_blocks nprots guests until now0 (evs : list fevent) : clock now0 evs ->
    match fexec (make_fw nprots guests until now0) evs with
    | Ok _ => True
    | Err => False
    | Panic => exists t k a, In (EvAllow t k a) evs /\ ~ (0 <= k_pc k < nprots /\ In (k_guest k) guests)
    end.
  Proof.
    intros HC. pose proof (exec_noerr _ _ _ evs _ [] now0 HC (made_sound nprots guests until now0)) as NE.
    destruct (fexec _ evs) as [x| |] eqn:E; [exact I|contradiction|]. destruct (exec_panic _ _ _ evs _ [] now0 HC (made_sound nprots guests until now0) E) as (t & k & a & HI & HK).
    exists t, k, a. split; [exact HI|]. intros [[L1 L2] HG]. unfold known in HK. cbn [make_fw f_nprots f_guests] in HK. apply Z.leb_le in L1. apply Z.ltb_lt in L2. rewrite L1, L2 in HK. cbn in HK.
    assert (X : existsb (Z.eqb (k_guest k)) guests = true) by (apply existsb_exists; exists (k_guest k); split; [exact HG|apply Z.eqb_refl]). congruence.
  Qed.
End Props.

(** ** A history in which every phase is seen *)
Section Demo.
  Let k : key := mkKey 1 0 []. Let k' : key := mkKey 1 1 [].
  Let msg (g i : Z) : message Z := mkMsg 7 1 g [] 0 i.
  Definition demo_evs : list (fevent Z) :=
    [EvIn 1 (msg 0 0); EvUndrop 5; EvIn 5 (msg 0 1); EvAllow 6 k (mkAllow 10 20 30); EvWake 6 k 0; EvIn 7 (msg 0 2); EvWake 10 k 0;
     EvIn 11 (msg 0 3); EvIn 12 (msg 1 4); EvIn 12 (msg 0 5); EvWake 20 k 0; EvIn 21 (msg 0 6); EvAllow 22 k (mkAllow 0 0 0); EvWake 29 k 0; EvIn 29 (msg 0 7); EvWake 30 k 0;
     EvIn 31 (msg 0 8); EvAllow 32 k' (mkAllow 40 41 42); EvWake 50 k 0; EvRecv 50 k 0; EvRecv 50 k 1].
  Example demo_history : exists f tr, history 2 [0; 1] 5 0 demo_evs f tr /\
    passed k tr = [msg 0 3; msg 0 5; msg 0 6; msg 0 7] /\ told_to k 0 tr = [1; 2; 3] /\ told_to k 1 tr = [] /\ phase k tr = Some 3 /\
    existsb (is_phase k 2) tr = true /\ existsb (is_set k') tr = true.
  Proof.
    destruct (fexec (make_fw 2 [0; 1] 5 0) demo_evs) as [[f tr]| |] eqn:E; [|vm_compute in E; discriminate E|vm_compute in E; discriminate E].
    exists f, tr. vm_compute in E. injection E as <- <-. split; [split; [repeat split; discriminate|vm_compute; reflexivity]|]. repeat split.
  Qed.
  (** The hypotheses of C66 are met: the first call finds the run free, the second does not. *)
  Example demo_fresh : exists f1 tr1 f2 tr2, history 2 [0; 1] 5 0 (firstn 3 demo_evs) f1 tr1 /\ free k tr1 /\
    history 2 [0; 1] 5 0 (firstn 12 demo_evs) f2 tr2 /\ ~ free k tr2 /\ nth_error demo_evs 3 = Some (EvAllow 6 k (mkAllow 10 20 30)) /\ nth_error demo_evs 12 = Some (EvAllow 22 k (mkAllow 0 0 0)).
  Proof.
    destruct (fexec (make_fw 2 [0; 1] 5 0) (firstn 3 demo_evs)) as [[f tr]| |] eqn:E; [|vm_compute in E; discriminate E|vm_compute in E; discriminate E].
    destruct (fexec (make_fw 2 [0; 1] 5 0) (firstn 12 demo_evs)) as [[g ts]| |] eqn:G; [|vm_compute in G; discriminate G|vm_compute in G; discriminate G].
    exists f, tr, g, ts. vm_compute in E. injection E as <- <-. vm_compute in G. injection G as <- <-.
    split; [split; [repeat split; discriminate|vm_compute; reflexivity]|]. split; [left; reflexivity|].
    split; [split; [repeat split; discriminate|vm_compute; reflexivity]|]. split; [intros [X|X]; discriminate X|]. split; reflexivity.
  Qed.
  (** A call for a guest that is not local crashes. *)
  Example demo_panic : fexec (D := Z) (make_fw 2 [0; 1] 5 0) [EvAllow 6 (mkKey 1 9 []) (mkAllow 10 20 30)] = Panic.
  Proof. reflexivity. Qed.
End Demo.

Print Assumptions C61_deny_by_default.
Print Assumptions C62_order_and_multiplicity.
Print Assumptions C63_buffers_bounded.
Print Assumptions C63_fresh_allowance_starts_empty.
Print Assumptions C64_revocation_complete.
Print Assumptions C65_runs_isolated.
Print Assumptions C65_other_runs_do_not_matter.
Print Assumptions C66_fresh_told_each_phase.
Print Assumptions C66_repeated_changes_nothing.
Print Assumptions C66_never_blocks.
