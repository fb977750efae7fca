(** The invariant of the firewall holds in every history. *)
From Coq Require Import ZArith List Lia Bool.
From Verif Require Import Bytes Res Prot KMap Firewall FwSpec FwProofs FwProofs2.
Import ListNotations.
Open Scope Z_scope.

Section Inv.
  Context {D : Type}.
  Notation message := (message D). Notation fobs := (fobs D). Notation fevent := (fevent D). Notation fw := (fw D).
  Variables (d0 : bool) (until : Z) (kn : key -> bool).
  Notation KI := (KI (D := D) d0 until kn). Notation alw := (alw (D := D) until). Notation P61 := (P61 (D := D) until).

  Ltac maps := unfold view_of, put_slot, set_drop, set_allow, set_state, set_buf, set_calls;
    cbn [f_drop f_allow f_state f_buf f_calls f_nprots f_guests f_until];
    repeat rewrite ?kget_kset, ?kget_kdel, ?kslice_kset, ?kslice_kdel, ?key_eqb_refl.

  (** Observations that are of no consequence for the flow. *)
  Lemma quiet1 k (a1 a2 : list fobs) p pre c : match c with FIn _ _ | FPass _ _ => False | _ => True end ->
    passed k (a2 ++ [c]) = passed k a2 /\ arrivals d0 k p pre (a2 ++ [c]) = arrivals d0 k p pre a2.
  Proof.
    intros H. rewrite passed_app, arrivals_app. destruct c; try contradiction; cbn; rewrite !app_nil_r; auto.
  Qed.

  Lemma ki_undrop k v tr T now : T <= now -> until <= now -> v_drop v = true -> KI k v tr T ->
    KI k (mkView false (v_allow v) (v_st v) (v_buf v) (v_calls v)) (tr ++ [FUndropped now]) now.
  Proof.
    intros LT LU VD (A & B & C & E).
    assert (PH : phase k (tr ++ [FUndropped now]) = phase k tr) by (rewrite phase_snoc; reflexivity).
    assert (FL : forall t0 a (a1 a2 : list fobs), flow d0 k t0 a a1 a2 -> flow d0 k t0 a a1 (a2 ++ [FUndropped now])).
    { intros t0 a a1 a2 F. unfold flow in *. destruct (quiet1 k [] a2 1 (a1 ++ [FSet t0 k a]) (FUndropped now) I) as [-> ->].
      destruct (quiet1 k [] a2 2 (a1 ++ [FSet t0 k a]) (FUndropped now) I) as [_ ->]. rewrite existsb_app. cbn. rewrite orb_false_r. exact F. }
    split; [cbn; rewrite dropping_app; unfold dropping at 1; cbn; rewrite andb_false_r; reflexivity|]. split; [intros _; lia|]. cbn [v_calls].
    split; [apply chans_app; [exact C|reflexivity]|].
    destruct E as [(I1 & I2 & I3 & I4 & I5)|(n & s & a & t0 & a1 & a2 & X1 & X2 & X3 & X4 & -> & X6 & X7 & X8 & X9 & X10)].
    - left. unfold idle. cbn [v_allow v_st v_buf v_calls]. split; [exact I1|]. split; [exact I2|]. split; [exact I3|]. split; [exact I4|].
      destruct I5 as [(J1 & J2 & J3)|(t0 & a & a1 & a2 & -> & J2 & J3 & J4 & J5)].
      + left. rewrite PH, passed_app, existsb_app, J2, J3. auto.
      + right. exists t0, a, a1, (a2 ++ [FUndropped now]). rewrite PH, !existsb_app, J2, J4. split; [rewrite <- app_assoc; reflexivity|]. repeat split; auto.
    - right. exists n, s, a, t0, a1, (a2 ++ [FUndropped now]). cbn [v_allow v_st v_buf v_calls]. rewrite PH. split; [exact X1|]. split; [exact X2|]. split; [exact X3|]. split; [exact X4|].
      split; [rewrite <- app_assoc; reflexivity|]. rewrite !existsb_app, X6, X7. split; [reflexivity|]. split; [reflexivity|]. split; [lia|].
      split; [apply FL, X9|]. destruct (quiet1 k [] a2 1 (a1 ++ [FSet t0 k a]) (FUndropped now) I) as [-> ->]. cbn [existsb is_phase orb]. rewrite orb_false_r.
      destruct (sl_thread s) as [[|a'|a'|a'|]|]; auto.
      + destruct X10 as (-> & Y1 & Y2 & Y3 & Y4 & Y5 & Y6 & Y7). repeat split; auto; [lia|]. eapply Forall_impl; [|exact Y7].
        intros m (tm & Z1 & Z2 & Z3 & Z4). exists tm. split; [apply in_or_app; auto|]. repeat split; lia.
      + destruct X10 as (-> & Y1 & Y2 & Y3 & Y4 & Y5 & Y6). repeat split; auto; lia.
  Qed.

  Lemma ki_time k v tr T now : T <= now -> KI k v tr T -> KI k v tr now.
  Proof. intros LT H. pose proof (ki_other d0 until kn k v tr [] T now LT eq_refl H) as X. rewrite app_nil_r in X. exact X. Qed.

  (** A new call for the run. *)
  Lemma ki_allow k v tr T now a : T <= now -> kn k = true -> KI k v tr T ->
    match v_allow v with
    | Some _ => KI k (mkView (v_drop v) (v_allow v) (v_st v) (v_buf v) (v_calls v ++ [mkSlot None []])) tr now
    | None => KI k (mkView (v_drop v) (Some a) (Some fw_dropping) (v_buf v) (v_calls v ++ [mkSlot (Some FNew) []])) (tr ++ [FSet now k a]) now
    end.
  Proof.
    intros LT HK (A & B & C & E).
    destruct E as [(I1 & I2 & I3 & I4 & I5)|(n & s & a0 & t0 & a1 & a2 & X1 & X2 & X3 & X4 & -> & X6 & X7 & X8 & X9 & X10)].
    - rewrite I1. split; [cbn; rewrite dropping_app; unfold dropping at 1; cbn; rewrite andb_true_r; exact A|].
      split; [cbn; intros Y; specialize (B Y); lia|]. cbn [v_calls]. split; [apply chans_new; auto|].
      right. exists (length (v_calls v)), (mkSlot (Some FNew) []), a, now, tr, []. cbn [v_allow v_st v_buf v_calls sl_thread].
      split; [rewrite nth_error_app2, Nat.sub_diag by lia; reflexivity|].
      split. { intros m s' NE EN. destruct (Nat.lt_ge_cases m (length (v_calls v))) as [L|L].
        - rewrite nth_error_app1 in EN by exact L. eapply I4, EN.
        - rewrite nth_error_app2 in EN by exact L. assert (m - length (v_calls v) <> 0)%nat by lia. destruct (m - length (v_calls v))%nat as [|[|]]; [lia|discriminate EN|discriminate EN]. }
      split; [reflexivity|]. split; [exact HK|]. split; [reflexivity|]. split; [reflexivity|]. split; [reflexivity|]. split; [lia|].
      split; [reflexivity|]. rewrite phase_snoc, key_eqb_refl. auto 10.
    - rewrite X3. apply (ki_time k _ _ T now LT). split; [exact A|]. split; [exact B|]. cbn [v_calls].
      split. { pose proof (chans_new k _ _ [] None C (fun _ => eq_refl) (or_introl eq_refl)) as Y. rewrite app_nil_r in Y. exact Y. }
      right. exists n, s, a0, t0, a1, a2. cbn [v_allow v_st v_buf v_calls].
      assert (L : (n < length (v_calls v))%nat) by (apply nth_error_Some; congruence).
      split; [rewrite nth_error_app1 by exact L; exact X1|].
      split. { intros m s' NE EN. destruct (Nat.lt_ge_cases m (length (v_calls v))) as [L'|L'].
        - rewrite nth_error_app1 in EN by exact L'. eapply X2; [exact NE|exact EN].
        - rewrite nth_error_app2 in EN by exact L'. destruct (m - length (v_calls v))%nat as [|[|]]; try discriminate EN. injection EN as <-. left. reflexivity. }
      repeat split; auto.
  Qed.

  (** The goroutine of the run goes on. *)
  Definition live (s : slot) : Prop := ~ dead s.
  Lemma wake_ok k (f f' : fw) n now o tr T : T <= now -> KI k (view_of k f) tr T -> fw_state_step f now k n = Ok (f', o) ->
    (forall m, In m (kslice (f_buf f) k) -> key_of m = k) ->
    KI k (view_of k f') (tr ++ o) now /\ alw tr o.
  Proof.
    intros LT HKI HS HB. unfold fw_state_step in HS.
    assert (SAME : KI k (view_of k f) (tr ++ []) now /\ alw tr []).
    { split; [rewrite app_nil_r; eapply ki_time; eassumption|apply alw_nopass; constructor]. }
    destruct (nth_error (kslice (f_calls f) k) n) as [s|] eqn:EN; [|injection HS as <- <-; exact SAME].
    destruct (sl_thread s) as [t|] eqn:ET; [|injection HS as <- <-; exact SAME].
    destruct (match t with FEnd => true | _ => false end) eqn:TE; [destruct t; try discriminate TE; injection HS as <- <-; exact SAME|].
    pose proof HKI as (A & B & C & E). destruct E as [(I1 & I2 & I3 & I4 & I5)|E].
    { exfalso. destruct (I4 n s EN) as [X|X]; rewrite ET in X; [discriminate|]. injection X as ->. discriminate TE. }
    destruct E as (n0 & s0 & a & t0 & a1 & a2 & X1 & X2 & X3 & X4 & E5 & X6 & X7 & X8 & X9 & X10).
    assert (n0 = n). { destruct (Nat.eq_dec n n0) as [|NE]; [auto|]. exfalso. destruct (X2 n s NE EN) as [X|X]; rewrite ET in X; [discriminate|]. injection X as ->. discriminate TE. }
    subst n0. cbn [view_of v_calls] in X1. rewrite EN in X1. injection X1 as <-. rewrite ET in X10.
    cbn [view_of v_drop v_allow v_st v_buf v_calls] in A, B, C, X2, X3, X10.
    pose proof (C n) as Cn. rewrite EN in Cn. destruct Cn as [_ CL]. unfold done in CL. rewrite ET in CL.
    assert (OTH : forall s' m s'', m <> n -> nth_error (put (kslice (f_calls f) k) n s') m = Some s'' -> dead s'').
    { intros s' m s'' NE. rewrite put_nth. destruct (Nat.eqb_spec m n); [contradiction|]. intros Y. exact (X2 m s'' NE Y). }
    assert (OWN : forall s', nth_error (put (kslice (f_calls f) k) n s') n = Some s').
    { intros s'. rewrite put_nth, Nat.eqb_refl, (nth_lt _ _ _ EN). reflexivity. }
    assert (FLQ : forall c : fobs, match c with FIn _ _ | FPass _ _ | FPhase _ _ 2 => False | _ => True end -> forall b2 : list fobs, flow d0 k t0 a a1 b2 -> flow d0 k t0 a a1 (b2 ++ [c])).
    { intros c Hc b2 F. unfold flow in *. assert (Hc' : match c with FIn _ _ | FPass _ _ => False | _ => True end) by (destruct c; auto).
      destruct (quiet1 k [] b2 1 (a1 ++ [FSet t0 k a]) c Hc') as [-> ->]. destruct (quiet1 k [] b2 2 (a1 ++ [FSet t0 k a]) c Hc') as [_ ->].
      rewrite existsb_app. replace (existsb (is_phase k 2) [c]) with false; [rewrite orb_false_r; exact F|].
      destruct c as [| | |? k' q| |]; try contradiction; try reflexivity. cbn. destruct (Z.eqb_spec q 2) as [->|]; [contradiction|rewrite andb_false_r; reflexivity]. }
    destruct t as [|a'|a'|a'|]; try discriminate TE.
    - (* reads its allowance *)
      injection HS as <- <-. rewrite app_nil_r. split; [|apply alw_nopass; constructor]. rewrite X3. apply (ki_time k _ _ T now LT).
      destruct X10 as (Y1 & Y2 & Y3 & Y4 & Y5 & Y6). maps. split; [exact A|]. split; [exact B|]. cbn [v_calls].
      split. { rewrite <- (app_nil_r tr). eapply chans_put; [exact C|exact EN|reflexivity|unfold done; rewrite ET; reflexivity|]. unfold done. cbn. lia. }
      right. exists n, (mkSlot (Some (FBuf a)) (sl_chan s)), a, t0, a1, a2. cbn [v_allow v_st v_buf v_calls sl_thread].
      split; [apply OWN|]. split; [apply OTH|]. repeat split; auto.
    - (* buffering *)
      destruct X10 as (-> & Y1 & Y2 & Y3 & Y4 & Y5 & Y6). destruct (Z.ltb_spec now (al_buf a)) as [L|L]; [injection HS as <- <-; exact SAME|].
      unfold told in HS. destruct (Nat.ltb_spec (length (sl_chan s)) nfw) as [LC|LC]; [|unfold nfw in LC; lia]. cbn [rbind] in HS. injection HS as <- <-.
      split; [|apply alw_nopass; repeat constructor]. maps. set (o := [FPhase now k fw_buffering; FTold now k n fw_buffering]).
      assert (TO : tr ++ o = a1 ++ FSet t0 k a :: (a2 ++ [FPhase now k fw_buffering]) ++ [FTold now k n fw_buffering]).
      { rewrite E5. unfold o. rewrite <- !app_assoc. reflexivity. }
      split; [cbn [v_drop]; rewrite dropping_app; unfold dropping at 1; cbn; rewrite andb_true_r; exact A|]. split; [cbn; intros Z0; specialize (B Z0); lia|]. cbn [v_calls].
      split. { eapply chans_put; [exact C|exact EN| | |].
        - intros n' NE. cbn. rewrite key_eqb_refl. destruct (Nat.eqb_spec n n'); [contradiction|reflexivity].
        - unfold done. rewrite ET. cbn. rewrite key_eqb_refl, Nat.eqb_refl. reflexivity.
        - unfold done. cbn. rewrite app_length. cbn. lia. }
      right. exists n, (mkSlot (Some (FStart a)) (sl_chan s ++ [fw_buffering])), a, t0, a1, ((a2 ++ [FPhase now k fw_buffering]) ++ [FTold now k n fw_buffering]).
      cbn [v_allow v_st v_buf v_calls sl_thread]. split; [apply OWN|]. split; [apply OTH|]. split; [exact X3|]. split; [exact X4|]. split; [exact TO|].
      rewrite !existsb_app, X6, X7, Y4. cbn. rewrite key_eqb_refl. cbn. split; [reflexivity|]. split; [reflexivity|]. split; [lia|].
      split; [apply FLQ; [exact I|]; apply FLQ; [exact I|exact X9]|].
      split; [reflexivity|]. split; [reflexivity|]. split; [unfold o; change [FPhase now k fw_buffering; FTold now k n fw_buffering] with ([FPhase now k fw_buffering] ++ [FTold (D := D) now k n fw_buffering]); rewrite app_assoc, phase_snoc, phase_snoc, key_eqb_refl; reflexivity|].
      split; [lia|]. split; [reflexivity|].
      rewrite !passed_app, Y5. split; [reflexivity|]. rewrite Y3.
      rewrite !(arrivals_app _ _ _ (_ ++ _)), !(arrivals_app _ _ _ a2), Y6. cbn. split; [reflexivity|constructor].
    - (* forwarding *)
      destruct X10 as (-> & Y1 & Y2 & Y3 & Y4 & Y5 & Y6 & Y7). destruct (Z.ltb_spec now (al_start a)) as [L|L]; [injection HS as <- <-; exact SAME|].
      unfold told in HS. destruct (Nat.ltb_spec (length (sl_chan s)) nfw) as [LC|LC]; [|unfold nfw in LC; lia]. cbn [rbind fw_flush fst snd] in HS. injection HS as <- <-.
      set (bf := kslice (f_buf f) k) in *. set (ps := map (FPass now) bf).
      assert (PP : passed k ps = bf). { unfold ps. clear - HB. induction bf as [|m l IH]; [reflexivity|]. cbn. rewrite (HB m (or_introl eq_refl)), key_eqb_refl. cbn. f_equal. apply IH. intros m' Hm. apply HB. right. exact Hm. }
      assert (PA : forall p pre, arrivals d0 k p pre ps = []). { unfold ps. clear. induction bf as [|m l IH]; intros p pre; [reflexivity|]. cbn. apply IH. }
      assert (PS : existsb (is_set k) ps = false) by (unfold ps; clear; induction bf; [reflexivity|exact IHbf]).
      assert (PF : forall p, existsb (is_phase k p) ps = false) by (intros p; unfold ps; clear; induction bf; [reflexivity|exact IHbf]).
      assert (PD : forall x, dropping x ps = x) by (intros x; unfold dropping, ps; clear; induction bf; [cbn; apply andb_true_r|exact IHbf]).
      assert (PT : forall n', told_to k n' ps = []) by (intros n'; unfold ps; clear; induction bf; [reflexivity|exact IHbf]).
      split.
      + maps. set (o := [FPhase now k fw_forwarding; FTold now k n fw_forwarding]).
        assert (TO : tr ++ ps ++ o = a1 ++ FSet t0 k a :: (a2 ++ ps ++ o)). { rewrite E5, <- !app_assoc. reflexivity. }
        split; [cbn [v_drop]; rewrite !dropping_app, PD; unfold dropping at 1; cbn; rewrite andb_true_r; exact A|]. split; [cbn; intros Z0; specialize (B Z0); lia|]. cbn [v_calls].
        split. { eapply chans_put; [exact C|exact EN| | |].
          - intros n' NE. rewrite told_app, PT. cbn. rewrite key_eqb_refl. destruct (Nat.eqb_spec n n'); [contradiction|reflexivity].
          - rewrite told_app, PT. unfold done. rewrite ET. cbn. rewrite key_eqb_refl, Nat.eqb_refl. reflexivity.
          - unfold done. cbn. rewrite app_length. cbn. lia. }
        right. exists n, (mkSlot (Some (FStop a)) (sl_chan s ++ [fw_forwarding])), a, t0, a1, (a2 ++ ps ++ o).
        cbn [v_allow v_st v_buf v_calls sl_thread]. split; [apply OWN|]. split; [apply OTH|]. split; [exact X3|]. split; [exact X4|]. split; [exact TO|].
        rewrite !existsb_app, X6, X7, PS, !PF, Y4. cbn. rewrite key_eqb_refl. cbn. split; [reflexivity|]. split; [reflexivity|]. split; [lia|].
        split. { unfold flow in *. rewrite !passed_app, !existsb_app, Y5, PP, PF, Y4, !arrivals_app, !PA. cbn. rewrite key_eqb_refl. cbn. rewrite !app_nil_r.
          rewrite Y4, Y5 in X9. cbn in X9. rewrite <- X9, app_nil_r. exact Y6. }
        split; [reflexivity|]. split; [reflexivity|]. split; [|repeat split; lia].
        unfold o. rewrite app_assoc. change [FPhase now k fw_forwarding; FTold now k n fw_forwarding] with ([FPhase now k fw_forwarding] ++ [FTold (D := D) now k n fw_forwarding]).
        rewrite app_assoc, phase_snoc, phase_snoc, key_eqb_refl. reflexivity.
      + apply alw_app; [|apply alw_nopass; repeat constructor]. intros x c y EQ.
        assert (HX : exists x' m y', c = FPass now m /\ x = map (FPass now) x' /\ bf = x' ++ m :: y').
        { clear - EQ. unfold ps in EQ. revert x EQ. induction bf as [|m l IH]; intros x EQ; [destruct x; discriminate EQ|]. destruct x as [|z x].
          - injection EQ as <- _. exists [], m, l. auto.
          - injection EQ as <- EQ. destruct (IH x EQ) as (x' & m' & y' & -> & -> & ->). exists (m :: x'), m', y'. auto. }
        destruct HX as (x' & m & y' & -> & -> & EB). cbn [FwProofs2.P61].
        assert (KM : key_of m = k). { apply HB. rewrite EB. apply in_or_app. right. left. reflexivity. }
        assert (AM : arrived until a t0 T a2 m). { rewrite Forall_forall in Y7. apply Y7. rewrite EB. apply in_or_app. right. left. reflexivity. }
        destruct AM as (tm & Z1 & Z2 & Z3 & Z4). rewrite KM. exists t0, a, a1, (a2 ++ map (FPass now) x'), tm.
        split; [rewrite E5, <- app_assoc; reflexivity|]. rewrite !existsb_app, X6, X7.
        split; [clear; induction x'; [reflexivity|exact IHx']|]. split; [clear; induction x'; [reflexivity|exact IHx']|].
        split; [apply in_or_app; auto|]. repeat split; lia.
    - (* stopped *)
      destruct X10 as (-> & Y1 & Y2 & Y3 & Y4 & Y5 & Y6). destruct (Z.ltb_spec now (al_stop a)) as [L|L]; [injection HS as <- <-; exact SAME|].
      unfold told in HS. destruct (Nat.ltb_spec (length (sl_chan s)) nfw) as [LC|LC]; [|unfold nfw in LC; lia]. cbn [rbind] in HS. injection HS as <- <-.
      split; [|apply alw_nopass; repeat constructor]. maps. set (o := [FPhase now k fw_stopped; FTold now k n fw_stopped]).
      split; [cbn [v_drop]; rewrite dropping_app; unfold dropping at 1; cbn; rewrite andb_true_r; exact A|]. split; [cbn; intros Z0; specialize (B Z0); lia|]. cbn [v_calls].
      split. { eapply chans_put; [exact C|exact EN| | |].
        - intros n' NE. cbn. rewrite key_eqb_refl. destruct (Nat.eqb_spec n n'); [contradiction|reflexivity].
        - unfold done. rewrite ET. cbn. rewrite key_eqb_refl, Nat.eqb_refl. reflexivity.
        - unfold done. cbn. rewrite app_length. cbn. lia. }
      left. split; [reflexivity|]. split; [reflexivity|]. split; [exact Y5|]. cbn [v_calls].
      split. { intros m s' EM. destruct (Nat.eq_dec m n) as [->|NE]; [|eapply OTH; eassumption]. rewrite OWN in EM. injection EM as <-. right. reflexivity. }
      right. exists t0, a, a1, ((a2 ++ [FPhase now k fw_stopped]) ++ [FTold now k n fw_stopped]).
      split; [rewrite E5; unfold o; rewrite <- !app_assoc; reflexivity|]. rewrite !existsb_app, X6. cbn. rewrite key_eqb_refl. cbn. rewrite orb_true_r. split; [reflexivity|].
      split; [unfold o; change [FPhase now k fw_stopped; FTold now k n fw_stopped] with ([FPhase now k fw_stopped] ++ [FTold (D := D) now k n fw_stopped]); rewrite app_assoc, phase_snoc, phase_snoc, key_eqb_refl; reflexivity|].
      split; [reflexivity|]. apply FLQ; [exact I|]; apply FLQ; [exact I|exact X9].
  Qed.

  Lemma recv_ok k (f : fw) n now tr T : T <= now -> KI k (view_of k f) tr T -> KI k (view_of k (fw_recv f k n)) tr now.
  Proof.
    intros LT HKI. unfold fw_recv. destruct (nth_error (kslice (f_calls f) k) n) as [s|] eqn:EN; [|eapply ki_time; eassumption].
    apply (ki_time k _ _ T now LT). destruct HKI as (A & B & C & E). cbn [view_of v_drop v_allow v_st v_buf v_calls] in A, B, C. maps.
    set (s1 := mkSlot (sl_thread s) (tl (sl_chan s))).
    pose proof (C n) as Cn. rewrite EN in Cn. destruct Cn as [C1 C2].
    split; [exact A|]. split; [exact B|]. cbn [v_calls]. split.
    { rewrite <- (app_nil_r tr). eapply chans_put; [exact C|exact EN|reflexivity|cbn; apply app_nil_r|]. change (done s1) with (done s).
      cbn. destruct (sl_chan s); cbn in *; lia. }
    assert (DD : forall m s', nth_error (put (kslice (f_calls f) k) n s1) m = Some s' -> exists s0, nth_error (kslice (f_calls f) k) m = Some s0 /\ sl_thread s' = sl_thread s0).
    { intros m s'. rewrite put_nth. destruct (Nat.eqb_spec m n) as [->|]; [|intros Y; exists s'; auto]. rewrite (nth_lt _ _ _ EN). intros Y. injection Y as <-. exists s. auto. }
    destruct E as [(I1 & I2 & I3 & I4 & I5)|(n0 & s0 & a & t0 & a1 & a2 & X1 & X2 & X3 & X4 & E5 & X6 & X7 & X8 & X9 & X10)].
    - left. split; [exact I1|]. split; [exact I2|]. split; [exact I3|]. split; [|exact I5]. cbn [v_calls]. intros m s' Hm. destruct (DD m s' Hm) as (s0 & Y & Z0).
      unfold dead. rewrite Z0. exact (I4 m s0 Y).
    - right. cbn [view_of v_drop v_allow v_st v_buf v_calls] in *.
      exists n0, (if Nat.eqb n0 n then s1 else s0), a, t0, a1, a2. cbn [v_drop v_allow v_st v_buf v_calls].
      split. { rewrite put_nth. destruct (Nat.eqb_spec n0 n) as [->|]; [rewrite (nth_lt _ _ _ EN); reflexivity|exact X1]. }
      split. { intros m s' NE Hm. destruct (DD m s' Hm) as (s2 & Y & Z0). unfold dead. rewrite Z0. exact (X2 m s2 NE Y). }
      split; [exact X3|]. split; [exact X4|]. split; [exact E5|]. split; [exact X6|]. split; [exact X7|]. split; [exact X8|]. split; [exact X9|].
      replace (sl_thread (if Nat.eqb n0 n then s1 else s0)) with (sl_thread s0); [exact X10|].
      destruct (Nat.eqb_spec n0 n) as [->|]; [|reflexivity]. rewrite EN in X1. injection X1 as <-. reflexivity.
  Qed.

  Definition tidy_buf (f : fw) : Prop := forall k m, In m (kslice (f_buf f) k) -> key_of m = k.
  Definition sound (f : fw) (tr : list fobs) (T : Z) : Prop :=
    tidy_buf f /\ (forall k, kn k = known f (k_pc k) (k_guest k)) /\ f_until f = until /\ forall k, KI k (view_of k f) tr T.

  Lemma step_sound (f f' : fw) ev o tr T : T <= time_of ev -> sound f tr T -> fstep f ev = Ok (f', o) ->
    sound f' (tr ++ o) (time_of ev) /\ alw tr o.
  Proof.
    intros LT (HB & HK & HU & HI) HS.
    assert (CO : consts f' = consts f).
    { destruct (about (mkKey 0 0 []) ev) eqn:EA; [|exact (proj2 (proj2 (step_other _ f f' ev o HB EA HS)))].
      clear EA. destruct ev as [now m|now|now k' a|now k' n|now k' n]; cbn [fstep] in HS.
      - injection HS as <- _. unfold fw_process; change (@fw_key) with (@key_of). destruct (_ || _); [reflexivity|]. destruct (kget _ _) as [st|]; [|reflexivity]. destruct (st =? _); [destruct (_ <? _); reflexivity|destruct (st =? _); reflexivity].
      - destruct (_ && _); injection HS as <- _; reflexivity.
      - unfold fw_set_allowance in HS. destruct (negb _); [discriminate|]. destruct (kget _ _); injection HS as <- _; reflexivity.
      - unfold fw_state_step in HS. destruct (nth_error _ n) as [s|]; [|injection HS as <- _; reflexivity].
        destruct (sl_thread s) as [[|a|a|a|]|]; try (injection HS as <- _; reflexivity); destruct (_ <? _); try (injection HS as <- _; reflexivity);
          destruct (told _ _); try discriminate; injection HS as <- _; reflexivity.
      - injection HS as <- _. unfold fw_recv. destruct (nth_error _ n); reflexivity. }
    assert (KN : forall k, kn k = known f' (k_pc k) (k_guest k)).
    { intros k. rewrite HK. unfold known. unfold consts in CO. injection CO as -> -> _. reflexivity. }
    assert (UN : f_until f' = until) by (unfold consts in CO; congruence).
    assert (MAIN : forall k, about k ev = true -> KI k (view_of k f') (tr ++ o) (time_of ev) /\ alw tr o).
    { intros k HA. specialize (HI k). destruct ev as [now m|now|now k' a|now k' n|now k' n]; cbn [about] in HA; cbn [fstep time_of] in *.
      - destruct (key_eqb_spec (key_of m) k) as [<-|]; [|discriminate]. injection HS as <- <-.
        assert (BN : fw_message_valid f m = kn (key_of m)) by (rewrite HK; reflexivity).
        apply ki_in with (kn := kn) (T := T) (v := view_of (key_of m) f); [exact LT|exact HI|].
        unfold fw_process; change (@fw_key) with (@key_of). rewrite BN. change (v_drop (view_of (key_of m) f)) with (f_drop f).
        change (v_st (view_of (key_of m) f)) with (kget (f_state f) (key_of m)). change (v_buf (view_of (key_of m) f)) with (kslice (f_buf f) (key_of m)).
        destruct (_ || _); [auto|]. destruct (kget (f_state f) (key_of m)) as [st|] eqn:ES; [|auto].
        destruct (st =? _); [destruct (_ <? _); [split; [|reflexivity]; cbn; rewrite <- ES; maps; reflexivity|auto]|]. destruct (st =? _); auto.
      - destruct (f_drop f) eqn:ED; cbn [andb] in HS; [destruct (Z.leb_spec (f_until f) now) as [L|L]|]; injection HS as <- <-.
        + split; [|apply alw_nopass; repeat constructor]. apply (ki_undrop k (view_of k f) tr T now LT); [lia|exact ED|exact HI].
        + split; [|apply alw_nopass; constructor]. rewrite app_nil_r. eapply ki_time; eassumption.
        + split; [|apply alw_nopass; constructor]. rewrite app_nil_r. eapply ki_time; eassumption.
      - destruct (key_eqb_spec k' k) as [->|]; [|discriminate]. unfold fw_set_allowance in HS. rewrite <- HK in HS. destruct (kn k) eqn:EK; cbn [negb] in HS; [|discriminate].
        pose proof (ki_allow k (view_of k f) tr T now a LT EK HI) as X. change (v_allow (view_of k f)) with (kget (f_allow f) k) in X.
        destruct (kget (f_allow f) k) as [a0|] eqn:EA; injection HS as <- <-; (split; [|apply alw_nopass; repeat constructor]).
        + rewrite app_nil_r. revert X. maps. rewrite EA. exact (fun x => x).
        + revert X. maps. exact (fun x => x).
      - destruct (key_eqb_spec k' k) as [->|]; [|discriminate]. eapply wake_ok; [exact LT|exact HI|exact HS|apply HB].
      - destruct (key_eqb_spec k' k) as [->|]; [|discriminate]. injection HS as <- <-. split; [|apply alw_nopass; constructor]. rewrite app_nil_r. eapply recv_ok; eassumption. }
    split.
    - split; [exact (step_keys f f' ev o HB HS)|]. split; [exact KN|]. split; [exact UN|]. intros k. destruct (about k ev) eqn:EA; [apply (MAIN k EA)|].
      destruct (step_other k f f' ev o HB EA HS) as (-> & EF & _). eapply ki_other; [exact LT|exact EF|apply HI].
    - destruct ev as [now m|now|now k' a|now k' n|now k' n].
      + apply (MAIN (key_of m)). cbn. apply key_eqb_refl.
      + apply (MAIN (mkKey 0 0 [])). reflexivity.
      + apply (MAIN k'). cbn. apply key_eqb_refl.
      + apply (MAIN k'). cbn. apply key_eqb_refl.
      + apply (MAIN k'). cbn. apply key_eqb_refl.
  Qed.

  (** A step never blocks on a full channel. *)
  Lemma step_noerr (f : fw) ev tr T : sound f tr T -> fstep f ev <> Err.
  Proof.
    intros (HB & HK & HU & HI). destruct ev as [now m|now|now k a|now k n|now k n]; cbn [fstep]; try discriminate.
    - destruct (_ && _); discriminate.
    - unfold fw_set_allowance. destruct (negb _); [discriminate|]. destruct (kget _ _); discriminate.
    - destruct (HI k) as (_ & _ & C & _). specialize (C n). cbn [view_of v_calls] in C. unfold fw_state_step.
      destruct (nth_error (kslice (f_calls f) k) n) as [s|]; [|discriminate]. destruct C as [_ CL]. unfold done in CL. unfold told.
      destruct (sl_thread s) as [[|a|a|a|]|]; try discriminate; destruct (_ <? _); try discriminate;
        (destruct (Nat.ltb_spec (length (sl_chan s)) nfw) as [L|L]; [discriminate|unfold nfw in L; lia]).
  Qed.
  Lemma step_panic (f : fw) ev : fstep f ev = Panic -> exists now k a, ev = EvAllow now k a /\ known f (k_pc k) (k_guest k) = false.
  Proof.
    destruct ev as [now m|now|now k a|now k n|now k n]; cbn [fstep]; try discriminate.
    - destruct (_ && _); discriminate.
    - unfold fw_set_allowance. destruct (known f (k_pc k) (k_guest k)) eqn:E; [|intros _; exists now, k, a; auto]. cbn. destruct (kget _ _); discriminate.
    - unfold fw_state_step, told. destruct (nth_error _ n) as [s|]; [|discriminate]. destruct (sl_thread s) as [[|a|a|a|]|]; try discriminate; destruct (_ <? _); try discriminate;
        destruct (Nat.ltb _ _); discriminate.
  Qed.

  Fixpoint last_time (T : Z) (evs : list fevent) : Z := match evs with [] => T | ev :: l => last_time (time_of ev) l end.
  Lemma exec_sound evs : forall (f f' : fw) o tr T, clock T evs -> sound f tr T -> fexec f evs = Ok (f', o) ->
    sound f' (tr ++ o) (last_time T evs) /\ alw tr o.
  Proof.
    induction evs as [|ev l IH]; intros f f' o tr T HC HS HE; cbn in HE.
    - injection HE as <- <-. rewrite app_nil_r. split; [exact HS|]. apply alw_nopass. constructor.
    - destruct (fstep f ev) as [[f1 o1]| |] eqn:E1; try discriminate. cbn in HE. destruct (fexec f1 l) as [[f2 o2]| |] eqn:E2; try discriminate. cbn in HE.
      injection HE as <- <-. destruct HC as [LT HC]. destruct (step_sound f f1 ev o1 tr T LT HS E1) as [S1 A1].
      destruct (IH f1 f2 o2 (tr ++ o1) (time_of ev) HC S1 E2) as [S2 A2]. rewrite app_assoc. split; [exact S2|]. apply alw_app; assumption.
  Qed.
  Lemma exec_noerr evs : forall (f : fw) tr T, clock T evs -> sound f tr T -> fexec f evs <> Err.
  Proof.
    induction evs as [|ev l IH]; intros f tr T HC HS; cbn; [discriminate|]. destruct HC as [LT HC].
    pose proof (step_noerr f ev tr T HS) as NE. destruct (fstep f ev) as [[f1 o1]| |] eqn:E1; [|congruence|discriminate]. cbn.
    destruct (step_sound f f1 ev o1 tr T LT HS E1) as [S1 _]. specialize (IH f1 _ _ HC S1). destruct (fexec f1 l) as [[f2 o2]| |]; [discriminate|congruence|discriminate].
  Qed.
  Lemma exec_panic evs : forall (f : fw) tr T, clock T evs -> sound f tr T -> fexec f evs = Panic ->
    exists now k a, In (EvAllow now k a) evs /\ kn k = false.
  Proof.
    induction evs as [|ev l IH]; intros f tr T HC HS; cbn; [discriminate|]. destruct HC as [LT HC].
    destruct (fstep f ev) as [[f1 o1]| |] eqn:E1; [|discriminate|].
    - cbn. destruct (step_sound f f1 ev o1 tr T LT HS E1) as [S1 _]. specialize (IH f1 _ _ HC S1). destruct (fexec f1 l) as [[f2 o2]| |]; [discriminate|discriminate|].
      intros _. destruct (IH eq_refl) as (now & k & a & H1 & H2). exists now, k, a. auto.
    - intros _. destruct (step_panic f ev E1) as (now & k & a & -> & H). exists now, k, a. split; [auto|]. destruct HS as (_ & HK & _). rewrite HK. exact H.
  Qed.
  Lemma fexec_app (f : fw) a b : fexec f (a ++ b) = (x <- fexec f a ;; y <- fexec (fst x) b ;; Ok (fst y, snd x ++ snd y)).
  Proof.
    revert f. induction a as [|ev l IH]; intros f; cbn; [destruct (fexec f b) as [[g o]| |]; reflexivity|].
    destruct (fstep f ev) as [[f1 o1]| |]; try reflexivity. cbn. rewrite IH. destruct (fexec f1 l) as [[f2 o2]| |]; try reflexivity. cbn.
    destruct (fexec f2 b) as [[f3 o3]| |]; try reflexivity. cbn. rewrite app_assoc. reflexivity.
  Qed.
End Inv.

(** The firewall as made. *)
Lemma made_sound {D} nprots guests until now0 :
  sound (D := D) (now0 <? until) until (fun k => known (make_fw (D := D) nprots guests until now0) (k_pc k) (k_guest k)) (make_fw nprots guests until now0) [] now0.
Proof.
  split; [intros k m []|]. split; [reflexivity|]. split; [reflexivity|]. intros k. split; [cbn; rewrite ?andb_true_r; unfold dropping; cbn; rewrite andb_true_r; reflexivity|].
  split; [cbn; intros H; apply Z.ltb_ge in H; lia|]. split; [intros [|n]; reflexivity|]. left. split; [reflexivity|]. split; [reflexivity|]. split; [reflexivity|].
  split; [intros [|n] s Hn; discriminate Hn|]. left. auto.
Qed.
