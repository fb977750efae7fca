(** Calls of fw_set_allowance, isolation of runs, and cutting traces. *)
From Coq Require Import ZArith List Lia Bool.
From Verif Require Import Bytes Res Prot KMap Firewall FwSpec FwProofs FwProofs2 FwProofs3.
Import ListNotations.
Open Scope Z_scope.

Section Calls.
  Context {D : Type}.
  Notation message := (message D). Notation fobs := (fobs D). Notation fevent := (fevent D). Notation fw := (fw D).
  Variables (d0 : bool) (until : Z) (kn : key -> bool).
  Notation sound := (sound (D := D) d0 until kn).

  (** Where the goroutine of the n-th call for [k], started with allowance [a], is. *)
  Definition rank (t : fwloc) : nat := match t with FNew => 0 | FBuf _ => 1 | FStart _ => 2 | FStop _ => 3 | FEnd => 4 end.
  Definition at_rank (a : allowance) (k : key) (n : nat) (f : fw) (r : nat) : Prop :=
    exists s t, nth_error (kslice (f_calls f) k) n = Some s /\ sl_thread s = Some t /\ rank t = r /\
      match t with FNew => kget (f_allow f) k = Some a | FBuf a' | FStart a' | FStop a' => a' = a | FEnd => True end.
  Definition hit (k : key) (n : nat) (f : fw) : Prop :=
    exists s, nth_error (kslice (f_calls f) k) n = Some s /\ sl_thread s = None.

  Definition late_wake (a : allowance) (k : key) (n : nat) (ev : fevent) : bool :=
    match ev with
    | EvWake t k' n' => key_eqb k' k && Nat.eqb n' n && (al_buf a <=? t) && (al_start a <=? t) && (al_stop a <=? t)
    | _ => false end.

  Lemma hit_step k n (f f' : fw) ev o tr T : sound f tr T -> hit k n f -> fstep f ev = Ok (f', o) -> hit k n f'.
  Proof.
    intros (HB & HK & HU & HI) (s & EN & ET) HS. destruct (about k ev) eqn:EA.
    2:{ destruct (step_other k f f' ev o HB EA HS) as (V & _ & _). exists s. split; [|exact ET]. unfold view_of in V. injection V as _ _ _ _ ->. exact EN. }
    destruct ev as [now m|now|now k' a|now k' m|now k' m]; cbn [about] in EA; cbn [fstep] in HS.
    - injection HS as <- _. exists s. split; [|exact ET]. unfold fw_process; change (@fw_key) with (@key_of). destruct (_ || _); [exact EN|]. destruct (kget _ _) as [st|]; [|exact EN]. destruct (st =? _); [destruct (_ <? _); exact EN|]. destruct (st =? _); exact EN.
    - destruct (_ && _); injection HS as <- _; exists s; auto.
    - destruct (key_eqb_spec k' k) as [->|]; [|discriminate]. unfold fw_set_allowance in HS. destruct (negb _); [discriminate|].
      assert (L : (n < length (kslice (f_calls f) k))%nat) by (apply nth_error_Some; congruence).
      destruct (kget _ _); injection HS as <- _; exists s; (split; [|exact ET]); cbn; rewrite kslice_kset, key_eqb_refl, nth_error_app1 by exact L; exact EN.
    - destruct (key_eqb_spec k' k) as [->|]; [|discriminate]. unfold fw_state_step in HS.
      destruct (Nat.eq_dec m n) as [->|NE].
      { rewrite EN, ET in HS. injection HS as <- _. exists s. auto. }
      assert (X : forall g s', f_calls g = f_calls f -> hit k n (put_slot g k m s')).
      { intros g s' EG. exists s. split; [|exact ET]. cbn. rewrite EG, kslice_kset, key_eqb_refl, put_nth. destruct (Nat.eqb_spec n m); [congruence|exact EN]. }
      destruct (nth_error (kslice (f_calls f) k) m) as [s1|]; [|injection HS as <- _; exists s; auto].
      destruct (sl_thread s1) as [[|b|b|b|]|]; try (injection HS as <- _; try (exists s; auto; fail); apply X; reflexivity);
        destruct (_ <? _); try (injection HS as <- _; exists s; auto; fail); destruct (told _ _); try discriminate; injection HS as <- _; apply X; reflexivity.
    - destruct (key_eqb_spec k' k) as [->|]; [|discriminate]. injection HS as <- _. unfold fw_recv.
      destruct (nth_error (kslice (f_calls f) k) m) as [s1|] eqn:EM; [|exists s; auto].
      destruct (Nat.eq_dec m n) as [->|NE].
      + rewrite EN in EM. injection EM as <-. exists (mkSlot (sl_thread s) (tl (sl_chan s))). split; [|exact ET]. cbn. rewrite kslice_kset, key_eqb_refl, put_nth, Nat.eqb_refl, (nth_lt _ _ _ EN). reflexivity.
      + exists s. split; [|exact ET]. cbn. rewrite kslice_kset, key_eqb_refl, put_nth. destruct (Nat.eqb_spec n m); [congruence|exact EN].
  Qed.

  (** A live goroutine is the one of the allowance in place. *)
  Lemma live_one k n (f : fw) tr T s t : sound f tr T -> nth_error (kslice (f_calls f) k) n = Some s -> sl_thread s = Some t -> t <> FEnd ->
    (exists a, kget (f_allow f) k = Some a) /\ (forall m s', m <> n -> nth_error (kslice (f_calls f) k) m = Some s' -> dead s').
  Proof.
    intros (HB & HK & HU & HI) EN ET NE. destruct (HI k) as (_ & _ & _ & [(_ & _ & _ & I4 & _)|(n0 & s0 & a & t0 & a1 & a2 & X1 & X2 & X3 & _)]).
    - exfalso. destruct (I4 n s EN) as [X|X]; congruence.
    - cbn [view_of v_calls v_allow] in X1, X2, X3. assert (n = n0). { destruct (Nat.eq_dec n n0) as [|Y]; [auto|]. exfalso. destruct (X2 n s Y EN) as [X|X]; congruence. }
      subst n0. split; [exists a; exact X3|exact X2].
  Qed.

  Lemma rank_step a k n (f f' : fw) ev o tr T r : sound f tr T -> at_rank a k n f r -> fstep f ev = Ok (f', o) ->
    exists r', at_rank a k n f' r' /\ (r <= r')%nat /\ (late_wake a k n ev = true -> (r' >= Nat.min 4 (S r))%nat).
  Proof.
    intros HSO (s & t & EN & ET & ER & HT) HS. pose proof HSO as (HB & HK & HU & HI). destruct (about k ev) eqn:EA.
    2:{ destruct (step_other k f f' ev o HB EA HS) as (V & _ & _). exists r. unfold view_of in V. injection V as _ V2 _ _ V5. split; [|split; [lia|]].
        - exists s, t. rewrite V2, V5. auto.
        - destruct ev; try discriminate. cbn in EA |- *. rewrite EA. discriminate. }
    assert (KEEP : forall g, f_calls g = f_calls f -> f_allow g = f_allow f -> at_rank a k n g r) by (intros g G1 G2; exists s, t; rewrite G1, G2; auto).
    assert (NOW : forall b, late_wake a k n ev = b -> b = false -> forall r', late_wake a k n ev = true -> (r' >= Nat.min 4 (S r))%nat) by (intros b <- -> r' X; discriminate X).
    destruct ev as [now m|now|now k' a'|now k' m|now k' m]; cbn [about] in EA; cbn [fstep] in HS.
    - injection HS as <- _. exists r. split; [|split; [lia|apply (NOW _ eq_refl eq_refl)]]. unfold fw_process; change (@fw_key) with (@key_of). destruct (_ || _); [auto|]. destruct (kget (f_state f) (key_of m)) as [st|]; [|auto]. destruct (st =? _); [destruct (_ <? _); apply KEEP; reflexivity|]. destruct (st =? _); auto.
    - destruct (_ && _); injection HS as <- _; (exists r; split; [apply KEEP; reflexivity|split; [lia|apply (NOW _ eq_refl eq_refl)]]).
    - destruct (key_eqb_spec k' k) as [->|]; [|discriminate]. exists r. split; [|split; [lia|apply (NOW _ eq_refl eq_refl)]].
      unfold fw_set_allowance in HS. destruct (negb _); [discriminate|].
      assert (L : (n < length (kslice (f_calls f) k))%nat) by (apply nth_error_Some; congruence).
      destruct (kget (f_allow f) k) as [a0|] eqn:EG; injection HS as <- _; exists s, t; cbn; rewrite kslice_kset, key_eqb_refl, nth_error_app1 by exact L; (split; [exact EN|]); (split; [exact ET|]); (split; [exact ER|]).
      + destruct t; auto. rewrite <- EG in HT. congruence.
      + destruct t; auto. congruence.
    - destruct (key_eqb_spec k' k) as [->|]; [|discriminate]. unfold fw_state_step in HS.
      destruct (Nat.eq_dec m n) as [->|NE].
      + rewrite EN, ET in HS.
        assert (X : forall g s' t', f_calls g = f_calls f -> sl_thread s' = Some t' -> match t' with FNew => False | FBuf a' | FStart a' | FStop a' => a' = a | FEnd => True end -> at_rank a k n (put_slot g k n s') (rank t')).
        { intros g s' t' EG Et H. exists s', t'. cbn. rewrite EG, kslice_kset, key_eqb_refl, put_nth, Nat.eqb_refl, (nth_lt _ _ _ EN). repeat split; auto. destruct t'; auto. contradiction. }
        assert (LW : late_wake a k n (EvWake now k n) = true -> al_buf a <= now /\ al_start a <= now /\ al_stop a <= now).
        { cbn. rewrite !andb_true_iff, !Z.leb_le. tauto. }
        destruct t as [|b|b|b|]; cbn in ER; subst r.
        * rewrite HT in HS. injection HS as <- _. exists 1%nat. split; [apply (X f _ (FBuf a)); reflexivity|split; [lia|intros _; cbn; lia]].
        * subst b. destruct (Z.ltb_spec now (al_buf a)); [injection HS as <- _; exists 1%nat; split; [apply KEEP; reflexivity|split; [lia|intros Y; specialize (LW Y); lia]]|].
          destruct (told _ _); try discriminate. injection HS as <- _. exists 2%nat. split; [eapply (X _ _ (FStart a)); reflexivity|split; [lia|intros _; cbn; lia]].
        * subst b. destruct (Z.ltb_spec now (al_start a)); [injection HS as <- _; exists 2%nat; split; [apply KEEP; reflexivity|split; [lia|intros Y; specialize (LW Y); lia]]|].
          destruct (told _ _); try discriminate. injection HS as <- _. exists 3%nat. split; [eapply (X _ _ (FStop a)); reflexivity|split; [lia|intros _; cbn; lia]].
        * subst b. destruct (Z.ltb_spec now (al_stop a)); [injection HS as <- _; exists 3%nat; split; [apply KEEP; reflexivity|split; [lia|intros Y; specialize (LW Y); lia]]|].
          destruct (told _ _); try discriminate. injection HS as <- _. exists 4%nat. split; [eapply (X _ _ FEnd); reflexivity|split; [lia|intros _; cbn; lia]].
        * injection HS as <- _. exists 4%nat. split; [apply KEEP; reflexivity|split; [lia|intros _; cbn; lia]].
      + (* another goroutine of the same run: this one has ended, or that one has *)
        exists r. split; [|split; [lia|cbn; destruct (Nat.eqb_spec m n); [congruence|rewrite andb_false_r; discriminate]]].
        destruct (nth_error (kslice (f_calls f) k) m) as [s1|] eqn:EM; [|injection HS as <- _; apply KEEP; reflexivity].
        destruct (sl_thread s1) as [t1|] eqn:ET1; [|injection HS as <- _; apply KEEP; reflexivity].
        destruct (match t1 with FEnd => true | _ => false end) eqn:TE; [destruct t1; try discriminate TE; injection HS as <- _; apply KEEP; reflexivity|].
        assert (NF : t1 <> FEnd) by (intros ->; discriminate TE).
        destruct (live_one k m f tr T s1 t1 HSO EM ET1 NF) as [_ OD]. assert (TF : t = FEnd).
        { destruct (OD n s (fun e => NE (eq_sym e)) EN) as [X|X]; congruence. }
        subst t. cbn in ER. subst r.
        assert (X : forall g s', f_calls g = f_calls f -> at_rank a k n (put_slot g k m s') 4).
        { intros g s' EG. exists s, FEnd. cbn. rewrite EG, kslice_kset, key_eqb_refl, put_nth. destruct (Nat.eqb_spec n m); [congruence|]. auto. }
        destruct t1 as [|b|b|b|]; try discriminate TE; [injection HS as <- _; apply X; reflexivity| | |];
          (destruct (_ <? _); [injection HS as <- _; apply KEEP; reflexivity|]; destruct (told _ _); try discriminate; injection HS as <- _; apply X; reflexivity).
    - destruct (key_eqb_spec k' k) as [->|]; [|discriminate]. injection HS as <- _. exists r. split; [|split; [lia|apply (NOW _ eq_refl eq_refl)]]. unfold fw_recv.
      destruct (nth_error (kslice (f_calls f) k) m) as [s1|] eqn:EM; [|apply KEEP; reflexivity].
      destruct (Nat.eq_dec m n) as [->|NE].
      + rewrite EN in EM. injection EM as <-. exists (mkSlot (sl_thread s) (tl (sl_chan s))), t. cbn. rewrite kslice_kset, key_eqb_refl, put_nth, Nat.eqb_refl, (nth_lt _ _ _ EN). auto.
      + exists s, t. cbn. rewrite kslice_kset, key_eqb_refl, put_nth. destruct (Nat.eqb_spec n m); [congruence|]. auto.
  Qed.

  Lemma hit_exec k n evs : forall (f f' : fw) o tr T, clock T evs -> sound f tr T -> hit k n f -> fexec f evs = Ok (f', o) -> hit k n f'.
  Proof.
    induction evs as [|ev l IH]; intros f f' o tr T HC HS HH HE; cbn in HE; [injection HE as <- _; exact HH|].
    destruct (fstep f ev) as [[f1 o1]| |] eqn:E1; try discriminate. cbn in HE. destruct (fexec f1 l) as [[f2 o2]| |] eqn:E2; try discriminate. cbn in HE. injection HE as <- _.
    destruct HC as [LT HC]. destruct (step_sound d0 until kn f f1 ev o1 tr T LT HS E1) as [S1 _]. eapply IH; [exact HC|exact S1|exact (hit_step k n f f1 ev o1 tr T HS HH E1)|exact E2].
  Qed.
  Lemma rank_exec a k n evs : forall (f f' : fw) o tr T r, clock T evs -> sound f tr T -> at_rank a k n f r -> fexec f evs = Ok (f', o) ->
    exists r', at_rank a k n f' r' /\ (r' >= Nat.min 4 (r + length (filter (late_wake a k n) evs)))%nat.
  Proof.
    induction evs as [|ev l IH]; intros f f' o tr T r HC HS HH HE; cbn in HE; [injection HE as <- _; exists r; split; [exact HH|cbn [filter length]; lia]|].
    destruct (fstep f ev) as [[f1 o1]| |] eqn:E1; try discriminate. cbn in HE. destruct (fexec f1 l) as [[f2 o2]| |] eqn:E2; try discriminate. cbn in HE. injection HE as <- _.
    destruct HC as [LT HC]. destruct (step_sound d0 until kn f f1 ev o1 tr T LT HS E1) as [S1 _].
    destruct (rank_step a k n f f1 ev o1 tr T r HS HH E1) as (r1 & R1 & L1 & W1). destruct (IH f1 f2 o2 _ _ r1 HC S1 R1 E2) as (r2 & R2 & L2).
    exists r2. split; [exact R2|]. cbn [filter]. destruct (late_wake a k n ev); cbn [length]; [specialize (W1 eq_refl)|]; lia.
  Qed.

  (** Calls are numbered in order. *)
  Definition is_call (k : key) (ev : fevent) : bool := match ev with EvAllow _ k' _ => key_eqb k' k | _ => false end.
  Lemma step_calls k (f f' : fw) ev o : fstep f ev = Ok (f', o) ->
    length (kslice (f_calls f') k) = (length (kslice (f_calls f) k) + length (filter (is_call k) [ev]))%nat.
  Proof.
    assert (P : forall (g : fw) k' n s, length (kslice (f_calls (put_slot g k' n s)) k) = length (kslice (f_calls g) k)).
    { intros g k' n s. cbn. rewrite kslice_kset. destruct (key_eqb_spec k' k) as [->|]; [apply put_length|reflexivity]. }
    intros HS. destruct ev as [now m|now|now k' a|now k' n|now k' n]; cbn [fstep] in HS; cbn [filter is_call length]; rewrite ?Nat.add_0_r.
    - injection HS as <- _. unfold fw_process; change (@fw_key) with (@key_of). destruct (_ || _); [reflexivity|]. destruct (kget _ _) as [st|]; [|reflexivity]. destruct (st =? _); [destruct (_ <? _); reflexivity|]. destruct (st =? _); reflexivity.
    - destruct (_ && _); injection HS as <- _; reflexivity.
    - unfold fw_set_allowance in HS. destruct (negb _); [discriminate|].
      destruct (kget _ _); injection HS as <- _; cbn; rewrite kslice_kset; (destruct (key_eqb_spec k' k) as [->|]; cbn; [rewrite app_length; cbn|]; lia).
    - unfold fw_state_step in HS. destruct (nth_error _ n) as [s|]; [|injection HS as <- _; reflexivity].
      destruct (sl_thread s) as [[|a|a|a|]|]; try (injection HS as <- _; rewrite ?P; reflexivity); destruct (_ <? _); try (injection HS as <- _; reflexivity);
          destruct (told _ _); try discriminate; injection HS as <- _; rewrite P; reflexivity.
    - injection HS as <- _. unfold fw_recv. destruct (nth_error _ n); [rewrite P|]; reflexivity.
  Qed.
  Lemma exec_calls k evs : forall (f f' : fw) o, fexec f evs = Ok (f', o) ->
    length (kslice (f_calls f') k) = (length (kslice (f_calls f) k) + length (filter (is_call k) evs))%nat.
  Proof.
    induction evs as [|ev l IH]; intros f f' o HE; cbn in HE; [injection HE as <- _; cbn; lia|].
    destruct (fstep f ev) as [[f1 o1]| |] eqn:E1; try discriminate. cbn in HE. destruct (fexec f1 l) as [[f2 o2]| |] eqn:E2; try discriminate. cbn in HE. injection HE as <- _.
    rewrite (IH f1 f2 o2 E2), (step_calls k f f1 ev o1 E1). cbn [filter]. destruct (is_call k ev); cbn; lia.
  Qed.

  (** The observations of an event that is about a run are about it. *)
  Lemma about_all k (f f' : fw) ev o : tidy_buf f -> about k ev = true -> fstep f ev = Ok (f', o) -> filter (about_obs k) o = o.
  Proof.
    intros HB HA HS. destruct ev as [now m|now|now k' a|now k' n|now k' n]; cbn [about] in HA; cbn [fstep] in HS.
    - injection HS as _ <-. unfold fw_process; change (@fw_key) with (@key_of). destruct (_ || _); [cbn; rewrite HA; reflexivity|]. destruct (kget _ _) as [st|]; [|cbn; rewrite HA; reflexivity].
      destruct (st =? _); [destruct (_ <? _); cbn; rewrite HA; reflexivity|]. destruct (st =? _); cbn; rewrite !HA; reflexivity.
    - destruct (_ && _); injection HS as _ <-; reflexivity.
    - unfold fw_set_allowance in HS. destruct (negb _); [discriminate|]. destruct (kget _ _); injection HS as _ <-; cbn; rewrite ?HA; reflexivity.
    - destruct (key_eqb_spec k' k) as [->|]; [|discriminate]. unfold fw_state_step in HS. destruct (nth_error _ n) as [s|]; [|injection HS as _ <-; reflexivity].
      destruct (sl_thread s) as [[|a|a|a|]|]; try (injection HS as _ <-; reflexivity); destruct (_ <? _); try (injection HS as _ <-; reflexivity);
          destruct (told _ _); try discriminate; injection HS as _ <-; rewrite ?filter_app; cbn; rewrite ?key_eqb_refl; try reflexivity.
      f_equal. specialize (HB k). induction (kslice (f_buf f) k) as [|m b IHb]; [reflexivity|]. cbn. rewrite (HB m (or_introl eq_refl)), key_eqb_refl, IHb; [reflexivity|]. intros m' Hm. apply HB. right. exact Hm.
    - injection HS as _ <-. reflexivity.
  Qed.
  Lemma consts_step (f f' : fw) ev o : fstep f ev = Ok (f', o) -> consts f' = consts f.
  Proof.
    destruct ev as [now m|now|now k' a|now k' n|now k' n]; cbn [fstep]; intros HS.
      - injection HS as <- _. unfold fw_process; change (@fw_key) with (@key_of). destruct (_ || _); [reflexivity|]. destruct (kget _ _) as [st|]; [|reflexivity]. destruct (st =? _); [destruct (_ <? _); reflexivity|destruct (st =? _); reflexivity].
      - destruct (_ && _); injection HS as <- _; reflexivity.
      - unfold fw_set_allowance in HS. destruct (negb _); [discriminate|]. destruct (kget _ _); injection HS as <- _; reflexivity.
      - unfold fw_state_step in HS. destruct (nth_error _ n) as [s|]; [|injection HS as <- _; reflexivity].
        destruct (sl_thread s) as [[|a|a|a|]|]; try (injection HS as <- _; reflexivity); destruct (_ <? _); try (injection HS as <- _; reflexivity);
          destruct (told _ _); try discriminate; injection HS as <- _; reflexivity.
      - injection HS as <- _. unfold fw_recv. destruct (nth_error _ n); reflexivity.
  Qed.

  (** A run alone does what it does among others. *)
  Lemma isolated k evs : forall (f g f' : fw) o, tidy_buf f -> view_of k f = view_of k g -> consts f = consts g -> fexec f evs = Ok (f', o) ->
    exists g', fexec g (filter (about k) evs) = Ok (g', filter (about_obs k) o) /\ view_of k f' = view_of k g' /\ consts f' = consts g'.
  Proof.
    induction evs as [|ev l IH]; intros f g f' o HB HV HC HE; cbn in HE; [injection HE as <- <-; exists g; cbn; auto|].
    destruct (fstep f ev) as [[f1 o1]| |] eqn:E1; try discriminate. cbn in HE. destruct (fexec f1 l) as [[f2 o2]| |] eqn:E2; try discriminate. cbn in HE. injection HE as <- <-.
    pose proof (step_keys f f1 ev o1 HB E1) as HB1. rewrite filter_app. cbn [filter]. destruct (about k ev) eqn:EA.
    - pose proof (step_about k f g ev EA HV HC) as SR. unfold same_res in SR. rewrite E1 in SR.
      destruct (fstep g ev) as [[g1 p1]| |] eqn:G1; try contradiction. cbn in SR.
      assert (SV : view_of k f1 = view_of k g1 /\ o1 = p1) by tauto. destruct SV as [SV SO]. subst p1.
      assert (SC : consts f1 = consts g1) by (rewrite (consts_step _ _ _ _ E1), (consts_step _ _ _ _ G1); exact HC).
      destruct (IH f1 g1 f2 o2 HB1 SV SC E2) as (g' & X1 & X2 & X3). exists g'. cbn [fexec]. rewrite G1. cbn [rbind fst snd]. rewrite X1. cbn.
      rewrite (about_all k f f1 ev o1 HB EA E1). auto.
    - destruct (step_other k f f1 ev o1 HB EA E1) as (V1 & F1 & C1). rewrite F1. cbn [app]. apply (IH f1 g f2 o2 HB1); [congruence|congruence|exact E2].
  Qed.

  (** Where the observations come from. *)
  Lemma obs_from evs : forall (f f' : fw) o, fexec f evs = Ok (f', o) ->
    (forall t m, In (FIn t m) o -> In (EvIn t m) evs) /\ (forall t k a, In (FSet t k a) o -> In (EvAllow t k a) evs).
  Proof.
    induction evs as [|ev l IH]; intros f f' o HE; cbn in HE; [injection HE as _ <-; split; contradiction|].
    destruct (fstep f ev) as [[f1 o1]| |] eqn:E1; try discriminate. cbn in HE. destruct (fexec f1 l) as [[f2 o2]| |] eqn:E2; try discriminate. cbn in HE. injection HE as _ <-.
    destruct (IH f1 f2 o2 E2) as [IA IB].
    assert (S : (forall t m, In (FIn t m) o1 -> ev = EvIn t m) /\ (forall t k a, In (FSet t k a) o1 -> ev = EvAllow t k a)).
    { clear - E1. destruct ev as [now m|now|now k' a|now k' n|now k' n]; cbn [fstep] in E1.
      - injection E1 as _ <-. unfold fw_process; change (@fw_key) with (@key_of). destruct (_ || _); [|destruct (kget _ _) as [st|]; [destruct (st =? _); [destruct (_ <? _)|destruct (st =? _)]|]]; cbn; split; intros; intuition congruence.
      - destruct (_ && _); injection E1 as _ <-; cbn; split; intros; intuition congruence.
      - unfold fw_set_allowance in E1. destruct (negb _); [discriminate|]. destruct (kget _ _); injection E1 as _ <-; cbn; split; intros; intuition congruence.
      - unfold fw_state_step in E1. destruct (nth_error _ n) as [s|]; [|injection E1 as _ <-; split; contradiction].
        assert (FL : forall (x : fobs) (b : list message) l, In x (map (FPass now) b ++ l) -> (exists m, x = FPass now m) \/ In x l).
        { intros x b l0 H. apply in_app_or in H. destruct H as [H|H]; [apply in_map_iff in H; destruct H as (m & <- & _); eauto|auto]. }
        destruct (sl_thread s) as [[|a|a|a|]|]; try (injection E1 as _ <-; split; contradiction); destruct (_ <? _); try (injection E1 as _ <-; split; contradiction);
          destruct (told _ _); try discriminate; injection E1 as _ <-; try (cbn; split; intros; intuition congruence);
          split; intros t; intros; match goal with H : In _ _ |- _ => apply FL in H; destruct H as [(? & ?)|H]; [discriminate|cbn in H; intuition congruence] end.
      - injection E1 as _ <-. split; contradiction. }
    destruct S as [SA SB]. split.
    - intros t m H. apply in_app_or in H. destruct H as [H|H]; [left; apply SA, H|right; apply IA, H].
    - intros t k a H. apply in_app_or in H. destruct H as [H|H]; [left; apply SB, H|right; apply IB, H].
  Qed.

  (** A history can be cut where an allowance is set. *)
  Lemma cut_at_set evs : forall (f f' : fw) x t k a y T, clock T evs -> fexec f evs = Ok (f', x ++ FSet t k a :: y) ->
    exists e1 e2 f1, evs = e1 ++ e2 /\ fexec f e1 = Ok (f1, x) /\ clock T e1.
  Proof.
    induction evs as [|ev l IH]; intros f f' x t k a y T HC HE; cbn in HE; [injection HE as _ HE; destruct x; discriminate|].
    destruct (fstep f ev) as [[f1 o1]| |] eqn:E1; try discriminate. cbn in HE. destruct (fexec f1 l) as [[f2 o2]| |] eqn:E2; try discriminate. cbn in HE. injection HE as _ HE.
    destruct HC as [LT HC].
    assert (CUT : (exists x', x = o1 ++ x' /\ o2 = x' ++ FSet t k a :: y) \/ exists z, o1 = x ++ FSet t k a :: z).
    { clear - HE. revert x HE. induction o1 as [|c o1 IH]; intros x HE; [left; exists x; auto|]. destruct x as [|c' x].
      - injection HE as -> _. right. exists o1. reflexivity.
      - injection HE as -> HE. destruct (IH x HE) as [(x' & -> & ->)|(z & ->)]; [left; exists x'; auto|right; exists z; reflexivity]. }
    destruct CUT as [(x' & -> & ->)|(z & ->)].
    - destruct (IH f1 f2 x' t k a y _ HC E2) as (e1 & e2 & g & -> & G & CK). exists (ev :: e1), e2, g. split; [reflexivity|]. cbn. rewrite E1. cbn. rewrite G. cbn. auto.
    - assert (x = []).
      { destruct (obs_from [ev] f f1 (x ++ FSet t k a :: z)) as [_ SB]; [cbn; rewrite E1; cbn; rewrite app_nil_r; reflexivity|].
        specialize (SB t k a). destruct SB as [->|[]]; [apply in_or_app; right; left; reflexivity|]. cbn in E1. unfold fw_set_allowance in E1. destruct (negb _); [discriminate|].
        destruct (kget _ _); injection E1 as _ E1; [destruct x; discriminate E1|]. destruct x as [|c x]; [reflexivity|destruct x; discriminate E1]. }
      subst x. exists [], (ev :: l), f. split; [reflexivity|]. split; [reflexivity|exact I].
  Qed.

  (** The last allowance set for a run is unique. *)
  Lemma last_set_unique k (a1 a2 b1 b2 : list fobs) t al t' al' : a1 ++ FSet t k al :: a2 = b1 ++ FSet t' k al' :: b2 ->
    existsb (is_set k) a2 = false -> existsb (is_set k) b2 = false -> a1 = b1 /\ FSet (D := D) t k al = FSet t' k al' /\ a2 = b2.
  Proof.
    revert b1. induction a1 as [|c a1 IH]; intros [|c' b1] E HA HB; cbn in E.
    - injection E as -> -> ->. auto.
    - injection E as _ ->. rewrite existsb_app in HA. cbn in HA. rewrite key_eqb_refl in HA. apply orb_false_iff in HA. destruct HA as [_ HA]. discriminate.
    - injection E as _ E. rewrite <- E in HB. rewrite existsb_app in HB. cbn in HB. rewrite key_eqb_refl in HB. apply orb_false_iff in HB. destruct HB as [_ HB]. discriminate.
    - injection E as -> E. destruct (IH b1 E HA HB) as (-> & Z1 & Z2). auto.
  Qed.
End Calls.
