From Coq Require Import ZArith List Lia Bool.
From Coq Require Import Init.Byte.
From Verif Require Import Bytes Res Csprng CsprngSpec.
Import ListNotations.
Open Scope Z_scope.

Lemma mebi_pos : 0 < mebi. Proof. reflexivity. Qed.

Lemma xor_zero b : xor_byte x00 b = b.
Proof. destruct b; reflexivity. Qed.

Section Source.
  Variable key : nat -> bytes.
  Variable ks : bytes -> Z -> byte.

  Record rinv (c : rng) : Prop := {
    ri_rem : 0 <= g_rem c <= mebi;
    ri_nk0 : g_nk c = O -> g_rem c = 0;
    ri_st : g_nk c <> O -> g_st c = Some (key (g_nk c - 1), mebi - g_rem c)
  }.

  Lemma rinv0 : rinv rng0.
  Proof. constructor; cbn; try lia. unfold mebi; lia. Qed.

  Lemma taken_nonneg c : rinv c -> 0 <= taken c.
  Proof.
    intros [A B C]. unfold taken. destruct (g_nk c) as [|n].
    - rewrite B by reflexivity. lia.
    - pose proof mebi_pos. nia.
  Qed.

  Lemma out_bytes_length n : forall a, length (out_bytes key ks a n) = n.
  Proof. induction n as [|n IH]; intros a; cbn; [reflexivity|]. rewrite IH. reflexivity. Qed.
  Lemma out_bytes_app n : forall a m, out_bytes key ks a (n + m) = out_bytes key ks a n ++ out_bytes key ks (a + Z.of_nat n) m.
  Proof.
    induction n as [|n IH]; intros a m; cbn [Nat.add out_bytes app].
    - cbn. rewrite Z.add_0_r. reflexivity.
    - rewrite IH. do 3 f_equal. lia.
  Qed.

  Definition zeros (d : bytes) : Prop := Forall (fun b => b = x00) d.
  Lemma zeros_repeat d : zeros d -> d = repeat x00 (length d).
  Proof. induction 1; cbn; congruence. Qed.
  Lemma zeros_map (d : bytes) : zeros (map (fun _ => x00) d).
  Proof. induction d; constructor; auto. Qed.

  Lemma xor_stream_zeros d : forall n pos, zeros d -> 0 <= pos -> pos + Z.of_nat (length d) <= mebi ->
    xor_stream ks (key n) pos d = out_bytes key ks (Z.of_nat n * mebi + pos) (length d).
  Proof.
    induction d as [|b d IH]; intros n pos Z0 P L; [reflexivity|]. cbn [length] in L. inversion Z0; subst.
    cbn [xor_stream out_bytes length]. rewrite xor_zero. f_equal.
    - unfold out_byte. pose proof mebi_pos. rewrite Z.add_comm.
      rewrite Z.div_add, Z.mod_add by lia. rewrite Z.div_small, Z.mod_small by lia.
      rewrite Z.add_0_l, Nat2Z.id. reflexivity.
    - rewrite IH by (assumption || lia). f_equal. lia.
  Qed.

  Lemma zeros_firstn n d : zeros d -> zeros (firstn n d).
  Proof. unfold zeros. rewrite !Forall_forall. intros H b Hb. apply H. rewrite <- (firstn_skipn n d). apply in_or_app. tauto. Qed.
  Lemma zeros_skipn n d : zeros d -> zeros (skipn n d).
  Proof. unfold zeros. rewrite !Forall_forall. intros H b Hb. apply H. rewrite <- (firstn_skipn n d). apply in_or_app. tauto. Qed.

  (** One round *)
  Lemma iter_spec ok c done rest : rinv c -> zeros rest -> rest <> [] ->
    match fill_iter key ks ok c done rest with
    | Ok (c', done', rest') =>
        exists n, (0 < n <= length rest)%nat /\ rinv c' /\ taken c' = taken c + Z.of_nat n /\
          done' = done ++ out_bytes key ks (taken c) n /\ rest' = skipn n rest
    | Err => False
    | Panic => ok = false /\ g_rem c = 0
    end.
  Proof.
    intros I Z0 NE. pose proof mebi_pos as MP. pose proof I as [A B C].
    assert (LR : (0 < length rest)%nat) by (destruct rest; [contradiction|cbn; lia]).
    unfold fill_iter.
    assert (K : forall c1, rinv c1 -> 0 < g_rem c1 -> taken c1 = taken c ->
      let n := Z.to_nat (Z.min (Z.of_nat (length rest)) (g_rem c1)) in
      match (match g_st c1 with
             | Some (k, pos) => Ok (mkRng (g_rem c1 - Z.of_nat n) (Some (k, pos + Z.of_nat n)) (g_nk c1),
                done ++ xor_stream ks k pos (firstn n rest), skipn n rest)
             | None => Panic end) with
      | Ok (c', done', rest') =>
        exists n, (0 < n <= length rest)%nat /\ rinv c' /\ taken c' = taken c + Z.of_nat n /\
          done' = done ++ out_bytes key ks (taken c) n /\ rest' = skipn n rest
      | Err => False
      | Panic => ok = false /\ g_rem c = 0
      end).
    { intros c1 I1 P1 T1 n. pose proof I1 as [A1 B1 C1].
      assert (NK : g_nk c1 <> O) by (intros E; rewrite (B1 E) in P1; lia).
      rewrite (C1 NK). assert (HN : (0 < n <= length rest)%nat) by (unfold n; lia).
      assert (HR : Z.of_nat n <= g_rem c1) by (unfold n; lia). clearbody n.
      exists n. split; [exact HN|]. split; [|split; [|split]].
      - constructor; cbn [g_rem g_st g_nk]; [lia|intros E; contradiction|]. intros _. f_equal. f_equal. lia.
      - unfold taken in *. cbn [g_rem g_st g_nk]. lia.
      - f_equal. rewrite xor_stream_zeros; [|apply zeros_firstn, Z0|lia|rewrite firstn_length; lia].
        rewrite firstn_length, Nat.min_l by lia. f_equal. rewrite <- T1. unfold taken. nia.
      - reflexivity. }
    destruct (Z.eqb_spec (g_rem c) 0) as [E0|E0].
    - unfold renew. destruct ok; cbn [rbind]; [|split; [reflexivity|exact E0]]. apply K.
      + constructor; cbn [g_rem g_st g_nk]; [lia|discriminate|]. intros _. cbn [Nat.sub]. rewrite Nat.sub_0_r, Z.sub_diag. reflexivity.
      + exact MP.
      + unfold taken. cbn [g_nk g_rem]. rewrite E0. lia.
    - cbn [rbind]. apply K; [exact I|lia|reflexivity].
  Qed.

  Lemma loop_spec fuel : forall avail c done rest, rinv c -> zeros rest -> (length rest < fuel)%nat ->
    exists c' ok n, fill_loop key ks fuel avail c done rest =
        Some (c', done ++ out_bytes key ks (taken c) n ++ repeat x00 (length rest - n), ok) /\
      rinv c' /\ taken c' = taken c + Z.of_nat n /\ (n <= length rest)%nat /\
      (ok = true <-> n = length rest) /\ (ok = false -> exists m, avail m = false).
  Proof.
    induction fuel as [|fuel IH]; intros avail c done rest I Z0 L; [lia|]. cbn [fill_loop].
    destruct rest as [|b rest].
    - exists c, true, O. cbn. rewrite app_nil_r. split; [reflexivity|]. split; [exact I|]. split; [lia|]. split; [lia|].
      split; [tauto|discriminate].
    - remember (b :: rest) as rest0 eqn:ER. assert (NE : rest0 <> []) by (subst; discriminate).
      pose proof (iter_spec (avail (g_nk c)) c done rest0 I Z0 NE) as SP.
      destruct (fill_iter key ks (avail (g_nk c)) c done rest0) as [[[c1 done1] rest1]| |]; [|contradiction|].
      + destruct SP as (n & HN & I1 & T1 & -> & ->).
        destruct (IH avail c1 (done ++ out_bytes key ks (taken c) n) (skipn n rest0) I1 (zeros_skipn n _ Z0)) as (c' & ok & m & E & I' & T' & LM & OK & NA).
        { rewrite skipn_length. lia. }
        rewrite skipn_length in *. exists c', ok, (n + m)%nat. rewrite E. split.
        * do 3 f_equal. rewrite out_bytes_app, T1, <- !app_assoc. do 4 f_equal. lia.
        * split; [exact I'|]. split; [lia|]. split; [lia|]. split; [rewrite OK; lia|exact NA].
      + destruct SP as [OK R0]. exists c, false, O. cbn [out_bytes app]. rewrite Nat.sub_0_r, <- (zeros_repeat _ Z0).
        split; [reflexivity|]. split; [exact I|]. split; [lia|]. split; [lia|]. split; [|eauto].
        split; [discriminate|]. intros X. symmetry in X. apply length_zero_iff_nil in X. contradiction.
  Qed.

  Lemma fill_spec fuel avail c dst : rinv c -> (length dst < fuel)%nat ->
    exists c' ok n, fill key ks fuel avail c dst =
        Some (c', out_bytes key ks (taken c) n ++ repeat x00 (length dst - n), ok) /\
      rinv c' /\ taken c' = taken c + Z.of_nat n /\ (n <= length dst)%nat /\
      (ok = true <-> n = length dst) /\ (ok = false -> exists m, avail m = false).
  Proof.
    intros I L. destruct (loop_spec fuel avail c [] (map (fun _ => x00) dst) I (zeros_map dst)) as (c' & ok & n & E & R).
    { rewrite map_length. exact L. }
    rewrite map_length in *. exists c', ok, n. split; [exact E|exact R].
  Qed.

  (** Keys drawn = ceiling of bytes taken. *)
  Lemma keys_taken c : rinv c -> taken c <= Z.of_nat (g_nk c) * mebi <= taken c + mebi.
  Proof. intros [A _ _]. unfold taken. lia. Qed.

  (** ** Concurrency *)
  (** [st t = Some (a,n)]: thread t took bytes a..a+n-1. *)
  Record winv (w : world) (iv : nat -> option (Z * nat)) : Prop := {
    wi_rng : rinv (w_rng w);
    wi_lock : forall t d r, w_thr w t = Holding d r <-> w_lock w = Some t /\ w_thr w t = Holding d r;
    wi_thr : forall t, match w_thr w t with
      | Idle _ => iv t = None
      | Waiting d => iv t = None /\ zeros d
      | Holding d r => zeros r /\ exists a n, iv t = Some (a, n) /\ d = out_bytes key ks a n /\ a + Z.of_nat n = taken (w_rng w)
      | Returned d => exists a n, iv t = Some (a, n) /\ d = out_bytes key ks a n
      | Panicked d => exists a n, iv t = Some (a, n) /\ exists r, zeros r /\ d = out_bytes key ks a n ++ r
      end;
    wi_bound : forall t a n, iv t = Some (a, n) -> 0 <= a /\ a + Z.of_nat n <= taken (w_rng w);
    wi_disj : forall t u a n b m, t <> u -> iv t = Some (a, n) -> iv u = Some (b, m) ->
      forall x, a <= x < a + Z.of_nat n -> b <= x < b + Z.of_nat m -> False
  }.

  Lemma set_same f t s : set_thr f t s t = s.
  Proof. unfold set_thr. rewrite Nat.eqb_refl. reflexivity. Qed.
  Lemma set_other f t s u : u <> t -> set_thr f t s u = f u.
  Proof. intros H. unfold set_thr. apply Nat.eqb_neq in H. rewrite H. reflexivity. Qed.

  Lemma wstep_inv w iv t ok : winv w iv -> exists iv', winv (wstep key ks w t ok) iv' /\
    (forall u, u <> t -> iv' u = iv u).
  Proof.
    intros I. pose proof I as [I1 I2 I3 I4 I5]. unfold wstep. pose proof (I3 t) as T.
    assert (HL : forall u d r, w_thr w u = Holding d r -> w_lock w = Some u) by (intros u d r H; apply I2 in H; tauto).
    destruct (w_thr w t) as [d|d|d r|d|d] eqn:ET.
    - exists iv. split; [|tauto]. constructor; cbn; try assumption.
      + intros u d' r'. destruct (Nat.eq_dec u t) as [->|NE].
        * rewrite set_same. split; [discriminate|intros [_ X]; discriminate].
        * rewrite set_other by exact NE. apply I2.
      + intros u. destruct (Nat.eq_dec u t) as [->|NE].
        * rewrite set_same. split; [exact T|apply zeros_map].
        * rewrite set_other by exact NE. apply I3.
    - destruct (w_lock w) as [l|] eqn:EL.
      { exists iv. split; [|tauto]. exact I. }
      destruct T as [T Z0].
      exists (fun u => if Nat.eqb u t then Some (taken (w_rng w), O) else iv u).
      assert (NH : forall u d' r', w_thr w u <> Holding d' r').
      { intros u d' r' H. apply HL in H. discriminate. }
      split.
      + constructor; cbn; try assumption.
        * intros u d' r'. destruct (Nat.eq_dec u t) as [->|NE].
          -- rewrite set_same. tauto.
          -- rewrite set_other by exact NE. split; [intros H; destruct (NH _ _ _ H)|tauto].
        * intros u. destruct (Nat.eqb_spec u t) as [->|NE].
          -- rewrite set_same. split; [exact Z0|]. exists (taken (w_rng w)), O. split; [reflexivity|]. split; [reflexivity|lia].
          -- rewrite set_other by exact NE. apply I3.
        * intros u a n. destruct (Nat.eqb_spec u t) as [->|NE]; [|apply I4].
          intros H. injection H as <- <-. pose proof (taken_nonneg _ I1). lia.
        * intros u v a n b m NE. destruct (Nat.eqb_spec u t) as [->|NU], (Nat.eqb_spec v t) as [->|NV]; try contradiction.
          -- intros H1 H2 x X1 X2. injection H1 as <- <-. lia.
          -- intros H1 H2 x X1 X2. injection H2 as <- <-. lia.
          -- apply I5, NE.
      + intros u NE. apply Nat.eqb_neq in NE. rewrite NE. reflexivity.
    - destruct T as (Z0 & a & n & EI & ED & EA). pose proof (HL _ _ _ ET) as LK.
      assert (NH : forall u d' r', u <> t -> w_thr w u <> Holding d' r').
      { intros u d' r' NE H. apply HL in H. congruence. }
      destruct r as [|b r].
      + exists iv. split; [|tauto]. constructor; cbn; try assumption.
        * intros u d' r'. destruct (Nat.eq_dec u t) as [->|NE].
          -- rewrite set_same. split; [discriminate|intros [X _]; discriminate].
          -- rewrite set_other by exact NE. split; [intros H; destruct (NH _ _ _ NE H)|tauto].
        * intros u. destruct (Nat.eq_dec u t) as [->|NE].
          -- rewrite set_same. eauto.
          -- rewrite set_other by exact NE. apply I3.
      + remember (b :: r) as rest eqn:ER. assert (NE0 : rest <> []) by (subst; discriminate).
        pose proof (iter_spec ok (w_rng w) d rest I1 Z0 NE0) as SP.
        destruct (fill_iter key ks ok (w_rng w) d rest) as [[[c1 d1] r1]| |]; [|contradiction|].
        * destruct SP as (k & HK & Ic & Tc & -> & ->).
          exists (fun u => if Nat.eqb u t then Some (a, (n + k)%nat) else iv u). split.
          -- constructor; cbn.
             ++ exact Ic.
             ++ intros u d' r'. destruct (Nat.eq_dec u t) as [->|NE].
                ** rewrite set_same. tauto.
                ** rewrite set_other by exact NE. split; [intros H; destruct (NH _ _ _ NE H)|tauto].
             ++ intros u. destruct (Nat.eqb_spec u t) as [->|NE].
                ** rewrite set_same. split; [apply zeros_skipn, Z0|]. exists a, (n + k)%nat. split; [reflexivity|].
                   rewrite ED, out_bytes_app, EA. split; [reflexivity|lia].
                ** rewrite set_other by exact NE. specialize (I3 u).
                   destruct (w_thr w u) as [| |d' r'| |] eqn:EU; try exact I3. destruct (NH _ _ _ NE EU).
             ++ intros u a' n'. destruct (Nat.eqb_spec u t) as [->|NE].
                ** intros H. injection H as <- <-. destruct (I4 _ _ _ EI). lia.
                ** intros H. destruct (I4 _ _ _ H). lia.
             ++ assert (J : forall u b m x, u <> t -> iv u = Some (b, m) -> a <= x < a + Z.of_nat (n + k) -> b <= x < b + Z.of_nat m -> False).
                { intros u b' m x NE H X1 X2. destruct (I4 _ _ _ H). apply (I5 u t b' m a n NE H EI x X2). lia. }
                intros u v a1 n1 b1 m1 NE. destruct (Nat.eqb_spec u t) as [->|NU], (Nat.eqb_spec v t) as [->|NV]; try contradiction.
                ** intros H1 H2 x X1 X2. injection H1 as <- <-. eapply J; eauto.
                ** intros H1 H2 x X1 X2. injection H2 as <- <-. eapply J; eauto.
                ** apply I5, NE.
          -- intros u NE. apply Nat.eqb_neq in NE. rewrite NE. reflexivity.
        * exists iv. split; [|tauto]. constructor; cbn; try assumption.
          -- intros u d' r'. destruct (Nat.eq_dec u t) as [->|NE].
             ++ rewrite set_same. split; [discriminate|intros [X _]; discriminate].
             ++ rewrite set_other by exact NE. split; [intros H; destruct (NH _ _ _ NE H)|tauto].
          -- intros u. destruct (Nat.eq_dec u t) as [->|NE].
             ++ rewrite set_same. exists a, n. split; [exact EI|]. exists rest. split; [exact Z0|]. rewrite ED. reflexivity.
             ++ rewrite set_other by exact NE. apply I3.
    - exists iv. tauto.
    - exists iv. tauto.
  Qed.

  Lemma wrun_inv sched : forall w iv, winv w iv -> exists iv', winv (wrun key ks w sched) iv'.
  Proof.
    unfold wrun. induction sched as [|x s IH]; intros w iv I; [eauto|]. cbn [fold_left].
    destruct (wstep_inv w iv (fst x) (snd x) I) as (iv' & I' & _). eapply IH, I'.
  Qed.

  Lemma winv0 c f : rinv c -> (forall t, exists d, f t = Idle d) -> winv (mkWorld c None f) (fun _ => None).
  Proof.
    intros I H. constructor; cbn; try assumption; try discriminate.
    - intros t d r. destruct (H t) as [d' ->]. split; [discriminate|intros [X _]; discriminate].
    - intros t. destruct (H t) as [d' ->]. reflexivity.
  Qed.

  (** ** Call sequences *)
  Lemma rstep_spec c x : rinv c -> exists c' d ok n, rstep key ks c x = Some (c', d, ok) /\ rinv c' /\
    taken c' = taken c + Z.of_nat n /\ (n <= length (dst_of x))%nat /\
    (mismatch x -> ok = false /\ d = dst_of x /\ n = O) /\
    (~ mismatch x -> d = out_bytes key ks (taken c) n ++ repeat x00 (length (dst_of x) - n) /\
                     (ok = true <-> n = length (dst_of x))) /\
    (always x -> ~ mismatch x -> ok = true).
  Proof.
    intros I.
    assert (K : forall a d0, exists c' d ok n, fill key ks (S (length d0)) a c d0 = Some (c', d, ok) /\ rinv c' /\
      taken c' = taken c + Z.of_nat n /\ (n <= length d0)%nat /\
      d = out_bytes key ks (taken c) n ++ repeat x00 (length d0 - n) /\ (ok = true <-> n = length d0) /\
      (ok = false -> exists m, a m = false)).
    { intros a d0. destruct (fill_spec (S (length d0)) a c d0 I ltac:(lia)) as (c' & ok & n & E & I' & T & L & OK & NA).
      exists c'. eexists. exists ok, n. split; [exact E|]. tauto. }
    destruct x as [a d0|a d0 s]; cbn [rstep dst_of mismatch always].
    - destruct (K a d0) as (c' & d & ok & n & E & I' & T & L & D & OK & NA). exists c', d, ok, n.
      split; [exact E|]. split; [exact I'|]. split; [exact T|]. split; [exact L|]. split; [tauto|]. split; [tauto|].
      intros AV _. destruct ok; [reflexivity|]. destruct (NA eq_refl) as [m X]. rewrite AV in X. discriminate.
    - unfold xor_key_stream.
      destruct (Z.ltb_spec (Z.of_nat (length d0)) (Z.of_nat (length s))).
      { exists c, d0, false, O. split; [reflexivity|]. split; [exact I|]. split; [lia|]. split; [lia|]. split; [tauto|].
        assert (length d0 <> length s) by lia. tauto. }
      destruct (Z.ltb_spec (Z.of_nat (length s)) (Z.of_nat (length d0))).
      { exists c, d0, false, O. split; [reflexivity|]. split; [exact I|]. split; [lia|]. split; [lia|]. split; [tauto|].
        assert (length d0 <> length s) by lia. tauto. }
      assert (EL : length d0 = length s) by lia.
      destruct (K a d0) as (c' & d & ok & n & E & I' & T & L & D & OK & NA). exists c', d, ok, n.
      split; [exact E|]. split; [exact I'|]. split; [exact T|]. split; [exact L|]. split; [tauto|]. split; [tauto|].
      intros AV _. destruct ok; [reflexivity|]. destruct (NA eq_refl) as [m X]. rewrite AV in X. discriminate.
  Qed.

  Lemma rrun_spec cs : forall c, rinv c -> exists c' o, rrun key ks c cs = Some (c', o) /\ rinv c' /\
    consecutive key ks (taken c) cs o (taken c').
  Proof.
    induction cs as [|x cs IH]; intros c I.
    - exists c, []. cbn. tauto.
    - destruct (rstep_spec c x I) as (c1 & d & ok & n & E & I1 & T & L & M & NM & _).
      destruct (IH c1 I1) as (c2 & o & E2 & I2 & H2). exists c2, ((d, ok) :: o). cbn [rrun]. rewrite E, E2.
      split; [reflexivity|]. split; [exact I2|]. cbn [consecutive]. exists n. split; [exact L|]. split; [exact M|].
      split; [exact NM|]. rewrite <- T. exact H2.
  Qed.

  Lemma rrun_inv cs c c' o : rinv c -> rrun key ks c cs = Some (c', o) -> rinv c'.
  Proof.
    intros I E. destruct (rrun_spec cs c I) as (c1 & o1 & E1 & I1 & _). congruence.
  Qed.

  Opaque mebi.
  Lemma rinv_tight_iter ok c done rest c' d' r' : rinv c -> rest <> [] ->
    fill_iter key ks ok c done rest = Ok (c', d', r') -> g_rem c' < mebi.
  Proof.
    intros I NE E. pose proof mebi_pos as MP. pose proof I as [A B C]. unfold fill_iter in E.
    assert (LR : (0 < length rest)%nat) by (destruct rest; [contradiction|cbn; lia]).
    destruct (Z.eqb_spec (g_rem c) 0) as [E0|E0].
    - unfold renew in E. destruct ok; cbn [rbind] in E; [|discriminate].
      cbn [g_st g_rem g_nk] in E. remember (Z.to_nat (Z.min (Z.of_nat (length rest)) mebi)) as n.
      injection E as <- _ _. cbn [g_rem]. lia.
    - cbn [rbind] in E. destruct (g_st c) as [[k pos]|]; [|discriminate].
      remember (Z.to_nat (Z.min (Z.of_nat (length rest)) (g_rem c))) as n. injection E as <- _ _. cbn [g_rem]. lia.
  Qed.

  Definition tight (c : rng) : Prop := g_rem c < mebi.
  Lemma loop_tight fuel : forall avail c done rest c' d ok, rinv c -> zeros rest -> tight c ->
    fill_loop key ks fuel avail c done rest = Some (c', d, ok) -> tight c'.
  Proof.
    induction fuel as [|fuel IH]; intros avail c done rest c' d ok I Z0 T E; [discriminate|]. cbn [fill_loop] in E.
    destruct rest as [|b rest]; [injection E as <- _ _; exact T|].
    remember (b :: rest) as r0 eqn:ER. assert (NE : r0 <> []) by (subst; discriminate).
    pose proof (iter_spec (avail (g_nk c)) c done r0 I Z0 NE) as SP.
    destruct (fill_iter key ks (avail (g_nk c)) c done r0) as [[[c1 d1] r1]| |] eqn:EI; [|contradiction|].
    - pose proof (rinv_tight_iter _ _ _ _ _ _ _ I NE EI). destruct SP as (n & _ & I1 & _ & _ & ->).
      eapply IH; [exact I1|apply zeros_skipn, Z0|exact H|exact E].
    - injection E as <- _ _. exact T.
  Qed.
  Lemma rstep_tight c x c' d ok : rinv c -> tight c -> rstep key ks c x = Some (c', d, ok) -> tight c'.
  Proof.
    intros I T E. destruct x as [a d0|a d0 s]; cbn [rstep] in E.
    - eapply loop_tight; [exact I|apply zeros_map|exact T|exact E].
    - unfold xor_key_stream in E. destruct (_ <? _); [injection E as <- _ _; exact T|].
      destruct (_ <? _); [injection E as <- _ _; exact T|].
      eapply loop_tight; [exact I|apply zeros_map|exact T|exact E].
  Qed.
End Source.

Lemma output_spec : forall key ks cs, Forall always cs -> (forall x, In x cs -> ~ mismatch x) ->
  exists c outs, rrun key ks rng0 cs = Some (c, outs) /\ Forall (fun o => snd o = true) outs /\
    concat (map fst outs) = out_bytes key ks 0 (total_len cs) /\
    Z.of_nat (total_len cs) <= Z.of_nat (g_nk c) * mebi < Z.of_nat (total_len cs) + mebi.
Proof.
  intros key ks cs AL NM.
  assert (K : forall c, rinv key c -> tight c -> exists c' outs, rrun key ks c cs = Some (c', outs) /\ rinv key c' /\ tight c' /\
    Forall (fun o => snd o = true) outs /\ concat (map fst outs) = out_bytes key ks (taken c) (total_len cs) /\
    taken c' = taken c + Z.of_nat (total_len cs)).
  { induction cs as [|x cs IH]; intros c I T.
    - exists c, []. cbn. split; [reflexivity|]. split; [exact I|]. split; [exact T|]. split; [constructor|]. split; [reflexivity|lia].
    - inversion AL as [|? ? A1 A2]; subst.
      destruct (rstep_spec key ks c x I) as (c1 & d & ok & n & E & I1 & T1 & L & _ & M & OK).
      assert (NX : ~ mismatch x) by (apply NM; cbn; tauto). specialize (OK A1 NX). destruct (M NX) as [D H]. apply H in OK as EN.
      assert (TT : tight c1) by (eapply rstep_tight; [exact I|exact T|exact E]).
      destruct (IH A2 (fun y Hy => NM y (or_intror Hy)) c1 I1 TT) as (c2 & o & E2 & I2 & T2 & F & CC & TK).
      exists c2, ((d, ok) :: o). cbn [rrun]. rewrite E, E2. split; [reflexivity|]. split; [exact I2|]. split; [exact T2|].
      split; [constructor; [exact OK|exact F]|]. cbn [map concat total_len fold_right fst].
      change (fold_right (fun x0 n0 => (length (dst_of x0) + n0)%nat) 0%nat cs) with (total_len cs).
      rewrite out_bytes_app, CC, D, EN, Nat.sub_diag, app_nil_r, T1, EN. split; [reflexivity|]. lia. }
  destruct (K rng0 (rinv0 key)) as (c & o & E & I & T & F & C & TK).
  - exact mebi_pos.
  - exists c, o. split; [exact E|]. split; [exact F|]. split; [exact C|].
    unfold tight in T. destruct I as [A _ _]. unfold taken in *. cbn [g_nk g_rem rng0] in TK. lia.
Qed.

Lemma wrun_length : forall key ks f sched t d0 d, f t = Idle d0 ->
  w_thr (wrun key ks (mkWorld rng0 None f) sched) t = Returned d -> length d = length d0.
Proof.
  intros key ks f sched t d0 d EF.
  set (len_ok := fun s => match s with
    | Idle x | Waiting x | Returned x | Panicked x => length x = length d0
    | Holding a b => (length a + length b = length d0)%nat end).
  assert (XL : forall k d pos, length (xor_stream ks k pos d) = length d).
  { intros k d1. induction d1 as [|b d1 IH]; intros pos; cbn; [reflexivity|]. rewrite IH. reflexivity. }
  assert (IT : forall ok c a b c' a' b', fill_iter key ks ok c a b = Ok (c', a', b') ->
    (length a' + length b' = length a + length b)%nat).
  { intros ok c a b c' a' b' E. unfold fill_iter in E.
    destruct (if g_rem c =? 0 then renew key ok c else Ok c) as [c1| |]; cbn [rbind] in E; try discriminate.
    destruct (g_st c1) as [[k pos]|]; [|discriminate]. set (n := Z.to_nat _) in E. injection E as _ <- <-.
    rewrite app_length, XL, <- Nat.add_assoc, <- app_length, firstn_skipn. reflexivity. }
  assert (ST : forall w u ok, len_ok (w_thr w t) -> len_ok (w_thr (wstep key ks w u ok) t)).
  { intros w u ok H. unfold wstep. destruct (Nat.eq_dec u t) as [->|NE].
    - destruct (w_thr w t) as [x|x|a b|x|x] eqn:E; cbn [w_thr].
      + rewrite set_same. cbn. rewrite map_length. exact H.
      + destruct (w_lock w); [rewrite E; exact H|]. cbn [w_thr]. rewrite set_same. exact H.
      + destruct b as [|y b]; cbn [w_thr].
        * rewrite set_same. cbn in *. lia.
        * destruct (fill_iter key ks ok (w_rng w) a (y :: b)) as [[[c1 a1] b1]| |] eqn:EI; cbn [w_thr]; rewrite set_same.
          -- apply IT in EI. unfold len_ok in *. lia.
          -- unfold len_ok in *. rewrite app_length. exact H.
          -- unfold len_ok in *. rewrite app_length. exact H.
      + rewrite E; exact H.
      + rewrite E; exact H.
    - assert (NE' : t <> u) by congruence.
      destruct (w_thr w u) as [x|x|a b|x|x]; cbn [w_thr]; rewrite ?set_other by exact NE'; try exact H.
      + destruct (w_lock w); cbn [w_thr]; rewrite ?set_other by exact NE'; exact H.
      + destruct b as [|y b]; cbn [w_thr]; rewrite ?set_other by exact NE'; try exact H.
        destruct (fill_iter key ks ok (w_rng w) a (y :: b)) as [[[c1 a1] b1]| |]; cbn [w_thr]; rewrite ?set_other by exact NE'; exact H. }
  assert (RN : forall sched w, len_ok (w_thr w t) -> len_ok (w_thr (wrun key ks w sched) t)).
  { unfold wrun. induction sched0 as [|x s IH]; intros w H; [exact H|]. cbn [fold_left]. apply IH, ST, H. }
  intros E. specialize (RN sched (mkWorld rng0 None f)). cbn [w_thr] in RN. rewrite EF in RN. specialize (RN eq_refl).
  rewrite E in RN. exact RN.
Qed.
