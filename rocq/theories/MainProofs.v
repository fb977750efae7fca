(** Proofs about how a process starts. *)
From Coq Require Import ZArith List Lia Bool Permutation Decimal.
From Coq Require Import Init.Byte.
From Verif Require Import Params Curve Order Bytes Res Secp Spec SecpProofs SecpProofs2 PropsSecp Dto DtoSpec DtoProofs Prot Layout LayoutSpec LayoutProofs LayoutProofs2 PropsLayout Node NodeProofs Requests Main MainSpec.
From Verif Require Net.
Import ListNotations.
Open Scope Z_scope.

(** ** Decimal numbers *)
Lemma dec_val_spec c d : dec_val c = Some d <-> exists n, d = Z.of_nat n /\ nth_error [x30; x31; x32; x33; x34; x35; x36; x37; x38; x39] n = Some c.
Proof.
  split.
  - intros E. exists (Z.to_nat d). destruct c; vm_compute in E; try discriminate E; injection E as <-; split; reflexivity.
  - intros (n & -> & H). do 10 (destruct n as [|n]; [vm_compute in H; injection H as <-; reflexivity|]). destruct n; discriminate H.
Qed.
Lemma dec_all_spec : forall l acc z, dec_all acc l = Some z <-> exists ds, dec_digits l ds /\ z = acc * 10 ^ Z.of_nat (length l) + dec_number ds.
Proof.
  induction l as [|c l IH]; intros acc z; cbn [dec_all].
  - split; [intros E; injection E as <-; exists []; split; [constructor|cbn; lia]|]. intros (ds & H & ->). inversion H; subst. f_equal. cbn. lia.
  - destruct (dec_val c) as [d|] eqn:EV.
    + rewrite IH. pose proof EV as EV0. apply dec_val_spec in EV. destruct EV as (k & -> & HK).
      assert (PW : 10 ^ Z.of_nat (length (c :: l)) = 10 * 10 ^ Z.of_nat (length l)) by (cbn [length]; rewrite Nat2Z.inj_succ, Z.pow_succ_r by lia; reflexivity).
      split.
      * intros (ds & H & ->). exists (k :: ds). split; [constructor; assumption|]. cbn [dec_number].
        replace (length ds) with (length l) by (clear -H; induction H; cbn; congruence). lia.
      * intros (ds & H & ->). inversion H as [|? k' ? ds' HK' H']; subst. exists ds'. split; [exact H'|]. cbn [dec_number].
        replace (length ds') with (length l) by (clear -H'; induction H'; cbn; congruence).
        assert (E2 : dec_val c = Some (Z.of_nat k')) by (apply dec_val_spec; eauto). assert (Z.of_nat k = Z.of_nat k') by congruence. lia.
    + split; [discriminate|]. intros (ds & H & ->). inversion H as [|? k ? ds' HK H']; subst.
      assert (E2 : dec_val c = Some (Z.of_nat k)) by (apply dec_val_spec; eauto). congruence.
Qed.
Lemma dec_first l ds c : dec_digits (c :: l) ds -> c <> x2d /\ c <> x2b.
Proof.
  intros H. inversion H as [|? k ? ds' HK H']; subst. assert (A1 : dec_val c = Some (Z.of_nat k)) by (apply dec_val_spec; eauto).
  split; intros ->; discriminate A1.
Qed.
Lemma range64 v z : (if (- 2 ^ 63 <=? v) && (v <? 2 ^ 63) then Some v else None) = Some z <-> v = z /\ - 2 ^ 63 <= z < 2 ^ 63.
Proof.
  destruct (Z.leb_spec (- 2 ^ 63) v), (Z.ltb_spec v (2 ^ 63)); cbn [andb]; split; try discriminate; try (intros [-> ?]; lia);
    try (intros E; injection E as <-; auto); intros [-> _]; reflexivity.
Qed.
Lemma atoi_spec s z : atoi s = Some z <-> integer64 s z.
Proof.
  assert (B : forall l (neg : bool), (match l with [] => None | _ :: _ => match dec_all 0 l with Some z0 => let v := if neg then - z0 else z0 in if (- 2 ^ 63 <=? v) && (v <? 2 ^ 63) then Some v else None | None => None end end) = Some z <->
    - 2 ^ 63 <= z < 2 ^ 63 /\ exists ds, l <> [] /\ dec_digits l ds /\ z = if neg then - dec_number ds else dec_number ds).
  { intros l neg. destruct l as [|c l]; [split; [discriminate|intros (_ & ds & NE & _); contradiction]|].
    destruct (dec_all 0 (c :: l)) as [z0|] eqn:E.
    - cbv zeta. rewrite range64. apply dec_all_spec in E. destruct E as (ds & H & ->). rewrite Z.mul_0_l, Z.add_0_l. split.
      + intros [<- R]. split; [exact R|]. exists ds. split; [discriminate|]. auto.
      + intros [R (ds' & _ & H' & ->)]. split; [|exact R].
        assert (ED : dec_number ds = dec_number ds'); [|rewrite ED; reflexivity].
        assert (X : dec_all 0 (c :: l) = Some (dec_number ds)) by (apply dec_all_spec; exists ds; split; [exact H|lia]).
        assert (Y : dec_all 0 (c :: l) = Some (dec_number ds')) by (apply dec_all_spec; exists ds'; split; [exact H'|lia]). congruence.
    - split; [discriminate|]. intros (_ & ds & _ & H & _).
      assert (X : dec_all 0 (c :: l) = Some (dec_number ds)) by (apply dec_all_spec; exists ds; split; [exact H|lia]). congruence. }
  unfold atoi, integer64. destruct s as [|c s]; [cbn [scan_sign]|cbn [scan_sign]; destruct (byte_eqb c x2d) eqn:E1; [|destruct (byte_eqb c x2b) eqn:E2]].
  - split; [discriminate|]. intros (_ & l & ds & NE & _ & [[[E|E] _]|[E _]]); try discriminate E. exfalso. apply NE. congruence.
  - destruct (byte_eqb_spec c x2d) as [->|]; [|discriminate E1]. clear E1. rewrite (B s true). split.
    + intros (R & ds & NE & H & ->). split; [exact R|]. exists s, ds. auto.
    + intros (R & l & ds & NE & H & [[[<-|E] ->]|[E ->]]); [destruct (dec_first _ _ _ H); contradiction|discriminate E|injection E as ->; split; [exact R|eauto]].
  - destruct (byte_eqb_spec c x2b) as [->|]; [|discriminate E2]. clear E2. rewrite (B s false). split.
    + intros (R & ds & NE & H & ->). split; [exact R|]. exists s, ds. auto 7.
    + intros (R & l & ds & NE & H & [[[<-|E] ->]|[E ->]]); [destruct (dec_first _ _ _ H); contradiction|injection E as ->; split; [exact R|eauto]|discriminate E].
  - rewrite (B (c :: s) false). split.
    + intros (R & ds & NE & H & ->). split; [exact R|]. exists (c :: s), ds. auto 7.
    + intros (R & l & ds & NE & H & [[[<-|E] ->]|[E ->]]); [split; [exact R|eauto]|injection E as -> ->; discriminate E2|injection E as -> ->; discriminate E1].
Qed.
(** What strconv.FormatInt writes, strconv.Atoi reads. *)
Lemma dec_all_app l : forall acc l', dec_all acc (l ++ l') = match dec_all acc l with Some z => dec_all z l' | None => None end.
Proof. induction l as [|c l IH]; intros acc l'; [reflexivity|]. cbn. destruct (dec_val c); [apply IH|reflexivity]. Qed.
Fixpoint acc_uint (acc : Z) (u : uint) : Z :=
  match u with
  | Nil => acc | D0 u => acc_uint (acc * 10) u | D1 u => acc_uint (acc * 10 + 1) u | D2 u => acc_uint (acc * 10 + 2) u | D3 u => acc_uint (acc * 10 + 3) u
  | D4 u => acc_uint (acc * 10 + 4) u | D5 u => acc_uint (acc * 10 + 5) u | D6 u => acc_uint (acc * 10 + 6) u | D7 u => acc_uint (acc * 10 + 7) u
  | D8 u => acc_uint (acc * 10 + 8) u | D9 u => acc_uint (acc * 10 + 9) u
  end.
Lemma dec_all_digits u : forall acc, dec_all acc (digits u) = Some (acc_uint acc u).
Proof.
  induction u as [|u IH|u IH|u IH|u IH|u IH|u IH|u IH|u IH|u IH|u IH]; intros acc; cbn [digits dec_all acc_uint]; [reflexivity| | | | | | | | | |];
    match goal with |- context [dec_val ?c] => let x := eval vm_compute in (dec_val c) in change (dec_val c) with x end; cbv match beta; rewrite IH; try (rewrite Z.add_0_r); reflexivity.
Qed.
Lemma acc_uint_pos u : forall a, acc_uint (Zpos a) u = Zpos (Pos.of_uint_acc u a).
Proof.
  induction u as [|u IH|u IH|u IH|u IH|u IH|u IH|u IH|u IH|u IH|u IH]; intros a; cbn [acc_uint Pos.of_uint_acc]; [reflexivity| | | | | | | | | |]; rewrite <- IH; f_equal; lia.
Qed.
Lemma acc_uint_0 u : acc_uint 0 u = Z.of_uint u.
Proof.
  unfold Z.of_uint. induction u as [|u IH|u IH|u IH|u IH|u IH|u IH|u IH|u IH|u IH|u IH]; cbn [acc_uint Pos.of_uint]; [reflexivity|exact IH| | | | | | | | |]; exact (acc_uint_pos _ _).
Qed.
Lemma digits_first u c l : digits u = c :: l -> byte_eqb c x2d = false /\ byte_eqb c x2b = false.
Proof. destruct u; cbn; intros E; try discriminate; injection E as <- _; split; reflexivity. Qed.
Lemma atoi_format z : - 2 ^ 63 <= z < 2 ^ 63 -> atoi (format_int z) = Some z.
Proof.
  intros R. unfold format_int. pose proof (DecimalZ.of_to z) as OT. pose proof (DecimalZ.to_of (Z.to_int z)) as TO. rewrite OT in TO.
  assert (NN : match Z.to_int z with Pos u | Neg u => u <> Nil end).
  { destruct z as [|q|q]; cbn; try discriminate; intros E; pose proof (DecimalPos.Unsigned.to_uint_nonnil q) as X; contradiction. }
  destruct (Z.to_int z) as [u|u] eqn:E; cbn [Z.of_int] in OT.
  - unfold atoi. destruct (digits u) as [|c l] eqn:ED; [destruct u; try discriminate ED; contradiction|]. cbn [scan_sign]. destruct (digits_first _ _ _ ED) as [-> ->].
    rewrite <- ED. rewrite dec_all_digits, acc_uint_0, OT. cbv zeta match. apply range64. auto.
  - unfold atoi. cbn [scan_sign]. change (byte_eqb x2d x2d) with true. cbv match. destruct (digits u) as [|c l] eqn:ED; [destruct u; try discriminate ED; contradiction|].
    rewrite <- ED. rewrite dec_all_digits, acc_uint_0, OT. cbv zeta match. apply range64. auto.
Qed.

(** ** Directories *)
Lemma has_prefix_iff s pre : has_prefix s pre = true <-> exists r, s = pre ++ r.
Proof.
  revert s. induction pre as [|c pre IH]; intros s; cbn [has_prefix]; [split; [intros _; exists s; reflexivity|reflexivity]|].
  destruct s as [|d s]; [split; [discriminate|intros [r E]; discriminate E]|]. rewrite andb_true_iff, IH. split.
  - intros [E [r ->]]. destruct (byte_eqb_spec c d) as [->|]; [|discriminate]. exists r. reflexivity.
  - intros [r E]. injection E as -> ->. split; [|eauto]. destruct (byte_eqb_spec c c); [reflexivity|contradiction].
Qed.
Lemma given_ok {A} (o : option A) x : given o = Ok x <-> o = Some x.
Proof. destruct o; cbn; split; intros E; try discriminate; injection E as ->; reflexivity. Qed.
Lemma rmap_ok {A B} (f : A -> res B) l r : rmap f l = Ok r <-> Forall2 (fun x y => f x = Ok y) l r.
Proof.
  revert r. induction l as [|a l IH]; intros r; cbn.
  - split; [intros E; injection E as <-; constructor|]. intros H. inversion H. reflexivity.
  - split.
    + destruct (f a) as [y| |] eqn:E; cbn; try discriminate. destruct (rmap f l) as [ys| |] eqn:E'; cbn; try discriminate. intros X. injection X as <-.
      constructor; [exact E|]. apply IH. reflexivity.
    + intros H. inversion H as [|? y ? ys E F]; subst. rewrite E. cbn. apply IH in F. rewrite F. reflexivity.
Qed.
Lemma load_secrets_ok w dir secrets : load_secrets w dir = Ok secrets ->
  (forall nm, secret_file w dir nm -> exists b, w_file w dir nm = Some b /\ length b = 32%nat) /\ (exists names, w_names w dir = Some names) /\
  forall s, In s secrets <-> has_secret w dir s.
Proof.
  unfold load_secrets, slurp_all. intros E. destruct (w_names w dir) as [names|] eqn:EN; cbn [given rbind] in E; [|discriminate].
  unfold slurp_all1 in E. destruct (rmap _ _) as [blobs| |] eqn:E1; cbn [rbind] in E; try discriminate. unfold unmarshal_secret_keys in E. apply rmap_ok in E1, E.
  assert (SF : forall nm, secret_file w dir nm <-> In nm (filter_prefix names s_secret)).
  { intros nm. unfold filter_prefix. rewrite filter_In, has_prefix_iff. split.
    - intros (ns & r & E0 & I & ->). assert (ns = names) by congruence. subst. split; [exact I|]. exists r. reflexivity.
    - intros [I [r ->]]. exists names, r. auto. }
  assert (BL : forall b y, must (sc_unmarshal b) = Ok y <-> length b = 32%nat /\ y = be2z b mod N).
  { intros b y. rewrite sc_unmarshal_spec. destruct (Nat.eqb_spec (length b) 32); cbn; split; try discriminate; try tauto; [intros X; injection X as <-; auto|intros [_ ->]; reflexivity]. }
  split; [|split].
  - intros nm H. apply SF in H. destruct (forall2_in_l _ _ _ E1 nm H) as (b & Ib & Hb). exists b.
    destruct (w_file w dir nm) as [b'|]; [|discriminate]. injection Hb as ->. split; [reflexivity|]. destruct (forall2_in_l _ _ _ E b Ib) as (y & _ & Hy). apply BL in Hy. tauto.
  - exists names. reflexivity.
  - intros s. split.
    + intros I. destruct (forall2_in_r _ _ _ E s I) as (b & Ib & Hb). apply BL in Hb. destruct (forall2_in_r _ _ _ E1 b Ib) as (nm & In1 & Hn).
      exists nm, b. split; [apply SF; exact In1|]. split; [destruct (w_file w dir nm); [injection Hn as ->; reflexivity|discriminate]|exact Hb].
    + intros (nm & b & S1 & S2 & S3 & ->). apply SF in S1. destruct (forall2_in_l _ _ _ E1 nm S1) as (b' & Ib & Hb). rewrite S2 in Hb. injection Hb as <-.
      destruct (forall2_in_l _ _ _ E b Ib) as (y & Iy & Hy). apply BL in Hy. destruct Hy as [_ ->]. exact Iy.
Qed.
Lemma rmap_total {A B} (f : A -> res B) l : (forall x, In x l -> exists y, f x = Ok y) -> exists r, rmap f l = Ok r.
Proof.
  induction l as [|a l IH]; intros H; [exists []; reflexivity|]. destruct (H a (or_introl eq_refl)) as [y Hy]. destruct IH as [r Hr]; [intros x I; apply H; right; exact I|].
  exists (y :: r). cbn. rewrite Hy. cbn. rewrite Hr. reflexivity.
Qed.
Lemma load_secrets_total w dir names : w_names w dir = Some names -> (forall nm, secret_file w dir nm -> exists b, w_file w dir nm = Some b /\ length b = 32%nat) ->
  exists secrets, load_secrets w dir = Ok secrets.
Proof.
  intros EN H. unfold load_secrets, slurp_all. rewrite EN. cbn [given rbind].
  assert (X : forall nm, In nm (filter_prefix names s_secret) -> exists b, w_file w dir nm = Some b /\ length b = 32%nat).
  { intros nm I. apply H. unfold filter_prefix in I. apply filter_In in I. destruct I as [I P]. apply has_prefix_iff in P. destruct P as [r ->]. exists names, r. auto. }
  destruct (rmap_total (fun nm => match w_file w dir nm with Some b => Ok b | None => Panic end) (filter_prefix names s_secret)) as [blobs E].
  { intros nm I. destruct (X nm I) as (b & -> & _). eauto. }
  unfold slurp_all1. rewrite E. cbn [rbind]. apply rmap_total. intros b I. apply rmap_ok in E. destruct (forall2_in_r _ _ _ E b I) as (nm & I1 & Hn).
  destruct (X nm I1) as (b' & E' & L). rewrite E' in Hn. injection Hn as <-. rewrite sc_unmarshal_spec, L. cbn. eauto.
Qed.
Lemma unique_in x xs : In x (unique xs) <-> In x xs.
Proof.
  induction xs as [|y xs IH]; cbn; [tauto|]. destruct (existsb (bytes_eqb y) xs) eqn:E; cbn; rewrite IH; [|tauto].
  split; [tauto|]. intros [<-|I]; [|exact I]. apply existsb_exists in E. destruct E as (z & I & E). destruct (bytes_eqb_spec y z) as [->|]; [exact I|discriminate].
Qed.
Lemma unique_nodup xs : NoDup (unique xs).
Proof.
  induction xs as [|y xs IH]; cbn; [constructor|]. destruct (existsb (bytes_eqb y) xs) eqn:E; [exact IH|]. constructor; [|exact IH].
  rewrite unique_in. intros I. assert (X : existsb (bytes_eqb y) xs = true); [|congruence]. apply existsb_exists. exists y. split; [exact I|]. destruct (bytes_eqb_spec y y); [reflexivity|contradiction].
Qed.
Lemma verify_config_ok w ps T gs u : verify_config w ps T gs = Ok u <-> forall i g, In (i, g) gs -> w_accepts w (gu_sec g) ps T = true.
Proof.
  destruct u. induction gs as [|[i g] gs IH]; cbn; [split; [intros _ i g []|reflexivity]|]. destruct (w_accepts w (gu_sec g) ps T) eqn:E.
  - rewrite IH. split; [intros H i' g' [X|X]; [injection X as <- <-; exact E|eauto]|intros H i' g' X; apply (H i' g'); right; exact X].
  - split; [discriminate|]. intros H. rewrite (H i g (or_introl eq_refl)) in E. discriminate.
Qed.
Lemma listen_all_ok w l u : listen_all w l = Ok u <-> forall a, In a l -> w_listens w a = true.
Proof.
  destruct u. induction l as [|a l IH]; cbn; [split; [intros _ a []|reflexivity]|]. destruct (w_listens w a) eqn:E.
  - rewrite IH. split; [intros H b [<-|X]; auto|intros H b X; auto].
  - split; [discriminate|]. intros H. rewrite (H a (or_introl eq_refl)) in E. discriminate.
Qed.
Lemma zset_nodup {V} (m : list (Z * V)) k v : NoDup (map fst m) -> NoDup (map fst (zset m k v)).
Proof.
  intros ND. unfold zset. cbn. constructor.
  - intros I. apply in_map_iff in I. destruct I as ([k' v'] & E & I). cbn in E. subst. apply filter_In in I. destruct I as [_ I]. cbn in I. rewrite Z.eqb_refl in I. discriminate.
  - induction m as [|[a b] m IH]; cbn in *; [constructor|]. inversion ND; subst. destruct (negb (a =? k)); cbn; [|auto]. constructor; [|auto].
    intros I. apply H1. apply in_map_iff in I. destruct I as (x & E & I). apply filter_In in I. apply in_map_iff. exists x. tauto.
Qed.
Lemma guests_nodup L secrets : forall acc gs, guests_loop L secrets acc = Ok gs -> NoDup (map fst acc) -> NoDup (map fst gs).
Proof.
  induction secrets as [|s r IH]; intros acc gs E ND; cbn [guests_loop] in E; [injection E as <-; exact ND|].
  rewrite compute_pub_ok in E. cbn [rbind] in E. destruct (_ =? -1); [exact (IH _ _ E ND)|].
  destruct (z_index (ly_members L) _) as [m| |]; cbn [rbind] in E; try discriminate. destruct (z_index (ly_addrs L) _) as [a| |]; cbn [rbind] in E; try discriminate.
  apply (IH _ _ E). apply zset_nodup, ND.
Qed.
Lemma zget_some {V} (m : list (Z * V)) k : In k (map fst m) <-> exists v, zget m k = Some v.
Proof.
  induction m as [|[a b] m IH]; cbn; [split; [tauto|intros [v X]; discriminate]|]. destruct (Z.eqb_spec a k) as [->|NE]; [split; eauto|]. rewrite IH. split; [intros [X|X]; [contradiction|exact X]|auto].
Qed.

(** ** main *)
Section Main.
  Variable srt : list member -> list member.
  Variable mord : list (Z * Z) -> list (Z * Z).
  Variable w : world.

  Definition until_of (du : bytes) (t : Z) : Prop := du = [x5f] /\ t = w_now w + 3000 * ms \/ du <> [x5f] /\ w_time w du = Some t.
  Lemma until_spec du t : (if bytes_eqb du s_default then Ok (w_now w + (peer_start_grace + 1000 * ms)) else given (w_time w du)) = Ok t <-> until_of du t.
  Proof.
    unfold until_of, s_default, peer_start_grace. destruct (bytes_eqb_spec du [x5f]) as [->|NE].
    - split; [intros E; left; split; [reflexivity|]; assert (X : w_now w + (2000 * ms + 1000 * ms) = t) by congruence; rewrite <- X; lia|]. intros [[_ ->]|[X _]]; [f_equal; lia|contradiction].
    - rewrite given_ok. split; [auto|]. intros [[X _]|[_ E]]; [contradiction|exact E].
  Qed.

  (** What main has done when it has succeeded *)
  Lemma main_ok a0 a1 a2 a3 a4 a5 rest st : main srt mord w (command a0 a1 a2 a3 a4 a5 rest) = Ok st <->
    exists j conf L secrets gs T du lts x,
      w_conf w a1 = Some j /\ load_config j = Ok conf /\ compute_layout srt (w_file w a2) conf = Ok L /\ load_secrets w a3 = Ok secrets /\ compute_guests L secrets = Ok gs /\
      atoi a4 = Some T /\ until_of a5 du /\
      (if (length rest =? 1)%nat then exists a6 file, rest = [a6] /\ w_gob w a6 = Some file /\ load_longterms gs file = Ok lts else lts = []) /\
      protocol_start mord w L gs T = Ok x /\
      st = mkStarted (mkSetup (map fst gs) (map mb_pub (ly_members L)) T (Z.of_nat (length (ly_m2a L))) (fun i => match zget gs i with Some g => gu_sec g | None => 0 end) (mget lts))
             du (length rest =? 1)%nat (du + (50 * ms + max_drift)) (fst x) (snd x).
  Proof.
    unfold main, command. cbn [length Nat.ltb Nat.leb at_index nth_error rbind].
    replace (S (S (S (S (S (S (length rest)))))) =? 7)%nat with (length rest =? 1)%nat by (destruct (length rest) as [|[|?]]; reflexivity).
    split.
    - intros E. destruct (w_conf w a1) as [j|] eqn:E1; cbn [given rbind] in E; [|discriminate]. destruct (load_config j) as [conf| |] eqn:E2; cbn [rbind] in E; try discriminate.
      destruct (compute_layout srt (w_file w a2) conf) as [L| |] eqn:E3; cbn [rbind] in E; try discriminate. destruct (load_secrets w a3) as [secrets| |] eqn:E4; cbn [rbind] in E; try discriminate.
      destruct (compute_guests L secrets) as [gs| |] eqn:E5; cbn [rbind] in E; try discriminate. destruct (atoi a4) as [T|] eqn:E6; cbn [given rbind] in E; [|discriminate].
      destruct (if bytes_eqb a5 s_default then Ok (w_now w + (peer_start_grace + 1000 * ms)) else given (w_time w a5)) as [du| |] eqn:E7; cbn [rbind] in E; try discriminate. apply until_spec in E7.
      destruct (length rest =? 1)%nat eqn:E8.
      + destruct rest as [|a6 [|]]; try discriminate E8. cbn [at_index nth_error rbind] in E. destruct (w_gob w a6) as [file|] eqn:E9; cbn [given rbind] in E; [|discriminate].
        destruct (load_longterms gs file) as [lts| |] eqn:E10; cbn [rbind] in E; try discriminate.
        destruct (protocol_start mord w L gs T) as [x| |] eqn:E11; cbn [rbind] in E; try discriminate. assert (EQ := f_equal (fun r => match r with Ok y => y | _ => st end) E). cbv beta match in EQ. symmetry in EQ. clear E.
        exists j, conf, L, secrets, gs, T, du, lts, x. do 7 (split; [first [reflexivity|assumption]|]). split; [eauto|auto].
      + cbn [rbind] in E. destruct (protocol_start mord w L gs T) as [x| |] eqn:E11; cbn [rbind] in E; try discriminate. assert (EQ := f_equal (fun r => match r with Ok y => y | _ => st end) E). cbv beta match in EQ. symmetry in EQ. clear E.
        exists j, conf, L, secrets, gs, T, du, [], x. do 7 (split; [first [reflexivity|assumption]|]). auto.
    - intros (j & conf & L & secrets & gs & T & du & lts & x & E1 & E2 & E3 & E4 & E5 & E6 & E7 & E8 & E9 & ->). apply until_spec in E7.
      rewrite E1. cbn [given rbind]. rewrite E2. cbn [rbind]. rewrite E3. cbn [rbind]. rewrite E4. cbn [rbind]. rewrite E5. cbn [rbind]. rewrite E6. cbn [given rbind]. rewrite E7. cbn [rbind].
      destruct (length rest =? 1)%nat eqn:EL.
      + destruct E8 as (a6 & file & -> & G1 & G2). cbn [at_index nth_error rbind]. rewrite G1. cbn [given rbind]. rewrite G2. cbn [rbind]. rewrite E9. reflexivity.
      + subst lts. cbn [rbind]. rewrite E9. reflexivity.
  Qed.
  Lemma protocol_start_ok L gs T listen dial : protocol_start mord w L gs T = Ok (listen, dial) <->
    (forall i g, In (i, g) gs -> w_accepts w (gu_sec g) (map mb_pub (ly_members L)) T = true) /\
    match gs with [] => dial = [] | _ :: _ => Net.start_net_caller (ly_addrs L) (mord (ly_m2a L)) = Ok dial end /\
    listen = unique (map (fun x => gu_addr (snd x)) gs) /\ (forall a, In a listen -> w_listens w a = true).
  Proof.
    unfold protocol_start. set (U := unique _). split.
    - intros E. destruct (verify_config w _ T gs) as [u| |] eqn:E1; cbn [rbind] in E; try discriminate. rewrite verify_config_ok in E1. split; [exact E1|].
      destruct gs as [|e gs].
      + cbn [rbind] in E. destruct (listen_all w U) as [v| |] eqn:E3; cbn [rbind] in E; try discriminate. rewrite listen_all_ok in E3. injection E as <- <-. auto.
      + destruct (Net.start_net_caller _ _) as [d| |]; cbn [rbind] in E; try discriminate. destruct (listen_all w U) as [v| |] eqn:E3; cbn [rbind] in E; try discriminate. rewrite listen_all_ok in E3. injection E as <- <-. auto.
    - intros (A & B & -> & C). rewrite (proj2 (verify_config_ok w _ T gs tt) A). cbn [rbind]. destruct gs as [|e gs].
      + subst dial. cbn [rbind]. rewrite (proj2 (listen_all_ok w U tt) C). reflexivity.
      + rewrite B. cbn [rbind]. rewrite (proj2 (listen_all_ok w U tt) C). reflexivity.
  Qed.
End Main.
