(** Layouts of loaded configurations. *)
From Coq Require Import ZArith List Lia Bool Permutation Sorting.Sorted.
From Coq Require Import Init.Byte.
From Verif Require Import Params Curve Order Bytes Res Secp Spec SecpProofs SecpProofs2 Net Layout LayoutSpec LayoutProofs.
Import ListNotations.
Open Scope Z_scope.

Lemma forall2_in_r {A B} (R : A -> B -> Prop) l r : Forall2 R l r -> forall y, In y r -> exists x, In x l /\ R x y.
Proof.
  induction 1; intros z I; [destruct I|]. destruct I as [<-|I]; [exists x; cbn; auto|].
  destruct (IHForall2 z I) as (w&?&?). exists w. cbn. auto.
Qed.
Lemma forall2_in_l {A B} (R : A -> B -> Prop) l r : Forall2 R l r -> forall x, In x l -> exists y, In y r /\ R x y.
Proof.
  induction 1; intros z I; [destruct I|]. destruct I as [<-|I]; [exists y; cbn; auto|].
  destruct (IHForall2 z I) as (w&?&?). exists w. cbn. auto.
Qed.

(** What a loaded member list is. *)
Record loaded (fs : bytes -> option bytes) (names : list bytes) (ms : list member) : Prop := {
  ld_files : Permutation names (map mb_file ms);
  ld_index : forall k m, nth_error ms k = Some m -> mb_index m = Z.of_nat k;
  ld_pub : forall m, In m ms -> holds fs (mb_file m) (mb_pub m) /\ mb_hex m = hex_encode (enc (mb_pub m));
  ld_sorted : StronglySorted (fun a b => str_ltb (mb_hex b) (mb_hex a) = false) ms }.

Lemma number_sorted (R : member -> member -> Prop) :
  (forall a b i j, R a b -> R (mkMem (mb_file a) i (mb_pub a) (mb_hex a)) (mkMem (mb_file b) j (mb_pub b) (mb_hex b))) ->
  forall ms i, StronglySorted R ms -> StronglySorted R (number_from i ms).
Proof.
  intros H ms. induction ms as [|m ms IH]; intros i S; cbn; [constructor|]. inversion S; subst. constructor; [apply IH; assumption|].
  assert (G: forall l z, Forall (R m) l -> Forall (R (mkMem (mb_file m) i (mb_pub m) (mb_hex m))) (number_from z l)); [|apply G; assumption].
  induction l as [|x l IHl]; intros z F; cbn; [constructor|].
  inversion F; subst. constructor; [apply H; assumption|apply IHl; assumption].
Qed.

Lemma load_loaded srt fs names ms : sorts srt -> load_and_sort srt fs names = Ok ms -> loaded fs names ms.
Proof.
  intros S E. rewrite load_spec in E. destruct (allsome (mem_of fs) names) as [l|] eqn:A; [|discriminate]. injection E as <-.
  apply allsome_forall2 in A. destruct (S l) as [P ST].
  assert (MF: map mb_file l = names).
  { clear - A. induction A; cbn; [reflexivity|]. apply mem_of_some in H. destruct H as (P&_&->). cbn. congruence. }
  constructor.
  - rewrite number_map by reflexivity. rewrite <- MF. apply Permutation_map. exact P.
  - intros k m. rewrite number_nth. destruct (nth_error (srt l) k); [|discriminate]. intros X. injection X as <-. reflexivity.
  - intros m I. apply In_nth_error in I. destruct I as (k&I). rewrite number_nth in I.
    destruct (nth_error (srt l) k) as [m0|] eqn:N; [|discriminate]. injection I as <-. cbn.
    assert (I0: In m0 l) by (eapply Permutation_in; [symmetry; exact P|eapply nth_error_In; exact N]).
    destruct (forall2_in_r _ _ _ A m0 I0) as (f&_&M). apply mem_of_some in M. destruct M as (Q&HQ&->). auto.
  - apply number_sorted; [auto|exact ST].
Qed.

Lemma loaded_nodup fs names ms : NoDup names -> loaded fs names ms -> NoDup (map mb_file ms).
Proof. intros D L. exact (Permutation_NoDup (ld_files _ _ _ L) D). Qed.

(** The index of a file in a loaded list. *)
Lemma loaded_index fs names ms f : NoDup names -> loaded fs names ms -> In f names ->
  exists k m, nth_error ms k = Some m /\ mb_file m = f /\ sget0 (map_pubfile_to_index ms) f = Z.of_nat k.
Proof.
  intros D L I. pose proof (loaded_nodup _ _ _ D L) as D2.
  apply (Permutation_in _ (ld_files _ _ _ L)) in I. apply in_map_iff in I. destruct I as (m&F&I).
  destruct (In_nth_error _ _ I) as (k&N). exists k, m. split; [exact N|]. split; [exact F|].
  rewrite map_pubfile_rev. apply sget0_rev.
  - rewrite map_rev, map_map. cbn. apply NoDup_rev. exact D2.
  - apply in_rev. rewrite rev_involutive. apply in_map_iff. exists m. split; [|exact I].
    rewrite F, (ld_index _ _ _ L k m N). reflexivity.
Qed.
Lemma nodup_map_nth {A B} (f : A -> B) l i j x y : NoDup (map f l) -> nth_error l i = Some x -> nth_error l j = Some y -> f x = f y -> i = j.
Proof.
  intros D Hi Hj E. apply (proj1 (NoDup_nth_error (map f l)) D).
  - rewrite map_length. apply nth_error_Some. congruence.
  - rewrite (map_nth_error f _ _ Hi), (map_nth_error f _ _ Hj). congruence.
Qed.

Section Compiled.
  Variables (fs : bytes -> option bytes) (hosts : list host) (ms : list member).
  Let names := concat (map h_files hosts).
  Hypothesis ND : NoDup names.
  Hypothesis LD : loaded fs names ms.
  Let idx := sget0 (map_pubfile_to_index ms).
  Let sets := map (map idx) (map h_files hosts).

  Lemma concat_sets : concat sets = map idx names.
  Proof. unfold sets, names. rewrite concat_map. reflexivity. Qed.
  Lemma idx_inj f g : In f names -> In g names -> idx f = idx g -> f = g.
  Proof.
    intros If Ig E. destruct (loaded_index _ _ _ f ND LD If) as (k&m&N&F&X). destruct (loaded_index _ _ _ g ND LD Ig) as (k'&m'&N'&F'&X').
    unfold idx in E. rewrite X, X' in E. assert (k = k') by lia. congruence.
  Qed.
  Lemma nodup_sets : NoDup (concat sets).
  Proof.
    rewrite concat_sets. pose proof idx_inj as IJ. clear LD sets. revert IJ. induction names as [|f l IH]; intros IJ; cbn; [constructor|].
    inversion ND; subst. constructor.
    - intros I. apply in_map_iff in I. destruct I as (g&E&I). assert (g = f) by (apply IJ; cbn; auto). subst g. contradiction.
    - apply IH; [assumption|]. intros a b Ia Ib. apply IJ; cbn; auto.
  Qed.
  Let m2a := compute_member_to_addr sets.
  Lemma m2a_pairs : m2a = rev (pairs_from 0 sets).
  Proof. unfold m2a, compute_member_to_addr. rewrite m2a_rev; [apply app_nil_r|]. cbn. rewrite app_nil_r. exact nodup_sets. Qed.
  Lemma m2a_keys : NoDup (map fst m2a) /\ Permutation (map fst m2a) (map Z.of_nat (seq 0 (length ms))).
  Proof.
    assert (N: NoDup (map fst m2a)).
    { rewrite m2a_pairs, map_rev, pairs_fst. apply NoDup_rev, nodup_sets. }
    split; [exact N|].
    apply NoDup_Permutation_bis.
    - exact N.
    - rewrite !map_length, seq_length. rewrite <- (map_length fst m2a), m2a_pairs, map_rev, rev_length, pairs_fst, concat_sets, map_length.
      rewrite (Permutation_length (ld_files _ _ _ LD)), map_length. lia.
    - intros i I. rewrite m2a_pairs, map_rev, pairs_fst, concat_sets in I. apply in_rev in I. apply in_map_iff in I.
      destruct I as (f&<-&I). destruct (loaded_index _ _ _ f ND LD I) as (k&m&Nm&F&X). unfold idx. rewrite X.
      apply in_map. apply in_seq. split; [lia|]. apply nth_error_Some. congruence.
  Qed.
  Lemma m2a_in k a : In (k, a) m2a -> 0 <= k < Z.of_nat (length m2a) /\ 0 <= a < Z.of_nat (length hosts).
  Proof.
    intros I. split.
    - destruct m2a_keys as [_ P]. assert (Ik: In k (map fst m2a)) by (apply in_map_iff; exists (k, a); auto).
      apply (Permutation_in _ P) in Ik. apply in_map_iff in Ik. destruct Ik as (j&<-&J). apply in_seq in J.
      rewrite <- (map_length fst m2a), (Permutation_length P), map_length, seq_length. lia.
    - rewrite m2a_pairs in I. apply in_rev in I. apply in_pairs in I. destruct I as (j&x&Nj&_&->).
      assert (j < length sets)%nat by (apply nth_error_Some; congruence). unfold sets in H. rewrite !map_length in H. lia.
  Qed.
  Lemma m2a_host j h f : nth_error hosts j = Some h -> In f (h_files h) ->
    exists k m, nth_error ms k = Some m /\ mb_file m = f /\ zget m2a (Z.of_nat k) = Some (Z.of_nat j).
  Proof.
    intros NH I. assert (In f names).
    { unfold names. apply in_concat. exists (h_files h). split; [|exact I]. apply in_map. eapply nth_error_In. exact NH. }
    destruct (loaded_index _ _ _ f ND LD H) as (k&m&Nm&F&X). exists k, m. split; [exact Nm|]. split; [exact F|].
    apply zget_in; [apply m2a_keys|]. rewrite m2a_pairs. apply in_rev. rewrite rev_involutive. apply in_pairs.
    exists j, (map idx (h_files h)). split; [|split; [|lia]].
    - unfold sets. rewrite map_map. rewrite (map_nth_error _ _ _ NH). reflexivity.
    - rewrite <- X. apply in_map. exact I.
  Qed.
End Compiled.

(** ** Guests *)
Definition pub_of (s : Z) : point := of_E (smul s eG).
Lemma compute_pub_ok s : compute_pub s = Ok (pub_of s).
Proof. apply pt_mul_base. auto. Qed.
Lemma pub_of_elt s : group_elt (pub_of s).
Proof. apply of_E_elt. Qed.

Lemma pt_equal_iff P Q : curve_point P -> group_elt Q -> (pt_equal P Q = true <-> P = Q).
Proof.
  intros (Px&Py&_) GQ.
  assert (QR: 0 <= fst Q < p /\ 0 <= snd Q < p).
  { destruct GQ as [->|(Qx&Qy&_)]; [cbn; pose proof p_pos; lia|auto]. }
  unfold pt_equal. rewrite andb_true_iff, !fe_equal_spec. unfold eqP. rewrite !Z.mod_small by tauto.
  destruct P, Q; cbn. split; [intros [-> ->]; reflexivity|intros E; injection E; auto].
Qed.

Lemma find_spec P ms : group_elt P -> (forall m, In m ms -> curve_point (mb_pub m)) -> forall i, 0 <= i ->
  (find_from i P ms = -1 /\ ~ In P (map mb_pub ms)) \/
  exists k m, find_from i P ms = i + Z.of_nat k /\ nth_error ms k = Some m /\ mb_pub m = P.
Proof.
  intros GP. induction ms as [|m ms IH]; intros C i Hi; cbn [find_from].
  - left. cbn. auto.
  - destruct (pt_equal (mb_pub m) P) eqn:E.
    + right. exists 0%nat, m. apply pt_equal_iff in E; [|apply C; left; reflexivity|exact GP]. cbn. split; [lia|]. auto.
    + assert (NE: mb_pub m <> P).
      { intros X. apply (pt_equal_iff (mb_pub m) P) in X; [congruence|apply C; left; reflexivity|exact GP]. }
      destruct (IH (fun m' I => C m' (or_intror I)) (i + 1) ltac:(lia)) as [[A B]|(k&m'&A&B&D)].
      * left. split; [exact A|]. cbn. intros [X|X]; auto.
      * right. exists (S k), m'. split; [rewrite A; lia|]. auto.
Qed.

Lemma nth_index {A} (l : list A) k x : nth_error l k = Some x -> z_index l (Z.of_nat k) = Ok x.
Proof. intros H. unfold z_index, at_index. destruct (Z.ltb_spec (Z.of_nat k) 0); [lia|]. rewrite Nat2Z.id, H. reflexivity. Qed.
Lemma z_index_some {A} (l : list A) i x : z_index l i = Ok x <-> 0 <= i /\ nth_error l (Z.to_nat i) = Some x.
Proof.
  unfold z_index, at_index. destruct (Z.ltb_spec i 0); [split; [discriminate|lia]|].
  destruct (nth_error l (Z.to_nat i)); split; intros E; try congruence; try (destruct E; congruence).
  injection E as ->. auto.
Qed.

Section Guests.
  Variable L : layout.
  Hypothesis CP : forall m, In m (ly_members L) -> curve_point (mb_pub m).

  (** [g] is the guest for the member at [i] with a secret of [secs]. *)
  Definition guest_ok (secs : list Z) (i : Z) (g : guest) : Prop :=
    gu_index g = i /\ In (gu_sec g) secs /\ 0 <= i /\
    exists m, nth_error (ly_members L) (Z.to_nat i) = Some m /\ compute_pub (gu_sec g) = Ok (mb_pub m) /\ gu_pub g = mb_pub m /\
      gu_addr_index g = zget0 (ly_m2a L) i /\ 0 <= gu_addr_index g /\ nth_error (ly_addrs L) (Z.to_nat (gu_addr_index g)) = Some (gu_addr g).

  Lemma guests_sound secs : forall acc gs, (forall i g, zget acc i = Some g -> guest_ok secs i g) ->
    forall done, incl done secs -> guests_loop L done acc = Ok gs -> forall i g, zget gs i = Some g -> guest_ok secs i g.
  Proof.
    intros acc gs A done. revert acc A. induction done as [|s r IH]; intros acc A INC E; cbn in E.
    - injection E as <-. exact A.
    - rewrite compute_pub_ok in E. cbn [rbind] in E. unfold find_member_index in E.
      destruct (find_spec (pub_of s) (ly_members L) (pub_of_elt s) CP 0 ltac:(lia)) as [[F NI]|(k&m&F&N&P)]; rewrite F in E.
      + cbn in E. apply (IH acc A); [|exact E]. intros x I. apply INC. right. exact I.
      + rewrite Z.add_0_l in E. destruct (Z.eqb_spec (Z.of_nat k) (-1)); [lia|].
        rewrite (nth_index _ _ _ N) in E. cbn [rbind] in E.
        destruct (z_index (ly_addrs L) (zget0 (ly_m2a L) (Z.of_nat k))) as [a| |] eqn:ZA; cbn [rbind] in E; try discriminate.
        refine (IH _ _ _ E); [|intros x I; apply INC; right; exact I].
        intros i g. rewrite zget_zset. destruct (Z.eqb_spec (Z.of_nat k) i) as [<-|]; [|apply A].
        intros X. injection X as <-. split; [reflexivity|]. split; [apply INC; left; reflexivity|]. split; [lia|].
        exists m. rewrite Nat2Z.id. cbn. apply z_index_some in ZA. destruct ZA as [ZA1 ZA2].
        rewrite compute_pub_ok, P. auto 10.
  Qed.
  Lemma guests_keep done : forall acc gs i, guests_loop L done acc = Ok gs -> zget acc i <> None -> zget gs i <> None.
  Proof.
    induction done as [|s r IH]; intros acc gs i E A; cbn in E; [injection E as <-; exact A|].
    rewrite compute_pub_ok in E. cbn [rbind] in E. destruct (_ =? -1); [exact (IH _ _ _ E A)|].
    destruct (z_index (ly_members L) _); cbn [rbind] in E; try discriminate.
    destruct (z_index (ly_addrs L) _); cbn [rbind] in E; try discriminate.
    apply (IH _ _ _ E). rewrite zget_zset. destruct (_ =? _); [discriminate|exact A].
  Qed.
  Lemma guests_complete done : NoDup (map mb_pub (ly_members L)) -> forall acc gs s k m, guests_loop L done acc = Ok gs ->
    In s done -> nth_error (ly_members L) k = Some m -> compute_pub s = Ok (mb_pub m) -> zget gs (Z.of_nat k) <> None.
  Proof.
    intros ND. induction done as [|s' r IH]; intros acc gs s k m E I N P; [destruct I|]. cbn in E.
    rewrite compute_pub_ok in E. cbn [rbind] in E. destruct I as [->|I].
    - rewrite compute_pub_ok in P. injection P as P.
      destruct (find_spec (pub_of s) (ly_members L) (pub_of_elt s) CP 0 ltac:(lia)) as [[F NI]|(k'&m'&F&N'&P')].
      + exfalso. apply NI. rewrite P. apply in_map. eapply nth_error_In. exact N.
      + assert (k' = k) by (eapply (nodup_map_nth mb_pub); [exact ND|exact N'|exact N|congruence]). subst k'.
        unfold find_member_index in E. rewrite F, Z.add_0_l in E. destruct (Z.eqb_spec (Z.of_nat k) (-1)); [lia|].
        destruct (z_index (ly_members L) _); cbn [rbind] in E; try discriminate.
        destruct (z_index (ly_addrs L) _); cbn [rbind] in E; try discriminate.
        apply (guests_keep _ _ _ _ E). rewrite zget_zset, Z.eqb_refl. discriminate.
    - destruct (_ =? -1); [exact (IH _ _ _ _ _ E I N P)|].
      destruct (z_index (ly_members L) _); cbn [rbind] in E; try discriminate.
      destruct (z_index (ly_addrs L) _); cbn [rbind] in E; try discriminate.
      exact (IH _ _ _ _ _ E I N P).
  Qed.
  (** Secrets of nobody are skipped. *)
  Lemma guests_skip done (keep : Z -> bool) : (forall s, In s done -> keep s = false -> ~ In (pub_of s) (map mb_pub (ly_members L))) ->
    forall acc, guests_loop L (filter keep done) acc = guests_loop L done acc.
  Proof.
    induction done as [|s r IH]; intros H acc; cbn [filter]; [reflexivity|].
    assert (IH': forall acc, guests_loop L (filter keep r) acc = guests_loop L r acc) by (apply IH; intros; apply H; [right|]; assumption).
    destruct (keep s) eqn:K; cbn [guests_loop]; rewrite compute_pub_ok; cbn [rbind].
    - destruct (_ =? -1); [apply IH'|]. destruct (z_index (ly_members L) _); cbn [rbind]; try reflexivity.
      destruct (z_index (ly_addrs L) _); cbn [rbind]; try reflexivity. apply IH'.
    - unfold find_member_index.
      destruct (find_spec (pub_of s) (ly_members L) (pub_of_elt s) CP 0 ltac:(lia)) as [[F NI]|(k'&m'&F&N'&P')].
      + rewrite F. cbn. apply IH'.
      + exfalso. apply (H s (or_introl eq_refl) K). rewrite <- P'. apply in_map. eapply nth_error_In. exact N'.
  Qed.
  (** No panic if every member has a host with an address. *)
  Lemma guests_total done : (forall k, (k < length (ly_members L))%nat -> exists a, z_index (ly_addrs L) (zget0 (ly_m2a L) (Z.of_nat k)) = Ok a) ->
    forall acc, exists gs, guests_loop L done acc = Ok gs.
  Proof.
    intros H. induction done as [|s r IH]; intros acc; cbn [guests_loop]; [eauto|].
    rewrite compute_pub_ok; cbn [rbind]. unfold find_member_index.
    destruct (find_spec (pub_of s) (ly_members L) (pub_of_elt s) CP 0 ltac:(lia)) as [[F NI]|(k'&m'&F&N'&P')]; rewrite F.
    - cbn. apply IH.
    - rewrite Z.add_0_l. destruct (Z.eqb_spec (Z.of_nat k') (-1)); [lia|]. rewrite (nth_index _ _ _ N'). cbn [rbind].
      destruct (H k') as (a&->); [apply nth_error_Some; congruence|]. cbn [rbind]. apply IH.
  Qed.
End Guests.
