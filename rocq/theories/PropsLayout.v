(** C70-C74: member lists, layouts and configurations. *)
From Coq Require Import ZArith List Lia Bool Permutation Sorting.Sorted.
From Coq Require Import Init.Byte.
From Verif Require Import Params Curve Order Bytes Res Secp Spec SecpProofs SecpProofs2 PropsSecp Net Layout LayoutSpec LayoutProofs LayoutProofs2.
Import ListNotations.
Open Scope Z_scope.

(** ** C70 *)
(** Two nodes that list the same key files, in any order, and have the same files
    compute the same member list, whatever their sorts do with the order, or fail both. *)
Theorem C70_nodes_agree_on_members : forall srt1 srt2 fs1 fs2 names1 names2,
  sorts srt1 -> sorts srt2 -> Permutation names1 names2 -> (forall f, In f names1 -> fs1 f = fs2 f) ->
  distinct_keys fs1 names1 ->
  load_and_sort srt1 fs1 names1 = load_and_sort srt2 fs2 names2.
Proof.
  intros srt1 srt2 fs1 fs2 names1 names2 S1 S2 P F [ND DK]. rewrite !load_spec.
  assert (E: allsome (mem_of fs2) names2 = allsome (mem_of fs1) names2).
  { apply allsome_ext. intros f I. unfold mem_of. rewrite F; [reflexivity|]. eapply Permutation_in; [symmetry; exact P|exact I]. }
  rewrite E. clear E F. pose proof (allsome_perm (mem_of fs1) _ _ P) as AP.
  destruct (allsome (mem_of fs1) names1) as [l1|] eqn:A1, (allsome (mem_of fs1) names2) as [l2|] eqn:A2; try contradiction; [|reflexivity].
  do 2 f_equal. destruct (S1 l1) as [P1 O1], (S2 l2) as [P2 O2].
  apply (sorted_unique _ _ _ O1 O2); [rewrite <- P1, <- P2; exact AP|].
  intros a b Ia Ib H1 H2. pose proof (str_ltb_tricho _ _ H2 H1) as HX.
  apply (Permutation_in _ (Permutation_sym P1)) in Ia, Ib. apply allsome_forall2 in A1.
  destruct (forall2_in_r _ _ _ A1 a Ia) as (f&If&Mf). destruct (forall2_in_r _ _ _ A1 b Ib) as (g&Ig&Mg).
  apply mem_of_some in Mf, Mg. destruct Mf as (Pf&Hf&->), Mg as (Pg&Hg&->). cbn in HX.
  apply hex_inj in HX; [|rewrite !enc_length; reflexivity].
  assert (Pf = Pg) by (apply enc_inj; [exact (holds_curve _ _ _ Hf)|exact (holds_curve _ _ _ Hg)|congruence]). subst Pg.
  assert (f = g) by (eapply DK; eassumption). subst g. reflexivity.
Qed.

(** What the list is: the listed files, each with the key it holds and its position,
    in increasing order of the abscissa, then of the parity of the ordinate. *)
Theorem C70_member_list : forall srt fs names ms, sorts srt -> load_and_sort srt fs names = Ok ms ->
  Permutation names (map mb_file ms) /\
  (forall k m, nth_error ms k = Some m -> mb_index m = Z.of_nat k /\ holds fs (mb_file m) (mb_pub m)) /\
  (forall k k' m m', (k < k')%nat -> nth_error ms k = Some m -> nth_error ms k' = Some m' ->
     fst (mb_pub m) < fst (mb_pub m') \/ fst (mb_pub m) = fst (mb_pub m') /\ snd (mb_pub m) mod 2 <= snd (mb_pub m') mod 2).
Proof.
  intros srt fs names ms S E. pose proof (load_loaded _ _ _ _ S E) as L. split; [exact (ld_files _ _ _ L)|]. split.
  - intros k m N. split; [exact (ld_index _ _ _ L k m N)|]. apply (ld_pub _ _ _ L). eapply nth_error_In. exact N.
  - intros k k' m m' LT N N'.
    assert (O: str_ltb (mb_hex m') (mb_hex m) = false).
    { pose proof (ld_sorted _ _ _ L) as SS. clear - SS LT N N'. revert k k' LT N N'. induction SS as [|a l SS IH F]; intros k k' LT N N'; [destruct k; discriminate|].
      destruct k as [|k], k' as [|k']; cbn in N, N'; try lia.
      - injection N as ->. rewrite Forall_forall in F. apply F. eapply nth_error_In. exact N'.
      - apply (IH k k'); [lia|assumption|assumption]. }
    destruct (ld_pub _ _ _ L m (nth_error_In _ _ N)) as [HP HH]. destruct (ld_pub _ _ _ L m' (nth_error_In _ _ N')) as [HP' HH'].
    pose proof (holds_curve _ _ _ HP) as C. pose proof (holds_curve _ _ _ HP') as C'.
    rewrite HH, HH', hex_ltb, str_ltb_be2z in O by (rewrite !enc_length; reflexivity). apply Z.ltb_ge in O.
    assert (EQ: forall Q, curve_point Q -> be2z (enc Q) = fst Q * 256 + snd Q mod 2).
    { intros Q (Qx&Qy&_). unfold enc. rewrite be2z_snoc, be2z_be_fixed, (Z.mod_small (fst Q) p Qx), Z.mod_small.
      - f_equal. pose proof (Z.mod_pos_bound (snd Q) 2 ltac:(lia)). destruct (Z.eqb_spec (snd Q mod 2) 0) as [->|]; [reflexivity|].
        replace (snd Q mod 2) with 1 by lia. reflexivity.
      - split; [lia|]. apply Z.lt_trans with p; [lia|]. reflexivity. }
    rewrite !EQ in O by assumption.
    pose proof (Z.mod_pos_bound (snd (mb_pub m)) 2 ltac:(lia)). pose proof (Z.mod_pos_bound (snd (mb_pub m')) 2 ltac:(lia)). lia.
Qed.

(** Loading fails (the program panics) exactly if some listed file cannot be read or holds no public key. *)
Theorem C70_load_fails_iff : forall srt fs names,
  load_and_sort srt fs names = Panic <-> exists f, In f names /\ forall P, ~ holds fs f P.
Proof.
  intros srt fs names. rewrite load_spec. split.
  - intros E. destruct (allsome (mem_of fs) names) eqn:A; [discriminate|]. clear E. induction names as [|f r IH]; [discriminate|].
    cbn in A. destruct (mem_of fs f) as [m|] eqn:M.
    + destruct (allsome (mem_of fs) r); [discriminate|]. destruct (IH eq_refl) as (g&I&H). exists g. cbn. auto.
    + exists f. split; [left; reflexivity|]. intros P H. assert (X: mem_of fs f <> None); [|congruence].
      rewrite (proj2 (mem_of_some fs f _) (ex_intro _ P (conj H eq_refl))). discriminate.
  - intros (f&I&H). destruct (allsome (mem_of fs) names) as [l|] eqn:A; [|reflexivity]. exfalso.
    apply allsome_forall2 in A. destruct (forall2_in_l _ _ _ A f I) as (m&_&M). apply mem_of_some in M. destruct M as (P&HP&_). exact (H P HP).
Qed.

(** A correct sort exists: insertion sort. *)
Fixpoint ins (x : member) (l : list member) : list member :=
  match l with [] => [x] | y :: r => if str_ltb (mb_hex y) (mb_hex x) then y :: ins x r else x :: y :: r end.
Definition isort (l : list member) : list member := fold_right ins [] l.
Lemma str_ltb_cotrans a : forall b c, str_ltb a c = true -> str_ltb a b = true \/ str_ltb b c = true.
Proof.
  induction a as [|x a IH]; intros [|y b] [|z c]; cbn; try discriminate; auto.
  destruct (Z.ltb_spec (z_of_byte x) (z_of_byte z)).
  - intros _. destruct (Z.ltb_spec (z_of_byte x) (z_of_byte y)); [auto|]. destruct (Z.ltb_spec (z_of_byte y) (z_of_byte z)); [auto|lia].
  - destruct (Z.ltb_spec (z_of_byte z) (z_of_byte x)); [discriminate|]. intros H1.
    destruct (Z.ltb_spec (z_of_byte x) (z_of_byte y)); [auto|]. destruct (Z.ltb_spec (z_of_byte y) (z_of_byte z)); [auto|].
    destruct (Z.ltb_spec (z_of_byte y) (z_of_byte x)); [lia|]. destruct (Z.ltb_spec (z_of_byte z) (z_of_byte y)); [lia|]. apply IH, H1.
Qed.
Lemma str_ltb_asym a b : str_ltb a b = true -> str_ltb b a = false.
Proof.
  revert b. induction a as [|x a IH]; intros [|y b]; cbn; try discriminate; auto.
  destruct (Z.ltb_spec (z_of_byte x) (z_of_byte y)), (Z.ltb_spec (z_of_byte y) (z_of_byte x)); try discriminate; try lia; auto.
Qed.
Lemma isort_sorts : sorts isort.
Proof.
  intros l. induction l as [|x l [IP IS]]; [split; constructor|]. change (isort (x :: l)) with (ins x (isort l)).
  assert (PI: forall r, Permutation (x :: r) (ins x r)).
  { induction r as [|y r IHr]; cbn; [reflexivity|]. destruct (str_ltb _ _); [|reflexivity]. rewrite perm_swap. constructor. exact IHr. }
  split; [rewrite IP at 1; apply PI|]. revert IS. generalize (isort l). intros r IS. induction IS as [|y r IS IH F]; cbn.
  - constructor; constructor.
  - destruct (str_ltb (mb_hex y) (mb_hex x)) eqn:E.
    + constructor; [exact IH|]. rewrite Forall_forall in *. intros z I. apply (Permutation_in _ (Permutation_sym (PI r))) in I.
      destruct I as [<-|I]; [apply str_ltb_asym, E|auto].
    + constructor; [constructor; assumption|]. constructor; [exact E|]. rewrite Forall_forall in *. intros z I.
      destruct (str_ltb (mb_hex z) (mb_hex x)) eqn:Z; [|reflexivity].
      destruct (str_ltb_cotrans _ (mb_hex y) _ Z) as [X|X]; [rewrite (F z I) in X; discriminate|congruence].
Qed.

(** Two files, with the base point and its negative: the same abscissa. *)
Definition fa : bytes := [x61]. Definition fb : bytes := [x62].
Definition Gneg : point := (Gx, p - Gy).
Definition demo_fs (f : bytes) : option bytes :=
  if bytes_eqb f fa then Some (enc Gneg) else if bytes_eqb f fb then Some (enc (Gx, Gy)) else None.
Lemma Gneg_curve : curve_point Gneg.
Proof.
  destruct G_curve_point as (A&B&C). split; [exact A|]. cbn [snd] in B. split; [unfold Gneg; cbn [snd]; pose proof (eq_refl : (0 <? Gy) = true) as Y; apply Z.ltb_lt in Y; lia|].
  unfold on_curve, Gneg, eqP in *. cbn [fst snd] in *. rewrite <- C.
  replace ((p - Gy) * (p - Gy)) with (Gy * Gy + (p - 2 * Gy) * p) by ring. apply Z_mod_plus_full.
Qed.
Lemma demo_holds : holds demo_fs fa Gneg /\ holds demo_fs fb (Gx, Gy).
Proof.
  split; [exists (enc Gneg)|exists (enc (Gx, Gy))]; (split; [reflexivity|]).
  - apply pt_roundtrip; [exact Gneg_curve|apply marshal_enc, Gneg_curve].
  - apply pt_roundtrip; [exact G_curve_point|apply marshal_enc, G_curve_point].
Qed.
Lemma demo_distinct : distinct_keys demo_fs [fa; fb].
Proof.
  split; [repeat constructor; cbn; intros H; repeat destruct H as [H|H]; try discriminate; exact H|].
  intros f g P If Ig Hf Hg. destruct demo_holds as [Ha Hb].
  destruct If as [<-|[<-|[]]], Ig as [<-|[<-|[]]]; try reflexivity; exfalso.
  - pose proof (holds_fun _ _ _ _ Hf Ha). pose proof (holds_fun _ _ _ _ Hg Hb). subst P. discriminate.
  - pose proof (holds_fun _ _ _ _ Hf Hb). pose proof (holds_fun _ _ _ _ Hg Ha). subst P. discriminate.
Qed.
Lemma demo_mem : mem_of demo_fs fa = Some (mkMem fa 0 Gneg (hex_encode (enc Gneg))) /\
  mem_of demo_fs fb = Some (mkMem fb 0 (Gx, Gy) (hex_encode (enc (Gx, Gy)))).
Proof. destruct demo_holds as [Ha Hb]. split; apply mem_of_some; [exists Gneg|exists (Gx, Gy)]; auto. Qed.
Definition demo_members : list member :=
  [mkMem fb 0 (Gx, Gy) (hex_encode (enc (Gx, Gy))); mkMem fa 1 Gneg (hex_encode (enc Gneg))].
Lemma demo_less : str_ltb (hex_encode (enc (Gx, Gy))) (hex_encode (enc Gneg)) = true.
Proof. rewrite hex_ltb by (rewrite !enc_length; reflexivity). vm_compute. reflexivity. Qed.
Example demo_load : load_and_sort isort demo_fs [fa; fb] = Ok demo_members.
Proof.
  rewrite load_spec. destruct demo_mem as [Ma Mb]. cbn [allsome]. rewrite Ma, Mb. unfold isort. cbn [fold_right ins mb_hex].
  rewrite demo_less. reflexivity.
Qed.

(** ** C74 *)
(** The parsed configuration is what the JSON value says, and every other value makes
    the program panic; entries after the fourth are ignored. *)
Lemma strings_iff v l : extract_strings v = Ok l <-> v = json_strings l.
Proof.
  unfold extract_strings, json_strings. destruct v as [|b| |s|a|o]; cbn; try (split; discriminate).
  assert (G: forall l, rmap as_string a = Ok l <-> a = map JStr l).
  { clear l. induction a as [|x a IH]; intros l; cbn.
    - split; [intros E; injection E as <-; reflexivity|]. destruct l; [reflexivity|discriminate].
    - destruct x as [|b| |s|a'|o]; cbn; try (split; [discriminate|destruct l; discriminate]).
      destruct (rmap as_string a) as [ys| |] eqn:R; cbn.
      + split; [intros E; injection E as <-; cbn; f_equal; apply IH; reflexivity|].
        destruct l as [|t l]; [discriminate|]. cbn. intros E. injection E as <- E. apply IH in E. injection E as ->. reflexivity.
      + split; [discriminate|]. destruct l as [|t l]; [discriminate|]. cbn. intros E. injection E as _ E. apply IH in E. discriminate.
      + split; [discriminate|]. destruct l as [|t l]; [discriminate|]. cbn. intros E. injection E as _ E. apply IH in E. discriminate. }
  rewrite G. split; [intros ->; reflexivity|intros E; injection E as ->; reflexivity].
Qed.
Lemma string_lists_iff v l : extract_string_lists v = Ok l <-> v = JArr (map json_strings l).
Proof.
  unfold extract_string_lists. destruct v as [|b| |s|a|o]; cbn; try (split; discriminate).
  assert (G: forall l, rmap extract_strings a = Ok l <-> a = map json_strings l).
  { clear l. induction a as [|x a IH]; intros l; cbn [rmap].
    - split; [intros E; injection E as <-; reflexivity|]. destruct l; [reflexivity|discriminate].
    - destruct (extract_strings x) as [y| |] eqn:X; cbn [rbind].
      + apply strings_iff in X. subst x. destruct (rmap extract_strings a) as [ys| |] eqn:R; cbn [rbind].
        * split; [intros E; injection E as <-; cbn [map]; f_equal; apply IH; reflexivity|].
          destruct l as [|t l]; [discriminate|]. cbn [map]. intros E. injection E as E1 E. apply IH in E. injection E as ->.
          assert (X: json_strings y = json_strings t) by (unfold json_strings; congruence). apply strings_iff in X.
          rewrite (proj2 (strings_iff _ _) eq_refl) in X. congruence.
        * split; [discriminate|]. destruct l as [|t l]; [discriminate|]. cbn [map]. intros E. injection E as _ E. apply IH in E. discriminate.
        * split; [discriminate|]. destruct l as [|t l]; [discriminate|]. cbn [map]. intros E. injection E as _ E. apply IH in E. discriminate.
      + split; [discriminate|]. destruct l as [|t l]; [discriminate|]. cbn [map]. intros E. injection E as E1 _.
        apply strings_iff in E1. congruence.
      + split; [discriminate|]. destruct l as [|t l]; [discriminate|]. cbn [map]. intros E. injection E as E1 _.
        apply strings_iff in E1. congruence. }
  rewrite G. split; [intros ->; reflexivity|intros E; injection E as ->; reflexivity].
Qed.

Theorem C74_config_parsed_faithfully : forall v c,
  load_config v = Ok c <->
  exists rest, v = JArr (json_strings (cf_labels c) :: json_strings (cf_addrs c) ::
                         JArr (map json_strings (cf_members c)) :: json_strings (cf_pubfiles c) :: rest).
Proof.
  intros v c. split.
  - unfold load_config. destruct v as [|b| |s|a|o]; cbn; try discriminate.
    destruct a as [|v0 a]; cbn; [discriminate|]. destruct (extract_strings v0) as [l0| |] eqn:E0; cbn; try discriminate.
    destruct a as [|v1 a]; cbn; [discriminate|]. destruct (extract_strings v1) as [l1| |] eqn:E1; cbn; try discriminate.
    destruct a as [|v2 a]; cbn; [discriminate|]. destruct (extract_string_lists v2) as [l2| |] eqn:E2; cbn; try discriminate.
    destruct a as [|v3 a]; cbn; [discriminate|]. destruct (extract_strings v3) as [l3| |] eqn:E3; cbn; try discriminate.
    intros E. injection E as <-. apply strings_iff in E0, E1, E3. apply string_lists_iff in E2. subst. exists a. reflexivity.
  - intros (rest&->). unfold load_config. cbn [as_array rbind at_index nth_error].
    rewrite (proj2 (strings_iff _ _) eq_refl). cbn [rbind]. rewrite (proj2 (strings_iff _ _) eq_refl). cbn [rbind].
    rewrite (proj2 (string_lists_iff _ _) eq_refl). cbn [rbind]. rewrite (proj2 (strings_iff _ _) eq_refl). cbn [rbind]. destruct c; reflexivity.
Qed.
Theorem C74_otherwise_panics : forall v, (forall c, load_config v <> Ok c) -> load_config v = Panic.
Proof.
  assert (S: forall v, extract_strings v <> Err).
  { intros v. unfold extract_strings. destruct v as [|b| |s|a|o]; cbn; try discriminate.
    induction a as [|x a IH]; cbn; [discriminate|]. destruct x; cbn; try discriminate. destruct (rmap as_string a); cbn; try discriminate. contradiction. }
  assert (SL: forall v, extract_string_lists v <> Err).
  { intros v. unfold extract_string_lists. destruct v as [|b| |s|a|o]; cbn; try discriminate.
    induction a as [|x a IH]; cbn [rmap]; [discriminate|]. pose proof (S x). destruct (extract_strings x); cbn [rbind]; try discriminate; [|contradiction].
    destruct (rmap extract_strings a); cbn [rbind]; try discriminate. contradiction. }
  intros v H. destruct (load_config v) as [c| |] eqn:E; [exfalso; exact (H c eq_refl)| |reflexivity]. exfalso. revert E. clear H.
  unfold load_config. destruct v as [|b| |s|a|o]; cbn; try discriminate.
  destruct a as [|v0 a]; cbn; [discriminate|]. pose proof (S v0). destruct (extract_strings v0); cbn; try discriminate; try contradiction.
  destruct a as [|v1 a]; cbn; [discriminate|]. pose proof (S v1). destruct (extract_strings v1); cbn; try discriminate; try contradiction.
  destruct a as [|v2 a]; cbn; [discriminate|]. pose proof (SL v2). destruct (extract_string_lists v2); cbn; try discriminate; try contradiction.
  destruct a as [|v3 a]; cbn; [discriminate|]. pose proof (S v3). destruct (extract_strings v3); cbn; try discriminate; try contradiction.
Qed.
Example config_demo : load_config (JArr [strs [fa]; strs [fb]; JArr [strs [fa; fb]; strs []]; strs [fa; fb]; JNum]) =
  Ok (mkConf [fa] [fb] [[fa; fb]; []] [fa; fb]).
Proof. reflexivity. Qed.
Example config_demo_panic : load_config (JArr [strs [fa]; JArr [JNum]; JArr []; strs []]) = Panic.
Proof. reflexivity. Qed.

(** ** C72 *)
(** The compiled configuration always parses, to what was written. *)
Theorem C72_compiled_config_parses : forall hosts, load_config (expand_config hosts) = Ok (config_of hosts).
Proof.
  intros hosts. apply C74_config_parsed_faithfully. exists []. unfold expand_config, config_of, strs, json_strings, h_addr, h_files. cbn.
  rewrite !map_map. reflexivity.
Qed.

Lemma layout_loaded srt fs hosts L : sorts srt -> compute_layout srt fs (config_of hosts) = Ok L ->
  loaded fs (concat (map h_files hosts)) (ly_members L) /\ ly_addrs L = map h_addr hosts /\
  ly_m2a L = compute_member_to_addr (map (map (sget0 (map_pubfile_to_index (ly_members L)))) (map h_files hosts)).
Proof.
  intros S E. unfold compute_layout in E. cbn [config_of cf_pubfiles] in E.
  destruct (load_and_sort srt fs (concat (map h_files hosts))) as [ms| |] eqn:LS; cbn [rbind] in E; try discriminate.
  injection E as <-. cbn. split; [exact (load_loaded _ _ _ _ S LS)|]. auto.
Qed.

(** With different key files, each in one host: the member of every key file is mapped
    to the address of its host, and the mapped indices are 0..n-1, each once. *)
Theorem C72_members_map_to_their_host : forall srt fs hosts L, sorts srt -> NoDup (concat (map h_files hosts)) ->
  compute_layout srt fs (config_of hosts) = Ok L ->
  (forall j h f, nth_error hosts j = Some h -> In f (h_files h) ->
     exists k m, nth_error (ly_members L) k = Some m /\ mb_file m = f /\
       zget (ly_m2a L) (Z.of_nat k) = Some (Z.of_nat j) /\ nth_error (ly_addrs L) j = Some (h_addr h)) /\
  NoDup (map fst (ly_m2a L)) /\ Permutation (map fst (ly_m2a L)) (map Z.of_nat (seq 0 (length (ly_members L)))).
Proof.
  intros srt fs hosts L S ND E. destruct (layout_loaded _ _ _ _ S E) as (LD&A&M). rewrite A, M. split.
  - intros j h f NH I. destruct (m2a_host fs hosts (ly_members L) ND LD j h f NH I) as (k&m&N&F&Z).
    exists k, m. split; [exact N|]. split; [exact F|]. split; [exact Z|]. apply map_nth_error. exact NH.
  - apply (m2a_keys fs hosts (ly_members L) ND LD).
Qed.

(** Every outgoing queue exists, in whatever order the map is traversed, and leads to the
    host of the member. *)
Theorem C72_every_queue_exists : forall srt fs hosts L order, sorts srt -> NoDup (concat (map h_files hosts)) ->
  compute_layout srt fs (config_of hosts) = Ok L -> Permutation (ly_m2a L) order ->
  exists qs, start_net_caller (ly_addrs L) order = Ok qs /\ length qs = length (ly_members L) /\
    forall j h f, nth_error hosts j = Some h -> In f (h_files h) ->
      exists k m, nth_error (ly_members L) k = Some m /\ mb_file m = f /\ nth_error qs k = Some (Some (h_addr h)).
Proof.
  intros srt fs hosts L order S ND E PO. destruct (C72_members_map_to_their_host _ _ _ _ S ND E) as (HM&NK&PK).
  destruct (layout_loaded _ _ _ _ S E) as (LD&A&M).
  assert (LO: length order = length (ly_members L)).
  { rewrite <- (Permutation_length PO), <- (map_length fst), (Permutation_length PK), map_length, seq_length. reflexivity. }
  destruct (start_queues_ok (ly_addrs L) order (repeat None (length order))) as (qs&Q1&Q2&Q3&_).
  - apply (Permutation_NoDup (Permutation_map fst PO) NK).
  - intros k a I. apply (Permutation_in _ (Permutation_sym PO)) in I. rewrite M in I.
    pose proof (m2a_in fs hosts (ly_members L) ND LD k a I) as [B1 B2]. rewrite <- M in B1.
    rewrite repeat_length, <- (Permutation_length PO), A, map_length. auto.
  - exists qs. split; [exact Q1|]. rewrite repeat_length in Q2. split; [lia|].
    intros j h f NH I. destruct (HM j h f NH I) as (k&m&N&F&Z&AD). exists k, m. split; [exact N|]. split; [exact F|].
    apply zget_in in Z; [|exact NK]. apply (Permutation_in _ PO) in Z. specialize (Q3 _ _ Z). rewrite !Nat2Z.id in Q3.
    rewrite Q3, AD. reflexivity.
Qed.

Definition demo_hosts : list host := [([x68], [x30], [fa]); ([x69], [x31], [fb])].
Example demo_layout : compute_layout isort demo_fs (config_of demo_hosts) =
  Ok (mkLay [[x30]; [x31]] [[1]; [0]] demo_members [(0, 1); (1, 0)]).
Proof.
  unfold compute_layout. change (cf_pubfiles (config_of demo_hosts)) with [fa; fb]. rewrite demo_load. cbn [rbind]. f_equal.
Qed.
Example demo_hosts_distinct : NoDup (concat (map h_files demo_hosts)).
Proof. exact (proj1 demo_distinct). Qed.

(** ** C73 *)
(** Whatever the configuration, a listed name that is not among the key files becomes
    member 0; and a host that lists such a name last takes over the traffic of member 0. *)
Theorem C73_unknown_file_becomes_member_0 : forall srt fs conf L j files f, sorts srt ->
  compute_layout srt fs conf = Ok L -> nth_error (cf_members conf) j = Some files -> In f files -> ~ In f (cf_pubfiles conf) ->
  exists idxs, nth_error (ly_addr_members L) j = Some idxs /\ In 0 idxs.
Proof.
  intros srt fs conf L j files f S E N I U. unfold compute_layout in E.
  destruct (load_and_sort srt fs (cf_pubfiles conf)) as [ms| |] eqn:LS; cbn [rbind] in E; try discriminate. injection E as <-. cbn.
  unfold conf_members_as_indices. rewrite (map_nth_error _ _ _ N). eexists. split; [reflexivity|].
  apply in_map_iff. exists f. split; [|exact I]. apply sget0_absent. rewrite map_pubfile_rev, map_rev, map_map. cbn.
  intros X. apply in_rev in X. apply U. eapply Permutation_in; [symmetry; exact (ld_files _ _ _ (load_loaded _ _ _ _ S LS))|exact X].
Qed.
Theorem C73_redirects_member_0 : forall srt fs conf L files f before after, sorts srt ->
  compute_layout srt fs conf = Ok L -> cf_members conf = before ++ [files ++ [f]] -> ~ In f (cf_pubfiles conf) ->
  after = Z.of_nat (length before) -> zget (ly_m2a L) 0 = Some after.
Proof.
  intros srt fs conf L files f before after S E N U ->. unfold compute_layout in E.
  destruct (load_and_sort srt fs (cf_pubfiles conf)) as [ms| |] eqn:LS; cbn [rbind] in E; try discriminate. injection E as <-. cbn.
  unfold conf_members_as_indices. rewrite N, !map_app. cbn. rewrite map_app. cbn.
  assert (X: sget0 (map_pubfile_to_index ms) f = 0).
  { apply sget0_absent. rewrite map_pubfile_rev, map_rev, map_map. cbn.
    intros X. apply in_rev in X. apply U. eapply Permutation_in; [symmetry; exact (ld_files _ _ _ (load_loaded _ _ _ _ S LS))|exact X]. }
  rewrite X. clear. unfold compute_member_to_addr.
  assert (G: forall l x i acc, m2a_from i (l ++ [x ++ [0]]) acc = m2a_from i (l ++ [x ++ [0]]) acc ->
    zget (m2a_from i (l ++ [x ++ [0]]) acc) 0 = Some (i + Z.of_nat (length l))).
  { induction l as [|y l IH]; intros x i acc _; cbn [app m2a_from length].
    - rewrite fold_left_app. cbn [fold_left]. rewrite zget_zset. cbn. f_equal. lia.
    - rewrite IH by reflexivity. f_equal. lia. }
  rewrite G by reflexivity. rewrite map_length. reflexivity.
Qed.

(** A configuration with an unknown key file is not rejected. *)
Theorem C73_refuted : exists srt fs conf L f, sorts srt /\ distinct_keys fs (cf_pubfiles conf) /\
  In f (concat (cf_members conf)) /\ ~ In f (cf_pubfiles conf) /\
  compute_layout srt fs conf = Ok L /\
  (* the first key file is listed by the first host, but its member is mapped to the second *)
  (exists g, nth_error (cf_members conf) 0 = Some [g] /\ option_map mb_file (nth_error (ly_members L) 0) = Some g /\ zget (ly_m2a L) 0 = Some 1).
Proof.
  exists isort, demo_fs, (mkConf [[x68]; [x69]] [[x30]; [x31]] [[fb]; [[x63]]] [fb]).
  eexists. exists [x63]. split; [exact isort_sorts|]. split.
  { split; [repeat constructor; intros []|]. intros f g P [<-|[]] [<-|[]] _ _. reflexivity. }
  split; [cbn; auto|]. split; [cbn; intros [X|[]]; discriminate|].
  unfold compute_layout. cbn [cf_pubfiles]. rewrite load_spec. cbn [allsome]. rewrite (proj2 demo_mem). cbn [rbind].
  split; [reflexivity|]. exists fb. split; [reflexivity|]. split; reflexivity.
Qed.

(** ** C71 *)
(** The guests are the members with a given secret, each at the index of its public
    key and with the address its member index is mapped to. *)
Theorem C71_guests_are_members_with_a_secret : forall srt fs conf L secrets gs, sorts srt ->
  compute_layout srt fs conf = Ok L -> compute_guests L secrets = Ok gs ->
  forall i g, zget gs i = Some g ->
    gu_index g = i /\ In (gu_sec g) secrets /\ 0 <= i /\
    exists m, nth_error (ly_members L) (Z.to_nat i) = Some m /\ compute_pub (gu_sec g) = Ok (mb_pub m) /\ gu_pub g = mb_pub m /\
      gu_addr_index g = zget0 (ly_m2a L) i /\ 0 <= gu_addr_index g /\ nth_error (ly_addrs L) (Z.to_nat (gu_addr_index g)) = Some (gu_addr g).
Proof.
  intros srt fs conf L secrets gs S E G. apply (guests_sound L) with (acc := []) (done := secrets); try assumption.
  - intros m I. unfold compute_layout in E. destruct (load_and_sort srt fs (cf_pubfiles conf)) as [ms| |] eqn:LS; cbn [rbind] in E; try discriminate.
    injection E as <-. cbn in I. destruct (ld_pub _ _ _ (load_loaded _ _ _ _ S LS) m I) as [H _]. exact (holds_curve _ _ _ H).
  - intros i g X. discriminate.
  - apply incl_refl.
Qed.

Lemma layout_curve srt fs conf L : sorts srt -> compute_layout srt fs conf = Ok L -> forall m, In m (ly_members L) -> curve_point (mb_pub m).
Proof.
  intros S E m I. unfold compute_layout in E. destruct (load_and_sort srt fs (cf_pubfiles conf)) as [ms| |] eqn:LS; cbn [rbind] in E; try discriminate.
  injection E as <-. cbn in I. destruct (ld_pub _ _ _ (load_loaded _ _ _ _ S LS) m I) as [H _]. exact (holds_curve _ _ _ H).
Qed.
Lemma layout_distinct srt fs conf L : sorts srt -> distinct_keys fs (cf_pubfiles conf) -> compute_layout srt fs conf = Ok L ->
  NoDup (map mb_pub (ly_members L)).
Proof.
  intros S [ND DK] E. unfold compute_layout in E. destruct (load_and_sort srt fs (cf_pubfiles conf)) as [ms| |] eqn:LS; cbn [rbind] in E; try discriminate.
  injection E as <-. cbn. pose proof (load_loaded _ _ _ _ S LS) as LD. pose proof (loaded_nodup _ _ _ ND LD) as NF.
  assert (DP: forall m m', In m ms -> In m' ms -> mb_pub m = mb_pub m' -> mb_file m = mb_file m').
  { intros m m' I I' EQ. apply (DK _ _ (mb_pub m)).
    - eapply Permutation_in; [symmetry; exact (ld_files _ _ _ LD)|apply in_map; exact I].
    - eapply Permutation_in; [symmetry; exact (ld_files _ _ _ LD)|apply in_map; exact I'].
    - apply (ld_pub _ _ _ LD), I.
    - rewrite EQ. apply (ld_pub _ _ _ LD), I'. }
  clear - NF DP. induction ms as [|m ms IH]; cbn in *; [constructor|]. inversion NF; subst. constructor.
  - intros I. apply in_map_iff in I. destruct I as (m'&EQ&I). apply H1. apply in_map_iff. exists m'. split; [|exact I].
    apply DP; auto.
  - apply IH; [assumption|]. auto.
Qed.

(** Every member whose secret is given is a guest. *)
Theorem C71_every_secret_finds_its_member : forall srt fs conf L secrets gs s k m, sorts srt ->
  distinct_keys fs (cf_pubfiles conf) -> compute_layout srt fs conf = Ok L -> compute_guests L secrets = Ok gs ->
  In s secrets -> nth_error (ly_members L) k = Some m -> compute_pub s = Ok (mb_pub m) ->
  exists g, zget gs (Z.of_nat k) = Some g /\ gu_pub g = mb_pub m /\ eqN (gu_sec g) s.
Proof.
  intros srt fs conf L secrets gs s k m S DK E G I N P.
  pose proof (layout_curve _ _ _ _ S E) as LC.
  pose proof (guests_complete L LC secrets (layout_distinct _ _ _ _ S DK E) [] gs s k m G I N P) as NN.
  destruct (zget gs (Z.of_nat k)) as [g|] eqn:Z; [|contradiction]. exists g. split; [reflexivity|].
  destruct (C71_guests_are_members_with_a_secret _ _ _ _ _ _ S E G _ _ Z) as (_&_&_&m'&N'&P'&GP&_).
  rewrite Nat2Z.id in N'. assert (m' = m) by congruence. subst m'. split; [exact GP|].
  eapply base_mul_inj; [exact P'|exact P|reflexivity].
Qed.

(** Secrets that belong to no member change nothing. *)
Theorem C71_other_secrets_ignored : forall srt fs conf L secrets keep, sorts srt -> compute_layout srt fs conf = Ok L ->
  (forall s, In s secrets -> keep s = false -> forall m, In m (ly_members L) -> compute_pub s <> Ok (mb_pub m)) ->
  compute_guests L (filter keep secrets) = compute_guests L secrets.
Proof.
  intros srt fs conf L secrets keep S E H. unfold compute_guests.
  apply (guests_skip L (layout_curve _ _ _ _ S E)).
  intros s I K X. apply in_map_iff in X. destruct X as (m&EQ&IM). apply (H s I K m IM). rewrite compute_pub_ok. congruence.
Qed.

(** With a compiled configuration nothing fails, and a guest has the address of the
    host that lists its key file. *)
Theorem C71_guest_addresses : forall srt fs hosts L secrets, sorts srt -> NoDup (concat (map h_files hosts)) ->
  compute_layout srt fs (config_of hosts) = Ok L ->
  exists gs, compute_guests L secrets = Ok gs /\
    forall i g j h m, zget gs i = Some g -> nth_error (ly_members L) (Z.to_nat i) = Some m ->
      nth_error hosts j = Some h -> In (mb_file m) (h_files h) -> gu_addr g = h_addr h.
Proof.
  intros srt fs hosts L secrets S ND E. destruct (layout_loaded _ _ _ _ S E) as (LD&A&M).
  destruct (C72_members_map_to_their_host _ _ _ _ S ND E) as (HM&NK&PK).
  pose proof (loaded_nodup _ _ _ ND LD) as NF.
  destruct (guests_total L (layout_curve _ _ _ _ S E) secrets) with (acc := @nil (Z * guest)) as (gs&G).
  - intros k LK. assert (Ik: In (Z.of_nat k) (map fst (ly_m2a L))).
    { eapply Permutation_in; [symmetry; exact PK|]. apply in_map. apply in_seq. lia. }
    apply in_map_iff in Ik. destruct Ik as ([k' a]&EQ&I). cbn in EQ. subst k'. pose proof I as I2. rewrite M in I2.
    pose proof (m2a_in fs hosts (ly_members L) ND LD _ _ I2) as [_ B]. apply (zget_in _ _ _ NK) in I.
    unfold zget0. rewrite I. destruct (nth_error (ly_addrs L) (Z.to_nat a)) as [x|] eqn:X.
    + exists x. apply z_index_some. split; [lia|exact X].
    + apply nth_error_None in X. rewrite A, map_length in X. lia.
  - exists gs. split; [exact G|]. intros i g j h m Z N NH I.
    destruct (C71_guests_are_members_with_a_secret _ _ _ _ _ _ S E G _ _ Z) as (_&_&Hi&m'&N'&_&_&AI&_&AD).
    destruct (HM j h (mb_file m) NH I) as (k&m2&N2&F2&Z2&A2).
    assert (k = Z.to_nat i) by (eapply (nodup_map_nth mb_file); [exact NF|exact N2|exact N|exact F2]). subst k.
    rewrite Z2Nat.id in Z2 by exact Hi. unfold zget0 in AI. rewrite Z2 in AI. rewrite AI, Nat2Z.id, A2 in AD. congruence.
Qed.

(** Two secrets: that of the member with the base point, and one of nobody. *)
Example demo_guests : compute_guests (mkLay [[x30]; [x31]] [[1]; [0]] demo_members [(0, 1); (1, 0)]) [0; 1] =
  Ok [(0, mkGuest 0 1 (Gx, Gy) 1 [x31])].
Proof. vm_compute. reflexivity. Qed.

Print Assumptions C70_nodes_agree_on_members. Print Assumptions C70_member_list. Print Assumptions C70_load_fails_iff.
Print Assumptions C71_guests_are_members_with_a_secret. Print Assumptions C71_every_secret_finds_its_member.
Print Assumptions C71_other_secrets_ignored. Print Assumptions C71_guest_addresses.
Print Assumptions C72_compiled_config_parses. Print Assumptions C72_members_map_to_their_host. Print Assumptions C72_every_queue_exists.
Print Assumptions C73_unknown_file_becomes_member_0. Print Assumptions C73_redirects_member_0. Print Assumptions C73_refuted.
Print Assumptions C74_config_parsed_faithfully. Print Assumptions C74_otherwise_panics.
