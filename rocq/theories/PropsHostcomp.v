(** Property theorem C116 (compiling a configuration). *)
From Coq Require Import ZArith List Lia Bool.
From Coq Require Import Init.Byte.
From Verif Require Import Bytes Res Layout LayoutSpec PropsLayout Hostcomp HostcompSpec.
Import ListNotations.

Lemma elements_ok : forall x l, elements x = Ok l <-> x = slist l.
Proof.
  induction x as [|s|s| |a _ b IH]; intros l; cbn; try (split; [discriminate|destruct l; discriminate]).
  - split; [intros E; injection E as <-; reflexivity|destruct l; [reflexivity|discriminate]].
  - destruct (elements b) as [r| |]; cbn.
    + split; [intros E; injection E as <-; cbn; f_equal; apply IH; reflexivity|].
      destruct l as [|c l]; [discriminate|]. cbn. intros E. injection E as -> E. apply IH in E. injection E as ->. reflexivity.
    + split; [discriminate|]. destruct l as [|c l]; [discriminate|]. cbn. intros E. injection E as -> E. apply IH in E. discriminate.
    + split; [discriminate|]. destruct l as [|c l]; [discriminate|]. cbn. intros E. injection E as -> E. apply IH in E. discriminate.
Qed.
Lemma elements_slist : forall l, elements (slist l) = Ok l.
Proof. intros l. apply elements_ok. reflexivity. Qed.
Lemma rmap_ok : forall {A B} (f : A -> res B) l l', rmap f l = Ok l' <-> Forall2 (fun x y => f x = Ok y) l l'.
Proof.
  intros A B f. induction l as [|x l IH]; intros l'; cbn.
  - split; [intros E; injection E as <-; constructor|intros H; inversion H; reflexivity].
  - split.
    + destruct (f x) as [y| |] eqn:E; cbn; try discriminate. destruct (rmap f l) as [ys| |]; cbn; try discriminate.
      intros H. injection H as <-. constructor; [exact E|]. apply IH. reflexivity.
    + intros H. inversion H as [|? y ? ys E F]; subst. rewrite E. cbn. apply IH in F. rewrite F. reflexivity.
Qed.

Lemma Forall2_len : forall {A B} (R : A -> B -> Prop) l l', Forall2 R l l' -> length l = length l'.
Proof. induction 1; cbn; congruence. Qed.

Section Text.
  Variable sym_text : bytes -> bytes.
  Notation encode := (encode sym_text). Notation stands_for := (stands_for sym_text).
  Lemma encode_string : forall x t, encode x = Ok (JStr t) <-> stands_for x t.
  Proof.
    intros x t. split.
    - destruct x as [|s|s| |a b]; cbn; try discriminate.
      + destruct (bytes_eqb_spec s n_t); [discriminate|]. intros E. injection E as <-. constructor. assumption.
      + intros E. injection E as <-. constructor.
      + destruct (encode a); cbn; try discriminate. destruct (encode b) as [[| | | | |]| |]; cbn; discriminate.
    - intros H. destruct H as [s|s N]; cbn; [reflexivity|]. destruct (bytes_eqb_spec s n_t); [contradiction|reflexivity].
  Qed.
  Lemma encode_array : forall x l, encode x = Ok (JArr l) <-> exists xs, x = slist xs /\ Forall2 (fun y j => encode y = Ok j) xs l.
  Proof.
    induction x as [|s|s| |a _ b IH]; intros l; cbn; try (split; [discriminate|intros ([|] & E & _); discriminate]).
    - split; [intros E; injection E as <-; exists []; split; [reflexivity|constructor]|].
      intros ([|] & E & F); [inversion F; reflexivity|discriminate].
    - split; [destruct (bytes_eqb s n_t); discriminate|intros ([|] & E & _); discriminate].
    - split.
      + destruct (encode a) as [j| |] eqn:Ea; cbn; try discriminate. destruct (encode b) as [[| | | |r|]| |]; cbn; try discriminate.
        intros E. injection E as <-. destruct (proj1 (IH r) eq_refl) as (xs & -> & F). exists (a :: xs). split; [reflexivity|]. constructor; assumption.
      + intros ([|c xs] & E & F); [discriminate|]. cbn in E. injection E as -> E. inversion F as [|? j ? r Ej Fr]; subst.
        rewrite Ej. cbn. rewrite (proj2 (IH r)); [reflexivity|]. exists xs. auto.
  Qed.
  Lemma slist_inj : forall l l', slist l = slist l' -> l = l'.
  Proof. induction l as [|a l IH]; intros [|b l'] E; try discriminate; [reflexivity|]. cbn in E. injection E as -> E. f_equal. apply IH, E. Qed.
  Lemma encode_strings : forall l ts, encode (slist l) = Ok (json_strings ts) <-> Forall2 stands_for l ts.
  Proof.
    intros l ts. unfold json_strings. rewrite encode_array. split.
    - intros (xs & E & F). apply slist_inj in E. subst xs. remember (map JStr ts) as js eqn:J. revert ts J.
      induction F as [|x j l js Ej F IH]; intros [|t ts] J; try discriminate; [constructor|]. cbn in J. injection J as -> ->.
      constructor; [apply encode_string, Ej|apply IH; reflexivity].
    - intros F. exists l. split; [reflexivity|]. induction F; cbn; constructor; [apply encode_string; assumption|assumption].
  Qed.

  Lemma assoc_ok : forall source h, assoc_hosts source = Ok h ->
    (exists before d after, Forall other_form before /\ source = before ++ SCons (SSym n_hosts) d :: after /\ h = SCons (SSym n_hosts) d) \/
    (Forall other_form source /\ h = SNil).
  Proof.
    induction source as [|x r IH]; intros h E; cbn in E.
    - injection E as <-. right. split; [constructor|reflexivity].
    - assert (K : other_form x -> assoc_hosts r = Ok h ->
        (exists before d after, Forall other_form before /\ x :: r = before ++ SCons (SSym n_hosts) d :: after /\ h = SCons (SSym n_hosts) d) \/
        (Forall other_form (x :: r) /\ h = SNil)).
      { intros O E'. destruct (IH h E') as [(b & d & a & F & -> & ->)|[F ->]].
        - left. exists (x :: b), d, a. split; [constructor; assumption|]. split; reflexivity.
        - right. split; [constructor; assumption|reflexivity]. }
      destruct x as [|s|s| |a d]; try discriminate.
      + apply K; [left; reflexivity|exact E].
      + destruct a as [|s|s| |a1 a2]; try (apply K; [right; eexists; eexists; split; [reflexivity|discriminate]|exact E]).
        destruct (bytes_eqb_spec s n_hosts) as [->|N].
        * injection E as <-. left. exists [], d, r. split; [constructor|]. split; reflexivity.
        * apply K; [right; eexists; eexists; split; [reflexivity|congruence]|exact E].
  Qed.
  Lemma assoc_before : forall before r, Forall other_form before -> assoc_hosts (before ++ r) = assoc_hosts r.
  Proof.
    induction 1 as [|x b O F IH]; [reflexivity|]. cbn [app]. destruct O as [->|(a & d & -> & N)]; [exact IH|].
    destruct a as [|s|s| |a1 a2]; try exact IH. cbn [assoc_hosts]. destruct (bytes_eqb_spec s n_hosts) as [->|_]; [congruence|exact IH].
  Qed.
  Lemma assoc_hosts_first : forall d r, assoc_hosts (SCons (SSym n_hosts) d :: r) = Ok (SCons (SSym n_hosts) d).
  Proof. reflexivity. Qed.

  (** The entries that expand-config finds. *)
  Definition entries_of (source : list sexp) : res (list sexp) := h <- assoc_hosts source ;; es <- cdr h ;; elements es.
  Lemma entries_ok : forall source entries, entries_of source = Ok entries <-> hosts_are source entries.
  Proof.
    intros source entries. unfold entries_of. split.
    - destruct (assoc_hosts source) as [h| |] eqn:E; cbn; try discriminate.
      destruct (assoc_ok source h E) as [(b & d & a & F & -> & ->)|[F ->]]; cbn.
      + intros X. apply elements_ok in X. subst d. exact (hosts_first _ _ b a F eq_refl).
      + intros X. injection X as <-. apply hosts_missing; [exact F|reflexivity].
    - intros [before after F ->|F ->].
      + rewrite (assoc_before _ _ F), assoc_hosts_first. cbn. apply elements_slist.
      + rewrite <- (app_nil_r source), (assoc_before _ _ F). reflexivity.
  Qed.

  Lemma concat_ok : forall fss tss, Forall2 (Forall2 stands_for) fss tss -> Forall2 stands_for (concat fss) (concat tss).
  Proof. induction 1 as [|fs ts fss tss H _ IH]; [constructor|]. cbn. apply Forall2_app; assumption. Qed.

  (** The four lists of one entry. *)
  Lemma entry_split : forall e l a m lt at_ fts, car e = Ok l -> cadr e = Ok a -> caddr e = Ok m ->
    stands_for l lt -> stands_for a at_ -> forall fs, m = slist fs -> Forall2 stands_for fs fts ->
    host_entry sym_text e (lt, at_, fts).
  Proof.
    intros e l a m lt at_ fts El Ea Em Sl Sa fs -> Fs.
    destruct e as [|s|s| |e1 e2]; try discriminate; [injection El as <-; inversion Sl|].
    injection El as ->. cbn in Ea, Em. destruct e2 as [|s|s| |e3 e4]; try discriminate; [injection Ea as <-; inversion Sa|].
    cbn in Ea, Em. injection Ea as ->. destruct e4 as [|s|s| |e5 e6]; cbn in Em; try discriminate.
    - injection Em as Em. destruct fs as [|f fs]; [|discriminate]. inversion Fs; subst. constructor; assumption.
    - injection Em as ->. constructor; assumption.
  Qed.
  Lemma entry_parts : forall e h, host_entry sym_text e h ->
    exists l a fs, car e = Ok l /\ cadr e = Ok a /\ caddr e = Ok (slist fs) /\
      stands_for l (fst (fst h)) /\ stands_for a (snd (fst h)) /\ Forall2 stands_for fs (snd h).
  Proof.
    intros e h H. destruct H as [l a fs rest lt at_ fts Hl Ha Hf|l a lt at_ Hl Ha].
    - exists l, a, fs. cbn. auto 10.
    - exists l, a, []. cbn. auto 10.
  Qed.

  Lemma expand_all : forall entries labels addrs members copies, 
    rmap car entries = Ok labels -> rmap cadr entries = Ok addrs -> rmap caddr entries = Ok members -> rmap elements members = Ok copies ->
    forall lt at_ fts, Forall2 stands_for labels lt -> Forall2 stands_for addrs at_ -> Forall2 (Forall2 stands_for) copies fts ->
    Forall2 (host_entry sym_text) entries (combine (combine lt at_) fts) /\ length lt = length entries /\ length at_ = length entries /\ length fts = length entries.
  Proof.
    intros entries labels addrs members copies E1 E2 E3 E4. apply rmap_ok in E1, E2, E3, E4.
    revert addrs members copies E2 E3 E4. induction E1 as [|e l entries labels El _ IH]; intros addrs members copies E2 E3 E4 lt at_ fts F1 F2 F3.
    - inversion E2; subst. inversion E3; subst. inversion E4; subst. inversion F1; inversion F2; inversion F3; subst. cbn. auto.
    - inversion E2 as [|? a ? addrs' Ea E2']; subst. inversion E3 as [|? m ? members' Em E3']; subst. inversion E4 as [|? fs ? copies' Ef E4']; subst.
      inversion F1 as [|? t ? lt' Ft F1']; subst. inversion F2 as [|? at1 ? at' Fa F2']; subst. inversion F3 as [|? ft ? fts' Ff F3']; subst.
      destruct (IH _ _ _ E2' E3' E4' lt' at' fts' F1' F2' F3') as (A & B & C & D). cbn. split; [|lia].
      constructor; [|exact A]. apply elements_ok in Ef. apply (entry_split e l a m t at1 ft El Ea Em Ft Fa fs Ef Ff).
  Qed.
  Lemma combine3 : forall {A B C} (a : list A) (b : list B) (c : list C), length a = length c -> length b = length c ->
    map (fun h => fst (fst h)) (combine (combine a b) c) = a /\ map (fun h => snd (fst h)) (combine (combine a b) c) = b /\
    map snd (combine (combine a b) c) = c.
  Proof.
    intros A B C. induction a as [|x a IH]; intros [|y b] [|z c] L1 L2; cbn in *; try discriminate; [auto|].
    injection L1 as L1. injection L2 as L2. destruct (IH b c L1 L2) as (-> & -> & ->). auto.
  Qed.
End Text.

(** What becomes of well-formed entries. *)
Lemma compiled : forall sym_text source entries hosts, hosts_are source entries -> Forall2 (host_entry sym_text) entries hosts -> compile sym_text source [] = Ok (expand_config hosts).
Proof.
  intros sym_text source entries hosts H F. unfold compile, expand_config_file, expand.
    apply entries_ok in H. unfold entries_of in H.
    destruct (assoc_hosts source) as [h| |]; cbn [rbind] in H |- *; try discriminate.
    destruct (cdr h) as [es| |]; cbn [rbind] in H |- *; try discriminate. rewrite H. cbn [rbind].
    assert (P : exists labels addrs fss, rmap car entries = Ok labels /\ rmap cadr entries = Ok addrs /\ rmap caddr entries = Ok (map slist fss) /\
      Forall2 (stands_for sym_text) labels (map (fun h => fst (fst h)) hosts) /\ Forall2 (stands_for sym_text) addrs (map (fun h => snd (fst h)) hosts) /\
      Forall2 (Forall2 (stands_for sym_text)) fss (map snd hosts)).
    { clear H. induction F as [|e h0 entries hosts He _ IH].
      - exists [], [], []. cbn. repeat split; constructor.
      - destruct IH as (labels & addrs & fss & A & B & C & D1 & D2 & D3). destruct (entry_parts sym_text e h0 He) as (l & a & fs & P1 & P2 & P3 & P4 & P5 & P6).
        exists (l :: labels), (a :: addrs), (fs :: fss). cbn [rmap map]. rewrite P1, P2, P3. cbn [rbind]. rewrite A, B, C. cbn [rbind].
        repeat (split; [reflexivity|]). repeat split; constructor; assumption. }
    destruct P as (labels & addrs & fss & -> & -> & -> & D1 & D2 & D3). cbn [rbind].
    assert (Q : rmap elements (map slist fss) = Ok fss).
    { apply rmap_ok. clear. induction fss; cbn; constructor; [apply elements_slist|assumption]. }
    rewrite Q. cbn [rbind app]. unfold translate_file. cbn [rmap].
    assert (R : encode sym_text (slist [slist labels; slist addrs; slist (map slist fss); slist (concat fss)]) =
      Ok (JArr [json_strings (map (fun h => fst (fst h)) hosts); json_strings (map (fun h => snd (fst h)) hosts);
                JArr (map json_strings (map snd hosts)); json_strings (concat (map snd hosts))])).
    { apply encode_array. eexists. split; [reflexivity|]. constructor; [apply encode_strings, D1|]. constructor; [apply encode_strings, D2|].
      constructor; [|constructor; [apply encode_strings, concat_ok, D3|constructor]].
      apply encode_array. eexists. split; [reflexivity|]. clear - D3. induction D3; cbn; constructor; [apply encode_strings; assumption|assumption]. }
    rewrite R. cbn [rbind unmarshal_file]. unfold expand_config, strs, json_strings. rewrite !map_map. reflexivity.
Qed.

(** ** C116 *)
(** A process accepts what was compiled from a source into a new intermediate file exactly
    if the entries of the source's first HOSTS form have the right shape, and then it uses
    the labels, addresses and file names written there, in that order. *)
Theorem C116_source_is_used : forall sym_text source c,
  compile_and_load sym_text source [] = Ok c <->
  exists entries hosts, hosts_are source entries /\ Forall2 (host_entry sym_text) entries hosts /\
    c = mkConf (map (fun h => fst (fst h)) hosts) (map (fun h => snd (fst h)) hosts) (map snd hosts) (concat (map snd hosts)).
Proof.
  intros sym_text source c. split.
  2: { intros (entries & hosts & H & F & ->). unfold compile_and_load. rewrite (compiled _ _ _ _ H F). cbn [rbind]. apply C72_compiled_config_parses. }
  unfold compile_and_load, compile, expand_config_file, expand.
  - intros E. destruct (assoc_hosts source) as [h| |] eqn:E0; cbn [rbind] in E; try discriminate.
    destruct (cdr h) as [es| |] eqn:E1; cbn [rbind] in E; try discriminate.
    destruct (elements es) as [entries| |] eqn:E2; cbn [rbind] in E; try discriminate.
    destruct (rmap car entries) as [labels| |] eqn:E3; cbn [rbind] in E; try discriminate.
    destruct (rmap cadr entries) as [addrs| |] eqn:E4; cbn [rbind] in E; try discriminate.
    destruct (rmap caddr entries) as [members| |] eqn:E5; cbn [rbind] in E; try discriminate.
    destruct (rmap elements members) as [copies| |] eqn:E6; cbn [rbind] in E; try discriminate.
    cbn [app] in E. unfold translate_file in E. cbn [rmap] in E.
    destruct (encode sym_text (slist [slist labels; slist addrs; slist members; slist (concat copies)])) as [j| |] eqn:E7; cbn [rbind] in E; try discriminate.
    cbn [unmarshal_file rbind] in E. apply C74_config_parsed_faithfully in E. destruct E as (rest & ->).
    apply encode_array in E7. destruct E7 as (xs & X & F). apply slist_inj in X. subst xs.
    inversion F as [|? ? ? ? F1 G1]; subst. inversion G1 as [|? ? ? ? F2 G2]; subst.
    inversion G2 as [|? ? ? ? F3 G3]; subst. inversion G3 as [|? ? ? ? F4 G4]; subst. inversion G4; subst.
    apply encode_strings in F1, F2, F4. apply encode_array in F3. destruct F3 as (xs & X & F3). apply slist_inj in X. subst xs.
    assert (F5 : Forall2 (Forall2 (stands_for sym_text)) copies (cf_members c)).
    { apply rmap_ok in E6. clear - E6 F3. revert F3. generalize (cf_members c). induction E6 as [|m fs members copies Em _ IH]; intros ts F.
      - destruct ts; [constructor|inversion F].
      - destruct ts as [|t ts]; inversion F as [|? ? ? ? Fm Fr]; subst. constructor; [|apply IH, Fr].
        apply elements_ok in Em. subst m. apply encode_strings in Fm. exact Fm. }
    destruct (expand_all sym_text entries labels addrs members copies E3 E4 E5 E6 _ _ _ F1 F2 F5) as (A & L1 & L2 & L3).
    exists entries, (combine (combine (cf_labels c) (cf_addrs c)) (cf_members c)). split; [|split; [exact A|]].
    + apply entries_ok. unfold entries_of. rewrite E0. cbn [rbind]. rewrite E1. cbn [rbind]. exact E2.
    + destruct (combine3 (cf_labels c) (cf_addrs c) (cf_members c) ltac:(congruence) ltac:(congruence)) as (-> & -> & ->).
      assert (P : cf_pubfiles c = concat (cf_members c)).
      { pose proof (concat_ok sym_text _ _ F5) as Q. clear - Q F4. revert Q F4. generalize (concat (cf_members c)) (cf_pubfiles c) (concat copies).
        intros a b l Q. revert b. induction Q as [|x t l a S _ IH]; intros b H; inversion H as [|? t' ? b' S' H']; subst; [reflexivity|].
        f_equal; [|apply IH, H']. clear - S S'. destruct S; inversion S'; reflexivity. }
      rewrite <- P. destruct c; reflexivity.
Qed.
(** The compiled file is then the one that processes are deployed from in C106 to C110. *)
Theorem C116_compiled_file : forall sym_text source d,
  (compile sym_text source [] = Ok d /\ exists c, load_config d = Ok c) <->
  exists entries hosts, hosts_are source entries /\ Forall2 (host_entry sym_text) entries hosts /\ d = expand_config hosts.
Proof.
  intros sym_text source d. split.
  - intros (E & c & L). destruct (proj1 (C116_source_is_used sym_text source c)) as (entries & hosts & H & F & _); [unfold compile_and_load; rewrite E; exact L|].
    exists entries, hosts. split; [exact H|]. split; [exact F|]. rewrite (compiled _ _ _ _ H F) in E. injection E as <-. reflexivity.
  - intros (entries & hosts & H & F & ->). split; [exact (compiled _ _ _ _ H F)|]. eexists. apply C72_compiled_config_parses.
Qed.
(** Compiling into an intermediate file that has something in it already is of no use: the process
    that is given the result does not start. *)
Theorem C116_stale_intermediate_file : forall sym_text source out, out <> [] ->
  compile_and_load sym_text source out = Panic.
Proof.
  intros sym_text source out N. destruct out as [|x out]; [congruence|]. unfold compile_and_load, compile, expand_config_file.
  assert (X : forall x, car x <> Err) by (intros []; discriminate).
  assert (Y : forall x, cdr x <> Err) by (intros []; discriminate).
  assert (Z1 : forall x, elements x <> Err).
  { induction x0 as [|s|s| |a _ b IH]; cbn; try discriminate. destruct (elements b); cbn; try discriminate. contradiction. }
  assert (RM : forall A B (f : A -> res B) l, (forall a, f a <> Err) -> rmap f l <> Err).
  { intros A B f l Hf. induction l as [|a l IH]; cbn; [discriminate|]. specialize (Hf a). destruct (f a); cbn; try discriminate; try contradiction.
    destruct (rmap f l); cbn; try discriminate; contradiction. }
  assert (AS : forall l, assoc_hosts l <> Err).
  { induction l as [|[|s|s| |[|s|s| |a b] d] l IH]; cbn; try discriminate; try exact IH. destruct (bytes_eqb s n_hosts); [discriminate|exact IH]. }
  assert (CD : forall x, cadr x <> Err) by (intros x0; unfold cadr; pose proof (Y x0); destruct (cdr x0); cbn; try contradiction; try discriminate; apply X).
  assert (CDD : forall x, caddr x <> Err).
  { intros x0. unfold caddr. pose proof (Y x0). destruct (cdr x0) as [y| |]; cbn; try contradiction; try discriminate.
    pose proof (Y y). destruct (cdr y); cbn; try contradiction; try discriminate; apply X. }
  assert (EX : expand source <> Err).
  { unfold expand. pose proof (AS source). destruct (assoc_hosts source) as [h| |]; cbn; try contradiction; try discriminate.
    pose proof (Y h). destruct (cdr h) as [es| |]; cbn; try contradiction; try discriminate.
    pose proof (Z1 es). destruct (elements es) as [en| |]; cbn; try contradiction; try discriminate.
    pose proof (RM _ _ car en X). destruct (rmap car en); cbn; try contradiction; try discriminate.
    pose proof (RM _ _ cadr en CD). destruct (rmap cadr en); cbn; try contradiction; try discriminate.
    pose proof (RM _ _ caddr en CDD). destruct (rmap caddr en) as [ms| |]; cbn; try contradiction; try discriminate.
    pose proof (RM _ _ elements ms Z1). destruct (rmap elements ms); cbn; try contradiction; discriminate. }
  assert (EN : forall x, encode sym_text x <> Err).
  { induction x0 as [|s|s| |a IHa b IHb]; cbn; try discriminate. destruct (encode sym_text a); cbn; try contradiction; try discriminate.
    destruct (encode sym_text b) as [[| | | | |]| |]; cbn; try contradiction; discriminate. }
  destruct (expand source) as [e| |]; cbn [rbind]; try contradiction; [|reflexivity].
  unfold translate_file. pose proof (RM _ _ (encode sym_text) ((x :: out) ++ [e]) EN) as T.
  destruct (rmap (encode sym_text) ((x :: out) ++ [e])) as [docs| |] eqn:D; cbn [rbind]; try contradiction; [|reflexivity].
  apply rmap_ok in D. apply Forall2_len in D. rewrite app_length in D. cbn in D.
  destruct docs as [|d [|d' docs]]; cbn in D; try lia. reflexivity.
Qed.

(** Two hosts, with another form before and a second HOSTS form after. *)
Definition demo_source : list sexp :=
  [SCons (SSym [x4e; x4f; x54; x45]) (SCons SNum SNil);
   SCons (SSym n_hosts) (slist [slist [SSym [x48; x31]; SStr [x61]; slist [SStr [x70]; SStr [x71]]]; slist [SStr [x68]; SStr [x62]]]);
   SCons (SSym n_hosts) SNil].
Definition lower (s : bytes) : bytes := map (fun b => byte_of_z (if (65 <=? z_of_byte b)%Z && (z_of_byte b <=? 90)%Z then z_of_byte b + 32 else z_of_byte b)) s.
Example C116_ex : compile_and_load lower demo_source [] =
    Ok (mkConf [[x68; x31]; [x68]] [[x61]; [x62]] [[[x70]; [x71]]; []] [[x70]; [x71]]) /\
  compile_and_load lower (SNum :: demo_source) [] = Panic /\ compile_and_load lower demo_source [SNil] = Panic /\
  compile_and_load lower [SCons (SSym n_hosts) (slist [slist [SSym n_t; SStr [x61]]])] [] = Panic.
Proof. vm_compute. auto. Qed.
Print Assumptions C116_source_is_used. Print Assumptions C116_compiled_file. Print Assumptions C116_stale_intermediate_file.
