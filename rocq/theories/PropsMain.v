(** C104-C106: how processes start, and with which keys. *)
From Coq Require Import ZArith List Lia Bool Permutation Sorting.Sorted.
From Coq Require Import Init.Byte.
From Verif Require Import Params Curve Order Bytes Res Secp Spec SecpProofs SecpProofs2 PropsSecp Dto DtoSpec DtoProofs PropsDto Prot Layout LayoutSpec LayoutProofs LayoutProofs2 PropsLayout Node Requests Main MainSpec MainProofs.
From Verif Require Net.
Import ListNotations.
Open Scope Z_scope.

Lemma guest_unique w dir ms i s s' : is_guest w dir ms i s -> is_guest w dir ms i s' -> s = s'.
Proof.
  intros (_ & m & N1 & (nm & b & _ & _ & _ & ->) & P1) (_ & m' & N2 & (nm' & b' & _ & _ & _ & ->) & P2). assert (m' = m) by congruence. subst.
  assert (E : eqN (be2z b mod N) (be2z b' mod N)) by (eapply base_mul_inj; [exact P1|exact P2|reflexivity]).
  unfold eqN in E. rewrite !Zmod_mod in E. exact E.
Qed.
Lemma member_hosted srt fs hosts ms i m : sorts srt -> load_and_sort srt fs (files hosts) = Ok ms -> 0 <= i -> nth_error ms (Z.to_nat i) = Some m -> exists h, hosted hosts ms i h.
Proof.
  intros S E Hi N1. pose proof (load_loaded _ _ _ _ S E) as LD. assert (I : In (mb_file m) (files hosts)).
  { eapply Permutation_in; [symmetry; exact (ld_files _ _ _ LD)|]. apply in_map. eapply nth_error_In. exact N1. }
  apply in_concat in I. destruct I as (l & I & J). apply in_map_iff in I. destruct I as (h & <- & I). exists h. split; [exact Hi|]. exists m. auto.
Qed.

(** ** C104 *)
(** What a process is set up with when it starts from a compiled configuration (C72): the members
    are the keys of the listed files, in the order of C70; the guests are the members with a secret in the directory of
    secrets; T is what is written; messages are dropped until the given time, or for three seconds; the first run
    starts 55 ms later; it signs exactly if there is one more argument; it listens at the addresses
    of the hosts of its guests, and sends to each member at the address of its host. *)
Theorem C104_set_up : forall srt mord w hosts a0 conf pubdir secdir t du rest st,
  sorts srt -> (forall l, Permutation l (mord l)) -> w_conf w conf = Some (expand_config hosts) -> distinct_keys (w_file w pubdir) (files hosts) ->
  main srt mord w (command a0 conf pubdir secdir t du rest) = Ok st -> let su := sd_setup st in
  exists mem, load_and_sort srt (w_file w pubdir) (files hosts) = Ok mem /\ su_members su = map mb_pub mem /\ su_queues su = Z.of_nat (length mem) /\
    NoDup (su_guests su) /\ (forall i, In i (su_guests su) <-> exists s, is_guest w secdir mem i s) /\ (forall i s, is_guest w secdir mem i s -> su_secret su i = s) /\
    integer64 t (su_T su) /\ (du = [x5f] /\ sd_until st = w_now w + 3000 * ms \/ du <> [x5f] /\ w_time w du = Some (sd_until st)) /\ sd_at st = sd_until st + 55 * ms /\
    (sd_signs st = true <-> length rest = 1%nat) /\
    NoDup (sd_listen st) /\ (forall a, In a (sd_listen st) <-> exists i h, In i (su_guests su) /\ hosted hosts mem i h /\ a = h_addr h) /\
    (forall i h, su_guests su <> [] -> hosted hosts mem i h -> nth_error (sd_dial st) (Z.to_nat i) = Some (Some (h_addr h))).
Proof.
  intros srt mord w hosts a0 conf pubdir secdir t du rest st S MO EC DK E su. subst su. apply main_ok in E.
  destruct E as (j & cf & L & secrets & gs & T & u & lts & x & E1 & E2 & E3 & E4 & E5 & E6 & E7 & E8 & E9 & ->). cbn [sd_setup sd_until sd_at sd_signs sd_listen sd_dial su_members su_guests su_T su_queues su_secret su_long].
  assert (j = expand_config hosts) by congruence. subst j. rewrite C72_compiled_config_parses in E2. injection E2 as <-.
  destruct x as [listen dial]. apply protocol_start_ok in E9. destruct E9 as (V & DI & -> & LI). cbn [fst snd].
  destruct (load_secrets_ok _ _ _ E4) as (_ & _ & HS). pose proof (proj1 DK) as ND.
  assert (LS : load_and_sort srt (w_file w pubdir) (files hosts) = Ok (ly_members L)).
  { unfold compute_layout in E3. change (cf_pubfiles (config_of hosts)) with (files hosts) in E3. destruct (load_and_sort srt (w_file w pubdir) (files hosts)) as [m0| |]; cbn [rbind] in E3; try discriminate. injection E3 as <-. reflexivity. }
  destruct (C72_members_map_to_their_host _ _ _ _ S ND E3) as (HM & NK & PK).
  assert (GU : forall i, In i (map fst gs) <-> exists s, is_guest w secdir (ly_members L) i s).
  { intros i. rewrite zget_some. split.
    - intros [g Z]. destruct (C71_guests_are_members_with_a_secret _ _ _ _ _ _ S E3 E5 _ _ Z) as (_ & I & Hi & m & N1 & P & _). exists (gu_sec g). split; [exact Hi|]. exists m. rewrite <- HS. auto.
    - intros (s & Hi & m & N1 & H & P). apply HS in H. destruct (C71_every_secret_finds_its_member srt (w_file w pubdir) (config_of hosts) _ _ _ _ _ _ S DK E3 E5 H N1 P) as (g & Z & _). rewrite Z2Nat.id in Z by exact Hi. eauto. }
  assert (GS : forall i s, is_guest w secdir (ly_members L) i s -> exists g, zget gs i = Some g /\ gu_sec g = s).
  { intros i s H. destruct (proj1 (zget_some gs i) (proj2 (GU i) (ex_intro _ s H))) as [g Z]. exists g. split; [exact Z|].
    destruct (C71_guests_are_members_with_a_secret _ _ _ _ _ _ S E3 E5 _ _ Z) as (_ & I & Hi & m & N1 & P & _). apply (guest_unique w secdir (ly_members L) i); [|exact H]. split; [exact Hi|]. exists m. rewrite <- HS. auto. }
  exists (ly_members L). split; [exact LS|]. split; [reflexivity|].
  split; [rewrite <- (map_length fst), (Permutation_length PK), map_length, seq_length; reflexivity|].
  split; [apply (guests_nodup _ _ _ _ E5); constructor|]. split; [exact GU|]. split; [intros i s H; destruct (GS i s H) as (g & -> & EG); exact EG|].
  split; [apply atoi_spec; exact E6|]. split; [exact E7|]. split; [unfold max_drift; lia|]. split; [apply Nat.eqb_eq|]. split; [apply unique_nodup|]. split.
  - destruct (C71_guest_addresses _ _ _ _ secrets S ND E3) as (gs' & E5' & AD). assert (gs' = gs) by congruence. subst gs'.
    intros a. rewrite unique_in, in_map_iff. pose proof (guests_nodup _ _ _ _ E5 ltac:(constructor)) as NG. split.
    + intros ([i g] & <- & I). apply (zget_in _ _ _ NG) in I. destruct (C71_guests_are_members_with_a_secret _ _ _ _ _ _ S E3 E5 _ _ I) as (_ & _ & Hi & m & N1 & _).
      destruct (member_hosted _ _ _ _ _ _ S LS Hi N1) as (h & HH). exists i, h. split; [apply zget_some; eauto|]. split; [exact HH|]. destruct HH as (_ & m' & N1' & IH & IF).
      apply In_nth_error in IH. destruct IH as [k IH]. exact (AD _ _ _ _ _ I N1' IH IF).
    + intros (i & h & I & (Hi & m & N1 & IH & IF) & ->). apply zget_some in I. destruct I as [g Z]. exists (i, g). apply In_nth_error in IH. destruct IH as [k IH].
      split; [exact (AD _ _ _ _ _ Z N1 IH IF)|]. apply (zget_in _ _ _ NG). exact Z.
  - intros i h NE (Hi & m & N1 & IH & IF). destruct gs as [|e gs]; [contradiction|]. apply In_nth_error in IH. destruct IH as [k IH].
    destruct (C72_every_queue_exists _ _ _ _ (mord (ly_m2a L)) S ND E3 (MO _)) as (qs & Q1 & Q2 & Q3). assert (qs = dial) by congruence. subst qs.
    destruct (Q3 k h _ IH IF) as (k' & m' & N2 & F & D). pose proof (load_loaded _ _ _ _ S LS) as LD.
    assert (k' = Z.to_nat i) by (eapply (nodup_map_nth mb_file); [exact (loaded_nodup _ _ _ ND LD)|exact N2|exact N1|exact F]). subst k'. exact D.
Qed.

(** With one more argument, the process has the share of each guest that the long-term key file holds; with the file of
    [lts] (C43), the share in [lts]. *)
Theorem C104_long_term_shares : forall srt mord w a0 conf pubdir secdir t du a6 st file,
  main srt mord w (command a0 conf pubdir secdir t du [a6]) = Ok st -> w_gob w a6 = Some file -> let su := sd_setup st in
  (forall i, In i (su_guests su) -> exists s, su_long su i = Some s /\ good_dks s) /\
  (forall lts saved ord, NoDup (map fst lts) -> (forall k s, In (k, s) lts -> good_dks s) -> save_longterms lts = Ok saved ->
     (forall l : list (Z * dks_dto), Permutation (ord l) l) -> file = ord saved -> forall i, su_long su i = mget lts i).
Proof.
  intros srt mord w a0 conf pubdir secdir t du a6 st file E EF su. subst su. apply main_ok in E.
  destruct E as (j & cf & L & secrets & gs & T & u & lts & x & E1 & E2 & E3 & E4 & E5 & E6 & E7 & (b6 & file' & X & G1 & G2) & E9 & ->). cbn [sd_setup su_guests su_long].
  injection X as <-. assert (file' = file) by congruence. subst file'.
  assert (G3 : dto_to_lts file = Ok lts /\ forall k, In k (map fst gs) -> exists s, mget lts k = Some s).
  { unfold load_longterms in G2. destruct (dto_to_lts file) as [l| |] eqn:ED; cbn [assert_nil rbind] in G2; try discriminate.
    destruct (subset_spec gs l) as [A B]. destruct (verify_keys_subset gs l) as [y| |] eqn:EV; cbn [assert_nil rbind] in G2; try discriminate. destruct y. injection G2 as <-.
    split; [reflexivity|]. apply A. reflexivity. }
  destruct G3 as [G3 G4]. split.
  - intros i I. destruct (C43_load_checks _ gs file) as [Y|(l & Y & GD)]; [congruence|]. assert (l = lts) by congruence. subst l.
    destruct (G4 i I) as [s Hs]. exists s. split; [exact Hs|]. exact (GD _ _ Hs).
  - intros l saved ord ND GD ES PO -> i. destruct (save_load guest gs l (fun x => x) ord ND GD ltac:(reflexivity) PO) as (f' & l' & F1 & F2 & _ & F4).
    assert (f' = saved) by congruence. subst f'. assert (l' = lts) by congruence. subst l'. apply F4.
Qed.

(** A process starts exactly if every listed key file holds a key, the directory of secrets can be read and its secret_ files
    have 32 bytes, T and the time are well written, kyber accepts each guest's secret with these keys and T, the addresses of the guests' hosts
    can be listened at and, if there is a long-term key file, it decodes and has a share for each guest. *)
Theorem C104_starts_iff : forall srt mord w hosts a0 conf pubdir secdir t du rest,
  sorts srt -> (forall l, Permutation l (mord l)) -> w_conf w conf = Some (expand_config hosts) -> distinct_keys (w_file w pubdir) (files hosts) ->
  (forall a file, w_gob w a = Some file -> NoDup (map fst file)) ->
  ((exists st, main srt mord w (command a0 conf pubdir secdir t du rest) = Ok st) <->
   exists mem T u, load_and_sort srt (w_file w pubdir) (files hosts) = Ok mem /\
     (exists names, w_names w secdir = Some names) /\ (forall nm, secret_file w secdir nm -> exists b, w_file w secdir nm = Some b /\ length b = 32%nat) /\
     integer64 t T /\ (du = [x5f] /\ u = w_now w + 3000 * ms \/ du <> [x5f] /\ w_time w du = Some u) /\
     (forall i s h, is_guest w secdir mem i s -> hosted hosts mem i h -> w_accepts w s (map mb_pub mem) T = true /\ w_listens w (h_addr h) = true) /\
     (forall a, rest = [a] -> exists file, w_gob w a = Some file /\
        (forall k d, In (k, d) file -> Forall is_point (dkd_commits d) /\ is_scalar (prd_v (dkd_share d))) /\ forall i s, is_guest w secdir mem i s -> In i (map fst file))).
Proof.
  intros srt mord w hosts a0 conf pubdir secdir t du rest S MO EC DK GM. split.
  - intros [st E]. destruct (C104_set_up _ _ _ _ _ _ _ _ _ _ _ _ S MO EC DK E) as (mem & LS & M1 & M2 & M3 & M4 & M5 & M6 & M7 & M8 & M9 & M10 & M11 & M12).
    apply main_ok in E. destruct E as (j & cf & L & secrets & gs & T & u & lts & x & E1 & E2 & E3 & E4 & E5 & E6 & E7 & E8 & E9 & ->).
    cbn [sd_setup sd_until sd_at sd_signs sd_listen sd_dial su_members su_guests su_T su_queues su_secret su_long] in *.
    exists mem, T, u. split; [exact LS|]. destruct (load_secrets_ok _ _ _ E4) as (SO & NM & HS). split; [exact NM|]. split; [exact SO|]. split; [exact M6|]. split; [exact M7|].
    destruct x as [listen dial]. apply protocol_start_ok in E9. destruct E9 as (V & DI & EL & LI). cbn [fst snd] in *. split.
    + intros i s h HG HH. assert (IG : In i (map fst gs)) by (apply M4; eauto). split.
      * pose proof (M5 i s HG) as ES. destruct (proj1 (zget_some gs i) IG) as [g Z]. rewrite Z in ES. subst s. rewrite <- M1. apply (V i g). apply (zget_in _ _ _ M3). exact Z.
      * apply LI. apply M11. eauto.
    + intros a ->. cbn [length Nat.eqb] in E8. destruct E8 as (a6 & file & X & G1 & G2). injection X as <-. exists file. split; [exact G1|].
      unfold load_longterms in G2. destruct (dto_to_lts file) as [l| |] eqn:ED; cbn [assert_nil rbind] in G2; try discriminate.
      assert (DE : forall k d, In (k, d) file -> Forall is_point (dkd_commits d) /\ is_scalar (prd_v (dkd_share d))).
      { intros k d I. destruct (dks_dec d) as [A B]. destruct (all_point_dec (dkd_commits d)) as [D1|D1]; [destruct (scalar_dec (prd_v (dkd_share d))) as [D2|D2]; [auto|]|];
          exfalso; (assert (X : dto_to_lts file = Err); [|congruence]); apply (conv_fail dto_to_dks file []);
          [intros e; destruct (dks_dec e) as [A' B'], (all_point_dec (dkd_commits e)) as [C1|C1]; [destruct (scalar_dec (prd_v (dkd_share e))) as [C2|C2]; [destruct (A' (conj C1 C2)) as (? & -> & _); discriminate|]|]; rewrite B' by tauto; discriminate
          |exists k, d; split; [exact I|]; apply B; tauto
          |intros e; destruct (dks_dec e) as [A' B'], (all_point_dec (dkd_commits e)) as [C1|C1]; [destruct (scalar_dec (prd_v (dkd_share e))) as [C2|C2]; [destruct (A' (conj C1 C2)) as (? & -> & _); discriminate|]|]; rewrite B' by tauto; discriminate
          |exists k, d; split; [exact I|]; apply B; tauto]. }
      split; [exact DE|]. intros i s HG.
      destruct (subset_spec gs l) as [A _]. destruct (verify_keys_subset gs l) as [y| |] eqn:EV; cbn [assert_nil rbind] in G2; try discriminate. destruct y.
      destruct (proj1 A eq_refl i) as [v Hv]; [apply M4; eauto|].
      destruct (conv_ok dto_to_dks file [] (GM _ _ G1) ltac:(constructor)) as (l' & F1 & _ & F3).
      { intros k d I. destruct (dks_dec d) as [A' _]. destruct (A' (DE k d I)) as (b & B & _). eauto. }
      assert (l' = l) by (change (conv dto_to_dks file (Ok [])) with (dto_to_lts file) in F1; congruence). subst l'. specialize (F3 i).
      destruct (mget file i) as [d|] eqn:EM; [apply (mget_in _ _ _ (GM _ _ G1)) in EM; apply (in_map fst) in EM; exact EM|]. cbn in F3. congruence.
  - intros (mem & T & u & LS & (names & NM) & SO & IT & UN & GU & LT).
    assert (E3 : exists L, compute_layout srt (w_file w pubdir) (config_of hosts) = Ok L /\ ly_members L = mem).
    { unfold compute_layout. change (cf_pubfiles (config_of hosts)) with (files hosts). rewrite LS. cbn [rbind]. eexists. split; reflexivity. }
    destruct E3 as (L & E3 & EL). destruct (load_secrets_total w secdir names NM SO) as (secrets & E4). pose proof (proj1 DK) as ND.
    destruct (C71_guest_addresses _ _ _ _ secrets S ND E3) as (gs & E5 & AD). pose proof (guests_nodup _ _ _ _ E5 ltac:(constructor)) as NG.
    destruct (load_secrets_ok _ _ _ E4) as (_ & _ & HS).
    assert (GI : forall i g, zget gs i = Some g -> is_guest w secdir mem i (gu_sec g)).
    { intros i g Z. destruct (C71_guests_are_members_with_a_secret _ _ _ _ _ _ S E3 E5 _ _ Z) as (_ & I & Hi & m & N1 & P & _). split; [exact Hi|]. exists m. rewrite <- HS, <- EL. auto. }
    assert (GH : forall i g, zget gs i = Some g -> exists h, hosted hosts mem i h /\ gu_addr g = h_addr h).
    { intros i g Z. destruct (GI i g Z) as (Hi & m & N1 & _). destruct (member_hosted _ _ _ _ _ _ S LS Hi N1) as (h & HH). exists h. split; [exact HH|]. destruct HH as (_ & m' & N1' & IH & IF).
      apply In_nth_error in IH. destruct IH as [k IH]. rewrite <- EL in N1'. exact (AD _ _ _ _ _ Z N1' IH IF). }
    destruct (C72_every_queue_exists _ _ _ _ (mord (ly_m2a L)) S ND E3 (MO _)) as (qs & Q1 & _).
    assert (E9 : exists x, protocol_start mord w L gs T = Ok x).
    { exists (unique (map (fun x => gu_addr (snd x)) gs), match gs with [] => [] | _ => qs end). apply protocol_start_ok. split; [|split; [|split; [reflexivity|]]].
      - intros i g I. apply (zget_in _ _ _ NG) in I. destruct (GH i g I) as (h & HH & _). rewrite EL. apply (GU i _ h (GI i g I) HH).
      - destruct gs; [reflexivity|exact Q1].
      - intros a I. apply unique_in, in_map_iff in I. destruct I as ([i g] & <- & I). apply (zget_in _ _ _ NG) in I. destruct (GH i g I) as (h & HH & EA). cbn [snd]. rewrite EA. apply (GU i _ h (GI i g I) HH). }
    destruct E9 as [x E9].
    assert (E8 : exists lts, if (length rest =? 1)%nat then exists a6 file, rest = [a6] /\ w_gob w a6 = Some file /\ load_longterms gs file = Ok lts else lts = []).
    { destruct rest as [|a6 [|b r]]; cbn [length Nat.eqb]; [exists []; reflexivity| |exists []; reflexivity]. destruct (LT a6 eq_refl) as (file & G1 & DE & IN).
      destruct (conv_ok dto_to_dks file [] (GM _ _ G1) ltac:(constructor)) as (l & F1 & _ & F3).
      { intros k d I. destruct (dks_dec d) as [A' _]. destruct (A' (DE k d I)) as (b & B & _). eauto. }
      exists l, a6, file. split; [reflexivity|]. split; [exact G1|]. apply (load_iff guest gs file l); [exact F1|]. intros k I. apply zget_some in I. destruct I as [g Z].
      pose proof (IN k _ (GI k g Z)) as IK. specialize (F3 k). destruct (mget file k) as [d|] eqn:EM; [destruct F3 as (b & _ & B); eauto|]. apply mget_none in EM. contradiction. }
    destruct E8 as [lts E8]. eexists. apply main_ok. exists (expand_config hosts), (config_of hosts), L, secrets, gs, T, u, lts, x.
    split; [exact EC|]. split; [apply C72_compiled_config_parses|]. do 3 (split; [assumption|]). split; [apply atoi_spec; exact IT|]. split; [exact UN|]. split; [exact E8|]. split; [exact E9|reflexivity].
Qed.

(** ** C105 *)
(** keygen does not panic; it writes a secret of 1..N-1 and its public key, in files with the expected prefixes. *)
Theorem C105_keygen : forall St (xks : St -> bytes -> St * bytes) fuel st r1 r2 r, keygen St xks fuel st r1 r2 = Some r ->
  exists s P b1 b2, r = Ok ((s_secret ++ r1, b1), (s_public ++ r2, b2)) /\ 1 <= s < N /\ length b1 = 32%nat /\ be2z b1 = s /\
    pt_mul s KP_nil = Ok P /\ curve_point P /\ pt_unmarshal b2 = Ok P /\ valid_public_key (KP P) = true.
Proof.
  intros St xks fuel st r1 r2 r E. unfold keygen in E. destruct (sc_pick St xks fuel st) as [[s st']|] eqn:ES; [|discriminate].
  assert (R : 0 < s < N) by (apply C18_scalar_pick in ES; destruct ES as (i & _ & _ & _ & R & _); exact R).
  assert (GE : exists P, pt_mul s KP_nil = Ok P /\ curve_point P /\ valid_public_key (KP P) = true).
  { destruct fuel as [|fuel]; [discriminate ES|]. destruct (C18_generate_returns _ _ _ _ _ _ ES) as (k & EG). apply C18_generate in EG. destruct EG as (_ & _ & P & -> & G1 & G2 & G3). eauto. }
  destruct GE as (P & G1 & G2 & G3). destruct (C03_scalar_encoding s) as (b1 & B1 & B2 & B3 & _). rewrite Z.mod_small in B3 by lia.
  destruct (C06_point_roundtrip P G2) as (b2 & B4 & B5 & B6).
  unfold compute_pub in E. rewrite G1 in E. cbn [rbind] in E. rewrite B1 in E. cbn [must rbind] in E. rewrite B4 in E. cbn [must rbind] in E. injection E as <-.
  exists s, P, b1, b2. split; [reflexivity|]. split; [lia|]. auto 10.
Qed.
(** The generated keys are accepted: put the public file among the key files that are listed and the secret file, under its name, into the directory of
    secrets; then the process has the member with that key as a guest, with that secret. *)
Theorem C105_generated_key_is_guest : forall St (xks : St -> bytes -> St * bytes) fuel st r1 r2 nm1 b1 nm2 b2 srt mord w hosts a0 conf pubdir secdir t du rest sd f names,
  keygen St xks fuel st r1 r2 = Some (Ok ((nm1, b1), (nm2, b2))) ->
  sorts srt -> (forall l, Permutation l (mord l)) -> w_conf w conf = Some (expand_config hosts) -> distinct_keys (w_file w pubdir) (files hosts) ->
  In f (files hosts) -> w_file w pubdir f = Some b2 -> w_names w secdir = Some names -> In nm1 names -> w_file w secdir nm1 = Some b1 ->
  main srt mord w (command a0 conf pubdir secdir t du rest) = Ok sd -> let su := sd_setup sd in
  exists i P, In i (su_guests su) /\ nth_error (su_members su) (Z.to_nat i) = Some P /\ pt_unmarshal b2 = Ok P /\ su_secret su i = be2z b1 /\ pt_mul (be2z b1) KP_nil = Ok P.
Proof.
  intros St xks fuel st r1 r2 nm1 b1 nm2 b2 srt mord w hosts a0 conf pubdir secdir t du rest sd f names K S MO EC DK IF EF EN IN E1 E su.
  destruct (C105_keygen _ _ _ _ _ _ _ K) as (s & P & c1 & c2 & X & R & L1 & V1 & M1 & CP & U2 & _). injection X as -> <- -> <-.
  destruct (C104_set_up _ _ _ _ _ _ _ _ _ _ _ _ S MO EC DK E) as (mem & LS & T1 & _ & _ & T4 & T5 & _). fold su in T1, T4, T5.
  pose proof (load_loaded _ _ _ _ S LS) as LD. pose proof (Permutation_in _ (ld_files _ _ _ LD) IF) as IM. apply in_map_iff in IM. destruct IM as (m & FM & IM). apply In_nth_error in IM. destruct IM as [k NK].
  assert (PM : mb_pub m = P).
  { destruct (ld_pub _ _ _ LD m (nth_error_In _ _ NK)) as [H _]. rewrite FM in H. apply (holds_fun _ _ _ _ H). exists b2. auto. }
  assert (G : is_guest w secdir mem (Z.of_nat k) s).
  { split; [lia|]. exists m. rewrite Nat2Z.id, PM. split; [exact NK|]. split; [|exact M1]. exists (s_secret ++ r1), b1. split; [exists names, r1; auto|].
    split; [exact E1|]. split; [exact L1|]. rewrite V1, Z.mod_small by lia. reflexivity. }
  exists (Z.of_nat k), P. split; [apply T4; eauto|]. split; [rewrite Nat2Z.id, T1, (map_nth_error _ _ _ NK), PM; reflexivity|]. split; [exact U2|]. rewrite V1. split; [exact (T5 _ _ G)|exact M1].
Qed.

(** ** C106 *)
(** One process for each host, each launched for its host: all have the same members, one for each listed file, and the same T.  Each member is a guest of
    exactly one process, that of the host which lists its key file, which has its secret.  Whatever any of them sends to a member goes to an address at
    which that process listens, and no other. *)
Theorem C106_deployment : forall hosts fs T launches sts, distinct_keys fs (files hosts) -> NoDup (map h_addr hosts) ->
  Forall2 (launched_for hosts fs T) hosts launches -> Forall2 (fun l st => starts l = Ok st) launches sts ->
  forall srt mem, sorts srt -> load_and_sort srt fs (files hosts) = Ok mem ->
  length mem = length (files hosts) /\
  (forall st, In st sts -> su_members (sd_setup st) = map mb_pub mem /\ su_T (sd_setup st) = T /\ NoDup (su_guests (sd_setup st)) /\ forall i, In i (su_guests (sd_setup st)) -> 0 <= i < Z.of_nat (length mem)) /\
  forall i m, 0 <= i -> nth_error mem (Z.to_nat i) = Some m -> forall j h, nth_error hosts j = Some h -> In (mb_file m) (h_files h) ->
    (forall j' st, nth_error sts j' = Some st -> (In i (su_guests (sd_setup st)) <-> j' = j)) /\
    (forall st, nth_error sts j = Some st -> pt_mul (su_secret (sd_setup st) i) KP_nil = Ok (mb_pub m)) /\
    (forall j' st, nth_error sts j' = Some st -> In (h_addr h) (sd_listen st) <-> j' = j) /\
    (forall st, In st sts -> su_guests (sd_setup st) <> [] -> nth_error (sd_dial st) (Z.to_nat i) = Some (Some (h_addr h))).
Proof.
  intros hosts fs T launches sts DK NA FL FS srt mem S LS.
  pose proof (load_loaded _ _ _ _ S LS) as LD. pose proof (proj1 DK) as ND.
  (* what each process is set up with *)
  assert (UP : forall j st, nth_error sts j = Some st -> exists h l, nth_error hosts j = Some h /\ launched_for hosts fs T h l /\ su_members (sd_setup st) = map mb_pub mem /\ NoDup (su_guests (sd_setup st)) /\
    (forall i, In i (su_guests (sd_setup st)) <-> exists s, is_guest (la_w l) (la_secdir l) mem i s) /\ (forall i s, is_guest (la_w l) (la_secdir l) mem i s -> su_secret (sd_setup st) i = s) /\
    su_T (sd_setup st) = T /\
    (forall a, In a (sd_listen st) <-> exists i h, In i (su_guests (sd_setup st)) /\ hosted hosts mem i h /\ a = h_addr h) /\
    (forall i h, su_guests (sd_setup st) <> [] -> hosted hosts mem i h -> nth_error (sd_dial st) (Z.to_nat i) = Some (Some (h_addr h)))).
  { intros j st NS.
    assert (X : forall (A B : Type) (R : A -> B -> Prop) l1 l2 k b, Forall2 R l1 l2 -> nth_error l2 k = Some b -> exists a, nth_error l1 k = Some a /\ R a b).
    { intros A B R l1 l2 k b F. revert k. induction F as [|a0 b0 l1 l2 R0 F IH]; intros [|k] E; cbn in *; try discriminate; [injection E as <-; eauto|auto]. }
    destruct (X _ _ _ _ _ _ _ FS NS) as (l & NL & ST). destruct (X _ _ _ _ _ _ _ FL NL) as (h & NH & LF). exists h, l. split; [exact NH|]. split; [exact LF|].
    destruct LF as (S1 & S2 & S3 & S4 & S5 & S6).
    assert (HE : forall f P, In f (files hosts) -> (holds (w_file (la_w l) (la_pubdir l)) f P <-> holds fs f P)) by (intros f P I; unfold holds; rewrite (S4 f I); reflexivity).
    assert (DK' : distinct_keys (w_file (la_w l) (la_pubdir l)) (files hosts)).
    { split; [exact ND|]. intros f g P If Ig Hf Hg. apply HE in Hf, Hg; try assumption. exact (proj2 DK f g P If Ig Hf Hg). }
    destruct (C104_set_up _ _ _ _ _ _ _ _ _ _ _ _ S1 S2 S3 DK' ST) as (mem' & LS' & M1 & M2 & M3 & M4 & M5 & M6 & M7 & M8 & M9 & M10 & M11 & M12).
    assert (mem' = mem).
    { assert (Y : load_and_sort (la_srt l) (w_file (la_w l) (la_pubdir l)) (files hosts) = load_and_sort srt fs (files hosts)) by (apply C70_nodes_agree_on_members; auto).
      rewrite LS, LS' in Y. congruence. }
    subst mem'. do 4 (split; [assumption|]). split; [|split; assumption].
    apply atoi_spec in M6, S5. congruence. }
  assert (SECRET : forall j st i m, nth_error sts j = Some st -> 0 <= i -> nth_error mem (Z.to_nat i) = Some m -> forall j' h, nth_error hosts j' = Some h -> In (mb_file m) (h_files h) ->
    (In i (su_guests (sd_setup st)) <-> j = j')).
  { intros j st i m NS Hi NM j' h' NH' IF. destruct (UP j st NS) as (h & l & NH & (S1 & S2 & S3 & S4 & S5 & S6) & M1 & M3 & M4 & M5 & _).
    assert (IM : In (mb_file m) (files hosts)) by (eapply Permutation_in; [symmetry; exact (ld_files _ _ _ LD)|apply in_map; eapply nth_error_In; exact NM]).
    destruct (ld_pub _ _ _ LD m (nth_error_In _ _ NM)) as [HP _]. specialize (S6 _ _ IM HP). rewrite M4. split.
    - intros (s & _ & m' & N2 & HS & P). assert (m' = m) by congruence. subst m'. assert (IH : In (mb_file m) (h_files h)) by (apply S6; eauto).
      destruct (Nat.eq_dec j j') as [|NE]; [assumption|exfalso].
      assert (Y : forall (hs : list host) a b ha hb f, NoDup (concat (map h_files hs)) -> nth_error hs a = Some ha -> nth_error hs b = Some hb -> In f (h_files ha) -> In f (h_files hb) -> a = b).
      { clear. induction hs as [|x hs IH]; intros a b ha hb f N1 Ea Eb Ia Ib; [destruct a; discriminate|]. cbn [map concat] in N1.
        assert (DJ : forall y, In y (h_files x) -> ~ In y (concat (map h_files hs))).
        { intros y I1 I2. clear -N1 I1 I2. induction (h_files x) as [|z r IHr]; [destruct I1|]. cbn in N1. inversion N1; subst. destruct I1 as [->|I1]; [apply H1, in_or_app; auto|auto]. }
        destruct a as [|a], b as [|b]; cbn in Ea, Eb; [reflexivity| | |].
        - injection Ea as <-. exfalso. apply (DJ f Ia). apply in_concat. exists (h_files hb). split; [apply in_map; eapply nth_error_In; exact Eb|exact Ib].
        - injection Eb as <-. exfalso. apply (DJ f Ib). apply in_concat. exists (h_files ha). split; [apply in_map; eapply nth_error_In; exact Ea|exact Ia].
        - f_equal. eapply IH; [exact (nodup_app_r _ _ N1)|exact Ea|exact Eb|exact Ia|exact Ib]. }
      apply NE. exact (Y hosts j j' h h' _ ND NH NH' IH IF).
    - intros ->. assert (h' = h) by congruence. subst h'. apply S6 in IF. destruct IF as (s & HS & P). exists s. split; [exact Hi|]. exists m. auto. }
  split; [rewrite <- (map_length mb_file), <- (Permutation_length (ld_files _ _ _ LD)); reflexivity|]. split.
  - intros st I. apply In_nth_error in I. destruct I as [j NS]. destruct (UP j st NS) as (h & l & _ & _ & M1 & M3 & M4 & _ & M6 & _). do 3 (split; [assumption|]).
    intros i I. apply M4 in I. destruct I as (s & Hi & m & NM & _). assert (nth_error mem (Z.to_nat i) <> None) as NN by congruence. apply nth_error_Some in NN. lia.
  - intros i m Hi NM j h NH IF. split; [intros j' st NS; exact (SECRET j' st i m NS Hi NM j h NH IF)|]. split; [|split].
    + intros st NS. pose proof (proj2 (SECRET j st i m NS Hi NM j h NH IF) eq_refl) as IG. destruct (UP j st NS) as (h0 & l & _ & _ & _ & _ & M4 & M5 & _).
      apply M4 in IG. destruct IG as (s & G). rewrite (M5 i s G). destruct G as (_ & m' & N2 & _ & P). congruence.
    + intros j' st NS. destruct (UP j' st NS) as (h0 & l & _ & _ & _ & _ & _ & _ & _ & M11 & _). rewrite M11. split.
      * intros (i' & h' & IG & (Hi' & m' & NM' & IH' & IF') & EA).
        assert (h' = h). { apply In_nth_error in IH'. destruct IH' as [k' NH']. assert (k' = j) by (eapply (nodup_map_nth h_addr); [exact NA|exact NH'|exact NH|congruence]). subst k'. congruence. }
        subst h'. apply (SECRET j' st i' m' NS Hi' NM' j h NH IF'). exact IG.
      * intros ->. exists i, h. split; [apply (SECRET j st i m NS Hi NM j h NH IF); reflexivity|]. split; [|reflexivity]. split; [exact Hi|]. exists m. split; [exact NM|]. split; [eapply nth_error_In; exact NH|exact IF].
    + intros st I NE. apply In_nth_error in I. destruct I as [j' NS]. destruct (UP j' st NS) as (h0 & l & _ & _ & _ & _ & _ & _ & _ & _ & M12). apply (M12 i h NE).
      split; [exact Hi|]. exists m. split; [exact NM|]. split; [eapply nth_error_In; exact NH|exact IF].
Qed.
Print Assumptions C104_set_up. Print Assumptions C104_long_term_shares. Print Assumptions C104_starts_iff. Print Assumptions C105_keygen. Print Assumptions C105_generated_key_is_guest. Print Assumptions C106_deployment.

(** ** Examples: two hosts, each with the secret of the key file it lists. *)
Lemma demo_pub1 : pt_mul 1 KP_nil = Ok (Gx, Gy).
Proof. rewrite pt_mul_base by auto. replace (smul 1 eG) with eG by reflexivity. rewrite <- of_E_base. reflexivity. Qed.
Lemma demo_pub2 : pt_mul (N - 1) KP_nil = Ok Gneg.
Proof.
  rewrite pt_mul_base by auto. rewrite <- smul_mod. replace ((N - 1) mod N) with ((-1) mod N) by (vm_compute; reflexivity). rewrite smul_mod.
  replace (smul (-1) eG) with (eneg eG) by reflexivity. apply f_equal. rewrite <- pt_neg_of_E, <- of_E_base. vm_compute. reflexivity.
Qed.
Definition demo_secname : bytes := s_secret ++ [x31].
Definition demo_world (s : Z) : world :=
  mkWorld (fun _ => Some (expand_config demo_hosts)) (fun _ => Some [demo_secname; [x78]])
    (fun dir nm => if bytes_eqb dir [x70] then demo_fs nm else if bytes_eqb nm demo_secname then Some (be_fixed 32 (s mod N)) else None)
    (fun _ => None) (fun _ => None) 0 (fun _ ps T => (2 <=? T) && (T <=? Z.of_nat (length ps))) (fun _ => true).
Definition demo_launch (s : Z) : launch := mkLaunch (demo_world s) isort (fun l => l) [] [x63] [x70] [x73] [x32] [x5f] [].
Lemma demo_secret s s' : 0 <= s < N -> (has_secret (demo_world s) [x73] s' <-> s' = s).
Proof.
  intros R. assert (FN : w_file (demo_world s) [x73] demo_secname = Some (be_fixed 32 (s mod N))) by reflexivity.
  split.
  - intros (nm & b & (names & rest & E1 & I & E2) & E3 & L & ->). cbn in E1. injection E1 as <-. destruct I as [<-|[<-|[]]]; [|discriminate E2].
    assert (EB : Some b = Some (be_fixed 32 (s mod N))) by (rewrite <- E3; exact FN). apply (f_equal (fun o => match o with Some x => x | None => [] end)) in EB; cbv beta match in EB. subst b. rewrite be2z_marshal, Zmod_mod, Z.mod_small by exact R. reflexivity.
  - intros ->. exists demo_secname, (be_fixed 32 (s mod N)). split; [exists [demo_secname; [x78]], [x31]; split; [reflexivity|split; [left; reflexivity|reflexivity]]|].
    split; [exact FN|]. split; [apply be_fixed_length|]. rewrite be2z_marshal, Zmod_mod, Z.mod_small by exact R. reflexivity.
Qed.
Lemma demo_integer : integer64 [x32] 2.
Proof. apply atoi_spec. vm_compute. reflexivity. Qed.
Lemma demo_starts s : 0 <= s < N -> exists st, starts (demo_launch s) = Ok st.
Proof.
  intros R. apply (C104_starts_iff isort (fun l => l) (demo_world s) demo_hosts); [exact isort_sorts|intros l; apply Permutation_refl|reflexivity|exact demo_distinct|discriminate|].
  exists demo_members, 2, (3000 * ms). split; [exact demo_load|]. split; [exists [demo_secname; [x78]]; reflexivity|]. split.
  { intros nm (names & rest & E1 & I & E2). cbn in E1. injection E1 as <-. destruct I as [<-|[<-|[]]]; [|discriminate E2]. exists (be_fixed 32 (s mod N)). split; [reflexivity|apply be_fixed_length]. }
  split; [exact demo_integer|]. split; [left; split; [reflexivity|cbn [demo_world w_now]; lia]|]. split; [intros i s' h _ _; split; reflexivity|]. discriminate.
Qed.
(** All assumptions of C106 *)
Example C106_ex : exists launches sts, distinct_keys demo_fs (files demo_hosts) /\ NoDup (map h_addr demo_hosts) /\
  Forall2 (launched_for demo_hosts demo_fs 2) demo_hosts launches /\ Forall2 (fun l st => starts l = Ok st) launches sts /\ sorts isort /\ load_and_sort isort demo_fs (files demo_hosts) = Ok demo_members.
Proof.
  assert (R2 : 0 <= N - 1 < N) by (pose proof N_pos; lia). assert (R1 : 0 <= 1 < N) by (split; [lia|reflexivity]).
  destruct (demo_starts (N - 1) R2) as (s1 & E1). destruct (demo_starts 1 R1) as (s2 & E2).
  exists [demo_launch (N - 1); demo_launch 1], [s1; s2]. split; [exact demo_distinct|]. split; [constructor; [intros [H|[]]; discriminate H|constructor; [intros []|constructor]]|].
  split; [|split; [exact (Forall2_cons _ _ E1 (Forall2_cons _ _ E2 (Forall2_nil _)))|]; split; [exact isort_sorts|exact demo_load]].
  destruct demo_holds as [Ha Hb].
  assert (L : forall s h f P, 0 <= s < N -> In h demo_hosts -> h_files h = [f] -> pt_mul s KP_nil = Ok P -> holds demo_fs f P -> launched_for demo_hosts demo_fs 2 h (demo_launch s)).
  { intros s h f P R IH EH EP HP. split; [exact isort_sorts|]. split; [intros m; apply Permutation_refl|]. split; [reflexivity|]. split; [reflexivity|]. split; [exact demo_integer|].
    intros g Q Ig HQ. rewrite EH. cbn [In demo_launch la_w la_secdir]. split.
    - intros [<-|[]]. exists s. split; [apply demo_secret; auto|]. rewrite EP. f_equal. exact (holds_fun _ _ _ _ HP HQ).
    - intros (s' & HS & EQ). apply (demo_secret s s' R) in HS. subst s'. left. assert (Q = P) by congruence. subst Q. apply (proj2 demo_distinct f g P); try assumption.
      destruct IH as [<-|[<-|[]]]; cbn in EH; injection EH as <-; cbn; auto. }
  constructor; [|constructor; [|constructor]].
  - apply (L (N - 1) _ fa Gneg R2); [left; reflexivity|reflexivity|exact demo_pub2|exact Ha].
  - apply (L 1 _ fb (Gx, Gy) R1); [right; left; reflexivity|reflexivity|exact demo_pub1|exact Hb].
Qed.
(** A key pair is generated (C18_ex), and every threshold of 64 bits can be written. *)
Example C105_ex : exists r, keygen Z (fun st b => (st + 1, repeat (byte_of_z (if st =? 0 then 255 else st)) (length b))) 5 0 [x31] [x32] = Some r.
Proof. unfold keygen. rewrite C18_ex. eauto. Qed.
Theorem C104_every_threshold : forall T, - 2 ^ 63 <= T < 2 ^ 63 -> integer64 (format_int T) T.
Proof. intros T R. apply atoi_spec, atoi_format, R. Qed.
Print Assumptions C104_every_threshold.
