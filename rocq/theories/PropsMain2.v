(** C107: processes started as the program starts them sign. *)
From Coq Require Import ZArith List Lia Bool Permutation.
From Coq Require Import Init.Byte.
From Verif Require Import Params Curve Order SecpProofs SecpProofs2 Bytes Res Secp Spec PublicKey Schnorr Dss DssSpec Dto DtoSpec DtoProofs DssProofs3 PropsLayout Prot ProtSpec ProtProofs ProtProofs2 TimeSpec DkgProt KMap Firewall FwSpec
  NetSpec Outputs Node NodeSpec NodeRun NodeProofs NodeProofs2 NodeProofs3 NodeProofs4 NodeProofs5 NodeProofs6 NodeProofs7 ObjSpec ObjProofs ObjProofs2 ObjProofs3 SignSpec PropsSign PropsObj PropsNode PropsNode2 Layout LayoutSpec LayoutProofs LayoutProofs2 Main MainSpec MainProofs PropsMain Cluster ClusterSpec DeliverSpec HonestSpec HonestProofs PropsCluster2 HonestDemo ClusterDemo PropsCluster3.
Import ListNotations.
Open Scope Z_scope.

Section Statements.
  Context {G : Type}.
  Variable ky : kyber G.
  Variable keccak : bytes -> bytes.
  Variable pshash : Z -> Z -> bytes.
  Variable places : list place.
  Variable home : Z -> option nat.
  Notation message := (message payload).
  Notation chistory := (chistory ky keccak pshash places home).
  Notation prot := (dss_prot ky keccak pshash).
  Variables (t0 : Z) (evs : list (cevent (G := G))) (c : cluster (G := G)) (tr : list (cobs (G := G))).

  (** ** C107.  One process is launched for each host of a configuration, all with the same key files and T, each with the secrets of the keys its
      host lists and with a long-term key file that holds its members' shares; they are the processes of the history, and calls to a member's address reach the process that
      listens there.  The members of the session are the keys of the files.  Then, under the assumptions of C103 on what the processes are asked for, on
      time and on the network, every request that returns, returns one and the same valid signature. *)
  Theorem C107_deployed_processes_sign : forall hosts fs launches sts srt mem S P g D R C id (host : Z -> nat) (pl : Z -> place) (j : Z -> nat) (k0 : Z -> kd G) (h : Z -> list (Z * event payload env)) (s : Z -> Z) d lat1 lat2 drift,
    let n := Z.of_nat (length mem) in let k i := mkKey pc_dss i id in let ours (m : message) := m_run m = id in
    (* what is launched *)
    distinct_keys fs (files hosts) -> NoDup (map h_addr hosts) -> Forall2 (launched_for hosts fs (se_T S)) hosts launches -> Forall2 (fun l st => starts l = Ok st) launches sts ->
    sorts srt -> load_and_sort srt fs (files hosts) = Ok mem -> se_parts S = map mb_pub mem ->
    Forall2 (fun l st => exists a lts saved ord, la_rest l = [a] /\ w_gob (la_w l) a = Some (ord saved) /\ (forall x : list (Z * dks_dto), Permutation (ord x) x) /\ save_longterms lts = Ok saved /\
       NoDup (map fst lts) /\ (forall i x, In (i, x) lts -> good_dks x) /\ forall i, In i (su_guests (sd_setup st)) -> exists x, mget lts i = Some x /\ share_for (se_f S) (se_F S) i x) launches sts ->
    Forall2 (fun st q => same_setup (pl_su q) (sd_setup st) /\ pl_until q = sd_until st) sts places ->
    (forall i a st j' st', In i (everyone n) -> In st sts -> nth_error (sd_dial st) (Z.to_nat i) = Some (Some a) -> nth_error sts j' = Some st' -> In a (sd_listen st') -> home i = Some j') ->
    (forall i, In i (everyone n) -> exists m h, nth_error mem (Z.to_nat i) = Some m /\ nth_error hosts (host i) = Some h /\ In (mb_file m) (h_files h)) -> (forall i, In i (everyone n) -> nth_error places (host i) = Some (pl i)) ->
    (* what happens *)
    chistory t0 evs c tr -> (forall b, length (keccak b) = 32%nat) -> sound S P -> 0 < n <= 2 ^ 32 -> (forall i, In i (se_qual S) <-> In i (everyone n)) -> se_T S <= n ->
    works ky n (se_r S) (se_R S) g D R C -> 0 <= d -> 0 <= lat2 ->
    (forall i, In i (everyone n) -> let q := pl i in let su := pl_su q in let e := events_at (host i) tr in
       orders_permute e /\ (requests_for (k i) e <= 1)%nat /\ (exists start t, requested su e (k i) start (Some (se_msg S)) t) /\ (exists v, In (NPop (k i) v) (trace_at (host i) tr)) /\
       lives ky keccak pshash su (start_node su (pl_until q) (pl_begin q)) e (j i) (k i) (k0 i) (h i) /\ kd_gen (k0 i) = g i /\
       In (NRun (k i) (OStart (s i))) (trace_at (host i) tr) /\ punctual prot (run_info su (k i)) d (new_run (k0 i)) (untimed (h i)) /\
       has_room pc_dss i (trace_at (host i) tr) /\ (forall m, In m (from_outside (host i) tr) -> key_of m <> k i)) ->
    (forall i i', In i (everyone n) -> In i' (everyone n) -> pl_skew (pl i) - pl_skew (pl i') <= drift /\ s i - s i' + 2 * d + (lat1 + lat2 + drift) < 70 * ms) ->
    (forall i i', In i (everyone n) -> In i' (everyone n) -> let l := mkLane (host i') pc_dss i' i in
       calls_within ours lat1 l tr /\ lets_in ours (pl i) (host i) l tr /\ keeps_up ky keccak pshash ours lat2 (pl i) (host i) l tr) ->
    exists sg, verify keccak (KP P) (se_msg S) sg = Ok tt /\ forall i v, In i (everyone n) -> In (NPop (k i) v) (trace_at (host i) tr) -> v = Some (VSig sg).
  Proof.
    intros hosts fs launches sts srt mem S P g D R C id host pl j k0 h s d lat1 lat2 drift n k ours DK NA FL FS SR LS EP FG FP HH HO HP HC LK HS HN HQ LT W HD HL2 HM HW HLn.
    assert (EN : Z.of_nat (length (se_parts S)) = n) by (rewrite EP, map_length; reflexivity).
    destruct (C106_deployment hosts fs (se_T S) launches sts DK NA FL FS srt mem SR LS) as (LM & AG & ME).
    assert (ND : NoDup (files hosts)) by exact (proj1 DK).
    assert (F2 : forall (A B : Type) (Q : A -> B -> Prop) l1 l2 i b, Forall2 Q l1 l2 -> nth_error l2 i = Some b -> exists a, nth_error l1 i = Some a /\ Q a b).
    { intros A B Q l1 l2 i b F. revert i. induction F as [|a0 b0 l1 l2 R0 F IH]; intros [|i] E; cbn in *; try discriminate; [injection E as <-; eauto|auto]. }
    assert (AT : forall i, In i (everyone n) -> exists st l m hh, nth_error sts (host i) = Some st /\ nth_error launches (host i) = Some l /\ same_setup (pl_su (pl i)) (sd_setup st) /\ nth_error mem (Z.to_nat i) = Some m /\ nth_error hosts (host i) = Some hh /\ In (mb_file m) (h_files hh) /\ 0 <= i /\ starts l = Ok st).
    { intros i Hi. destruct (F2 _ _ _ _ _ _ _ FP (HP i Hi)) as (st & N1 & E1 & _). destruct (F2 _ _ _ _ _ _ _ FS N1) as (l & N2 & E2). destruct (HO i Hi) as (m & hh & M1 & M2 & M3).
      exists st, l, m, hh. apply in_upto in Hi. repeat (split; [assumption|]). split; [lia|exact E2]. }
    pose proof (C103_cluster_signs ky keccak pshash places home t0 evs c tr S P g D R C id host pl j k0 h s d lat1 lat2 drift) as X. cbv zeta in X. rewrite EN in X.
    apply X; try assumption; clear X.
    - intros i' p' a NP IG. destruct (F2 _ _ _ _ _ _ _ FP NP) as (st & N1 & (E1 & _) & _). rewrite E1 in IG. destruct (AG st (nth_error_In _ _ N1)) as (_ & _ & _ & RG). pose proof (RG a IG) as Ra.
      assert (Ia : In a (everyone n)) by (apply in_upto; subst n; lia). split; [exact Ia|].
      destruct (HO a Ia) as (m & hh & M1 & M2 & M3). destruct (ME a m ltac:(lia) M1 (host a) hh M2 M3) as (GU & _). apply (GU i' st N1). exact IG.
    - intros i Hi. cbv zeta. destruct (AT i Hi) as (st & l & m & hh & N1 & N2 & E1 & M1 & M2 & M3 & Hp & ST). destruct (AG st (nth_error_In _ _ N1)) as (G1 & G2 & G3 & _).
      destruct (ME i m Hp M1 (host i) hh M2 M3) as (GU & SE & LI & DI). pose proof (proj2 (GU (host i) st N1) eq_refl) as IG.
      destruct (HM i Hi) as (A1 & A2 & A3 & A4 & A5 & A6 & A7 & A8 & A9 & A10). destruct E1 as (EG & EM & ET & EQ & ES). destruct (ES i IG) as [ES1 ES2]. rewrite EG, EM, ET, ES1, ES2.
      split; [|split; [exact (HP i Hi)|]]; [|split; [exact G3|]; split; [exact IG|]; split; [rewrite G1; symmetry; exact EP|]; split; [exact G2|]; split; [|split; [|do 9 (split; [assumption|]); assumption]]].
      + apply (HH i (h_addr hh) st (host i) st Hi); [eapply nth_error_In; exact N1| |exact N1|apply (LI (host i) st N1); reflexivity].
        apply DI; [eapply nth_error_In; exact N1|]. intros E. rewrite E in IG. destruct IG.
      + exists (mb_pub m). split; [rewrite EP; apply map_nth_error; exact M1|]. exact (SE st N1).
      + destruct (F2 _ _ _ _ _ _ _ FG N1) as (l' & N2' & a & lts & saved & ord & R1 & R2 & R3 & R4 & R5 & R6 & R7). assert (l' = l) by congruence. subst l'.
        destruct (R7 i IG) as (x & Q1 & Q2). exists x. split; [|exact Q2]. unfold starts in ST. rewrite R1 in ST.
        destruct (C104_long_term_shares _ _ _ _ _ _ _ _ _ _ _ _ ST R2) as (_ & Y). rewrite (Y lts saved ord R5 R6 R4 R3 eq_refl i). exact Q1.
  Qed.
End Statements.
Print Assumptions C107_deployed_processes_sign.

(** ** Example: two hosts whose members have the secrets 3 and 6. *)
Definition trio (i : Z) : point := of_E (smul (3 + 3 * i) eG).
Lemma trio_curve i : i = 0 \/ i = 1 -> curve_point (trio i).
Proof. intros [->| ->]; apply demo_curve, small_ndiv; split; reflexivity. Qed.
Lemma trio_pub i : pt_mul (3 + 3 * i) KP_nil = Ok (trio i).
Proof. apply pt_mul_base. tauto. Qed.
Lemma trio_ne : trio 0 <> trio 1.
Proof.
  intros E. pose proof (demo_eqb 3 6 ltac:(split; [discriminate|reflexivity]) ltac:(split; [discriminate|reflexivity]) ltac:(discriminate)) as X.
  change (of_E (smul 3 eG)) with (trio 0) in X. change (of_E (smul 6 eG)) with (trio 1) in X. rewrite E in X. unfold trio in X. rewrite demo_refl in X. discriminate X.
Qed.
Definition trio_fs (f : bytes) : option bytes := if bytes_eqb f fa then Some (enc (trio 0)) else if bytes_eqb f fb then Some (enc (trio 1)) else None.
Lemma trio_holds : holds trio_fs fa (trio 0) /\ holds trio_fs fb (trio 1).
Proof.
  split; [exists (enc (trio 0))|exists (enc (trio 1))]; (split; [reflexivity|]); apply pt_roundtrip; try apply marshal_enc; apply trio_curve; auto.
Qed.
Lemma trio_distinct : distinct_keys trio_fs [fa; fb].
Proof.
  split; [exact (proj1 demo_distinct)|]. intros f g P If Ig Hf Hg. destruct trio_holds as [Ha Hb].
  destruct If as [<-|[<-|[]]], Ig as [<-|[<-|[]]]; try reflexivity; exfalso.
  - apply trio_ne. rewrite (holds_fun _ _ _ _ Ha Hf). exact (holds_fun _ _ _ _ Hg Hb).
  - apply trio_ne. rewrite (holds_fun _ _ _ _ Ha Hg). exact (holds_fun _ _ _ _ Hf Hb).
Qed.
Lemma trio_less : str_ltb (hex_encode (enc (trio 1))) (hex_encode (enc (trio 0))) = false.
Proof.
  rewrite hex_ltb by (rewrite !enc_length; reflexivity).
  replace (trio 0) with (btc_pmul 3 (Gx, Gy)) by (change (Gx, Gy) with pt_base; rewrite of_E_base, btc_pmul_of_E; reflexivity).
  replace (trio 1) with (btc_pmul 6 (Gx, Gy)) by (change (Gx, Gy) with pt_base; rewrite of_E_base, btc_pmul_of_E; reflexivity).
  vm_compute. reflexivity.
Qed.
Definition trio_mem (i : Z) (f : bytes) : Layout.member := mkMem f i (trio i) (hex_encode (enc (trio i))).
Definition trio_members : list Layout.member := [trio_mem 0 fa; trio_mem 1 fb].
Lemma trio_nth k m : nth_error trio_members k = Some m -> k = 0%nat /\ mb_pub m = trio 0 \/ k = 1%nat /\ mb_pub m = trio 1.
Proof.
  unfold trio_members. destruct k as [|[|k]]; cbn [nth_error]; intros E; [left|right|destruct k; discriminate E]; apply (f_equal (fun o => match o with Some x => mb_pub x | None => trio 0 end)) in E; cbv beta match in E.
  - split; [reflexivity|]. rewrite <- E. reflexivity.
  - split; [reflexivity|]. rewrite <- E. reflexivity.
Qed.
Lemma trio_load : load_and_sort isort trio_fs [fa; fb] = Ok trio_members.
Proof.
  rewrite load_spec. destruct trio_holds as [Ha Hb].
  assert (Ma : mem_of trio_fs fa = Some (mkMem fa 0 (trio 0) (hex_encode (enc (trio 0))))) by (apply mem_of_some; exact (ex_intro _ _ (conj Ha eq_refl))).
  assert (Mb : mem_of trio_fs fb = Some (mkMem fb 0 (trio 1) (hex_encode (enc (trio 1))))) by (apply mem_of_some; exact (ex_intro _ _ (conj Hb eq_refl))).
  cbn [allsome]. rewrite Ma, Mb. unfold isort. cbn [fold_right ins mb_hex]. rewrite trio_less. reflexivity.
Qed.
Definition trio_world (i : Z) (file : list (Z * dks_dto)) : world :=
  mkWorld (fun _ => Some (expand_config demo_hosts)) (fun _ => Some [demo_secname; [x78]])
    (fun dir nm => if bytes_eqb dir [x70] then trio_fs nm else if bytes_eqb nm demo_secname then Some (be_fixed 32 ((3 + 3 * i) mod N)) else None)
    (fun _ => Some file) (fun _ => Some (-20 * ms)) (-25 * ms) (fun _ ps T => (2 <=? T) && (T <=? Z.of_nat (length ps))) (fun _ => true).
Definition trio_launch (i : Z) (file : list (Z * dks_dto)) : launch := mkLaunch (trio_world i file) isort (fun l => l) [] [x63] [x70] [x73] [x32] [x30] [[x6c]].
Definition trio_host (i : Z) : LayoutSpec.host := if i =? 0 then ([x68], [x30], [fa]) else ([x69], [x31], [fb]).
Lemma trio_range i : i = 0 \/ i = 1 -> 0 <= 3 + 3 * i < N.
Proof. intros [->| ->]; (split; [discriminate|reflexivity]). Qed.
Lemma trio_secret i file s' : i = 0 \/ i = 1 -> (has_secret (trio_world i file) [x73] s' <-> s' = 3 + 3 * i).
Proof.
  intros Hi. pose proof (trio_range i Hi) as R. assert (FN : w_file (trio_world i file) [x73] demo_secname = Some (be_fixed 32 ((3 + 3 * i) mod N))) by reflexivity.
  split.
  - intros (nm & b & (names & rest & E1 & I & E2) & E3 & L & ->). cbn in E1. injection E1 as <-. destruct I as [<-|[<-|[]]]; [|discriminate E2].
    assert (EB : Some b = Some (be_fixed 32 ((3 + 3 * i) mod N))) by (rewrite <- E3; exact FN). apply (f_equal (fun o => match o with Some x => x | None => [] end)) in EB; cbv beta match in EB. subst b. rewrite be2z_marshal, Zmod_mod, Z.mod_small by exact R. reflexivity.
  - intros ->. exists demo_secname, (be_fixed 32 ((3 + 3 * i) mod N)). split; [exists [demo_secname; [x78]], [x31]; split; [reflexivity|split; [left; reflexivity|reflexivity]]|].
    split; [exact FN|]. split; [apply be_fixed_length|]. rewrite be2z_marshal, Zmod_mod, Z.mod_small by exact R. reflexivity.
Qed.
Notation lg := (demo_dks [5; 6]).
Lemma trio_good i : i = 0 \/ i = 1 -> good_dks (lg i).
Proof.
  intros Hi. split.
  - cbn [demo_dks dk_commits map]. apply Forall_cons; [|apply Forall_cons; [|apply Forall_nil]]; apply demo_curve, small_ndiv; split; reflexivity.
  - destruct Hi as [->| ->]; (split; [discriminate|reflexivity]).
Qed.
(** The long-term key file of process i *)
Lemma trio_saved i : i = 0 \/ i = 1 -> exists file, save_longterms [(i, lg i)] = Ok file /\ NoDup (map fst file) /\ In i (map fst file) /\
  forall k d, In (k, d) file -> Forall is_point (dkd_commits d) /\ is_scalar (prd_v (dkd_share d)).
Proof.
  intros Hi. destruct (dks_rt (lg i) (trio_good i Hi)) as (w & E1 & E2). exists [(i, w)]. split; [|split; [|split]].
  - unfold save_longterms, lts_to_dto. cbn [fold_left rbind fst snd]. rewrite E1. reflexivity.
  - constructor; [intros []|constructor].
  - left. reflexivity.
  - intros k d [X|[]]. apply (f_equal snd) in X. cbn [snd] in X. subst d. destruct (dks_dec w) as [_ B].
    destruct (all_point_dec (dkd_commits w)) as [D1|D1]; [destruct (scalar_dec (prd_v (dkd_share w))) as [D2|D2]; [auto|]|]; rewrite B in E2 by tauto; discriminate E2.
Qed.
Lemma trio_starts i file : i = 0 \/ i = 1 -> save_longterms [(i, lg i)] = Ok file -> exists st, starts (trio_launch i file) = Ok st.
Proof.
  intros Hi ES. destruct (trio_saved i Hi) as (file' & ES' & ND & IN & DE). assert (file' = file) by congruence. subst file'.
  apply (C104_starts_iff isort (fun l => l) (trio_world i file) demo_hosts); [exact isort_sorts|intros l; apply Permutation_refl|reflexivity|exact trio_distinct|intros a f E; injection E as <-; exact ND|].
  exists trio_members, 2, (-20 * ms). split; [exact trio_load|]. split; [exists [demo_secname; [x78]]; reflexivity|]. split.
  { intros nm (names & rest & E1 & I & E2). cbn in E1. injection E1 as <-. destruct I as [<-|[<-|[]]]; [|discriminate E2]. exists (be_fixed 32 ((3 + 3 * i) mod N)). split; [reflexivity|apply be_fixed_length]. }
  split; [exact demo_integer|]. split; [right; split; [discriminate|reflexivity]|]. split; [intros i' s' h _ _; split; reflexivity|].
  intros a _. exists file. split; [reflexivity|]. split; [exact DE|]. intros i' s (Hp & m & NM & HS & EM). apply (trio_secret i file s Hi) in HS. subst s. rewrite trio_pub in EM. injection EM as EM.
  assert (Z.to_nat i' = Z.to_nat i). { apply trio_nth in NM. destruct NM as [[-> Q]|[-> Q]]; rewrite Q in EM; destruct Hi as [->| ->]; try reflexivity; exfalso; [apply trio_ne; symmetry|apply trio_ne]; exact EM. }
  assert (i' = i) by lia. subst i'. exact IN.
Qed.

Lemma trio_launched i file : i = 0 \/ i = 1 -> launched_for demo_hosts trio_fs 2 (trio_host i) (trio_launch i file).
Proof.
  intros Hi. split; [exact isort_sorts|]. split; [intros m; apply Permutation_refl|]. split; [reflexivity|]. split; [reflexivity|]. split; [exact demo_integer|].
  set (f := if i =? 0 then fa else fb). assert (HF : holds trio_fs f (trio i)) by (destruct trio_holds as [Ha Hb]; destruct Hi as [->| ->]; [exact Ha|exact Hb]).
  assert (EH : h_files (trio_host i) = [f]) by (destruct Hi as [->| ->]; reflexivity). assert (IF : In f (files demo_hosts)) by (destruct Hi as [->| ->]; [left|right; left]; reflexivity).
  intros g Q Ig HQ. rewrite EH. cbn [In trio_launch la_w la_secdir]. split.
  - intros [<-|[]]. exists (3 + 3 * i). split; [apply trio_secret; auto|]. rewrite trio_pub. apply f_equal. exact (holds_fun _ _ _ _ HF HQ).
  - intros (s' & HS & EQ). apply (trio_secret i file s' Hi) in HS. subst s'. left. rewrite trio_pub in EQ. assert (Q = trio i) by congruence. subst Q. exact (proj2 trio_distinct f g _ IF Ig HF HQ).
Qed.
(** What is launched, in C107: the two processes of C103_ex. *)
Lemma launch_demo : let pl := mem_place lg (of_E (smul 3 eG)) (of_E (smul 6 eG)) in let places := [pl 0; pl 1] in let S := demo_session in
  exists launches sts,
  distinct_keys trio_fs (files demo_hosts) /\ NoDup (map h_addr demo_hosts) /\ Forall2 (launched_for demo_hosts trio_fs (se_T S)) demo_hosts launches /\ Forall2 (fun l st => starts l = Ok st) launches sts /\
  sorts isort /\ load_and_sort isort trio_fs (files demo_hosts) = Ok trio_members /\ se_parts S = map mb_pub trio_members /\
  Forall2 (fun l st => exists a lts saved ord, la_rest l = [a] /\ w_gob (la_w l) a = Some (ord saved) /\ (forall x : list (Z * dks_dto), Permutation (ord x) x) /\ save_longterms lts = Ok saved /\
       NoDup (map fst lts) /\ (forall i x, In (i, x) lts -> good_dks x) /\ forall i, In i (su_guests (sd_setup st)) -> exists x, mget lts i = Some x /\ share_for (se_f S) (se_F S) i x) launches sts /\
  Forall2 (fun st q => same_setup (pl_su q) (sd_setup st) /\ pl_until q = sd_until st) sts places /\
  (forall i a st j' st', In i (everyone 2) -> In st sts -> nth_error (sd_dial st) (Z.to_nat i) = Some (Some a) -> nth_error sts j' = Some st' -> In a (sd_listen st') -> duo_home i = Some j') /\
  (forall i, In i (everyone 2) -> exists m h, nth_error trio_members (Z.to_nat i) = Some m /\ nth_error demo_hosts (Z.to_nat i) = Some h /\ In (mb_file m) (h_files h)) /\
  exists f0 f1, launches = [trio_launch 0 f0; trio_launch 1 f1] /\ save_longterms [(0, lg 0)] = Ok f0 /\ save_longterms [(1, lg 1)] = Ok f1.
Proof.
  intros pl places S. destruct (trio_saved 0 (or_introl eq_refl)) as (f0 & S0 & _). destruct (trio_saved 1 (or_intror eq_refl)) as (f1 & S1 & _).
  destruct (trio_starts 0 f0 (or_introl eq_refl) S0) as (st0 & T0). destruct (trio_starts 1 f1 (or_intror eq_refl) S1) as (st1 & T1).
  set (launches := [trio_launch 0 f0; trio_launch 1 f1]). set (sts := [st0; st1]). exists launches, sts.
  assert (NA : NoDup (map h_addr demo_hosts)) by (constructor; [intros [H|[]]; discriminate H|constructor; [intros []|constructor]]).
  assert (FL : Forall2 (launched_for demo_hosts trio_fs 2) demo_hosts launches) by exact (Forall2_cons _ _ (trio_launched 0 f0 (or_introl eq_refl)) (Forall2_cons _ _ (trio_launched 1 f1 (or_intror eq_refl)) (Forall2_nil _))).
  assert (FS : Forall2 (fun l st => starts l = Ok st) launches sts) by exact (Forall2_cons _ _ T0 (Forall2_cons _ _ T1 (Forall2_nil _))).
  split; [exact trio_distinct|]. split; [exact NA|]. split; [exact FL|]. split; [exact FS|]. split; [exact isort_sorts|]. split; [exact trio_load|]. split; [reflexivity|].
  destruct (C106_deployment demo_hosts trio_fs 2 launches sts trio_distinct NA FL FS isort trio_members isort_sorts trio_load) as (_ & AG & ME).
  assert (GU : forall i st, i = 0 \/ i = 1 -> nth_error sts (Z.to_nat i) = Some st -> su_guests (sd_setup st) = [i]).
  { intros i st Hi NS. destruct (AG st (nth_error_In _ _ NS)) as (_ & _ & ND & RG).
    assert (ON : forall x, In x (su_guests (sd_setup st)) <-> x = i).
    { intros x. split.
      - intros IX. pose proof (RG x IX) as RX. change (Z.of_nat (length trio_members)) with 2 in RX. assert (HX : x = 0 \/ x = 1) by lia.
        assert (Y : Z.to_nat i = Z.to_nat x); [|lia].
        destruct HX as [->| ->]; [destruct (ME 0 _ ltac:(lia) eq_refl 0%nat _ eq_refl ltac:(left; reflexivity)) as (GX & _)|destruct (ME 1 _ ltac:(lia) eq_refl 1%nat _ eq_refl ltac:(left; reflexivity)) as (GX & _)]; exact (proj1 (GX _ _ NS) IX).
      - intros ->. destruct Hi as [->| ->]; [destruct (ME 0 _ ltac:(lia) eq_refl 0%nat _ eq_refl ltac:(left; reflexivity)) as (GX & _)|destruct (ME 1 _ ltac:(lia) eq_refl 1%nat _ eq_refl ltac:(left; reflexivity)) as (GX & _)]; exact (proj2 (GX _ _ NS) eq_refl). }
    destruct (su_guests (sd_setup st)) as [|x l]; [destruct (proj2 (ON i) eq_refl)|]. assert (x = i) by (apply ON; left; reflexivity). subst x. destruct l as [|y l]; [reflexivity|]. exfalso.
    inversion ND as [|? ? NI _]. apply NI. left. apply ON. right. left. reflexivity. }
  assert (UP : forall i st file, i = 0 \/ i = 1 -> save_longterms [(i, lg i)] = Ok file -> starts (trio_launch i file) = Ok st -> nth_error sts (Z.to_nat i) = Some st -> same_setup (mem_su lg (of_E (smul 3 eG)) (of_E (smul 6 eG)) i) (sd_setup st) /\ -20 * ms = sd_until st).
  { intros i st file Hi SV ST NS. destruct (AG st (nth_error_In _ _ NS)) as (G1 & G2 & _). pose proof (GU i st Hi NS) as G3.
    destruct (C104_set_up isort (fun l => l) (trio_world i file) demo_hosts [] [x63] [x70] [x73] [x32] [x30] [[x6c]] st isort_sorts ltac:(intros l; apply Permutation_refl) eq_refl trio_distinct ST) as (mem & LS & M1 & M2 & M3 & M4 & M5 & M6 & M7 & _).
    assert (mem = trio_members) by (assert (Y : Ok mem = Ok trio_members) by (rewrite <- LS; exact trio_load); congruence). subst mem.
    split; [|destruct M7 as [[X _]|[_ X]]; [discriminate X|]; apply (f_equal (fun o => match o with Some x => x | None => 0 end)) in X; exact X].
    split; [rewrite G3; reflexivity|]. split; [rewrite G1; reflexivity|]. split; [rewrite G2; reflexivity|]. split; [rewrite M2; reflexivity|].
    intros x IX. assert (x = i) by (rewrite G3 in IX; destruct IX as [<-|[]]; reflexivity). subst x. split.
    - apply M4 in IX. destruct IX as (s & HG). rewrite (M5 i s HG). destruct HG as (_ & m & _ & HS & _). symmetry. exact (proj1 (trio_secret i file s Hi) HS).
    - destruct (C104_long_term_shares isort (fun l => l) (trio_world i file) [] [x63] [x70] [x73] [x32] [x30] [x6c] st file ST eq_refl) as (_ & Y).
      rewrite (Y [(i, lg i)] file (fun x => x)); [cbn [mget]; rewrite Z.eqb_refl; reflexivity|constructor; [intros []|constructor]| |exact SV|intros l; apply Permutation_refl|reflexivity].
      intros k s [X|[]]. injection X as <- <-. exact (trio_good i Hi). }
  pose proof (UP 0 st0 f0 (or_introl eq_refl) S0 T0 eq_refl) as U0. pose proof (UP 1 st1 f1 (or_intror eq_refl) S1 T1 eq_refl) as U1.
  assert (LT : forall i st file, i = 0 \/ i = 1 -> save_longterms [(i, lg i)] = Ok file -> nth_error sts (Z.to_nat i) = Some st -> let l := trio_launch i file in
    exists a lts saved ord, la_rest l = [a] /\ w_gob (la_w l) a = Some (ord saved) /\ (forall x : list (Z * dks_dto), Permutation (ord x) x) /\ save_longterms lts = Ok saved /\
       NoDup (map fst lts) /\ (forall i x, In (i, x) lts -> good_dks x) /\ forall i, In i (su_guests (sd_setup st)) -> exists x, mget lts i = Some x /\ share_for (se_f S) (se_F S) i x).
  { intros i st file Hi SV NS l. exists [x6c], [(i, lg i)], file, (fun x => x). split; [reflexivity|]. split; [reflexivity|]. split; [intros x; apply Permutation_refl|]. split; [exact SV|].
    split; [constructor; [intros []|constructor]|]. split; [intros k s [X|[]]; injection X as <- <-; exact (trio_good i Hi)|]. intros x IX. rewrite (GU i st Hi NS) in IX. destruct IX as [<-|[]].
    exists (lg i). split; [cbn [mget]; rewrite Z.eqb_refl; reflexivity|split; reflexivity]. }
  split; [exact (Forall2_cons _ _ (LT 0 st0 f0 (or_introl eq_refl) S0 eq_refl) (Forall2_cons _ _ (LT 1 st1 f1 (or_intror eq_refl) S1 eq_refl) (Forall2_nil _)))|].
  split; [exact (Forall2_cons st0 (pl 0) U0 (Forall2_cons st1 (pl 1) U1 (Forall2_nil _)))|]. split; [|split].
  - intros i a st j' st' Hi IS ED NS IL. apply in_upto in Hi. assert (Hi' : i = 0 \/ i = 1) by lia.
    assert (IG : su_guests (sd_setup st) <> []) by (destruct IS as [<-|[<-|[]]]; [rewrite (GU 0 _ (or_introl eq_refl) eq_refl)|rewrite (GU 1 _ (or_intror eq_refl) eq_refl)]; discriminate).
    destruct Hi' as [->| ->].
    + destruct (ME 0 _ ltac:(lia) eq_refl 0%nat _ eq_refl ltac:(left; reflexivity)) as (_ & _ & LI & DI). rewrite (DI st IS IG) in ED. injection ED as <-. apply (LI j' st' NS) in IL. subst j'. reflexivity.
    + destruct (ME 1 _ ltac:(lia) eq_refl 1%nat _ eq_refl ltac:(left; reflexivity)) as (_ & _ & LI & DI). rewrite (DI st IS IG) in ED. injection ED as <-. apply (LI j' st' NS) in IL. subst j'. reflexivity.
  - intros i Hi. apply in_upto in Hi. assert (Hi' : i = 0 \/ i = 1) by lia. destruct Hi' as [->| ->]; (eexists _, _; split; [reflexivity|]; split; [reflexivity|left; reflexivity]).
  - exists f0, f1. split; [reflexivity|]. split; assumption.
Qed.
(** So two such processes exist, and with the history of C103_ex they meet all assumptions of C107. *)
Example C107_ex : forall keccak pshash, (forall b, length (keccak b) = 32%nat) ->
  exists (ky : kyber acct) places home evs c tr, chistory ky keccak pshash places home (-20 * ms) evs c tr /\
  exists launches sts, Forall2 (fun l st => starts l = Ok st) launches sts /\ Forall2 (fun st q => same_setup (pl_su q) (sd_setup st) /\ pl_until q = sd_until st) sts places /\
  exists sg, verify keccak (KP (of_E (smul 5 eG))) 10 sg = Ok tt /\ forall i, i = 0 \/ i = 1 -> In (NPop (mkKey pc_dss i duo_id) (Some (VSig sg))) (trace_at (Z.to_nat i) tr).
Proof.
  intros keccak pshash LK. destruct (c103_demo keccak pshash LK) as (ky & evs & c & tr & g & D & R & C & k0 & h & X). cbv zeta in X. change (Z.of_nat (length (se_parts demo_session))) with 2 in X.
  destruct X as (HC & HS & _ & HQ & HT & W & _ & HM & HW & HLn & _). destruct launch_demo as (launches & sts & L1 & L2 & L3 & L4 & L5 & L6 & L7 & L8 & L9 & L10 & L11 & _).
  set (pl := mem_place lg (of_E (smul 3 eG)) (of_E (smul 6 eG))) in *. exists ky, [pl 0; pl 1], duo_home, evs, c, tr. split; [exact HC|]. exists launches, sts. split; [exact L4|]. split; [exact L9|].
  destruct (C107_deployed_processes_sign ky keccak pshash [pl 0; pl 1] duo_home (-20 * ms) evs c tr demo_hosts trio_fs launches sts isort trio_members demo_session (of_E (smul 5 eG)) g D R C duo_id Z.to_nat pl (fun _ => 0%nat) k0 h (fun _ => 0) 0 (10 * ms) 0 0) as (sg & V & Y); try assumption;
    change (Z.of_nat (length trio_members)) with 2; try assumption.
  - intros i Hi. apply (HM i Hi).
  - split; [reflexivity|discriminate].
  - rewrite HT. discriminate.
  - discriminate.
  - discriminate.
  - intros i Hi. destruct (HM i Hi) as (A1 & A2 & A3 & A4 & A5 & A6 & A7 & A8 & A9 & A10 & A11 & (sg & A12) & A13 & A14 & A15 & A16 & A17 & A18). cbv zeta.
    split; [exact A9|]. split; [exact A10|]. split; [exact A11|]. split; [exists (Some (VSig sg)); exact A12|]. auto 10.
  - exists sg. split; [exact V|]. intros i Hi. assert (Hi2 : In i (everyone 2)) by (apply in_upto; lia). destruct (HM i Hi2) as (_ & _ & _ & _ & _ & _ & _ & _ & _ & _ & _ & (sg' & A12) & _).
    pose proof (Y i _ Hi2 A12) as E. rewrite E in A12. exact A12.
Qed.
