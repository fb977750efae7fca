(** Property theorems C77, C79 and C80: run ids, rounds of key generation, request parsing. *)
From Coq Require Import ZArith List Lia Bool.
From Coq Require Import Init.Byte.
From Verif Require Import Params Bytes Res Secp Spec SecpProofs  Dto Dss Prot DkgProt Firewall Node Requests RequestsProofs ReqSpec.
Import ListNotations.
Open Scope Z_scope.

(** ** C77 *)
(** The id of a signing request (run_sig.go:34, runner.go:15). *)
Definition sig_id (nmspc : bytes) (t : Z) : bytes := run_id_for (s_sig ++ nmspc) t.
Theorem C77_ids_distinct_refuted : exists n t n' t', n <> n' /\ t <> t' /\ 0 <= t /\ 0 <= t' /\ sig_id n t = sig_id n' t'.
Proof.
  exists [x61; x31], (23 * ms), [x61], (123 * ms). split; [discriminate|]. split; [discriminate|]. split; [discriminate|]. split; [discriminate|]. vm_compute. reflexivity.
Qed.
(** Also within a millisecond. *)
Theorem C77_same_millisecond n t t' : t / ms = t' / ms -> sig_id n t = sig_id n t'.
Proof. intros E. unfold sig_id, run_id_for. rewrite E. reflexivity. Qed.
Example C77_same_millisecond_ex : 1 <> 2 /\ 1 / ms = 2 / ms. Proof. split; [discriminate|reflexivity]. Qed.
(** If the times have equally many digits in milliseconds, the id determines the namespace
    and the millisecond. *)
Theorem C77_ids_distinct n t n' t' digits : 0 < digits -> 10 ^ (digits - 1) <= t / ms < 10 ^ digits -> 10 ^ (digits - 1) <= t' / ms < 10 ^ digits ->
  (sig_id n t = sig_id n' t' <-> n = n' /\ t / ms = t' / ms).
Proof.
  intros D A B. split; [|intros [-> E]; apply C77_same_millisecond, E]. intros E. apply run_ids_inj in E.
  - destruct E as [E1 E2]. split; [|exact E2]. apply app_inv_head in E1. exact E1.
  - apply Nat2Z.inj. rewrite (format_digits _ digits D A), (format_digits _ digits D B). reflexivity.
Qed.
(** Thirteen digits: from September 2001 to November 2286. *)
Example C77_ex : 10 ^ (13 - 1) <= 1661978442000 * ms / ms < 10 ^ 13. Proof. vm_compute. split; [discriminate|reflexivity]. Qed.

(** ** C79 *)
Section C79.
  Variable found : bytes -> Z -> option output.
  Variable nmembers : nat.
  Variables start dkg_timeout : Z.
  Notation id := (round_id start dkg_timeout).
  Notation loop := (longterm_loop found nmembers start dkg_timeout).

  (** The run of round i gave guest g the share s, with a full qualified set. *)
  Definition delivered (i : nat) (g : Z) (s : dks) : Prop :=
    exists q, found (id i) g = Some (VShare s q) /\ (nmembers <= length q)%nat.
  (** The public key of a share is a curve point. *)
  Definition usable (s : dks) : Prop := exists P r, dk_commits s = P :: r /\ on_curve (fst P) (snd P).

  Lemma longterm_ok rid : forall gs l, longterm found nmembers rid gs = Ok l <->
    Forall2 (fun g x => fst x = g /\ exists q, found rid g = Some (VShare (snd x) q) /\ (nmembers <= length q)%nat) gs l.
  Proof.
    induction gs as [|g gs IH]; intros l; cbn [longterm].
    - split; [intros E; injection E as <-; constructor|intros E; inversion E; reflexivity].
    - split.
      + destruct (found rid g) as [[s q|]|] eqn:EF; try discriminate. destruct (Nat.ltb_spec (length q) nmembers); [discriminate|].
        destruct (longterm found nmembers rid gs) as [l'| |]; cbn [rbind]; try discriminate. intros E. injection E as <-. constructor; [|apply IH; reflexivity].
        split; [reflexivity|]. exists q. cbn [snd]. auto.
      + intros E. inversion E as [|? x ? l' (E1 & q & E2 & E3) E4]; subst. rewrite E2. destruct (Nat.ltb_spec (length q) nmembers); [lia|].
        apply IH in E4. rewrite E4. cbn [rbind]. destruct x; reflexivity.
  Qed.
  Lemma longterm_panic rid : forall gs, longterm found nmembers rid gs = Panic <->
    exists g, In g gs /\ ~ exists s q, found rid g = Some (VShare s q) /\ (nmembers <= length q)%nat.
  Proof.
    induction gs as [|g gs IH]; cbn [longterm].
    - split; [discriminate|intros (? & [] & _)].
    - destruct (found rid g) as [[s q|sg]|] eqn:EF.
      + destruct (Nat.ltb_spec (length q) nmembers) as [L|L].
        * split; [intros _|reflexivity]. exists g. split; [left; reflexivity|]. intros (s' & q' & E & H). rewrite EF in E. injection E as <- <-. lia.
        * destruct (longterm found nmembers rid gs) as [l| |] eqn:EL; cbn [rbind].
          -- split; [discriminate|]. intros (g' & [<-|H] & NE); [exfalso; apply NE; eauto|]. assert (X : Ok l = Panic) by (apply IH; eauto). discriminate X.
          -- split; [discriminate|]. intros (g' & [<-|H] & NE); [exfalso; apply NE; eauto|]. assert (X : @Err (list (Z * dks)) = Panic) by (apply IH; eauto). discriminate X.
          -- split; [|reflexivity]. intros _. destruct (proj1 IH eq_refl) as (g' & H & NE). exists g'. split; [right; exact H|exact NE].
      + split; [|reflexivity]. intros _. exists g. split; [left; reflexivity|]. intros (s' & q' & E & _). rewrite EF in E. discriminate E.
      + split; [|reflexivity]. intros _. exists g. split; [left; reflexivity|]. intros (s' & q' & E & _). rewrite EF in E. discriminate E.
  Qed.
  Lemma longterm_no_err rid gs : longterm found nmembers rid gs <> Err.
  Proof.
    induction gs as [|g gs IH]; cbn [longterm]; [discriminate|]. destruct (found rid g) as [[s q|]|]; try discriminate. destruct (_ <? _)%nat; [discriminate|].
    destruct (longterm found nmembers rid gs); cbn [rbind]; congruence.
  Qed.
  Lemma all_valid_false l : all_valid false l = Ok false.
  Proof. induction l as [|[g s] l IH]; [reflexivity|exact IH]. Qed.
  Lemma all_valid_true l : all_valid true l = Ok true <-> Forall (fun x => usable (snd x)) l.
  Proof.
    induction l as [|[g s] l IH]; cbn [all_valid].
    - split; [constructor|reflexivity].
    - destruct (dk_commits s) as [|P r] eqn:EC.
      + split; [discriminate|]. intros H. inversion H as [|? ? (P & r & E & _) _]; subst. cbn [snd] in E. rewrite EC in E. discriminate E.
      + destruct (valid_public_key (KP P)) eqn:EV.
        * rewrite IH. apply valid_public_key_spec in EV. split; [intros H; constructor; [exists P, r; auto|exact H]|intros H; inversion H; assumption].
        * rewrite all_valid_false. split; [discriminate|]. intros H. inversion H as [|? ? (P' & r' & E & C) _]; subst. cbn [snd] in E. rewrite EC in E. injection E as <- <-.
          apply valid_public_key_spec in C. congruence.
  Qed.
  Lemma all_valid_not l : all_valid true l = Ok false -> exists g s P r, In (g, s) l /\ dk_commits s = P :: r /\ ~ on_curve (fst P) (snd P).
  Proof.
    induction l as [|[g s] l IH]; cbn [all_valid]; [discriminate|]. destruct (dk_commits s) as [|P r] eqn:EC; [discriminate|].
    destruct (valid_public_key (KP P)) eqn:EV.
    - intros H. destruct (IH H) as (g' & s' & P' & r' & I & X). exists g', s', P', r'. split; [right; exact I|exact X].
    - intros _. exists g, s, P, r. split; [left; reflexivity|]. split; [exact EC|]. intros C. apply valid_public_key_spec in C. congruence.
  Qed.

  (** What may stand for the guests and shares in a round: the same, in any order. *)
  Definition orders (guests : list Z) (ord : nat -> list Z) (ord' : nat -> list (Z * dks) -> list (Z * dks)) : Prop :=
    (forall i, Permutation.Permutation guests (ord i)) /\ forall i l, Permutation.Permutation l (ord' i l).

  Lemma loop_from guests ord ord' : orders guests ord ord' -> forall fuel i n lts, loop fuel i ord ord' = Ok (Some (n, lts)) ->
    (i <= n < i + fuel)%nat /\ Permutation.Permutation guests (map fst lts) /\ (forall g s, In (g, s) lts -> delivered n g s /\ usable s) /\
    forall j, (i <= j < n)%nat -> exists g s P r, In g guests /\ delivered j g s /\ dk_commits s = P :: r /\ ~ on_curve (fst P) (snd P).
  Proof.
    intros [O1 O2]. assert (F2 : forall rid gs l, longterm found nmembers rid gs = Ok l -> map fst l = gs /\
      forall g s, In (g, s) l -> exists q, found rid g = Some (VShare s q) /\ (nmembers <= length q)%nat).
    { intros rid gs l E. apply longterm_ok in E. induction E as [|g x gs l (E1 & q & E2 & E3) E IH]; [split; [reflexivity|contradiction]|].
      destruct IH as [IH1 IH2]. cbn [map]. rewrite E1, IH1. split; [reflexivity|]. intros g' s' [->|H]; [cbn in *; subst; eauto|eauto]. }
    induction fuel as [|f IH]; intros i n lts; cbn [longterm_loop]; [discriminate|].
    destruct (longterm found nmembers (id i) (ord i)) as [l| |] eqn:EL; cbn [rbind]; try discriminate. destruct (F2 _ _ _ EL) as [FM FD].
    destruct (all_valid true (ord' i l)) as [[|]| |] eqn:EV; cbn [rbind]; try discriminate.
    - intros E. injection E as <- <-. split; [lia|]. split; [rewrite FM; apply O1|]. split; [|intros; lia].
      intros g s I. split; [exact (FD g s I)|]. apply all_valid_true in EV. rewrite Forall_forall in EV. apply (EV (g, s)). eapply Permutation.Permutation_in; [apply O2|exact I].
    - intros E. destruct (IH _ _ _ E) as (R & PM & DU & NV). split; [lia|]. split; [exact PM|]. split; [exact DU|].
      intros j Hj. destruct (Nat.eq_dec j i) as [->|NE]; [|apply NV; lia].
      destruct (all_valid_not _ EV) as (g & s & P & r & I & EC & NC). exists g, s, P, r.
      assert (I' : In (g, s) l) by (eapply Permutation.Permutation_in; [apply Permutation.Permutation_sym, O2|exact I]).
      split; [|split; [exact (FD g s I')|auto]]. eapply Permutation.Permutation_in; [apply Permutation.Permutation_sym, O1|]. rewrite <- FM. apply in_map with (f := fst) in I'. exact I'.
  Qed.

  (** When it returns, it returns one share for each guest: those its last round delivered, with a full
      qualified set and a curve point as public key; it went on after a round only if that
      round delivered a public key that is none. *)
  Theorem C79_returned_shares guests ord ord' fuel n lts : orders guests ord ord' -> loop fuel 0 ord ord' = Ok (Some (n, lts)) ->
    Permutation.Permutation guests (map fst lts) /\ (forall g s, In (g, s) lts -> delivered n g s /\ usable s) /\
    forall j, (j < n)%nat -> exists g s P r, In g guests /\ delivered j g s /\ dk_commits s = P :: r /\ ~ on_curve (fst P) (snd P).
  Proof. intros HO H. destruct (loop_from _ _ _ HO _ _ _ _ H) as (_ & A & B & C). split; [exact A|]. split; [exact B|]. intros j Hj. apply C. lia. Qed.
  (** One round if that round's keys are curve points. *)
  Theorem C79_one_round guests ord ord' fuel : orders guests ord ord' -> (0 < fuel)%nat ->
    (forall g, In g guests -> exists s, delivered 0 g s /\ usable s) -> exists lts, loop fuel 0 ord ord' = Ok (Some (O, lts)).
  Proof.
    intros [O1 O2] HF H. destruct fuel as [|f]; [lia|]. cbn [longterm_loop].
    assert (X : forall gs, incl gs guests -> exists l, longterm found nmembers (id 0) gs = Ok l /\ Forall (fun x => usable (snd x)) l).
    { induction gs as [|g gs IH]; intros I; [exists []; split; [reflexivity|constructor]|]. destruct IH as (l & EL & FL); [intros z Hz; apply I; right; exact Hz|].
      destruct (H g) as (s & (q & EF & L) & U); [apply I; left; reflexivity|]. exists ((g, s) :: l). split; [|constructor; assumption].
      cbn [longterm]. rewrite EF. destruct (Nat.ltb_spec (length q) nmembers); [lia|]. rewrite EL. reflexivity. }
    destruct (X (ord 0%nat)) as (l & EL & FL). { intros z Hz. eapply Permutation.Permutation_in; [apply Permutation.Permutation_sym, O1|exact Hz]. }
    rewrite EL. cbn [rbind]. replace (all_valid true (ord' 0%nat l)) with (Ok true); [cbn [rbind]; eauto|]. symmetry. apply all_valid_true.
    rewrite Forall_forall in *. intros x Hx. apply FL. eapply Permutation.Permutation_in; [apply Permutation.Permutation_sym, O2|exact Hx].
  Qed.
  (** A missing output or an incomplete qualified set in its first round ends the program. *)
  Theorem C79_failure_panics guests ord ord' fuel g : orders guests ord ord' -> (0 < fuel)%nat -> In g guests ->
    (~ exists s, delivered 0 g s) -> loop fuel 0 ord ord' = Panic.
  Proof.
    intros [O1 O2] HF I NE. destruct fuel as [|f]; [lia|]. cbn [longterm_loop].
    replace (longterm found nmembers (id 0) (ord 0%nat)) with (@Panic (list (Z * dks))); [reflexivity|]. symmetry. apply longterm_panic.
    exists g. split; [eapply Permutation.Permutation_in; [apply O1|exact I]|]. intros (s & q & E). apply NE. exists s, q. exact E.
  Qed.
  (** Different rounds use different run ids. *)
  Theorem C79_round_ids i j : 0 <= dkg_timeout -> id i = id j -> i = j.
  Proof. apply round_ids_distinct. Qed.
End C79.
(** Two members, guests 0 and 1.  With a key outside the curve in the first round there is a second. *)
Definition ex_share (P : point) (g : Z) : dks := mkDks [P] (mkPri g 1).
Definition ex_found (bad : bytes) (rid : bytes) (g : Z) : option output :=
  Some (VShare (ex_share (if bytes_eqb rid bad then (0, 0) else pt_base) g) [0; 1]).
Lemma ex_orders : orders [0; 1] (fun _ => [1; 0]) (fun _ l => rev l).
Proof. split; [intros _; apply Permutation.perm_swap|intros _ l; apply Permutation.Permutation_rev]. Qed.
Lemma ex_longterm bad rid P : (if bytes_eqb rid bad then (0, 0) else pt_base) = P ->
  longterm (ex_found bad) 2 rid [1; 0] = Ok [(1, ex_share P 1); (0, ex_share P 0)].
Proof.
  intros <-. apply longterm_ok. constructor; [|constructor; [|constructor]]; (split; [reflexivity|]); eexists; (split; [reflexivity|cbn; lia]).
Qed.
Lemma loop_S found nm st tmo f i ord ord' : longterm_loop found nm st tmo (S f) i ord ord' =
  (lts <- longterm found nm (round_id st tmo i) (ord i) ;; cv <- all_valid true (ord' i lts) ;;
   if cv : bool then Ok (Some (i, lts)) else longterm_loop found nm st tmo f (S i) ord ord').
Proof. reflexivity. Qed.
Example C79_ex : exists lts, longterm_loop (ex_found (round_id 5 7 0)) 2 5 7 2 0 (fun _ => [1; 0]) (fun _ l => rev l) = Ok (Some (1%nat, lts)) /\ map fst lts = [1; 0].
Proof.
  assert (A : bytes_eqb (round_id 5 7 0) (round_id 5 7 0) = true) by (vm_compute; reflexivity).
  assert (B : bytes_eqb (round_id 5 7 1) (round_id 5 7 0) = false) by (vm_compute; reflexivity).
  pose proof (ex_longterm (round_id 5 7 0) (round_id 5 7 0) (0, 0)) as L0. rewrite A in L0. specialize (L0 eq_refl).
  pose proof (ex_longterm (round_id 5 7 0) (round_id 5 7 1) pt_base) as L1. rewrite B in L1. specialize (L1 eq_refl).
  assert (V0 : all_valid true [(0, ex_share (0, 0) 0); (1, ex_share (0, 0) 1)] = Ok false).
  { cbn [all_valid ex_share dk_commits]. destruct (valid_public_key (KP (0, 0))) eqn:E; [|reflexivity].
    exfalso. apply valid_public_key_spec in E. vm_compute in E. discriminate E. }
  assert (V1 : all_valid true [(0, ex_share pt_base 0); (1, ex_share pt_base 1)] = Ok true).
  { apply all_valid_true. assert (C : on_curve (fst pt_base) (snd pt_base)) by (vm_compute; reflexivity). repeat constructor; eexists _, _; (split; [reflexivity|exact C]). }
  exists [(1, ex_share pt_base 1); (0, ex_share pt_base 0)]. split; [|reflexivity].
  rewrite loop_S. cbv beta. rewrite L0. cbn [rbind rev app]. rewrite V0. cbn [rbind]. rewrite loop_S. cbv beta. rewrite L1. cbn [rbind rev app]. rewrite V1. cbn [rbind]. reflexivity.
Qed.
(** One good round; a qualified set that is too small. *)
Example C79_ex_once : forall g, In g [0; 1] -> exists s, delivered (ex_found []) 2 5 7 0 g s /\ usable s.
Proof.
  intros g _. exists (ex_share pt_base g). assert (E : bytes_eqb (round_id 5 7 0) [] = false) by (vm_compute; reflexivity). split.
  - exists [0; 1]. unfold ex_found. rewrite E. split; [reflexivity|cbn; lia].
  - exists pt_base, []. split; [reflexivity|vm_compute; reflexivity].
Qed.
Example C79_ex_panic : ~ exists s, delivered (ex_found []) 3 5 7 0 1 s.
Proof. intros (s & q & E & L). unfold ex_found in E. injection E as _ <-. cbn in L. lia. Qed.

(** ** C80 *)
Lemma run_sigs_step {parse def} : forall ws, exists rest, (length rest < 3)%nat /\ exists ts, ws = concat ts ++ rest /\ Forall (fun t => length t = 3%nat) ts /\
  length (run_sigs parse def ws) = length ts.
Proof.
  fix F 1. intros [|a [|b [|c ws]]]; [exists []|exists [a]|exists [a; b]|]; try (split; [cbn; lia|]; exists []; split; [reflexivity|split; [constructor|reflexivity]]).
  destruct (F ws) as (rest & L & ts & E & H & LR). exists rest. split; [exact L|]. exists ([a; b; c] :: ts). split; [cbn; rewrite <- E; reflexivity|].
  split; [constructor; [reflexivity|exact H]|]. cbn. rewrite LR. reflexivity.
Qed.
(** One result per complete triple, in order, each from its own triple alone. *)
Theorem C80_triples parse def ws : length (run_sigs parse def ws) = (length ws / 3)%nat /\
  forall j nm tm doc, nth_error ws (3 * j) = Some nm -> nth_error ws (3 * j + 1) = Some tm -> nth_error ws (3 * j + 2) = Some doc ->
    nth_error (run_sigs parse def ws) j = Some (run_sig1 parse def nm tm doc).
Proof.
  split.
  - destruct (@run_sigs_step parse def ws) as (rest & L & ts & -> & H & ->). rewrite app_length.
    assert (X : length (concat ts) = (length ts * 3)%nat) by (clear L; induction H as [|t ts Ht H IH]; [reflexivity|cbn; rewrite app_length, IH, Ht; lia]).
    rewrite X, Nat.add_comm, Nat.div_add, Nat.div_small by lia. lia.
  - intros j. revert ws. induction j as [|j IH]; intros ws nm tm doc E1 E2 E3.
    + destruct ws as [|a [|b [|c ws]]]; try discriminate. cbn in *. injection E1 as ->. injection E2 as ->. injection E3 as ->. reflexivity.
    + replace (3 * S j)%nat with (S (S (S (3 * j)))) in * by lia. destruct ws as [|a [|b [|c ws]]]; try (cbn in E1; try discriminate; destruct (3 * j)%nat; discriminate).
      cbn [Nat.add nth_error run_sigs] in *. apply IH; assumption.
Qed.

Lemma hex_val_spec c d : hex_val c = Some d <-> exists n, d = Z.of_nat n /\ (nth_error lower n = Some c \/ nth_error upper n = Some c).
Proof.
  split.
  - intros E. exists (Z.to_nat d). destruct c; vm_compute in E; try discriminate E; injection E as <-; split; try reflexivity; first [left; reflexivity|right; reflexivity].
  - intros (n & -> & H). do 16 (destruct n as [|n]; [destruct H as [H|H]; vm_compute in H; injection H as <-; reflexivity|]).
    destruct H as [H|H]; cbn in H; destruct n; discriminate H.
Qed.
Lemma hex_scan_app : forall l acc, exists a n, hex_scan acc l = (a, n, skipn n l) /\ (n <= length l)%nat /\
  (forall ds, hex_digits l ds -> n = length l /\ a = acc * 16 ^ Z.of_nat (length l) + number ds) /\
  (n = length l -> exists ds, hex_digits l ds).
Proof.
  induction l as [|c l IH]; intros acc; cbn [hex_scan].
  - exists acc, O. split; [reflexivity|]. split; [cbn; lia|]. split; [|intros _; exists []; constructor]. intros ds H. inversion H; subst. cbn [length number Z.of_nat]. split; [reflexivity|lia].
  - destruct (hex_val c) as [d|] eqn:EV.
    + destruct (IH (acc * 16 + d)) as (a & n & -> & L & S1 & S2). exists a, (S n). split; [reflexivity|]. split; [cbn; lia|]. apply hex_val_spec in EV. destruct EV as (k & -> & HK). split.
      * intros ds H. inversion H as [|? k' ? ds' HK' H']; subst. destruct (S1 ds' H') as [-> ->]. split; [reflexivity|].
        assert (Z.of_nat k = Z.of_nat k').
        { assert (A1 : hex_val c = Some (Z.of_nat k)) by (apply hex_val_spec; eauto). assert (A2 : hex_val c = Some (Z.of_nat k')) by (apply hex_val_spec; eauto). congruence. }
        cbn [number length]. replace (length ds') with (length l) by (clear -H'; induction H'; cbn; congruence).
        rewrite Nat2Z.inj_succ, Z.pow_succ_r by lia. lia.
      * intros E. destruct S2 as [ds H]; [cbn in E; lia|]. exists (k :: ds). constructor; assumption.
    + exists acc, O. split; [reflexivity|]. split; [lia|]. split; [|discriminate]. intros ds H. inversion H as [|? k ? ds' HK H']; subst.
      assert (A1 : hex_val c = Some (Z.of_nat k)) by (apply hex_val_spec; eauto). congruence.
Qed.
Lemma digits_first l ds c : hex_digits (c :: l) ds -> c <> x2d /\ c <> x2b.
Proof.
  intros H. inversion H as [|? k ? ds' HK H']; subst. assert (A1 : hex_val c = Some (Z.of_nat k)) by (apply hex_val_spec; eauto).
  split; intros ->; discriminate A1.
Qed.
Lemma set_string_spec s z : set_string16 s = Some z <-> hex_integer s z.
Proof.
  assert (B : forall l (neg : bool), (let '(z0, n, rest) := hex_scan 0 l in match n, rest with O, _ | _, _ :: _ => None | S _, [] => Some (if neg then - z0 else z0) end) = Some z <->
    exists ds, l <> [] /\ hex_digits l ds /\ z = if neg then - number ds else number ds).
  { intros l neg. destruct (hex_scan_app l 0) as (a & n & -> & L & S1 & S2). split.
    - destruct n as [|n]; [discriminate|]. destruct (skipn (S n) l) as [|y ys] eqn:ER; [|discriminate]. intros E. injection E as <-.
      assert (LN : S n = length l) by (apply (f_equal (@length _)) in ER; rewrite skipn_length in ER; cbn [length] in ER; lia). destruct (S2 LN) as [ds H].
      destruct (S1 ds H) as [_ ->]. exists ds. split; [intros ->; discriminate LN|]. split; [exact H|]. destruct neg; lia.
    - intros (ds & NE & H & ->). destruct (S1 ds H) as [-> ->]. rewrite skipn_all. destruct l as [|c l]; [contradiction|]. cbn [length]. f_equal; destruct neg; lia. }
  unfold set_string16, hex_integer. destruct s as [|c s]; [cbn [scan_sign]|cbn [scan_sign]; destruct (byte_eqb c x2d) eqn:E1; [|destruct (byte_eqb c x2b) eqn:E2]].
  - rewrite (B [] false). split; [intros (ds & NE & _); contradiction|]. intros (l & ds & NE & _ & [[[E|E] _]|[E _]]); try discriminate E. exfalso. apply NE. congruence.
  - destruct (byte_eqb_spec c x2d) as [->|]; [|discriminate E1]. clear E1. rewrite (B s true). split.
    + intros (ds & NE & H & ->). exists s, ds. auto.
    + intros (l & ds & NE & H & [[[<-|E] ->]|[E ->]]); [destruct (digits_first _ _ _ H); contradiction|discriminate E|injection E as ->; eauto].
  - destruct (byte_eqb_spec c x2b) as [->|]; [|discriminate E2]. clear E2. rewrite (B s false). split.
    + intros (ds & NE & H & ->). exists s, ds. auto 7.
    + intros (l & ds & NE & H & [[[<-|E] ->]|[E ->]]); [destruct (digits_first _ _ _ H); contradiction|injection E as ->; eauto|discriminate E].
  - rewrite (B (c :: s) false). split.
    + intros (ds & NE & H & ->). exists (c :: s), ds. auto 7.
    + intros (l & ds & NE & H & [[[<-|E] ->]|[E ->]]); [eauto|injection E as -> ->; discriminate E2|injection E as -> ->; discriminate E1].
Qed.
(** A triple becomes a request exactly when its time is "_" or parses and its document is
    a hexadecimal integer; the request has that time and that integer. *)
Theorem C80_outcome parse def nm tm doc base t d : run_sig1 parse def nm tm doc = Some (base, t, d) <->
  base = s_sig ++ nm /\ (tm = [x5f] /\ t = def \/ tm <> [x5f] /\ parse tm = Some t) /\ hex_integer doc d.
Proof.
  unfold run_sig1, s_default. rewrite <- set_string_spec. destruct (bytes_eqb_spec tm [x5f]) as [->|NE].
  - destruct (set_string16 doc) as [z|].
    + split; [intros E; injection E as <- <- <-; auto|]. intros (-> & [[_ ->]|[NE _]] & E); [congruence|contradiction].
    + split; [discriminate|]. intros (_ & _ & E). discriminate E.
  - destruct (parse tm) as [u|].
    + destruct (set_string16 doc) as [z|].
      * split; [intros E; injection E as <- <- <-; auto|]. intros (-> & [[E _]|[_ E1]] & E0); [contradiction|congruence].
      * split; [discriminate|]. intros (_ & _ & E). discriminate E.
    + split; [discriminate|]. intros (_ & [[E _]|[_ E]] & _); [contradiction|discriminate E].
Qed.
(** Every document can be written. *)
Theorem C80_every_document z : exists doc, hex_integer doc z.
Proof.
  assert (P : forall n : nat, forall z, 0 <= z < 16 ^ Z.of_nat n -> exists l ds, hex_digits l ds /\ number ds = z /\ length ds = n).
  { induction n as [|n IH]; intros y H; [exists [], []; split; [constructor|]; split; [cbn in *; lia|reflexivity]|].
    rewrite Nat2Z.inj_succ, Z.pow_succ_r in H by lia. set (m := 16 ^ Z.of_nat n) in *. assert (0 < m) by (apply Z.pow_pos_nonneg; lia).
    destruct (IH (y mod m)) as (l & ds & A & B & C); [apply Z.mod_pos_bound; assumption|].
    assert (D : 0 <= y / m < 16) by (split; [apply Z.div_pos; lia|apply Z.div_lt_upper_bound; lia]).
    assert (DC : exists c, nth_error lower (Z.to_nat (y / m)) = Some c).
    { destruct (nth_error lower (Z.to_nat (y / m))) as [c|] eqn:E; [eauto|]. apply nth_error_None in E. cbn [length lower] in E. lia. }
    destruct DC as [c DC]. exists (c :: l), (Z.to_nat (y / m) :: ds). split; [constructor; [left; exact DC|exact A]|]. split; [|cbn; congruence].
    cbn [number]. rewrite C, B, Z2Nat.id by lia. fold m. rewrite (Z_div_mod_eq_full y m) at 3. lia. }
  destruct (P (S (Z.to_nat (Z.log2 (Z.abs z)))) (Z.abs z)) as (l & ds & A & B & C).
  { split; [lia|]. rewrite Nat2Z.inj_succ, Z2Nat.id by apply Z.log2_nonneg. destruct (Z.eq_dec z 0) as [->|NZ]; [reflexivity|].
    destruct (Z.log2_spec (Z.abs z)) as [_ H]; [lia|]. eapply Z.lt_le_trans; [exact H|]. apply Z.pow_le_mono_l. lia. }
  assert (NE : l <> []) by (intros ->; inversion A; subst; discriminate C).
  destruct (Z_lt_le_dec z 0) as [N|N]; [exists (x2d :: l)|exists l]; exists l, ds; (split; [exact NE|]); split; try exact A; [right|left]; rewrite B; split; auto; lia.
Qed.
(** "a _ AA b x 1 c _ -ff d _": the second time does not parse, the fourth triple is incomplete. *)
Example C80_ex : run_sigs (fun _ => None) 7 [[x61]; [x5f]; [x41; x41]; [x62]; [x78]; [x31]; [x63]; [x5f]; [x2d; x66; x66]; [x64]; [x5f]] =
  [Some (s_sig ++ [x61], 7, 170); None; Some (s_sig ++ [x63], 7, -255)] /\ hex_integer [x2d; x66; x66] (-255).
Proof.
  split; [vm_compute; reflexivity|]. exists [x66; x66], [15%nat; 15%nat]. split; [discriminate|]. split; [|right; split; reflexivity].
  constructor; [left; reflexivity|]. constructor; [left; reflexivity|constructor].
Qed.
Print Assumptions C77_ids_distinct_refuted. Print Assumptions C77_same_millisecond. Print Assumptions C77_ids_distinct.
Print Assumptions C79_returned_shares. Print Assumptions C79_one_round. Print Assumptions C79_failure_panics. Print Assumptions C79_round_ids.
Print Assumptions C80_triples. Print Assumptions C80_outcome. Print Assumptions C80_every_document.
