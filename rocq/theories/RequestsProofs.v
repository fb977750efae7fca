(** Facts about decimal and hexadecimal numerals, request parsing and the rounds of key generation. *)
From Coq Require Import ZArith List Lia Bool Decimal DecimalFacts DecimalPos DecimalZ.
From Coq Require Import Init.Byte.
From Verif Require Import Params Bytes Res Secp Spec SecpProofs Dto Dss Prot DkgProt Firewall Node Requests.
Import ListNotations.
Open Scope Z_scope.

(** ** Decimal *)
Fixpoint val (u : uint) : Z :=
  match u with
  | Nil => 0 | D0 u => val u | D1 u => 1 * 10 ^ Z.of_nat (nb_digits u) + val u | D2 u => 2 * 10 ^ Z.of_nat (nb_digits u) + val u
  | D3 u => 3 * 10 ^ Z.of_nat (nb_digits u) + val u | D4 u => 4 * 10 ^ Z.of_nat (nb_digits u) + val u | D5 u => 5 * 10 ^ Z.of_nat (nb_digits u) + val u
  | D6 u => 6 * 10 ^ Z.of_nat (nb_digits u) + val u | D7 u => 7 * 10 ^ Z.of_nat (nb_digits u) + val u | D8 u => 8 * 10 ^ Z.of_nat (nb_digits u) + val u
  | D9 u => 9 * 10 ^ Z.of_nat (nb_digits u) + val u
  end.
Lemma acc_val u : forall a, Z.pos (Pos.of_uint_acc u a) = Z.pos a * 10 ^ Z.of_nat (nb_digits u) + val u.
Proof.
  induction u as [|u IH|u IH|u IH|u IH|u IH|u IH|u IH|u IH|u IH|u IH]; intros a; cbn [Pos.of_uint_acc val nb_digits]; [lia|..];
    rewrite IH, Nat2Z.inj_succ, Z.pow_succ_r by lia; try (rewrite Pos2Z.inj_add); rewrite ?Pos2Z.inj_mul; lia.
Qed.
Lemma of_uint_val u : Z.of_uint u = val u.
Proof.
  unfold Z.of_uint. induction u; cbn [Pos.of_uint val]; try reflexivity; try assumption; cbn [Z.of_N]; rewrite acc_val; reflexivity.
Qed.
Lemma val_bound u : 0 <= val u < 10 ^ Z.of_nat (nb_digits u).
Proof.
  induction u; cbn [val nb_digits]; try (split; [lia|reflexivity]); rewrite Nat2Z.inj_succ, Z.pow_succ_r by lia; lia.
Qed.
Lemma digits_length u : length (digits u) = nb_digits u.
Proof. induction u; cbn; congruence. Qed.
Lemma digits_inj u : forall v, digits u = digits v -> u = v.
Proof. induction u; intros v; destruct v; cbn [digits]; intros E; try discriminate E; try reflexivity; injection E as E; f_equal; auto. Qed.
Lemma digits_plain u : ~ In x2d (digits u).
Proof. induction u; cbn; intuition discriminate. Qed.

Lemma format_norm z : norm (Z.to_int z) = Z.to_int z.
Proof. rewrite <- (DecimalZ.of_to z) at 2. rewrite DecimalZ.to_of. reflexivity. Qed.
Lemma unorm_head u : unorm u = u -> u = D0 Nil \/ (1 <= nb_digits u)%nat /\ 10 ^ (Z.of_nat (nb_digits u) - 1) <= val u.
Proof.
  intros E. destruct u; cbn [val nb_digits].
  - discriminate E.
  - left. unfold unorm in E. cbn [nzhead] in E. destruct (nzhead u) eqn:F; try discriminate E; [congruence|].
    exfalso. clear -F. revert F. assert (H : forall w, nzhead u <> D0 w).
    { induction u; cbn [nzhead]; intros w H; try discriminate H. exact (IHu w H). } apply H.
  - right. rewrite Nat2Z.inj_succ. replace (Z.succ _ - 1) with (Z.of_nat (nb_digits u)) by lia. pose proof (val_bound u). split; lia.
  - right. rewrite Nat2Z.inj_succ. replace (Z.succ _ - 1) with (Z.of_nat (nb_digits u)) by lia. pose proof (val_bound u). split; lia.
  - right. rewrite Nat2Z.inj_succ. replace (Z.succ _ - 1) with (Z.of_nat (nb_digits u)) by lia. pose proof (val_bound u). split; lia.
  - right. rewrite Nat2Z.inj_succ. replace (Z.succ _ - 1) with (Z.of_nat (nb_digits u)) by lia. pose proof (val_bound u). split; lia.
  - right. rewrite Nat2Z.inj_succ. replace (Z.succ _ - 1) with (Z.of_nat (nb_digits u)) by lia. pose proof (val_bound u). split; lia.
  - right. rewrite Nat2Z.inj_succ. replace (Z.succ _ - 1) with (Z.of_nat (nb_digits u)) by lia. pose proof (val_bound u). split; lia.
  - right. rewrite Nat2Z.inj_succ. replace (Z.succ _ - 1) with (Z.of_nat (nb_digits u)) by lia. pose proof (val_bound u). split; lia.
  - right. rewrite Nat2Z.inj_succ. replace (Z.succ _ - 1) with (Z.of_nat (nb_digits u)) by lia. pose proof (val_bound u). split; lia.
  - right. rewrite Nat2Z.inj_succ. replace (Z.succ _ - 1) with (Z.of_nat (nb_digits u)) by lia. pose proof (val_bound u). split; lia.
Qed.

Lemma format_int_inj a b : format_int a = format_int b -> a = b.
Proof.
  unfold format_int. intros E. rewrite <- (DecimalZ.of_to a), <- (DecimalZ.of_to b). f_equal.
  destruct (Z.to_int a) as [u|u], (Z.to_int b) as [v|v].
  - f_equal. apply digits_inj, E.
  - exfalso. apply (digits_plain u). rewrite E. left. reflexivity.
  - exfalso. apply (digits_plain v). rewrite <- E. left. reflexivity.
  - f_equal. apply digits_inj. injection E as E. exact E.
Qed.
Lemma to_int_sign z : match Z.to_int z with Pos u => 0 <= z /\ val u = z | Neg u => z < 0 /\ val u = - z end.
Proof.
  pose proof (DecimalZ.of_to z) as E. destruct z as [|q|q]; cbn [Z.to_int] in *; cbn [Z.of_int] in E; rewrite of_uint_val in E; split; lia.
Qed.
(** Non-negative numbers: digits only, and the length that goes with the size. *)
Lemma format_plain z : 0 <= z -> ~ In x2d (format_int z).
Proof.
  intros H. pose proof (to_int_sign z) as S. unfold format_int. destruct (Z.to_int z) as [u|u]; [apply digits_plain|lia].
Qed.
Lemma format_neg z : z < 0 -> exists l, format_int z = x2d :: l /\ ~ In x2d l.
Proof.
  intros H. pose proof (to_int_sign z) as S. unfold format_int. destruct (Z.to_int z) as [u|u]; [lia|]. exists (digits u). split; [reflexivity|apply digits_plain].
Qed.
Lemma format_length z : 0 < z -> 1 <= Z.of_nat (length (format_int z)) /\
  10 ^ (Z.of_nat (length (format_int z)) - 1) <= z < 10 ^ Z.of_nat (length (format_int z)).
Proof.
  intros H. pose proof (to_int_sign z) as S. pose proof (format_norm z) as NF. unfold format_int. destruct (Z.to_int z) as [u|u]; [|lia].
  cbn [norm] in NF. injection NF as NF. rewrite digits_length. destruct (unorm_head u NF) as [->|[L B]]; [cbn in S; lia|].
  pose proof (val_bound u). destruct S as [_ S]. rewrite S in *. lia.
Qed.
Lemma format_zero : format_int 0 = [x30]. Proof. reflexivity. Qed.
Lemma format_nonempty z : 0 <= z -> (1 <= length (format_int z))%nat.
Proof. intros H. destruct (Z.eq_dec z 0) as [->|]; [rewrite format_zero; cbn; lia|]. pose proof (format_length z). lia. Qed.
Lemma format_monotone a b : 0 <= a <= b -> (length (format_int a) <= length (format_int b))%nat.
Proof.
  intros H. destruct (Z.eq_dec a 0) as [->|Ha]; [rewrite format_zero; cbn [length]; apply format_nonempty; lia|].
  destruct (format_length a) as (A1 & A2 & A3); [lia|]. destruct (format_length b) as (B1 & B2 & B3); [lia|].
  destruct (le_lt_dec (length (format_int a)) (length (format_int b))) as [|L]; [assumption|exfalso].
  assert (10 ^ Z.of_nat (length (format_int b)) <= 10 ^ (Z.of_nat (length (format_int a)) - 1)) by (apply Z.pow_le_mono_r; lia). lia.
Qed.
Lemma format_digits z n : 0 < n -> 10 ^ (n - 1) <= z < 10 ^ n -> Z.of_nat (length (format_int z)) = n.
Proof.
  intros Hn [A B]. assert (0 < 10 ^ (n - 1)) by (apply Z.pow_pos_nonneg; lia). destruct (format_length z) as (L & C & D); [lia|].
  assert (X : n - 1 < Z.of_nat (length (format_int z))) by (apply (Z.pow_lt_mono_r_iff 10); lia).
  assert (Y : Z.of_nat (length (format_int z)) - 1 < n) by (apply (Z.pow_lt_mono_r_iff 10); lia). lia.
Qed.

Lemma app_split {A} (a : list A) : forall b c d, length c = length d -> a ++ c = b ++ d -> a = b /\ c = d.
Proof.
  intros b c d L E. assert (LA : length a = length b) by (apply (f_equal (@length _)) in E; rewrite !app_length in E; lia).
  revert b LA E. induction a as [|x a IH]; intros [|y b] LA E; try discriminate LA; [auto|]. cbn in E. injection E as -> E.
  destruct (IH b) as [-> ->]; [cbn in LA; lia|exact E|auto].
Qed.
Lemma dash_split (a : bytes) : forall b c d, ~ In x2d a -> ~ In x2d b -> a ++ x2d :: c = b ++ x2d :: d -> a = b /\ c = d.
Proof.
  induction a as [|x a IH]; intros [|y b] c d NA NB E; cbn in E.
  - injection E as ->. auto.
  - injection E as <- E. exfalso. apply NB. left. reflexivity.
  - injection E as -> E. exfalso. apply NA. left. reflexivity.
  - injection E as -> E. destruct (IH b c d) as [-> ->]; [intros H; apply NA; right; exact H|intros H; apply NB; right; exact H|exact E|auto].
Qed.

(** ** Run ids *)
Lemma run_ids_inj base base' t t' : length (format_int (t / ms)) = length (format_int (t' / ms)) ->
  run_id_for base t = run_id_for base' t' -> base = base' /\ t / ms = t' / ms.
Proof. intros L E. apply app_split in E; [|exact L]. destruct E as [-> E]. split; [reflexivity|apply format_int_inj, E]. Qed.

Lemma round_ids_distinct start tmo i j : 0 <= tmo -> round_id start tmo i = round_id start tmo j -> i = j.
Proof.
  intros HT E. assert (W : forall i j, (i < j)%nat -> round_id start tmo i <> round_id start tmo j).
  { clear i j E. intros i j L E. unfold round_id, run_id_for, round_base in E. rewrite <- !app_assoc in E.
    apply app_inv_head in E. apply app_inv_head in E.
    assert (M : round_at start tmo i / ms <= round_at start tmo j / ms).
    { apply Z.div_le_mono; [reflexivity|]. unfold round_at, lt_interval, ms. assert (Z.of_nat i <= Z.of_nat j) by lia. nia. }
    assert (FI : Z.of_nat i <> Z.of_nat j) by lia.
    assert (PI : ~ In x2d (format_int (Z.of_nat i))) by (apply format_plain; lia).
    assert (PJ : ~ In x2d (format_int (Z.of_nat j))) by (apply format_plain; lia).
    destruct (Z_lt_le_dec (round_at start tmo i / ms) 0) as [A|A].
    - destruct (format_neg _ A) as (la & EA & _). rewrite EA in E. destruct (Z_lt_le_dec (round_at start tmo j / ms) 0) as [B|B].
      + destruct (format_neg _ B) as (lb & EB & _). rewrite EB in E. apply dash_split in E; [|assumption..]. apply FI, format_int_inj, E.
      + assert (H : In x2d (format_int (Z.of_nat j) ++ format_int (round_at start tmo j / ms))) by (rewrite <- E; apply in_or_app; right; left; reflexivity).
        apply in_app_or in H. destruct H as [H|H]; [exact (PJ H)|exact (format_plain _ B H)].
    - assert (L1 : (length (format_int (Z.of_nat i)) <= length (format_int (Z.of_nat j)))%nat) by (apply format_monotone; lia).
      assert (L2 : (length (format_int (round_at start tmo i / ms)) <= length (format_int (round_at start tmo j / ms)))%nat) by (apply format_monotone; lia).
      pose proof (f_equal (@length _) E) as LE. rewrite !app_length in LE. apply app_split in E; [|lia]. apply FI, format_int_inj, E. }
  destruct (Nat.lt_trichotomy i j) as [H|[H|H]]; [exfalso; exact (W i j H E)|exact H|exfalso; exact (W j i H (eq_sym E))].
Qed.
