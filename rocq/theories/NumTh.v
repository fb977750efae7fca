(** Elementary number theory: modular powers, Fermat's little theorem,
    Pocklington's criterion.  No modelled code here. *)
From Coq Require Import ZArith Znumtheory List Permutation Lia Bool.
Import ListNotations.
Open Scope Z_scope.

(** Modular exponentiation, square and multiply. *)
Fixpoint powm (a : Z) (e : positive) (m : Z) : Z :=
  match e with
  | xH => a mod m
  | xO e' => let r := powm a e' m in (r * r) mod m
  | xI e' => let r := powm a e' m in ((r * r) mod m * a) mod m
  end.

Lemma powm_spec a e m : m <> 0 -> powm a e m = (a ^ Zpos e) mod m.
Proof.
  intros Hm. induction e as [e IH|e IH|]; cbn [powm].
  - rewrite IH, Pos2Z.inj_xI, Z.pow_add_r, Z.pow_mul_r, Z.pow_1_r by lia.
    rewrite <- Zmult_mod. rewrite Zmult_mod_idemp_l.
    rewrite Z.pow_2_r, <- Z.pow_mul_l. reflexivity.
  - rewrite IH, Pos2Z.inj_xO, Z.pow_mul_r, Z.pow_2_r by lia.
    rewrite <- Zmult_mod, <- Z.pow_mul_l. reflexivity.
  - rewrite Z.pow_1_r. reflexivity.
Qed.

(** Congruence helpers. *)
Lemma eqm_divide a b m : m <> 0 -> (a mod m = b mod m <-> (m | a - b)).
Proof.
  intros Hm; split.
  - intros H. apply Zmod_divide; [exact Hm|].
    rewrite Zminus_mod, H, Z.sub_diag. apply Zmod_0_l.
  - intros [k Hk]. replace a with (b + k * m) by lia. apply Z_mod_plus_full.
Qed.

Lemma pow_mod_congr a b (n : nat) m : a mod m = b mod m ->
  (a ^ Z.of_nat n) mod m = (b ^ Z.of_nat n) mod m.
Proof.
  intros H. induction n as [|n IH]; [reflexivity|].
  rewrite Nat2Z.inj_succ, !Z.pow_succ_r by lia.
  rewrite Zmult_mod, (Zmult_mod b), H, IH. reflexivity.
Qed.

Lemma pow_mod_congrZ a b n m : 0 <= n -> a mod m = b mod m ->
  (a ^ n) mod m = (b ^ n) mod m.
Proof.
  intros Hn H. rewrite <- (Z2Nat.id n Hn). apply pow_mod_congr, H.
Qed.

Lemma pow_mod_1 a n m : 1 < m -> 0 <= n -> a mod m = 1 -> (a ^ n) mod m = 1.
Proof.
  intros Hm Hn H. rewrite (pow_mod_congrZ a 1 n m Hn).
  - rewrite Z.pow_1_l by lia. apply Z.mod_1_l; lia.
  - rewrite H, Z.mod_1_l; lia.
Qed.

(** ** Fermat *)
Section Fermat.
  Variable r : Z.
  Hypothesis Hr : prime r.

  Let r2 : 2 <= r := prime_ge_2 r Hr.

  Definition units : list Z := map Z.of_nat (seq 1 (Z.to_nat (r - 1))).

  Lemma in_units z : In z units <-> 1 <= z < r.
  Proof.
    unfold units. rewrite in_map_iff. split.
    - intros (n & <- & Hn). apply in_seq in Hn. lia.
    - intros H. exists (Z.to_nat z). rewrite in_seq. lia.
  Qed.

  Lemma units_nodup : NoDup units.
  Proof.
    unfold units. apply FinFun.Injective_map_NoDup; [|apply seq_NoDup].
    intros x y. lia.
  Qed.

  Definition prodl (l : list Z) : Z := fold_right Z.mul 1 l.

  Lemma prodl_perm l1 l2 : Permutation l1 l2 -> prodl l1 = prodl l2.
  Proof.
    induction 1; unfold prodl in *; cbn [fold_right]; lia.
  Qed.

  Lemma prodl_map_mod a l :
    (prodl (map (fun z => (a * z) mod r) l)) mod r
    = (a ^ Z.of_nat (length l) * prodl l) mod r.
  Proof.
    induction l as [|z l IH]; [reflexivity|].
    cbn [map length]. unfold prodl in *; cbn [fold_right].
    rewrite Nat2Z.inj_succ, Z.pow_succ_r by lia.
    rewrite Zmult_mod_idemp_l. rewrite Zmult_mod, IH, <- Zmult_mod.
    f_equal. ring.
  Qed.

  Lemma prodl_coprime l : (forall z, In z l -> 1 <= z < r) -> ~ (r | prodl l).
  Proof.
    induction l as [|z l IH]; intros H.
    - unfold prodl; cbn. intros D. apply Z.divide_1_r_nonneg in D; lia.
    - unfold prodl; cbn [fold_right]. intros D.
      apply prime_mult in D; [|assumption]. destruct D as [D|D].
      + apply Z.divide_pos_le in D; specialize (H z (or_introl eq_refl)); lia.
      + apply IH; [|exact D]. intros y Hy. apply H. now right.
  Qed.

  Theorem fermat a : ~ (r | a) -> (a ^ (r - 1)) mod r = 1.
  Proof.
    intros Ha.
    assert (P : Permutation units (map (fun z => (a * z) mod r) units)).
    { symmetry. apply NoDup_Permutation_bis.
      - assert (G : forall l, NoDup l -> incl l units ->
                     NoDup (map (fun z => (a * z) mod r) l)).
        { induction l as [|z l IH]; intros ND Hin; cbn; constructor.
          - inversion ND as [|? ? Hz NDl]; subst.
            rewrite in_map_iff. intros (y & Hy & Hyl).
            apply Hz. replace z with y; [exact Hyl|].
            assert (Iy : 1 <= y < r) by (apply in_units, Hin; now right).
            assert (Iz : 1 <= z < r) by (apply in_units, Hin; now left).
            apply eqm_divide in Hy; [|lia].
            rewrite <- Z.mul_sub_distr_l in Hy.
            apply prime_mult in Hy; [|assumption].
            destruct Hy as [D|D]; [contradiction|].
            destruct (Z.eq_dec y z) as [E|E]; [exact E|].
            exfalso. destruct D as [k D].
            destruct (Z.lt_trichotomy k 0) as [K|[K|K]]; [|subst k; lia|]; nia.
          - inversion ND; subst. apply IH; [assumption|].
            intros y Hy; apply Hin; now right. }
        apply G; [apply units_nodup|apply incl_refl].
      - rewrite map_length. lia.
      - intros z Hz. apply in_map_iff in Hz. destruct Hz as (y & <- & Hy).
        apply in_units in Hy. apply in_units.
        pose proof (Z.mod_pos_bound (a * y) r ltac:(lia)).
        assert ((a * y) mod r <> 0); [|lia].
        intros E. apply Zmod_divide in E; [|lia].
        apply prime_mult in E; [|assumption].
        destruct E as [E|E]; [contradiction|].
        apply Z.divide_pos_le in E; lia. }
    apply prodl_perm in P.
    pose proof (prodl_map_mod a units) as M. rewrite <- P in M.
    symmetry in M. rewrite <- (Z.mul_1_l (prodl units)) in M at 2.
    apply eqm_divide in M; [|lia].
    rewrite <- Z.mul_sub_distr_r in M.
    apply prime_mult in M; [|assumption].
    destruct M as [M|M].
    - unfold units in M. rewrite map_length, seq_length, Z2Nat.id in M by lia.
      apply eqm_divide in M; [|lia]. rewrite M. apply Z.mod_1_l; lia.
    - exfalso. eapply prodl_coprime; [|exact M]. intros z. apply in_units.
  Qed.
End Fermat.

(** ** Pocklington *)

Lemma exists_prime_divisor n : 1 < n -> exists r, prime r /\ (r | n).
Proof.
  intros Hn. assert (0 <= n) as H0 by lia. revert Hn.
  pattern n. apply Z_lt_induction; [|assumption].
  clear n H0. intros n IH Hn.
  destruct (prime_dec n) as [P|P].
  - exists n. split; [exact P|apply Z.divide_refl].
  - apply not_prime_divide in P; [|assumption].
    destruct P as (d & Hd & D).
    destruct (IH d) as (r & Pr & Dr); [lia|lia|].
    exists r. split; [exact Pr|]. eapply Z.divide_trans; eassumption.
Qed.

Lemma exists_small_prime_divisor n : 1 < n -> ~ prime n ->
  exists r, prime r /\ (r | n) /\ r * r <= n.
Proof.
  intros Hn P. apply not_prime_divide in P; [|assumption].
  destruct P as (d & Hd & D). destruct D as [k Hk].
  assert (Hk1 : 1 < k) by nia.
  destruct (Z.le_ge_cases k d) as [L|L].
  - destruct (exists_prime_divisor k Hk1) as (r & Pr & Dr).
    exists r. split; [exact Pr|]. split.
    + eapply Z.divide_trans; [exact Dr|]. exists d. lia.
    + apply Z.divide_pos_le in Dr; [|lia]. pose proof (prime_ge_2 r Pr). nia.
  - destruct (exists_prime_divisor d) as (r & Pr & Dr); [lia|].
    exists r. split; [exact Pr|]. split.
    + eapply Z.divide_trans; [exact Dr|]. exists k. lia.
    + apply Z.divide_pos_le in Dr; [|lia]. pose proof (prime_ge_2 r Pr). nia.
Qed.

(** One witness: q is a prime with q | n-1, a^((n-1)/q) - 1 a unit mod n. *)
Lemma pock_step n q a c r :
  1 < n -> prime q -> n - 1 = c * q -> 0 <= c ->
  (a ^ (n - 1)) mod n = 1 ->
  Z.gcd (a ^ c - 1) n = 1 ->
  prime r -> (r | n) -> (q | r - 1).
Proof.
  intros Hn Pq Hc Hc0 H1 Hg Pr Dr.
  pose proof (prime_ge_2 q Pq) as q2. pose proof (prime_ge_2 r Pr) as r2.
  assert (Hbq : ((a ^ c) ^ q) mod r = 1).
  { rewrite <- Z.pow_mul_r by lia. rewrite <- Hc.
    destruct Dr as [k Hk].
    assert (Hnn : (n | a ^ (n - 1) - 1)).
    { apply eqm_divide; [lia|]. rewrite H1, Z.mod_1_l; lia. }
    assert (Hrr : (r | a ^ (n - 1) - 1)).
    { eapply Z.divide_trans; [|exact Hnn]. exists k; lia. }
    apply eqm_divide in Hrr; [|lia]. rewrite Hrr. apply Z.mod_1_l; lia. }
  assert (Hb1 : ~ (r | a ^ c - 1)).
  { intros D. assert (D2 : (r | Z.gcd (a ^ c - 1) n)) by (apply Z.gcd_greatest; assumption).
    rewrite Hg in D2. apply Z.divide_1_r_nonneg in D2; lia. }
  set (bb := a ^ c) in *.
  assert (Hb0 : ~ (r | bb)).
  { intros [k Hk]. rewrite Hk in Hbq.
    replace q with (Z.succ (q - 1)) in Hbq by lia.
    rewrite Z.pow_succ_r in Hbq by lia.
    replace (k * r * (k * r) ^ (q - 1)) with ((k * (k * r) ^ (q - 1)) * r) in Hbq by ring.
    rewrite Z_mod_mult in Hbq. lia. }
  pose proof (fermat r Pr bb Hb0) as HF.
  destruct (Zdivide_dec q (r - 1)) as [D|ND]; [exact D|exfalso].
  assert (RP : rel_prime q (r - 1)).
  { apply prime_rel_prime; assumption. }
  apply rel_prime_bezout in RP. destruct RP as [u v Huv].
  (* choose non-negative exponents *)
  apply Hb1. apply eqm_divide; [lia|]. rewrite (Z.mod_1_l r) by lia.
  (* u*q + v*(r-1) = 1 ; shift u by multiples of (r-1), v by multiples of q *)
  set (t := Z.abs u + Z.abs v).
  assert (E : (u + t * (r - 1)) * q = 1 + (r - 1) * (t * q - v)) by lia.
  assert (P1 : 0 <= u + t * (r - 1)) by (unfold t; nia).
  assert (P2 : 0 <= t * q - v) by (unfold t; nia).
  assert (L : (bb ^ ((u + t * (r - 1)) * q)) mod r = 1).
  { rewrite Z.mul_comm, Z.pow_mul_r by lia. apply pow_mod_1; [lia|assumption|exact Hbq]. }
  assert (P3 : 0 <= (r - 1) * (t * q - v)) by (apply Z.mul_nonneg_nonneg; [lia|exact P2]).
  rewrite E in L. rewrite Z.pow_add_r, Z.pow_1_r in L by (first [exact P3|clear; lia]).
  rewrite Z.pow_mul_r in L by lia.
  rewrite Zmult_mod, (pow_mod_1 (bb ^ (r - 1)) (t * q - v)) in L by (try lia; exact HF).
  rewrite Z.mul_1_r, Zmod_mod in L. exact L.
Qed.

(** Pocklington with one large prime factor q of n-1. *)
Theorem pocklington1 n q a c :
  1 < n -> prime q -> n - 1 = c * q -> 0 <= c -> n < q * q ->
  (a ^ (n - 1)) mod n = 1 ->
  Z.gcd (a ^ c - 1) n = 1 -> prime n.
Proof.
  intros Hn Pq Hc Hc0 Hqq H1 Hg.
  destruct (prime_dec n) as [P|P]; [exact P|exfalso].
  destruct (exists_small_prime_divisor n Hn P) as (r & Pr & Dr & Hrr).
  pose proof (pock_step n q a c r Hn Pq Hc Hc0 H1 Hg Pr Dr) as D.
  pose proof (prime_ge_2 r Pr). pose proof (prime_ge_2 q Pq).
  apply Z.divide_pos_le in D; [|lia]. nia.
Qed.

(** ... and with two different prime factors. *)
Theorem pocklington2 n q1 q2 a c1 c2 :
  1 < n -> prime q1 -> prime q2 -> q1 <> q2 ->
  n - 1 = c1 * q1 -> 0 <= c1 -> n - 1 = c2 * q2 -> 0 <= c2 ->
  n < (q1 * q2) * (q1 * q2) ->
  (a ^ (n - 1)) mod n = 1 ->
  Z.gcd (a ^ c1 - 1) n = 1 -> Z.gcd (a ^ c2 - 1) n = 1 -> prime n.
Proof.
  intros Hn Pq1 Pq2 Hne Hc1 Hc10 Hc2 Hc20 Hqq H1 Hg1 Hg2.
  destruct (prime_dec n) as [P|P]; [exact P|exfalso].
  destruct (exists_small_prime_divisor n Hn P) as (r & Pr & Dr & Hrr).
  pose proof (pock_step n q1 a c1 r Hn Pq1 Hc1 Hc10 H1 Hg1 Pr Dr) as D1.
  pose proof (pock_step n q2 a c2 r Hn Pq2 Hc2 Hc20 H1 Hg2 Pr Dr) as D2.
  pose proof (prime_ge_2 r Pr). pose proof (prime_ge_2 q1 Pq1).
  pose proof (prime_ge_2 q2 Pq2).
  assert (D : (q1 * q2 | r - 1)).
  { destruct D1 as [k Hk]. rewrite Hk in D2.
    apply prime_mult in D2; [|exact Pq2]. destruct D2 as [D2|D2].
    - destruct D2 as [j Hj]. exists j. rewrite Hk, Hj. ring.
    - exfalso. apply Hne. symmetry. apply prime_div_prime; assumption. }
  apply Z.divide_pos_le in D; [|lia]. nia.
Qed.

(** Boolean checkers (computable certificates). *)
Definition pock1_ok (n q a c : Z) : bool :=
  (1 <? n) && (n - 1 =? c * q) && (0 <? c) && (n <? q * q) &&
  (let b := powm a (Z.to_pos c) n in
   (powm b (Z.to_pos q) n =? 1) && (Z.gcd (b - 1) n =? 1)).

Lemma gcd_mod_sub a b n : n <> 0 -> a mod n = b mod n -> Z.gcd (a - 1) n = Z.gcd (b - 1) n.
Proof.
  intros Hn H. apply eqm_divide in H; [|assumption]. destruct H as [k Hk].
  replace (a - 1) with ((b - 1) + k * n) by lia.
  rewrite Z.gcd_comm, Z.add_comm, (Z.gcd_comm (b - 1)).
  rewrite Z.add_comm. rewrite Z.gcd_add_mult_diag_r. reflexivity.
Qed.

Theorem pock1_sound n q a c : prime q -> pock1_ok n q a c = true -> prime n.
Proof.
  intros Pq H. unfold pock1_ok in H.
  apply andb_prop in H; destruct H as [H H5].
  apply andb_prop in H; destruct H as [H H4].
  apply andb_prop in H; destruct H as [H H3].
  apply andb_prop in H; destruct H as [H1 H2].
  apply Z.ltb_lt in H1, H3, H4. apply Z.eqb_eq in H2.
  cbv zeta in H5. apply andb_prop in H5; destruct H5 as [H5 H6].
  apply Z.eqb_eq in H5, H6.
  pose proof (prime_ge_2 q Pq) as q2.
  rewrite !powm_spec in H5 by lia. rewrite powm_spec in H6 by lia.
  rewrite !Z2Pos.id in * by lia.
  apply (pocklington1 n q a c); try assumption; try lia.
  - rewrite H2, Z.pow_mul_r by lia.
    refine (eq_trans (pow_mod_congrZ _ _ _ _ _ _) H5); [lia|]. symmetry. apply Zmod_mod.
  - refine (eq_trans (gcd_mod_sub _ _ _ _ _) H6); [lia|]. symmetry. apply Zmod_mod.
Qed.

Definition pock2_ok (n q1 q2 a c : Z) : bool :=
  (1 <? n) && negb (q1 =? q2) && (n - 1 =? c * q1 * q2) && (0 <? c) &&
  (n <? (q1 * q2) * (q1 * q2)) &&
  (let u := powm a (Z.to_pos c) n in
   let b1 := powm u (Z.to_pos q2) n in
   let b2 := powm u (Z.to_pos q1) n in
   (powm b1 (Z.to_pos q1) n =? 1) && (Z.gcd (b1 - 1) n =? 1) && (Z.gcd (b2 - 1) n =? 1)).

Lemma pow_pow_mod a c q n : 0 <= c -> 0 <= q -> ((a ^ c mod n) ^ q) mod n = (a ^ (c * q)) mod n.
Proof.
  intros Hc Hq. rewrite Z.pow_mul_r by assumption.
  apply pow_mod_congrZ; [assumption|]. apply Zmod_mod.
Qed.

Theorem pock2_sound n q1 q2 a c :
  prime q1 -> prime q2 -> pock2_ok n q1 q2 a c = true -> prime n.
Proof.
  intros Pq1 Pq2 H. unfold pock2_ok in H. cbv zeta in H.
  apply andb_prop in H; destruct H as [H H6].
  apply andb_prop in H; destruct H as [H H5].
  apply andb_prop in H; destruct H as [H H4].
  apply andb_prop in H; destruct H as [H H3].
  apply andb_prop in H; destruct H as [H1 H2].
  apply andb_prop in H6; destruct H6 as [H6 H8].
  apply andb_prop in H6; destruct H6 as [H6 H7].
  apply negb_true_iff in H2. apply Z.eqb_neq in H2.
  apply Z.ltb_lt in H1, H4, H5. apply Z.eqb_eq in H3, H6, H7, H8.
  pose proof (prime_ge_2 q1 Pq1). pose proof (prime_ge_2 q2 Pq2).
  rewrite !powm_spec in H6, H7, H8 by lia.
  rewrite !Z2Pos.id in * by lia.
  assert (0 <= c * q1) by (apply Z.mul_nonneg_nonneg; lia).
  assert (0 <= c * q2) by (apply Z.mul_nonneg_nonneg; lia).
  rewrite !pow_pow_mod in H6 by (assumption || lia).
  rewrite powm_spec, Z2Pos.id, pow_pow_mod in H6 by (try apply Z.mul_nonneg_nonneg; lia).
  rewrite !pow_pow_mod in H7, H8 by (assumption || lia).
  apply (pocklington2 n q1 q2 a (c * q2) (c * q1)); try assumption; try lia.

  - refine (eq_trans _ H6). replace (n - 1) with (c * (q2 * q1)) by lia. reflexivity.
  - refine (eq_trans (gcd_mod_sub _ _ _ _ _) H7); [lia|]. symmetry. apply Zmod_mod.
  - refine (eq_trans (gcd_mod_sub _ _ _ _ _) H8); [lia|]. symmetry. apply Zmod_mod.
Qed.

(** Any number of different prime factors. *)
Definition pockl_ok (n a : Z) (qs : list Z) : bool :=
  (1 <? n) && (powm a (Z.to_pos (n - 1)) n =? 1) &&
  (n <? prodl qs * prodl qs) &&
  forallb (fun q => (n - 1 =? (n - 1) / q * q) && (0 <? (n - 1) / q) &&
                    (Z.gcd (powm a (Z.to_pos ((n - 1) / q)) n - 1) n =? 1)) qs.

Lemma prod_divides qs d : Forall prime qs -> NoDup qs -> (forall q, In q qs -> (q | d)) ->
  (prodl qs | d).
Proof.
  intros P ND H. revert d H. induction qs as [|q qs IH]; intros d H.
  - exists d. unfold prodl; cbn. lia.
  - inversion P as [|? ? Pq Pqs]; inversion ND as [|? ? Hq NDq]; subst.
    destruct (H q (or_introl eq_refl)) as [k Hk].
    assert (D : (prodl qs | k)).
    { apply IH; try assumption. intros q' Hq'.
      assert (D' : (q' | k * q)) by (rewrite <- Hk; apply H; now right).
      rewrite Forall_forall in Pqs.
      apply prime_mult in D'; [|apply Pqs; assumption].
      destruct D' as [D'|D']; [exact D'|].
      apply prime_div_prime in D'; [|apply Pqs; assumption|assumption].
      subst. contradiction. }
    destruct D as [j Hj]. exists j. unfold prodl in *; cbn [fold_right].
    rewrite Hk, Hj. ring.
Qed.

Theorem pockl_sound n a qs : Forall prime qs -> NoDup qs -> pockl_ok n a qs = true -> prime n.
Proof.
  intros P ND H. unfold pockl_ok in H.
  apply andb_prop in H; destruct H as [H H4].
  apply andb_prop in H; destruct H as [H H3].
  apply andb_prop in H; destruct H as [H1 H2].
  apply Z.ltb_lt in H1, H3. apply Z.eqb_eq in H2.
  rewrite powm_spec, Z2Pos.id in H2 by lia.
  rewrite forallb_forall in H4. pose proof P as P'. rewrite Forall_forall in P'.
  destruct (prime_dec n) as [Pn|Pn]; [exact Pn|exfalso].
  destruct (exists_small_prime_divisor n H1 Pn) as (r & Pr & Dr & Hrr).
  assert (D : (prodl qs | r - 1)).
  { apply prod_divides; try assumption. intros q Hq.
    specialize (H4 q Hq).
    apply andb_prop in H4; destruct H4 as [H4 H7].
    apply andb_prop in H4; destruct H4 as [H5 H6].
    apply Z.ltb_lt in H6. apply Z.eqb_eq in H5, H7.
    rewrite powm_spec, Z2Pos.id in H7 by lia.
    apply (pock_step n q a ((n - 1) / q) r); try assumption; try lia.
    - apply P'; assumption.
    - refine (eq_trans (gcd_mod_sub _ _ _ _ _) H7); [lia|]. symmetry. apply Zmod_mod. }
  pose proof (prime_ge_2 r Pr).
  assert (0 <= prodl qs).
  { clear - P. induction P as [|q qs Pq Pqs IH]; unfold prodl in *; cbn [fold_right]; [lia|].
    pose proof (prime_ge_2 q Pq). nia. }
  apply Z.divide_pos_le in D; [|lia]. nia.
Qed.

(** Trial division for small numbers. *)
Fixpoint no_div (n d : Z) (fuel : nat) : bool :=
  match fuel with
  | O => n <? d * d
  | S f => if n <? d * d then true
           else if n mod d =? 0 then false else no_div n (d + 1) f
  end.

Lemma no_div_sound n d fuel : 1 < d -> no_div n d fuel = true ->
  forall e, d <= e -> e * e <= n -> ~ (e | n).
Proof.
  revert d. induction fuel as [|f IH]; intros d Hd H e He Hee D; cbn [no_div] in H.
  - apply Z.ltb_lt in H. nia.
  - destruct (Z.ltb_spec n (d * d)); [nia|].
    destruct (Z.eqb_spec (n mod d) 0) as [E|E]; [discriminate|].
    destruct (Z.eq_dec e d) as [->|Ne].
    + apply E. apply Zdivide_mod. exact D.
    + apply (IH (d + 1) ltac:(lia) H e); [lia|assumption|assumption].
Qed.

Definition small_prime_ok (n : Z) (fuel : nat) : bool := (1 <? n) && no_div n 2 fuel.

Theorem small_prime_sound n fuel : small_prime_ok n fuel = true -> prime n.
Proof.
  intros H. apply andb_prop in H; destruct H as [H1 H2]. apply Z.ltb_lt in H1.
  destruct (prime_dec n) as [P|P]; [exact P|exfalso].
  destruct (exists_small_prime_divisor n H1 P) as (r & Pr & Dr & Hrr).
  pose proof (prime_ge_2 r Pr).
  apply (no_div_sound n 2 fuel ltac:(lia) H2 r); try assumption.
Qed.
