(** Property theorems C38-C40: the random generator (csprng.go). [key] (the n-th key
    read from the operating system) and [ks] (AES-CTR) are any functions. *)
From Coq Require Import ZArith List Lia Bool.
From Coq Require Import Init.Byte.
From Verif Require Import Bytes Res Csprng CsprngSpec CsprngProofs.
Import ListNotations.
Open Scope Z_scope.

(** ** C38 *)
Theorem C38_independent_of_contents : forall key ks fuel avail c d1 d2, length d1 = length d2 ->
  fill key ks fuel avail c d1 = fill key ks fuel avail c d2.
Proof.
  intros key ks fuel avail c d1 d2 H. unfold fill. f_equal.
  revert d2 H. induction d1 as [|x d1 IH]; intros [|y d2] H; try discriminate; cbn; [reflexivity|].
  f_equal. apply IH. injection H as H. exact H.
Qed.
(** After any calls, Fill terminates and writes exactly len(dst) bytes; it returns
    normally unless a key cannot be read. *)
Theorem C38_fill_total : forall key ks cs c outs avail dst,
  rrun key ks rng0 cs = Some (c, outs) ->
  exists c' d ok, fill key ks (S (length dst)) avail c dst = Some (c', d, ok) /\ length d = length dst /\
    (ok = true -> d = out_bytes key ks (taken c) (length dst)) /\
    (ok = false -> exists n, avail n = false).
Proof.
  intros key ks cs c outs avail dst H. assert (I : rinv key c) by (eapply rrun_inv; [apply rinv0|exact H]).
  destruct (fill_spec key ks (S (length dst)) avail c dst I ltac:(lia)) as (c' & ok & n & E & I' & T & L & OK & NA).
  exists c', (out_bytes key ks (taken c) n ++ repeat x00 (length dst - n)), ok. split; [exact E|].
  split; [rewrite app_length, out_bytes_length, repeat_length; lia|]. split; [|exact NA].
  intros X. apply OK in X. subst n. rewrite Nat.sub_diag. apply app_nil_r.
Qed.
Example C38_ex : forall key ks, exists c,
  rrun key ks rng0 [CFill (fun _ => true) [x05; x06]; CXor (fun _ => true) [x01] []] =
    Some (c, [([ks (key 0%nat) 0; ks (key 0%nat) 1], true); ([x01], false)]) /\ taken c = 2.
Proof.
  intros key ks. eexists. split.
  - lazy -[xor_byte]. rewrite !xor_zero. reflexivity.
  - reflexivity.
Qed.
Print Assumptions C38_independent_of_contents. Print Assumptions C38_fill_total.

(** ** C39 *)
(** Any calls, with any failures of the operating system's generator. *)
Theorem C39_consecutive : forall key ks cs, exists c outs, rrun key ks rng0 cs = Some (c, outs) /\
  consecutive key ks 0 cs outs (taken c).
Proof. intros key ks cs. destruct (rrun_spec key ks cs rng0 (rinv0 key)) as (c & o & E & _ & H). eauto. Qed.
(** No failures: the concatenated outputs are exactly the first bytes of the
    successive keystreams, 2^20 of each, and no key is drawn early. *)
Theorem C39_output : forall key ks cs, Forall always cs -> (forall x, In x cs -> ~ mismatch x) ->
  exists c outs, rrun key ks rng0 cs = Some (c, outs) /\ Forall (fun o => snd o = true) outs /\
    concat (map fst outs) = out_bytes key ks 0 (total_len cs) /\
    Z.of_nat (total_len cs) <= Z.of_nat (g_nk c) * mebi < Z.of_nat (total_len cs) + mebi.
Proof. exact output_spec. Qed.
(** Byte number m comes from position m mod 2^20 of key number m / 2^20 (the
    definition of [out_byte]); different m, different pair. *)
Theorem C39_no_reuse : forall m m', 0 <= m -> 0 <= m' ->
  Z.to_nat (m / 2 ^ 20) = Z.to_nat (m' / 2 ^ 20) -> m mod 2 ^ 20 = m' mod 2 ^ 20 -> m = m'.
Proof.
  intros m m' H H' E1 E2. apply Z2Nat.inj in E1; try (apply Z.div_pos; lia).
  rewrite (Z.div_mod m (2 ^ 20)), (Z.div_mod m' (2 ^ 20)) by discriminate. congruence.
Qed.
(** Concurrent callers under any schedule: what every finished caller got is
    one run of consecutive bytes, and no two callers share one. *)
Theorem C39_concurrent : forall key ks f sched, (forall t, exists d, f t = Idle d) ->
  let w := wrun key ks (mkWorld rng0 None f) sched in
  exists iv : nat -> option (Z * nat),
    (forall t d, w_thr w t = Returned d -> exists a n, iv t = Some (a, n) /\ 0 <= a /\ d = out_bytes key ks a n) /\
    (forall t u a n b m, t <> u -> iv t = Some (a, n) -> iv u = Some (b, m) ->
       forall x, a <= x < a + Z.of_nat n -> b <= x < b + Z.of_nat m -> False).
Proof.
  intros key ks f sched H w.
  destruct (wrun_inv key ks sched _ _ (winv0 key ks rng0 f (rinv0 key) H)) as [iv I]. fold w in I.
  exists iv. split; [|apply I]. intros t d E. pose proof (wi_thr _ _ _ _ I t) as T. rewrite E in T.
  destruct T as (a & n & E1 & E2). exists a, n. split; [exact E1|]. split; [|exact E2].
  apply (wi_bound _ _ _ _ I t a n E1).
Qed.
(** Returned destinations have the length asked for. *)
Theorem C39_concurrent_length : forall key ks f sched t d0 d, f t = Idle d0 ->
  w_thr (wrun key ks (mkWorld rng0 None f) sched) t = Returned d -> length d = length d0.
Proof. exact wrun_length. Qed.
Example C39_ex : forall key ks,
  let f := fun t => if Nat.eqb t 0 then Idle [x01; x02] else Idle [x03] in
  let w := wrun key ks (mkWorld rng0 None f)
    [(0%nat, true); (1%nat, true); (1%nat, true); (0%nat, true); (1%nat, true); (1%nat, true);
     (0%nat, true); (0%nat, true); (0%nat, true)] in
  w_thr w 0%nat = Returned [ks (key 0%nat) 1; ks (key 0%nat) 2] /\ w_thr w 1%nat = Returned [ks (key 0%nat) 0].
Proof.
  intros key ks f w.
  assert (E : forall b, xor_byte x00 b = b) by exact xor_zero.
  split; subst w f; lazy -[xor_byte]; rewrite ?E; reflexivity.
Qed.
Print Assumptions C39_consecutive. Print Assumptions C39_output. Print Assumptions C39_no_reuse.
Print Assumptions C39_concurrent. Print Assumptions C39_concurrent_length.

(** ** C40 *)
Theorem C40_mismatch_panics_first : forall key ks fuel avail c dst src, length dst <> length src ->
  xor_key_stream key ks fuel avail c dst src = Some (c, dst, false).
Proof.
  intros key ks fuel avail c dst src H. unfold xor_key_stream.
  destruct (Z.ltb_spec (Z.of_nat (length dst)) (Z.of_nat (length src))); [reflexivity|].
  destruct (Z.ltb_spec (Z.of_nat (length src)) (Z.of_nat (length dst))); [reflexivity|lia].
Qed.
Theorem C40_match_is_fill : forall key ks fuel avail c dst src, length dst = length src ->
  xor_key_stream key ks fuel avail c dst src = fill key ks fuel avail c dst.
Proof.
  intros key ks fuel avail c dst src H. unfold xor_key_stream. rewrite H, Z.ltb_irrefl. reflexivity.
Qed.
(** With randomness available XORKeyStream panics iff the lengths differ. *)
Theorem C40_panics_iff : forall key ks cs c outs avail dst src,
  rrun key ks rng0 cs = Some (c, outs) -> (forall n, avail n = true) ->
  exists c' d ok, xor_key_stream key ks (S (length dst)) avail c dst src = Some (c', d, ok) /\
    (ok = false <-> length dst <> length src).
Proof.
  intros key ks cs c outs avail dst src H AV. destruct (Nat.eq_dec (length dst) (length src)) as [E|NE].
  - rewrite C40_match_is_fill by exact E.
    destruct (C38_fill_total key ks cs c outs avail dst H) as (c' & d & ok & EF & _ & _ & NA).
    exists c', d, ok. split; [exact EF|]. split; [|contradiction].
    intros X. destruct (NA X) as [n Y]. rewrite AV in Y. discriminate.
  - rewrite C40_mismatch_panics_first by exact NE. exists c, dst, false. tauto.
Qed.
Example C40_ex : length [x01] <> length (@nil byte) /\ length [x01] = length [x02].
Proof. split; [discriminate|reflexivity]. Qed.
Print Assumptions C40_mismatch_panics_first. Print Assumptions C40_match_is_fill. Print Assumptions C40_panics_iff.
