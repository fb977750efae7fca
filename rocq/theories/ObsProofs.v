(** Invariants of the termination observers. *)
From Coq Require Import ZArith List Lia Bool Permutation.
From Verif Require Import Bytes Res KMap Observers ObsSpec.
Import ListNotations.
Open Scope nat_scope.

Lemma upd_nth_split {A} (l : list A) i x y : nth_error l i = Some x ->
  exists a b, l = a ++ x :: b /\ length a = i /\ upd_nth l i y = a ++ y :: b.
Proof.
  revert i. induction l as [|z l IH]; intros [|i] H; try discriminate; cbn in H.
  - injection H as ->. exists [], l. auto.
  - destruct (IH i H) as (a&b&->&L&E). exists (z :: a), b. cbn. rewrite E, L. auto.
Qed.
Lemma upd_nth_length {A} (l : list A) i x : length (upd_nth l i x) = length l.
Proof. revert i. induction l as [|z l IH]; intros [|i]; cbn; auto. Qed.
Lemma nth_upd_nth {A} (l : list A) i j x : nth_error (upd_nth l i x) j =
  if Nat.eqb i j then match nth_error l j with Some _ => Some x | None => None end else nth_error l j.
Proof.
  revert i j. induction l as [|z l IH]; intros [|i] [|j]; cbn; try reflexivity.
  - destruct (Nat.eqb i j); reflexivity.
  - apply IH.
Qed.

Definition tpend (t : thr) : list nat := match t with TTell cs => cs | TClose _ cs => cs | _ => [] end.
Definition tclosing (t : thr) : list nat := match t with TClose c _ => [c] | _ => [] end.
Definition work (s : ost) : list nat := map snd (os_obs s) ++ flat_map tpend (os_thrs s).
Definition closing (s : ost) : list nat := flat_map tclosing (os_thrs s).

(** A thread that will take the channels of [k], and may. *)
Definition takes (s : ost) (k : key) (t : thr) : Prop :=
  t = TTake k \/ t = TObs k \/ exists r, t = TRead r /\ nth_error (os_objs s) r = Some (mkObj k true).

Record oinv (s : ost) (tr : list oobs) : Prop := {
  v_nodup : NoDup (work s ++ closing s);
  v_work : forall c, In c (work s) -> nth_error (os_chans s) c = Some (mkCh 0 false) /\ sends c tr = 0 /\ closes c tr = 0;
  v_closing : forall c, In c (closing s) -> (exists b, nth_error (os_chans s) c = Some (mkCh b false)) /\ sends c tr = 1 /\ closes c tr = 0;
  v_done : forall c, c < length (os_chans s) -> ~ In c (work s) -> ~ In c (closing s) ->
    (exists b, nth_error (os_chans s) c = Some (mkCh b true)) /\ sends c tr = 1 /\ closes c tr = 1;
  v_fresh : forall c, length (os_chans s) <= c -> sends c tr = 0 /\ closes c tr = 0;
  v_reg : forall c k, In (ORegister c k) tr -> c < length (os_chans s);
  v_reg_fun : forall c k k', In (ORegister c k) tr -> In (ORegister c k') tr -> k = k';
  v_obs : forall c k, In (k, c) (os_obs s) -> In (ORegister c k) tr;
  v_pend : forall c t, In t (os_thrs s) -> In c (tpend t) -> exists k, In (ORegister c k) tr /\ In (OTerminate k) tr;
  v_obj : forall r o, nth_error (os_objs s) r = Some o -> ob_term o = true -> In (OTerminate (ob_key o)) tr;
  v_take : forall k, In (TTake k) (os_thrs s) -> In (OTerminate k) tr;
  v_table : forall k r, kget (os_table s) k = Some r -> exists o, nth_error (os_objs s) r = Some o /\ ob_key o = k;
  v_thr : forall t, In t (os_thrs s) -> match t with TRead r | TRun r => r < length (os_objs s) | _ => True end;
  v_listed : forall c k r, In (k, c) (os_obs s) -> kget (os_table s) k = Some r ->
    nth_error (os_objs s) r = Some (mkObj k true) -> exists t, In t (os_thrs s) /\ takes s k t;
  v_later : forall c k a b, In (k, c) (os_obs s) -> tr = a ++ ORegister c k :: b -> In (OTerminate k) b ->
    In (TTake k) (os_thrs s)
}.

Lemma sends_app c a b : sends c (a ++ b) = sends c a + sends c b.
Proof. unfold sends. rewrite filter_app, app_length. reflexivity. Qed.
Lemma closes_app c a b : closes c (a ++ b) = closes c a + closes c b.
Proof. unfold closes. rewrite filter_app, app_length. reflexivity. Qed.

Lemma oinv0 : oinv ost0 [].
Proof.
  constructor; cbn; intros; try contradiction; try lia; auto using NoDup_nil; try discriminate.
  all: try (destruct r; discriminate).
  all: try (destruct a; discriminate).
Qed.

Lemma in_replace {A} (a b : list A) x y t : In t (a ++ y :: b) -> t = y \/ In t (a ++ x :: b).
Proof. rewrite !in_app_iff. cbn. intuition. Qed.
Lemma in_replaced {A} (a b : list A) x y t : In t (a ++ x :: b) -> t = x \/ In t (a ++ y :: b).
Proof. rewrite !in_app_iff. cbn. intuition. Qed.

(** A step that only changes one thread, which holds no channels before and after. *)
Lemma oinv_thr s tr i t t' : oinv s tr -> nth_error (os_thrs s) i = Some t ->
  tpend t = tpend t' -> tclosing t = [] -> tclosing t' = [] ->
  match t' with TRead r | TRun r => r < length (os_objs s) | TTake k => In (OTerminate k) tr | _ => True end ->
  (forall k, t <> TTake k) ->
  (forall k c r, In (k, c) (os_obs s) -> kget (os_table s) k = Some r -> nth_error (os_objs s) r = Some (mkObj k true) -> takes s k t -> takes s k t') ->
  oinv (set_thr s i t') tr.
Proof.
  intros V N P C C' T NT TK. destruct (upd_nth_split _ _ _ t' N) as (a&b&E&_&U).
  assert (W: work (set_thr s i t') = work s).
  { unfold work, set_thr. cbn. rewrite U, E, !flat_map_app. cbn. rewrite P. reflexivity. }
  assert (L: closing (set_thr s i t') = closing s).
  { unfold closing, set_thr. cbn. rewrite U, E, !flat_map_app. cbn. rewrite C, C'. reflexivity. }
  destruct V. constructor; rewrite ?W, ?L; cbn [set_thr os_chans os_obs os_objs os_table os_thrs]; try assumption; rewrite ?U.
  - intros c u I J. destruct (in_replace _ _ t _ _ I) as [->|I2]; [|rewrite <- E in I2; eauto].
    rewrite <- P in J. apply (v_pend0 c t); [rewrite E; apply in_elt|exact J].
  - intros k I. destruct (in_replace _ _ t _ _ I) as [<-|I2]; [exact T|rewrite <- E in I2; auto].
  - intros u I. destruct (in_replace _ _ t _ _ I) as [->|I2]; [|rewrite <- E in I2; apply v_thr0; exact I2].
    destruct t'; auto.
  - intros c k r I G O. destruct (v_listed0 c k r I G O) as (u&J&K). rewrite E in J.
    destruct (in_replaced _ _ _ t' _ J) as [->|J2].
    + exists t'. split; [apply in_elt|]. exact (TK k c r I G O K).
    + exists u. split; [exact J2|exact K].
  - intros c k a0 b0 I G O. specialize (v_later0 c k a0 b0 I G O). rewrite E in v_later0.
    destruct (in_replaced _ _ _ t' _ v_later0) as [X|J2]; [|exact J2]. exfalso. symmetry in X. exact (NT k X).
Qed.

Lemma chans_others k l c k' : In (k', c) (others_of k l) -> In (k', c) l /\ k' <> k.
Proof.
  unfold others_of. intros I. apply filter_In in I. destruct I as [I J]. split; [exact I|]. cbn in J.
  destruct (key_eqb_spec k k'); [discriminate|congruence].
Qed.
Lemma chans_of_in k l c : In c (chans_of k l) -> In (k, c) l.
Proof.
  unfold chans_of. intros I. apply in_map_iff in I. destruct I as ([k' c']&<-&I). apply filter_In in I.
  destruct I as [I J]. cbn in J. destruct (key_eqb_spec k k'); [subst; exact I|discriminate].
Qed.
Lemma chans_perm k l : Permutation (map snd l) (map snd (others_of k l) ++ chans_of k l).
Proof.
  unfold others_of, chans_of. induction l as [|[k' c] l IH]; cbn; [constructor|].
  destruct (key_eqb k k'); cbn.
  - apply Permutation_cons_app. exact IH.
  - constructor. exact IH.
Qed.

(** Splitting a trace that has grown by one observation. *)
Lemma app_last_split {A} (tr a b : list A) x y : tr ++ [x] = a ++ y :: b ->
  (b = [] /\ y = x /\ a = tr) \/ exists b', b = b' ++ [x] /\ tr = a ++ y :: b'.
Proof.
  intros E. destruct (rev b) as [|z r] eqn:R.
  - apply (f_equal (@rev _)) in R. rewrite rev_involutive in R. cbn in R. subst b.
    left. apply app_inj_tail in E. destruct E as [-> ->]. auto.
  - apply (f_equal (@rev _)) in R. rewrite rev_involutive in R. cbn in R. subst b.
    right. exists (rev r).
    change (a ++ y :: rev r ++ [z]) with (a ++ (y :: rev r) ++ [z]) in E. rewrite app_assoc in E.
    apply app_inj_tail in E. destruct E as [-> ->]. auto.
Qed.

Lemma oinv_observe s tr k : oinv s tr ->
  let c := length (os_chans s) in
  oinv (mkOst (os_chans s ++ [mkCh 0 false]) (os_obs s ++ [(k, c)]) (os_objs s) (os_table s) (os_thrs s ++ [TObs k])) (tr ++ [ORegister c k]).
Proof.
  intros V c. set (s' := mkOst _ _ _ _ _).
  assert (W: forall x, In x (work s') <-> x = c \/ In x (work s)).
  { intros x. unfold work, s'. cbn. rewrite map_app, flat_map_app. cbn. rewrite !in_app_iff. cbn. intuition. }
  assert (WP: Permutation (work s' ++ closing s') (c :: work s ++ closing s)).
  { unfold work, closing, s'. cbn. rewrite map_app, !flat_map_app. cbn. rewrite !app_nil_r, <- !app_assoc. cbn.
    symmetry. apply Permutation_middle. }
  assert (L: closing s' = closing s).
  { unfold closing, s'. cbn. rewrite flat_map_app. cbn. apply app_nil_r. }
  assert (B: forall x, In x (work s ++ closing s) -> x < c).
  { intros x I. apply in_app_or in I. destruct I as [I|I].
    - destruct (v_work _ _ V x I) as (H&_). apply nth_error_Some. congruence.
    - destruct (v_closing _ _ V x I) as ((y&H)&_). apply nth_error_Some. congruence. }
  assert (SA: forall x, sends x (tr ++ [ORegister c k]) = sends x tr) by (intros; rewrite sends_app; cbn; lia).
  assert (CA: forall x, closes x (tr ++ [ORegister c k]) = closes x tr) by (intros; rewrite closes_app; cbn; lia).
  destruct V. constructor; rewrite ?L; cbn [s' os_chans os_obs os_objs os_table os_thrs].
  - rewrite <- L. eapply Permutation_NoDup; [symmetry; exact WP|]. constructor; [|exact v_nodup0].
    intros I. specialize (B _ I). lia.
  - intros x I. rewrite SA, CA. apply W in I. destruct I as [->|I].
    + rewrite nth_error_app2 by (unfold c; lia). unfold c. rewrite Nat.sub_diag. split; [reflexivity|apply v_fresh0; lia].
    + destruct (v_work0 x I) as (H&?). split; [|assumption].
      rewrite nth_error_app1; [exact H|]. apply nth_error_Some. congruence.
  - intros x I. rewrite SA, CA. destruct (v_closing0 x I) as ((b&H)&?). split; [|assumption].
    exists b. rewrite nth_error_app1; [exact H|]. apply nth_error_Some. congruence.
  - intros x H NW NC. rewrite SA, CA. rewrite app_length in H. cbn in H.
    assert (x <> c) by (intros ->; apply NW, W; auto).
    destruct (v_done0 x) as ((b&H1)&?); [unfold c in *; lia|intros I; apply NW, W; auto|exact NC|].
    split; [|assumption]. exists b. rewrite nth_error_app1; [exact H1|]. apply nth_error_Some. congruence.
  - intros x H. rewrite SA, CA. rewrite app_length in H. apply v_fresh0. lia.
  - intros x k' I. rewrite app_length. cbn. apply in_app_or in I. destruct I as [I|[I|[]]].
    + specialize (v_reg0 x k' I). lia.
    + injection I as <- _. unfold c. lia.
  - intros x k1 k2 I1 I2. apply in_app_or in I1, I2.
    destruct I1 as [I1|[I1|[]]], I2 as [I2|[I2|[]]].
    + eauto.
    + injection I2 as <- _. apply v_reg0 in I1. unfold c in I1. lia.
    + injection I1 as <- _. apply v_reg0 in I2. unfold c in I2. lia.
    + congruence.
  - intros x k' I. apply in_app_or in I. apply in_or_app. destruct I as [I|[I|[]]]; [left; auto|].
    injection I as <- <-. right. left. reflexivity.
  - intros x t I J. apply in_app_or in I. destruct I as [I|[<-|[]]]; [|destruct J].
    destruct (v_pend0 x t I J) as (k'&?&?). exists k'. split; apply in_or_app; auto.
  - intros r o N O. apply in_or_app. left. eauto.
  - intros k' I. apply in_or_app. left. apply in_app_or in I. destruct I as [I|[I|[]]]; [auto|discriminate].
  - assumption.
  - intros t I. apply in_app_or in I. destruct I as [I|[<-|[]]]; [apply v_thr0; exact I|exact Logic.I].
  - intros x k' r I G O. apply in_app_or in I. destruct I as [I|[I|[]]].
    + destruct (v_listed0 x k' r I G O) as (t&J&K). exists t. split; [apply in_or_app; auto|exact K].
    + injection I as <- <-. exists (TObs k). split; [apply in_or_app; cbn; auto|]. right. left. reflexivity.
  - intros x k' a b I E J. apply in_or_app. left. apply app_last_split in E.
    destruct E as [(->&_)|(b'&->&E)]; [destruct J|].
    apply in_app_or in J. destruct J as [J|[J|[]]]; [|discriminate].
    apply in_app_or in I. destruct I as [I|[I|[]]]; [exact (v_later0 x k' a b' I E J)|].
    injection I as <- <-. exfalso. assert (c < length (os_chans s)).
    { apply (v_reg0 c k). rewrite E. apply in_elt. } unfold c in *. lia.
Qed.

Lemma oinv_ensure s tr k : oinv s tr -> kget (os_table s) k = None ->
  let r := length (os_objs s) in
  oinv (mkOst (os_chans s) (os_obs s) (os_objs s ++ [mkObj k false]) (kset (os_table s) k r) (os_thrs s ++ [TRun r])) (tr ++ [OCreate k]).
Proof.
  intros V G r. set (s' := mkOst _ _ _ _ _).
  assert (W: work s' = work s).
  { unfold work, s'. cbn. rewrite flat_map_app. cbn. rewrite app_nil_r. reflexivity. }
  assert (L: closing s' = closing s).
  { unfold closing, s'. cbn. rewrite flat_map_app. cbn. apply app_nil_r. }
  assert (SA: forall x, sends x (tr ++ [OCreate k]) = sends x tr) by (intros; rewrite sends_app; cbn; lia).
  assert (CA: forall x, closes x (tr ++ [OCreate k]) = closes x tr) by (intros; rewrite closes_app; cbn; lia).
  assert (IN: forall o, In o tr -> In o (tr ++ [OCreate k])) by (intros; apply in_or_app; auto).
  assert (NI: forall o, In o (tr ++ [OCreate k]) -> o <> OCreate k -> In o tr).
  { intros o I N. apply in_app_or in I. destruct I as [I|[I|[]]]; [exact I|congruence]. }
  destruct V. constructor; rewrite ?L, ?W; cbn [s' os_chans os_obs os_objs os_table os_thrs]; try assumption.
  - intros x I. rewrite SA, CA. auto.
  - intros x I. rewrite SA, CA. auto.
  - intros x ? ? ?. rewrite SA, CA. auto.
  - intros x ?. rewrite SA, CA. auto.
  - intros x k' I. apply NI in I; [eauto|discriminate].
  - intros x k1 k2 I1 I2. apply NI in I1; [|discriminate]. apply NI in I2; [|discriminate]. eauto.
  - auto.
  - intros x t I J. apply in_app_or in I. destruct I as [I|[<-|[]]]; [|destruct J].
    destruct (v_pend0 x t I J) as (k'&?&?). exists k'. auto.
  - intros q o N O. destruct (Nat.ltb_spec q (length (os_objs s))).
    + rewrite nth_error_app1 in N by lia. eauto.
    + rewrite nth_error_app2 in N by lia. destruct (q - length (os_objs s)) as [|[|]]; try discriminate. injection N as <-. discriminate.
  - intros k' I. apply in_app_or in I. destruct I as [I|[I|[]]]; [auto|discriminate].
  - intros k' q K. rewrite kget_kset in K. destruct (key_eqb_spec k k') as [<-|N].
    + injection K as <-. exists (mkObj k false). split; [|reflexivity].
      rewrite nth_error_app2 by (unfold r; lia). unfold r. rewrite Nat.sub_diag. reflexivity.
    + destruct (v_table0 k' q K) as (o&H&?). exists o. split; [|assumption].
      rewrite nth_error_app1; [exact H|]. apply nth_error_Some. congruence.
  - intros t I. rewrite app_length. cbn. apply in_app_or in I. destruct I as [I|[<-|[]]].
    + specialize (v_thr0 t I). destruct t; try exact Logic.I; lia.
    + unfold r. lia.
  - intros x k' q I K O. rewrite kget_kset in K. destruct (key_eqb_spec k k') as [<-|N].
    + injection K as <-. rewrite nth_error_app2 in O by (unfold r; lia). unfold r in O. rewrite Nat.sub_diag in O. discriminate.
    + destruct (v_table0 k' q K) as (o&H&_). rewrite nth_error_app1 in O by (apply nth_error_Some; congruence).
      destruct (v_listed0 x k' q I K O) as (t&J&T). exists t. split; [apply in_or_app; auto|].
      destruct T as [T|[T|(q'&T&T2)]]; [left; exact T|right; left; exact T|right; right]. exists q'. split; [exact T|].
      unfold s'. cbn. rewrite nth_error_app1; [exact T2|]. apply nth_error_Some. congruence.
  - intros x k' a b I E J. apply in_or_app. left. apply app_last_split in E.
    destruct E as [(->&_)|(b'&->&E)]; [destruct J|].
    apply in_app_or in J. destruct J as [J|[J|[]]]; [|discriminate]. exact (v_later0 x k' a b' I E J).
Qed.

Lemma oinv_delete s tr k : oinv s tr -> oinv (mkOst (os_chans s) (os_obs s) (os_objs s) (kdel (os_table s) k) (os_thrs s)) tr.
Proof.
  intros V. destruct V. constructor; cbn [os_chans os_obs os_objs os_table os_thrs]; try assumption.
  - intros k' q K. rewrite kget_kdel in K. destruct (key_eqb k k'); [discriminate|]. eauto.
  - intros x k' q I K O. rewrite kget_kdel in K. destruct (key_eqb k k'); [discriminate|].
    destruct (v_listed0 x k' q I K O) as (t&J&T). exists t. auto.
Qed.

Lemma oinv_read s tr c ch : oinv s tr -> nth_error (os_chans s) c = Some ch ->
  oinv (mkOst (upd_nth (os_chans s) c (mkCh (pred (ch_buf ch)) (ch_closed ch))) (os_obs s) (os_objs s) (os_table s) (os_thrs s)) tr.
Proof.
  intros V N. set (s' := mkOst _ _ _ _ _).
  assert (H: forall x, nth_error (os_chans s') x = match nth_error (os_chans s) x with
    | Some y => Some (mkCh (if Nat.eqb c x then pred (ch_buf y) else ch_buf y) (ch_closed y)) | None => None end).
  { intros x. unfold s'. cbn [os_chans]. rewrite nth_upd_nth. destruct (Nat.eqb_spec c x) as [<-|].
    - rewrite N. reflexivity.
    - destruct (nth_error (os_chans s) x) as [[]|]; reflexivity. }
  assert (LN: length (os_chans s') = length (os_chans s)) by apply upd_nth_length.
  destruct V. constructor; rewrite ?LN; try assumption.
  - intros x I. rewrite H. destruct (v_work0 x I) as (->&?). cbn. split; [|assumption]. destruct (Nat.eqb c x); reflexivity.
  - intros x I. rewrite H. destruct (v_closing0 x I) as ((b&->)&?). cbn. split; [|assumption]. eexists. reflexivity.
  - intros x A B C. rewrite H. destruct (v_done0 x A B C) as ((b&->)&?). cbn. split; [|assumption]. eexists. reflexivity.
Qed.

Lemma oinv_run s tr i r o : oinv s tr -> nth_error (os_thrs s) i = Some (TRun r) -> nth_error (os_objs s) r = Some o ->
  oinv (mkOst (os_chans s) (os_obs s) (upd_nth (os_objs s) r (mkObj (ob_key o) true)) (os_table s) (upd_nth (os_thrs s) i (TTake (ob_key o))))
       (tr ++ [OTerminate (ob_key o)]).
Proof.
  intros V N O. destruct (upd_nth_split _ _ _ (TTake (ob_key o)) N) as (a&b&E&_&U).
  set (k := ob_key o) in *. set (s' := mkOst _ _ _ _ _).
  assert (W: work s' = work s).
  { unfold work, s'. cbn. rewrite U, E, !flat_map_app. reflexivity. }
  assert (L: closing s' = closing s).
  { unfold closing, s'. cbn. rewrite U, E, !flat_map_app. reflexivity. }
  assert (SA: forall x, sends x (tr ++ [OTerminate k]) = sends x tr) by (intros; rewrite sends_app; cbn; lia).
  assert (CA: forall x, closes x (tr ++ [OTerminate k]) = closes x tr) by (intros; rewrite closes_app; cbn; lia).
  assert (IN: forall x, In x tr -> In x (tr ++ [OTerminate k])) by (intros; apply in_or_app; auto).
  assert (NI: forall x, In x (tr ++ [OTerminate k]) -> x <> OTerminate k -> In x tr).
  { intros x I Q. apply in_app_or in I. destruct I as [I|[I|[]]]; [exact I|congruence]. }
  assert (ON: forall q, nth_error (os_objs s') q = if Nat.eqb r q then Some (mkObj k true) else nth_error (os_objs s) q).
  { intros q. unfold s'. cbn [os_objs]. rewrite nth_upd_nth. destruct (Nat.eqb_spec r q) as [<-|]; [rewrite O|]; reflexivity. }
  assert (LN: length (os_objs s') = length (os_objs s)) by apply upd_nth_length.
  assert (MT: In (TTake k) (os_thrs s')) by (unfold s'; cbn [os_thrs]; rewrite U; apply in_elt).
  assert (IT: forall t, In t (os_thrs s') -> t = TTake k \/ In t (os_thrs s)).
  { intros t. unfold s'. cbn [os_thrs]. rewrite U, E. apply in_replace. }
  assert (TI: forall t, In t (os_thrs s) -> t = TRun r \/ In t (os_thrs s')).
  { intros t. unfold s'. cbn [os_thrs]. rewrite U, E. apply in_replaced. }
  destruct V. constructor; rewrite ?L, ?W, ?LN; try assumption.
  - intros x I. rewrite SA, CA. auto.
  - intros x I. rewrite SA, CA. auto.
  - intros x ? ? ?. rewrite SA, CA. auto.
  - intros x ?. rewrite SA, CA. auto.
  - intros x k' I. apply NI in I; [eauto|discriminate].
  - intros x k1 k2 I1 I2. apply NI in I1; [|discriminate]. apply NI in I2; [|discriminate]. eauto.
  - auto.
  - intros x t I J. destruct (IT t I) as [->|I2]; [destruct J|].
    destruct (v_pend0 x t I2 J) as (k'&?&?). exists k'. auto.
  - intros q p. rewrite ON. destruct (Nat.eqb r q).
    + intros X _. injection X as <-. apply in_or_app. cbn. auto.
    + intros X Y. eauto.
  - intros k' I. destruct (IT _ I) as [X|I2]; [injection X as ->; apply in_or_app; cbn; auto|auto].
  - intros k' q K. rewrite ON. destruct (v_table0 k' q K) as (p&P1&P2). destruct (Nat.eqb_spec r q) as [<-|]; [|eauto].
    exists (mkObj k true). split; [reflexivity|]. cbn. unfold k. congruence.
  - intros t I. destruct (IT t I) as [->|I2]; [exact Logic.I|apply v_thr0; exact I2].
  - intros x k' q I K. rewrite ON. destruct (Nat.eqb_spec r q) as [<-|].
    + intros X. injection X as <-. exists (TTake k). split; [exact MT|left; reflexivity].
    + intros X. destruct (v_listed0 x k' q I K X) as (t&J&T). exists t. split.
      * destruct (TI t J) as [->|J2]; [|exact J2]. destruct T as [T|[T|(q'&T&_)]]; discriminate.
      * destruct T as [T|[T|(q'&T&T2)]]; [left; exact T|right; left; exact T|right; right]. exists q'. split; [exact T|].
        rewrite ON. destruct (Nat.eqb_spec r q') as [<-|]; [|exact T2]. rewrite O in T2. injection T2 as T2. unfold k. rewrite T2. reflexivity.
  - intros x k' a0 b0 I X J. apply app_last_split in X.
    destruct X as [(->&_)|(b'&->&X)]; [destruct J|].
    apply in_app_or in J. destruct J as [J|[J|[]]].
    + destruct (TI _ (v_later0 x k' a0 b' I X J)) as [Y|Y]; [discriminate|exact Y].
    + injection J as <-. exact MT.
Qed.

Lemma oinv_taken s tr i k : oinv s tr -> nth_error (os_thrs s) i = Some (TTake k) ->
  oinv (mkOst (os_chans s) (others_of k (os_obs s)) (os_objs s) (os_table s) (upd_nth (os_thrs s) i (TTell (chans_of k (os_obs s))))) tr.
Proof.
  intros V N. destruct (upd_nth_split _ _ _ (TTell (chans_of k (os_obs s))) N) as (a&b&E&_&U).
  set (s' := mkOst _ _ _ _ _).
  assert (WP: Permutation (work s') (work s)).
  { unfold work, s'. cbn [os_obs os_thrs]. rewrite U, E, !flat_map_app. cbn [flat_map tpend app].
    rewrite (chans_perm k (os_obs s)). rewrite <- !app_assoc. apply Permutation_app_head.
    apply Permutation_app_swap_app. }
  assert (L: closing s' = closing s).
  { unfold closing, s'. cbn [os_thrs]. rewrite U, E, !flat_map_app. reflexivity. }
  assert (W: forall x, In x (work s') <-> In x (work s)).
  { intros x. split; apply Permutation_in; [exact WP|symmetry; exact WP]. }
  assert (IT: forall t, In t (os_thrs s') -> t = TTell (chans_of k (os_obs s)) \/ In t (os_thrs s)).
  { intros t. unfold s'. cbn [os_thrs]. rewrite U, E. apply in_replace. }
  assert (TI: forall t, In t (os_thrs s) -> t = TTake k \/ In t (os_thrs s')).
  { intros t. unfold s'. cbn [os_thrs]. rewrite U, E. apply in_replaced. }
  assert (KT: In (OTerminate k) tr).
  { apply (v_take _ _ V). rewrite E. apply in_elt. }
  destruct V. constructor; rewrite ?L; try assumption.
  - eapply Permutation_NoDup; [|exact v_nodup0]. apply Permutation_app_tail. symmetry. exact WP.
  - intros x I. apply W in I. exact (v_work0 x I).
  - intros x A B C. apply v_done0; [exact A| |exact C]. intros I. apply B, W, I.
  - intros x k' I. apply chans_others in I. destruct I as [I _]. auto.
  - intros x t I J. destruct (IT t I) as [->|I2]; [|eauto]. cbn in J. exists k. split; [|exact KT].
    apply v_obs0. apply chans_of_in. exact J.
  - intros k' I. destruct (IT _ I) as [X|I2]; [discriminate|auto].
  - intros t I. destruct (IT t I) as [->|I2]; [exact Logic.I|apply v_thr0; exact I2].
  - intros x k' q I K O. apply chans_others in I. destruct I as [I NK].
    destruct (v_listed0 x k' q I K O) as (t&J&T). exists t. split; [|exact T].
    destruct (TI t J) as [->|J2]; [|exact J2]. exfalso. destruct T as [T|[T|(q'&T&_)]]; congruence.
  - intros x k' a0 b0 I X J. apply chans_others in I. destruct I as [I NK].
    destruct (TI _ (v_later0 x k' a0 b0 I X J)) as [Y|Y]; [injection Y as ->; contradiction NK; reflexivity|exact Y].
Qed.

(** A send or a close of [c] by thread [i]. *)
Lemma oinv_send s tr i c cs ch : oinv s tr -> nth_error (os_thrs s) i = Some (TTell (c :: cs)) -> nth_error (os_chans s) c = Some ch ->
  oinv (mkOst (upd_nth (os_chans s) c (mkCh 1 false)) (os_obs s) (os_objs s) (os_table s) (upd_nth (os_thrs s) i (TClose c cs))) (tr ++ [OSend c]).
Proof.
  intros V N NC. destruct (upd_nth_split _ _ _ (TClose c cs) N) as (a&b&E&_&U).
  set (s' := mkOst _ _ _ _ _).
  assert (WP: Permutation (work s) (c :: work s')).
  { unfold work, s'. cbn [os_obs os_thrs]. rewrite U, E, !flat_map_app. cbn [flat_map tpend app].
    rewrite !(app_assoc (map snd (os_obs s)) (flat_map tpend a)). symmetry. apply Permutation_middle. }
  assert (LP: Permutation (closing s') (c :: closing s)).
  { unfold closing, s'. cbn [os_thrs]. rewrite U, E, !flat_map_app. cbn [flat_map tclosing app]. symmetry. apply Permutation_middle. }
  assert (ND: NoDup (c :: work s' ++ closing s)).
  { eapply Permutation_NoDup; [|exact (v_nodup _ _ V)]. rewrite WP. reflexivity. }
  assert (W: forall x, In x (work s) <-> x = c \/ In x (work s')).
  { intros x. split; intros I; [apply (Permutation_in _ WP) in I|apply (Permutation_in _ (Permutation_sym WP))]; cbn in *; intuition. }
  assert (CL: forall x, In x (closing s') <-> x = c \/ In x (closing s)).
  { intros x. split; intros I; [apply (Permutation_in _ LP) in I|apply (Permutation_in _ (Permutation_sym LP))]; cbn in *; intuition. }
  assert (NW: ~ In c (work s')) by (inversion ND; subst; intros I; match goal with H : ~ In c _ |- _ => apply H end; apply in_or_app; auto).
  assert (NCL: ~ In c (closing s)) by (inversion ND; subst; intros I; match goal with H : ~ In c _ |- _ => apply H end; apply in_or_app; auto).
  assert (SA: forall x, sends x (tr ++ [OSend c]) = sends x tr + if Nat.eqb x c then 1 else 0).
  { intros x. rewrite sends_app. unfold sends. cbn. destruct (Nat.eqb x c); reflexivity. }
  assert (CA: forall x, closes x (tr ++ [OSend c]) = closes x tr) by (intros; rewrite closes_app; cbn; lia).
  assert (IN: forall o, In o tr -> In o (tr ++ [OSend c])) by (intros; apply in_or_app; auto).
  assert (NI: forall o, In o (tr ++ [OSend c]) -> o <> OSend c -> In o tr).
  { intros o I Q. apply in_app_or in I. destruct I as [I|[I|[]]]; [exact I|congruence]. }
  assert (CH: forall x, nth_error (os_chans s') x = if Nat.eqb c x then Some (mkCh 1 false) else nth_error (os_chans s) x).
  { intros x. unfold s'. cbn [os_chans]. rewrite nth_upd_nth. destruct (Nat.eqb_spec c x) as [<-|]; [rewrite NC|]; reflexivity. }
  assert (LN: length (os_chans s') = length (os_chans s)) by apply upd_nth_length.
  assert (IT: forall t, In t (os_thrs s') -> t = TClose c cs \/ In t (os_thrs s)).
  { intros t. unfold s'. cbn [os_thrs]. rewrite U, E. apply in_replace. }
  assert (TI: forall t, In t (os_thrs s) -> t = TTell (c :: cs) \/ In t (os_thrs s')).
  { intros t. unfold s'. cbn [os_thrs]. rewrite U, E. apply in_replaced. }
  destruct V. constructor; rewrite ?LN; try assumption.
  - eapply Permutation_NoDup; [|exact ND]. rewrite LP. apply Permutation_middle.
  - intros x I. rewrite SA, CA, CH. assert (x <> c) by (intros ->; contradiction).
    destruct (v_work0 x) as (A&B&C); [apply W; auto|].
    destruct (Nat.eqb_spec c x); [congruence|]. destruct (Nat.eqb_spec x c); [congruence|]. rewrite B, C. auto.
  - intros x I. rewrite SA, CA, CH. apply CL in I. destruct I as [->|I].
    + rewrite Nat.eqb_refl. destruct (v_work0 c) as (_&B&C); [apply W; auto|]. rewrite B, C. eauto.
    + assert (x <> c) by (intros ->; contradiction). destruct (v_closing0 x I) as (A&B&C).
      destruct (Nat.eqb_spec c x); [congruence|]. destruct (Nat.eqb_spec x c); [congruence|]. rewrite B, C. auto.
  - intros x A B C. rewrite SA, CA, CH. assert (x <> c) by (intros ->; apply C, CL; auto).
    destruct (v_done0 x A) as (D&F&G); [intros I; apply W in I; intuition|intros I; apply C, CL; auto|].
    destruct (Nat.eqb_spec c x); [congruence|]. destruct (Nat.eqb_spec x c); [congruence|]. rewrite F, G. auto.
  - intros x A. rewrite SA, CA. destruct (v_fresh0 x A) as (F&G). assert (x <> c).
    { intros ->. assert (c < length (os_chans s)) by (apply nth_error_Some; congruence). lia. }
    destruct (Nat.eqb_spec x c); [congruence|]. rewrite F, G. auto.
  - intros x k' I. apply NI in I; [eauto|discriminate].
  - intros x k1 k2 I1 I2. apply NI in I1; [|discriminate]. apply NI in I2; [|discriminate]. eauto.
  - auto.
  - intros x t I J. destruct (IT t I) as [->|I2].
    + destruct (v_pend0 x (TTell (c :: cs))) as (k'&?&?); [rewrite E; apply in_elt|right; exact J|]. exists k'. auto.
    + destruct (v_pend0 x t I2 J) as (k'&?&?). exists k'. auto.
  - intros q o O T. apply IN. eauto.
  - intros k' I. destruct (IT _ I) as [X|I2]; [discriminate|auto].
  - intros t I. destruct (IT t I) as [->|I2]; [exact Logic.I|apply v_thr0; exact I2].
  - intros x k' q I K O. destruct (v_listed0 x k' q I K O) as (t&J&T). exists t. split; [|exact T].
    destruct (TI t J) as [->|J2]; [|exact J2]. exfalso. destruct T as [T|[T|(q'&T&_)]]; discriminate.
  - intros x k' a0 b0 I X J. apply app_last_split in X.
    destruct X as [(->&_)|(b'&->&X)]; [destruct J|].
    apply in_app_or in J. destruct J as [J|[J|[]]]; [|discriminate].
    destruct (TI _ (v_later0 x k' a0 b' I X J)) as [Y|Y]; [discriminate|exact Y].
Qed.

Lemma oinv_close s tr i c cs ch : oinv s tr -> nth_error (os_thrs s) i = Some (TClose c cs) -> nth_error (os_chans s) c = Some ch ->
  oinv (mkOst (upd_nth (os_chans s) c (mkCh (ch_buf ch) true)) (os_obs s) (os_objs s) (os_table s) (upd_nth (os_thrs s) i (TTell cs))) (tr ++ [OClose c]).
Proof.
  intros V N NC. destruct (upd_nth_split _ _ _ (TTell cs) N) as (a&b&E&_&U).
  set (s' := mkOst _ _ _ _ _).
  assert (W: work s' = work s).
  { unfold work, s'. cbn [os_obs os_thrs]. rewrite U, E, !flat_map_app. reflexivity. }
  assert (LP: Permutation (closing s) (c :: closing s')).
  { unfold closing, s'. cbn [os_thrs]. rewrite U, E, !flat_map_app. cbn [flat_map tclosing app]. symmetry. apply Permutation_middle. }
  assert (ND: NoDup (c :: work s ++ closing s')).
  { eapply Permutation_NoDup; [|exact (v_nodup _ _ V)]. rewrite LP. symmetry. apply Permutation_middle. }
  assert (CL: forall x, In x (closing s) <-> x = c \/ In x (closing s')).
  { intros x. split; intros I; [apply (Permutation_in _ LP) in I|apply (Permutation_in _ (Permutation_sym LP))]; cbn in *; intuition. }
  assert (NW: ~ In c (work s)) by (inversion ND; subst; intros I; match goal with H : ~ In c _ |- _ => apply H end; apply in_or_app; auto).
  assert (NCL: ~ In c (closing s')) by (inversion ND; subst; intros I; match goal with H : ~ In c _ |- _ => apply H end; apply in_or_app; auto).
  assert (SA: forall x, sends x (tr ++ [OClose c]) = sends x tr) by (intros; rewrite sends_app; cbn; lia).
  assert (CA: forall x, closes x (tr ++ [OClose c]) = closes x tr + if Nat.eqb x c then 1 else 0).
  { intros x. rewrite closes_app. unfold closes. cbn. destruct (Nat.eqb x c); reflexivity. }
  assert (IN: forall o, In o tr -> In o (tr ++ [OClose c])) by (intros; apply in_or_app; auto).
  assert (NI: forall o, In o (tr ++ [OClose c]) -> o <> OClose c -> In o tr).
  { intros o I Q. apply in_app_or in I. destruct I as [I|[I|[]]]; [exact I|congruence]. }
  assert (CH: forall x, nth_error (os_chans s') x = if Nat.eqb c x then Some (mkCh (ch_buf ch) true) else nth_error (os_chans s) x).
  { intros x. unfold s'. cbn [os_chans]. rewrite nth_upd_nth. destruct (Nat.eqb_spec c x) as [<-|]; [rewrite NC|]; reflexivity. }
  assert (LN: length (os_chans s') = length (os_chans s)) by apply upd_nth_length.
  assert (IT: forall t, In t (os_thrs s') -> t = TTell cs \/ In t (os_thrs s)).
  { intros t. unfold s'. cbn [os_thrs]. rewrite U, E. apply in_replace. }
  assert (TI: forall t, In t (os_thrs s) -> t = TClose c cs \/ In t (os_thrs s')).
  { intros t. unfold s'. cbn [os_thrs]. rewrite U, E. apply in_replaced. }
  destruct V. constructor; rewrite ?LN, ?W; try assumption.
  - inversion ND; assumption.
  - intros x I. rewrite SA, CA, CH. assert (x <> c) by (intros ->; contradiction).
    destruct (v_work0 x I) as (A&B&C).
    destruct (Nat.eqb_spec c x); [congruence|]. destruct (Nat.eqb_spec x c); [congruence|]. rewrite B, C. auto.
  - intros x I. rewrite SA, CA, CH. assert (x <> c) by (intros ->; contradiction). destruct (v_closing0 x) as (A&B&C); [apply CL; auto|].
    destruct (Nat.eqb_spec c x); [congruence|]. destruct (Nat.eqb_spec x c); [congruence|]. rewrite B, C. auto.
  - intros x A B C. rewrite SA, CA, CH. destruct (Nat.eqb_spec c x) as [<-|NE].
    + rewrite Nat.eqb_refl. destruct (v_closing0 c) as (_&F&G); [apply CL; auto|]. rewrite F, G. eauto.
    + destruct (v_done0 x A B) as (D&F&G); [intros I; apply CL in I; intuition|].
      destruct (Nat.eqb_spec x c); [congruence|]. rewrite F, G. auto.
  - intros x A. rewrite SA, CA. destruct (v_fresh0 x A) as (F&G). assert (x <> c).
    { intros ->. assert (c < length (os_chans s)) by (apply nth_error_Some; congruence). lia. }
    destruct (Nat.eqb_spec x c); [congruence|]. rewrite F, G. auto.
  - intros x k' I. apply NI in I; [eauto|discriminate].
  - intros x k1 k2 I1 I2. apply NI in I1; [|discriminate]. apply NI in I2; [|discriminate]. eauto.
  - auto.
  - intros x t I J. destruct (IT t I) as [->|I2].
    + destruct (v_pend0 x (TClose c cs)) as (k'&?&?); [rewrite E; apply in_elt|exact J|]. exists k'. auto.
    + destruct (v_pend0 x t I2 J) as (k'&?&?). exists k'. auto.
  - intros q o O T. apply IN. eauto.
  - intros k' I. destruct (IT _ I) as [X|I2]; [discriminate|auto].
  - intros t I. destruct (IT t I) as [->|I2]; [exact Logic.I|apply v_thr0; exact I2].
  - intros x k' q I K O. destruct (v_listed0 x k' q I K O) as (t&J&T). exists t. split; [|exact T].
    destruct (TI t J) as [->|J2]; [|exact J2]. exfalso. destruct T as [T|[T|(q'&T&_)]]; discriminate.
  - intros x k' a0 b0 I X J. apply app_last_split in X.
    destruct X as [(->&_)|(b'&->&X)]; [destruct J|].
    apply in_app_or in J. destruct J as [J|[J|[]]]; [|discriminate].
    destruct (TI _ (v_later0 x k' a0 b' I X J)) as [Y|Y]; [discriminate|exact Y].
Qed.

(** Every event is possible, keeps the invariant, and moves the thread it is about. *)
Lemma ostep_inv s tr ev : oinv s tr -> exists s' o, ostep s ev = Ok (s', o) /\ oinv s' (tr ++ o) /\
  forall i t, ev = OvGo i -> nth_error (os_thrs s) i = Some t -> t <> TDone -> nth_error (os_thrs s') i <> Some t.
Proof.
  intros V. destruct ev as [k|k|k|c|i]; cbn [ostep].
  - do 2 eexists. split; [reflexivity|]. split; [apply oinv_observe; exact V|discriminate].
  - destruct (kget (os_table s) k) eqn:G.
    + do 2 eexists. split; [reflexivity|]. rewrite app_nil_r. split; [exact V|discriminate].
    + do 2 eexists. split; [reflexivity|]. split; [apply oinv_ensure; assumption|discriminate].
  - do 2 eexists. split; [reflexivity|]. rewrite app_nil_r. split; [apply oinv_delete; exact V|discriminate].
  - destruct (nth_error (os_chans s) c) eqn:G.
    + do 2 eexists. split; [reflexivity|]. rewrite app_nil_r. split; [apply oinv_read; assumption|discriminate].
    + do 2 eexists. split; [reflexivity|]. rewrite app_nil_r. split; [exact V|discriminate].
  - destruct (nth_error (os_thrs s) i) as [t|] eqn:N.
    2:{ do 2 eexists. split; [reflexivity|]. rewrite app_nil_r. split; [exact V|]. intros j t E. injection E as <-. congruence. }
    assert (MV: forall s' t', os_thrs s' = upd_nth (os_thrs s) i t' -> t' <> t ->
      forall j u, OvGo i = OvGo j -> Some t = nth_error (os_thrs s) j -> u = t -> nth_error (os_thrs s') j <> Some u).
    { intros s' t' X NE j u E F ->. injection E as <-. rewrite X, nth_upd_nth, Nat.eqb_refl, N. congruence. }
    assert (MV2: forall s' t', os_thrs s' = upd_nth (os_thrs s) i t' -> t' <> t ->
      forall j u, OvGo i = OvGo j -> nth_error (os_thrs s) j = Some u -> u <> TDone -> nth_error (os_thrs s') j <> Some u).
    { intros s' t' X NE j u E F _. injection E as <-. rewrite N in F. injection F as ->. apply (MV s' t' X NE i u); congruence. }
    pose proof (v_thr _ _ V t (nth_error_In _ _ N)) as TH.
    destruct t as [k|r|r|k|[|c cs]|c cs|]; cbn [ogo].
    + (* 295-297 *)
      destruct (kget (os_table s) k) as [r|] eqn:G.
      * do 2 eexists. split; [reflexivity|]. rewrite app_nil_r. split; [|apply (MV2 _ (TRead r)); [reflexivity|discriminate]].
        destruct (v_table _ _ V k r G) as (o&O&OK).
        apply (oinv_thr s tr i (TObs k)); auto; [apply nth_error_Some; congruence|discriminate|].
        intros k' c r' I K T [X|[X|(q&X&_)]]; try discriminate. injection X as <-.
        right. right. exists r. split; [reflexivity|]. rewrite K in G. injection G as ->. exact T.
      * do 2 eexists. split; [reflexivity|]. rewrite app_nil_r. split; [|apply (MV2 _ TDone); [reflexivity|discriminate]].
        apply (oinv_thr s tr i (TObs k)); auto; [discriminate|].
        intros k' c r' I K T [X|[X|(q&X&_)]]; try discriminate. injection X as <-. congruence.
    + (* 298-299 *)
      destruct (nth_error (os_objs s) r) as [o|] eqn:O; [|exfalso; apply nth_error_None in O; lia].
      destruct (ob_term o) eqn:T.
      * do 2 eexists. split; [reflexivity|]. rewrite app_nil_r. split; [|apply (MV2 _ (TTake (ob_key o))); [reflexivity|discriminate]].
        apply (oinv_thr s tr i (TRead r)); auto; [exact (v_obj _ _ V r o O T)|discriminate|].
        intros k' c r' I K _ [X|[X|(q&X&Y)]]; try discriminate. injection X as <-. rewrite O in Y. injection Y as ->.
        left. reflexivity.
      * do 2 eexists. split; [reflexivity|]. rewrite app_nil_r. split; [|apply (MV2 _ TDone); [reflexivity|discriminate]].
        apply (oinv_thr s tr i (TRead r)); auto; [discriminate|].
        intros k' c r' I K _ [X|[X|(q&X&Y)]]; try discriminate. injection X as <-. rewrite O in Y. injection Y as ->. discriminate.
    + (* 210-212 *)
      destruct (nth_error (os_objs s) r) as [o|] eqn:O; [|exfalso; apply nth_error_None in O; lia].
      do 2 eexists. split; [reflexivity|]. split; [apply oinv_run; assumption|apply (MV2 _ (TTake (ob_key o))); [reflexivity|discriminate]].
    + do 2 eexists. split; [reflexivity|]. rewrite app_nil_r.
      split; [apply oinv_taken; assumption|eapply MV2; [reflexivity|discriminate]].
    + do 2 eexists. split; [reflexivity|]. rewrite app_nil_r. split; [|apply (MV2 _ TDone); [reflexivity|discriminate]].
      apply (oinv_thr s tr i (TTell [])); auto; [discriminate|].
      intros k' c r' I K _ [X|[X|(q&X&Y)]]; discriminate.
    + destruct (v_work _ _ V c) as (C&_).
      { unfold work. apply in_or_app. right. apply in_flat_map. exists (TTell (c :: cs)). split; [eapply nth_error_In; exact N|left; reflexivity]. }
      rewrite C. cbn [ch_closed ch_buf Nat.eqb]. do 2 eexists. split; [reflexivity|].
      split; [eapply oinv_send; eassumption|eapply MV2; [reflexivity|discriminate]].
    + destruct (v_closing _ _ V c) as ((b&C)&_).
      { unfold closing. apply in_flat_map. exists (TClose c cs). split; [eapply nth_error_In; exact N|left; reflexivity]. }
      rewrite C. cbn [ch_closed ch_buf]. do 2 eexists. split; [reflexivity|].
      split; [eapply oinv_close in C; [exact C|exact V|exact N]|eapply MV2; [reflexivity|discriminate]].
    + do 2 eexists. split; [reflexivity|]. rewrite app_nil_r. split; [exact V|].
      intros j t E F G. injection E as <-. congruence.
Qed.

Lemma oexec_inv evs : forall s tr, oinv s tr -> exists s' o, oexec s evs = Ok (s', o) /\ oinv s' (tr ++ o).
Proof.
  induction evs as [|ev l IH]; intros s tr V; cbn [oexec].
  - exists s, []. rewrite app_nil_r. auto.
  - destruct (ostep_inv s tr ev V) as (s1&o1&E&V1&_). rewrite E. cbn [rbind fst snd].
    destruct (IH s1 (tr ++ o1) V1) as (s2&o2&E2&V2). rewrite E2. cbn. exists s2, (o1 ++ o2). rewrite app_assoc. auto.
Qed.
Lemma oexec_made evs : exists s tr, oexec ost0 evs = Ok (s, tr) /\ oinv s tr.
Proof. destruct (oexec_inv evs ost0 [] oinv0) as (s&o&E&V). exists s, o. auto. Qed.
