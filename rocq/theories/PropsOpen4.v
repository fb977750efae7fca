(** Statements: a process whose timers go off in time has begun to let messages in when they come. *)
From Coq Require Import ZArith List Lia Bool Permutation.
From Coq Require Import Init.Byte.
From Verif Require Import Params Bytes Res Secp Spec PublicKey Schnorr Dss DssSpec Dto DtoSpec Prot ProtSpec ProtProofs TimeSpec DkgProt KMap Firewall FwSpec FwProofs FwProofs2 FwProofs3
  NetSpec Outputs Node NodeSpec NodeRun NodeProofs NodeProofs2 NodeProofs3 NodeProofs4 NodeProofs5 ObjSpec SignSpec PropsNode PropsNode2 ReachSpec ReachProofs ReachProofs2 DocsProofs Cluster ClusterSpec ClusterProofs ClusterProofs2 DeliverSpec ClusterProofs3
  HonestSpec PropsHonest PropsCluster PropsCluster2 PropsCluster3 PropsCluster4 EndProofs EndProofs2 EndProofs3 EndProofs4 PropsEnd PropsOpen.
From Verif Require Net.
Import ListNotations.
Open Scope Z_scope.

(** ** Vocabulary *)
Section Spec.
  Context {G : Type}.
  Notation cobs := (cobs (G := G)).
  (** Before whatever process [j] does at [T] by its clock or later: the timer of its initial dropping has gone off, unless there was none to be; it has given the allowance for [k]; and the goroutine of the allowance has begun,
      and has gone on at [due] or later. *)
  Definition timers_by (T due : Z) (p : place) (j : nat) (k : key) (tr : list cobs) : Prop :=
    forall x org ev os y, tr = x ++ XNode j org ev os :: y -> T <= ntime ev ->
    (pl_until p <= pl_begin p \/ exists t, In (VUndrop t) (events_at j x) /\ pl_until p <= t) /\
    exists x1 og1 s os1 x2 og2 t os2 x3 t0 a, x = x1 ++ XNode j og1 (VFw s k 0) os1 :: x2 ++ XNode j og2 (VFw t k 0) os2 :: x3 /\ In (NFw (FSet t0 k a)) (trace_at j x1) /\ due <= t.
End Spec.

Section Node.
  Context {G : Type}.
  Variable ky : kyber G.
  Variable keccak : bytes -> bytes.
  Variable pshash : Z -> Z -> bytes.
  Variable su : setup.
  Variables until now0 : Z.
  Notation history := (nhistory ky keccak pshash su until now0).
  Lemma dropping_app d (a b : list (fobs payload)) : dropping d a = false -> dropping d (a ++ b) = false.
  Proof. unfold dropping. rewrite existsb_app. destruct d; [|reflexivity]. cbn [andb]. destruct (existsb _ a); [reflexivity|discriminate]. Qed.
  (** Initial dropping is over once its timer has gone off. *)
  Lemma undropped u1 t u2 n tr : history (u1 ++ VUndrop t :: u2) n tr -> until <= t -> dropping (now0 <? until) (fw_trace tr) = false.
  Proof.
    intros HH LT. replace (u1 ++ VUndrop t :: u2) with ((u1 ++ [VUndrop t]) ++ u2) in HH by (rewrite <- app_assoc; reflexivity).
    destruct (history_prefix _ _ _ _ _ _ _ _ _ _ HH) as (n1 & tr1 & o & H1 & _ & ->). rewrite fwt_app. apply dropping_app.
    destruct (history_cut _ _ _ _ _ _ _ _ _ _ H1) as (n0 & tr0 & o0 & H0 & S0 & E0).
    destruct (history_inv _ _ _ _ _ _ _ _ _ H1) as (T1 & [W1 _]). destruct (w_sound _ _ _ _ _ _ _ _ _ _ W1) as (_ & _ & _ & HK). destruct (HK (mkKey 0 0 [])) as (D1 & _). cbn [view_of v_drop] in D1. rewrite <- D1.
    destruct (history_inv _ _ _ _ _ _ _ _ _ H0) as (T0 & [W0 _]). destruct (w_sound _ _ _ _ _ _ _ _ _ _ W0) as (_ & _ & HU & _).
    cbn [Node.nstep] in S0. destruct (firewall_eff _ _ _ _ _ _ _ _ S0) as (_ & _ & _ & l & ES & _). cbn [fstep] in ES. rewrite HU in ES. rewrite (proj2 (Z.leb_le _ _) LT), andb_true_r in ES.
    destruct (f_drop (n_fw n0)) eqn:ED; injection ES as <- _; [reflexivity|exact ED].
  Qed.
End Node.

Section Statements.
  Context {G : Type}.
  Variable ky : kyber G.
  Variable keccak : bytes -> bytes.
  Variable pshash : Z -> Z -> bytes.
  Variable places : list place.
  Variable home : Z -> option nat.
  Notation chistory := (chistory ky keccak pshash places home).

  (** ** C121.  A run asked for once.  When the timers of its firewall have gone off by [T], the process has begun by [T] to let the messages of the run in. *)
  Theorem C121_timers_open t0 evs c tr j q k start doc tq T : chistory t0 evs c tr -> nth_error places j = Some q -> NoDup (su_guests (pl_su q)) ->
    (requests_for k (events_at j tr) <= 1)%nat -> requested (pl_su q) (events_at j tr) k start doc tq -> timers_by T (start - 5 * ms) q j k tr -> open_by T q j k tr.
  Proof.
    intros HC EQ ND RQ RE TB x org ev os y EX LT. destruct (TB _ _ _ _ _ EX LT) as (UD & x1 & og1 & s & os1 & x2 & og2 & t & os2 & x3 & ts & a & EX1 & IN & LD).
    destruct (cluster_node _ _ _ _ _ _ _ _ _ HC _ _ EQ) as (n & [NC NX] & _). pose proof (proj1 (history_block _ _ _ _ _ _ _ _ _ HC)) as SH.
    assert (PRE : forall x org ev os y, tr = x ++ XNode j org ev os :: y -> events_at j tr = events_at j x ++ ev :: events_at j y /\
      exists n1, nhistory ky keccak pshash (pl_su q) (pl_until q) (pl_begin q) (events_at j x) n1 (trace_at j x)).
    { clear - SH EQ NC. intros x org ev os y EX. destruct (SH _ _ _ _ _ _ EX) as (q' & n1 & n2 & X1 & X2 & _). rewrite EQ in X1. injection X1 as <-. cbn [app] in X2.
      assert (EV : events_at j tr = events_at j x ++ ev :: events_at j y) by (rewrite EX; unfold events_at; rewrite flat_map_app; cbn [flat_map]; rewrite Nat.eqb_refl; reflexivity).
      split; [exact EV|]. exists n1. split; [|exact X2]. rewrite EV in NC. eapply nclock_app, NC. }
    destruct (PRE _ _ _ _ _ EX) as (EV & n1 & H1).
    assert (EX' : tr = x1 ++ XNode j og1 (VFw s k 0) os1 :: (x2 ++ XNode j og2 (VFw t k 0) os2 :: x3) ++ XNode j org ev os :: y) by (rewrite EX, EX1, <- app_assoc; reflexivity).
    destruct (PRE _ _ _ _ _ EX') as (_ & n0 & H0).
    assert (EVX : events_at j x = events_at j x1 ++ VFw s k 0 :: events_at j x2 ++ VFw t k 0 :: events_at j x3).
    { rewrite EX1. rewrite !events_app. cbn [events_at flat_map]. rewrite Nat.eqb_refl. cbn [app]. f_equal. f_equal. fold (events_at (G := G) j). rewrite flat_map_app. cbn [flat_map]. rewrite Nat.eqb_refl. reflexivity. }
    split.
    - destruct UD as [UD|(tu & IU & LU)].
      + unfold dropping. destruct (Z.ltb_spec (pl_begin q) (pl_until q)); [lia|reflexivity].
      + apply in_split in IU. destruct IU as (u1 & u2 & EU). rewrite EU in H1. exact (undropped _ _ _ _ _ _ _ _ _ _ _ H1 LU).
    - assert (RQX : (requests_for k (events_at j x) <= 1)%nat) by (rewrite EV in RQ; apply requests_prefix in RQ; exact RQ).
      assert (RX : exists dc tq1, requested (pl_su q) (events_at j x) k start dc tq1).
      { destruct (C121_allowance _ _ _ _ _ _ _ _ _ _ _ _ H0 IN) as (st & dc & tq' & R & _).
        assert (R' : requested (pl_su q) (events_at j tr) k st dc tq') by (eapply requested_mono; [|exact R]; rewrite EV, EVX, <- app_assoc; apply incl_appl, incl_refl).
        destruct (requested_once _ _ _ _ _ _ _ _ _ RQ RE R') as (-> & _). exists dc, tq'. eapply requested_mono; [|exact R]. rewrite EVX. apply incl_appl, incl_refl. }
      destruct RX as (dc & tq1 & RX). rewrite EVX in H1, RQX, RX. destruct H0 as [_ H0].
      exact (C121_buffers_when_due _ _ _ _ _ _ _ _ _ _ _ _ _ _ _ _ _ _ _ _ _ H1 ND RQX RX H0 IN LD).
  Qed.
End Statements.
Print Assumptions C121_timers_open.

(** ** The assumptions hold: the two processes of C97, whose clocks differ by 2 ms; the timers go off 3 ms late at most. *)
Definition gone_on (due : Z) (j : nat) (k : key) (o : cobs (G := Z)) : bool :=
  match o with XNode j' _ (VFw t k' 0) _ => Nat.eqb j' j && key_eqb k' k && (due <=? t) | _ => false end.
Definition given (j : nat) (k : key) (o : cobs (G := Z)) : bool :=
  match o with XNode j' _ _ os => Nat.eqb j' j && existsb (fun z => match z with NFw (FSet _ k' _) => key_eqb k' k | _ => false end) os | _ => false end.
Fixpoint then_on (P : cobs (G := Z) -> bool) (Q : list (cobs (G := Z)) -> bool) (x : list (cobs (G := Z))) : bool :=
  match x with [] => false | o :: r => P o && Q r || then_on P Q r end.
Lemma then_on_split P Q x : then_on P Q x = true -> exists a o b, x = a ++ o :: b /\ P o = true /\ Q b = true.
Proof.
  induction x as [|o x IH]; [discriminate|]. cbn [then_on]. intros H. apply orb_true_iff in H. destruct H as [H|H].
  - apply andb_true_iff in H. exists [], o, x. tauto.
  - destruct (IH H) as (a & o' & b & -> & A & B). exists (o :: a), o', b. auto.
Qed.
Definition timed_at (T due : Z) (p : place) (j : nat) (k : key) (x : list (cobs (G := Z))) (o : cobs (G := Z)) : bool :=
  match o with XNode j' _ ev _ => negb (Nat.eqb j' j) || (ntime ev <? T) ||
    ((pl_until p <=? pl_begin p) && then_on (given j k) (then_on (gone_on (ntime ev - 1000 * ms) j k) (then_on (gone_on due j k) (fun _ => true))) x)
  | _ => true end.
Lemma gone_on_is due j k o : gone_on due j k o = true -> exists og t os, o = XNode j og (VFw t k 0) os /\ due <= t.
Proof.
  destruct o as [j' og ev os| |]; cbn [gone_on]; try discriminate. destruct ev as [| | | | | |t k' c| | |]; try discriminate. destruct c; [|discriminate].
  intros H. apply andb_true_iff in H. destruct H as [H H3]. apply andb_true_iff in H. destruct H as [H1 H2]. apply Nat.eqb_eq in H1. destruct (key_eqb_spec k' k); [|discriminate]. subst. apply Z.leb_le in H3. eauto.
Qed.
Lemma timed_all T due p j k tr : all_cuts (timed_at T due p j k) [] tr = true -> timers_by T due p j k tr.
Proof.
  intros H x org ev os y E HT. pose proof (all_cuts_at _ _ _ _ _ _ H E) as X. cbn [app timed_at] in X. rewrite Nat.eqb_refl in X. cbn [negb orb] in X.
  destruct (Z.ltb_spec (ntime ev) T); [lia|]. cbn [orb] in X. apply andb_true_iff in X. destruct X as [A B]. apply Z.leb_le in A. split; [left; exact A|].
  apply then_on_split in B. destruct B as (a & o1 & b & -> & B1 & B2). apply then_on_split in B2. destruct B2 as (a2 & o2 & b2 & -> & B2 & B3). apply then_on_split in B3. destruct B3 as (a3 & o3 & b3 & -> & B3 & _).
  apply gone_on_is in B2, B3. destruct B2 as (og1 & s & os1 & -> & _). destruct B3 as (og2 & t & os2 & -> & L). destruct o1 as [j' og0 ev0 os0| |]; try discriminate B1. cbn [given] in B1. apply andb_true_iff in B1. destruct B1 as [B1 B4].
  apply existsb_exists in B4. destruct B4 as (z & I1 & B4). destruct z as [f| | | | | | | |]; try discriminate B4. destruct f as [| |t0 k1 al| | |]; try discriminate B4. destruct (key_eqb_spec k1 k) as [->|]; [|discriminate].
  exists (a ++ XNode j' og0 ev0 os0 :: a2), og1, s, os1, a3, og2, t, os2, b3, t0, al. split; [rewrite <- app_assoc; reflexivity|]. split; [|exact L].
  unfold trace_at. apply in_flat_map. exists (XNode j' og0 ev0 os0). split; [apply in_elt|]. rewrite B1. exact I1.
Qed.
Example C121_ex_timers : exists c tr, let kk := (fun b : bytes => b) in let ph := (fun _ _ : Z => ([] : bytes)) in
  chistory pair_ky kk ph pair_places pair_home (-20 * ms) pair_evs c tr /\
  forall i, i = 0 \/ i = 1 -> let j := Z.to_nat i in exists q tq org ev os,
    nth_error pair_places j = Some q /\ NoDup (su_guests (pl_su q)) /\ (requests_for (pair_k i) (events_at j tr) <= 1)%nat /\
    requested (pl_su q) (events_at j tr) (pair_k i) 0 (Some 10) tq /\ timers_by (0 - 5 * ms + 3 * ms) (0 - 5 * ms) q j (pair_k i) tr /\
    In (XNode j org ev os) tr /\ 0 - 5 * ms + 3 * ms <= ntime ev.
Proof.
  set (run := cexec pair_ky (fun b : bytes => b) (fun _ _ : Z => ([] : bytes)) pair_places pair_home (start_cluster pair_places) pair_evs).
  assert (X : match run with Some _ => true | None => false end = true) by (vm_compute; reflexivity). destruct run as [[c tr]|] eqn:E; [clear X|discriminate X]. exists c, tr. cbv zeta. split.
  { split; [|exact E]. clear. vm_compute. repeat (split; [intros X; discriminate X|]). exact I. }
  assert (ET : option_map snd run = Some tr) by (rewrite E; reflexivity). clear E. subst run. vm_compute in ET. injection ET as <-.
  assert (ND : forall i : Z, NoDup [i]) by (intros i; constructor; [intros []|constructor]).
  assert (LATE : forall j tr, existsb (fun o : cobs (G := Z) => match o with XNode j' _ ev _ => Nat.eqb j' j && (0 - 5 * ms + 3 * ms <=? ntime ev) | _ => false end) tr = true ->
    exists org ev os, In (XNode j org ev os) tr /\ 0 - 5 * ms + 3 * ms <= ntime ev).
  { clear. intros j tr H. apply existsb_exists in H. destruct H as (o & I1 & H). destruct o as [j' org ev os| |]; try discriminate. apply andb_true_iff in H. destruct H as [H1 H2]. apply Nat.eqb_eq in H1. subst j'. apply Z.leb_le in H2. eauto. }
  intros i Hi. destruct Hi as [-> | ->].
  - eexists _, (-10 * ms). edestruct LATE as (og & ev & os & L1 & L2); [|exists og, ev, os; split; [reflexivity|]; split; [apply ND|]; split; [vm_compute; lia|]; split; [|split; [apply timed_all; vm_compute; reflexivity|split; [exact L1|exact L2]]]].
    + vm_compute. reflexivity.
    + exists [x61]. split; [left; reflexivity|]. split; [reflexivity|]. split; [reflexivity|left; reflexivity].
  - eexists _, (-8 * ms). edestruct LATE as (og & ev & os & L1 & L2); [|exists og, ev, os; split; [reflexivity|]; split; [apply ND|]; split; [vm_compute; lia|]; split; [|split; [apply timed_all; vm_compute; reflexivity|split; [exact L1|exact L2]]]].
    + vm_compute. reflexivity.
    + exists [x61]. split; [left; reflexivity|]. split; [reflexivity|]. split; [reflexivity|left; reflexivity].
Qed.
