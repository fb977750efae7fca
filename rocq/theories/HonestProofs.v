(** Key generations in which all members take part as they should. *)
From Coq Require Import ZArith List Bool Lia Permutation.
From Coq Require Import Init.Byte.
From Verif Require Import Params Bytes Res Secp Spec Dss DssSpec Dto DtoSpec DtoProofs Prot ProtSpec ProtProofs3 TimeSpec DkgProt SignSpec FlowSpec FlowProofs HonestSpec PropsDto.
Import ListNotations.
Open Scope Z_scope.

Lemma in_everyone n i : In i (everyone n) <-> 0 <= i < n.
Proof.
  unfold everyone, upto. rewrite in_map_iff. split.
  - intros (k & <- & H). apply in_seq in H. lia.
  - intros H. exists (Z.to_nat i). split; [lia|]. apply in_seq. lia.
Qed.
Lemma nodup_everyone n : NoDup (everyone n).
Proof. unfold everyone, upto. apply FinFun.Injective_map_NoDup; [intros a b X; lia|apply seq_NoDup]. Qed.
Lemma in_others n i j : In j (others n i) <-> In j (everyone n) /\ j <> i.
Proof. unfold others. rewrite filter_In. split; intros [H1 H2]; (split; [exact H1|]); [intros ->; rewrite Z.eqb_refl in H2; discriminate|apply negb_true_iff, Z.eqb_neq; exact H2]. Qed.
Lemma nodup_others n i : NoDup (others n i). Proof. apply NoDup_filter, nodup_everyone. Qed.

(** * What is sent to a member for a stage *)
Definition mails (i op : Z) (acts : list (action payload output)) : list payload :=
  flat_map (fun a => match a with ASend rc o d => if (rc =? i) && (o =? op) then [d] else [] | _ => [] end) acts.
Definition only (l : list Z) (a : action payload output) : Prop := match a with ASend _ op _ => In op l | AAbandon => True | AOutput _ _ => False end.

Lemma mails_app i op a b : mails i op (a ++ b) = mails i op a ++ mails i op b. Proof. apply flat_map_app. Qed.
Lemma mails_none i op l acts : Forall (only l) acts -> ~ In op l -> mails i op acts = [].
Proof.
  intros H NI. induction H as [|a acts HA _ IH]; [reflexivity|]. cbn. fold (mails i op acts). rewrite IH, app_nil_r.
  destruct a as [rc o d| |]; try reflexivity. destruct (o =? op) eqn:EO; [|rewrite andb_false_r; reflexivity]. apply Z.eqb_eq in EO. subst o. contradiction.
Qed.
Lemma mails_to i op l d gst : NoDup l -> In i l -> i <> gst -> mails i op (map (fun k => ASend k op d) (filter (fun k => negb (k =? gst)) l)) = [d].
Proof.
  intros ND IN NE. induction ND as [|x l NI ND IH]; [destruct IN|]. cbn [filter].
  assert (REST : ~ In i l -> mails i op (map (fun k => ASend k op d) (filter (fun k => negb (k =? gst)) l)) = []).
  { clear. intros NI. induction l as [|y l IH]; [reflexivity|]. cbn [filter]. destruct (negb (y =? gst)); [|apply IH; intros X; apply NI; right; exact X].
    cbn. fold (mails i op (map (fun k => ASend k op d) (filter (fun k => negb (k =? gst)) l))). rewrite IH by (intros X; apply NI; right; exact X).
    assert (y <> i) by (intros ->; apply NI; left; reflexivity). rewrite (proj2 (Z.eqb_neq y i)) by assumption. reflexivity. }
  destruct IN as [->|IN].
  - rewrite (proj2 (Z.eqb_neq i gst)) by assumption. cbn [negb map]. cbn. rewrite !Z.eqb_refl. cbn. f_equal. apply REST. exact NI.
  - assert (x <> i) by (intros ->; contradiction). destruct (negb (x =? gst)); [|apply IH; exact IN].
    cbn. rewrite (proj2 (Z.eqb_neq x i)) by assumption. cbn. apply IH. exact IN.
Qed.
Lemma mails_self i op l d : mails i op (map (fun k => ASend k op d) (filter (fun k => negb (k =? i)) l)) = [].
Proof.
  induction l as [|x l IH]; [reflexivity|]. cbn [filter]. destruct (x =? i) eqn:E; cbn [negb]; [exact IH|]. cbn. rewrite E. exact IH.
Qed.

(** * Collecting what was sent *)
Lemma gather {X} (P : Z -> list X -> Prop) A : (forall a, In a A -> exists l, P a l) -> exists LL, map fst LL = A /\ forall a l, In (a, l) LL -> P a l.
Proof.
  induction A as [|a A IH]; intros H; [exists []; split; [reflexivity|intros ? ? []]|].
  destruct (H a (or_introl eq_refl)) as [l Hl]. destruct IH as (LL & E & HL); [intros b Hb; apply H; right; exact Hb|].
  exists ((a, l) :: LL). split; [cbn; f_equal; exact E|]. intros b l' [Q|Q]; [injection Q as <- <-; exact Hl|apply HL; exact Q].
Qed.
Definition flat {X} (LL : list (Z * list X)) : list (Z * X) := flat_map (fun y => map (pair (fst y)) (snd y)) LL.
Lemma collect {X} (rel : Z -> message payload -> X -> Prop) A mk H (P : Z -> list X -> Prop) : Permutation H (flat_map mk A) ->
  (forall j, In j A -> exists l, Forall2 (rel j) (mk j) l /\ P j l) ->
  exists LL L, map fst LL = A /\ (forall j l, In (j, l) LL -> P j l) /\ Permutation (flat LL) L /\ Forall2 (fun m y => rel (fst y) m (snd y)) H L.
Proof.
  intros HP HA. destruct (gather (fun j l => Forall2 (rel j) (mk j) l /\ P j l) A HA) as (LL & E & HL).
  assert (F0 : Forall2 (fun m (y : Z * X) => rel (fst y) m (snd y)) (flat_map mk A) (flat LL)).
  { rewrite <- E. clear - HL. induction LL as [|[a l] LL IH]; [constructor|]. cbn [map flat_map flat fst snd]. apply Forall2_app.
    - destruct (HL a l (or_introl eq_refl)) as [H _]. clear - H. induction H; cbn; constructor; assumption.
    - apply IH. intros j l' I. apply HL. right. exact I. }
  destruct (Permutation_Forall2 (Permutation_sym HP) F0) as (L & H1 & H2).
  exists LL, L. split; [exact E|]. split; [intros j l I; apply (HL j l I)|]. split; assumption.
Qed.
(** One thing from each of the others. *)
Lemma collect_one {X} (rel : Z -> message payload -> X -> Prop) n i mk H (Q : Z -> X -> Prop) : Permutation H (flat_map mk (everyone n)) ->
  mk i = [] -> (forall j, In j (others n i) -> exists m x, mk j = [m] /\ rel j m x /\ Q j x) ->
  exists l : list (Z * X), Forall2 (fun m y => rel (fst y) m (snd y)) H l /\ NoDup (map fst l) /\ (forall j x, In (j, x) l -> In j (others n i) /\ Q j x) /\
    (forall j, In j (others n i) -> In j (map fst l)).
Proof.
  intros HP HI HO.
  destruct (collect rel (everyone n) mk H (fun j l => if j =? i then l = [] else exists x, l = [x] /\ Q j x) HP) as (LL & L & E & HL & PL & FL).
  { intros j Hj. destruct (j =? i) eqn:EJ.
    - apply Z.eqb_eq in EJ. subst j. exists []. rewrite HI. split; [constructor|reflexivity].
    - apply Z.eqb_neq in EJ. destruct (HO j (proj2 (in_others n i j) (conj Hj EJ))) as (m & x & E1 & E2 & E3). exists [x]. rewrite E1. split; [constructor; [exact E2|constructor]|exists x; auto]. }
  assert (K : map fst (flat LL) = others n i).
  { unfold others. rewrite <- E. clear - HL. induction LL as [|[a l] LL IH]; [reflexivity|]. cbn [flat flat_map map fst snd filter].
    rewrite map_app. fold (flat LL). specialize (HL a l (or_introl eq_refl)) as HA. cbn beta in HA.
    rewrite IH by (intros j l' I; apply HL; right; exact I). destruct (a =? i); cbn [negb]; [subst l; reflexivity|]. destruct HA as (x & -> & _). reflexivity. }
  exists L. split; [exact FL|]. apply (Permutation_map fst) in PL as PK. rewrite K in PK. split; [exact (Permutation_NoDup PK (nodup_others n i))|]. split.
  - intros j x I. split; [apply (Permutation_in _ (Permutation_sym PK)), in_map_iff; exists (j, x); auto|].
    apply (Permutation_in _ (Permutation_sym PL)) in I. unfold flat in I. apply in_flat_map in I. destruct I as ([a l] & I1 & I2). cbn [fst snd] in I2.
    apply in_map_iff in I2. destruct I2 as (x' & Q' & I2). injection Q' as -> ->. specialize (HL j l I1). cbn beta in HL.
    destruct (j =? i); [subst l; destruct I2|]. destruct HL as (x' & -> & HQ). destruct I2 as [->|[]]. exact HQ.
  - intros j I. exact (Permutation_in _ PK I).
Qed.
(** From each of the others, one thing for each of its others. *)
Lemma collect_pairs {X} (rel : Z -> message payload -> Z * X -> Prop) n i mk H (Q : Z -> Z -> X -> Prop) : Permutation H (flat_map mk (everyone n)) ->
  mk i = [] ->
  (forall a, In a (others n i) -> exists l, Forall2 (rel a) (mk a) l /\ NoDup (map fst l) /\ (forall j, In j (map fst l) <-> In j (others n a)) /\ forall j x, In (j, x) l -> Q a j x) ->
  exists l : list ((Z * Z) * X), Forall2 (fun m y => rel (fst (fst y)) m (snd (fst y), snd y)) H l /\ NoDup (map fst l) /\
    (forall a j x, In ((a, j), x) l -> In a (others n i) /\ In j (others n a) /\ Q a j x) /\
    (forall a j, In a (others n i) -> In j (others n a) -> In (a, j) (map fst l)).
Proof.
  intros HP HI HO.
  destruct (collect rel (everyone n) mk H (fun a l => if a =? i then l = [] else NoDup (map fst l) /\ (forall j, In j (map fst l) <-> In j (others n a)) /\ forall j x, In (j, x) l -> Q a j x) HP)
    as (LL & L & E & HL & PL & FL).
  { intros a Ha. destruct (a =? i) eqn:EJ.
    - apply Z.eqb_eq in EJ. subst a. exists []. rewrite HI. split; [constructor|reflexivity].
    - apply Z.eqb_neq in EJ. destruct (HO a (proj2 (in_others n i a) (conj Ha EJ))) as (l & E1 & E2 & E3 & E4). exists l. auto. }
  set (as3 := fun y : Z * (Z * X) => ((fst y, fst (snd y)), snd (snd y))).
  assert (IN3 : forall a j x, In ((a, j), x) (map as3 L) -> In a (others n i) /\ In j (others n a) /\ Q a j x).
  { intros a j x I. apply in_map_iff in I. destruct I as ([a' [j' x']] & Q1 & I). cbn in Q1. injection Q1 as -> -> ->.
    apply (Permutation_in _ (Permutation_sym PL)) in I. unfold flat in I. apply in_flat_map in I. destruct I as ([a' l] & I1 & I2). cbn [fst snd] in I2.
    apply in_map_iff in I2. destruct I2 as (y & Q' & I2). injection Q' as -> ->. specialize (HL a l I1). cbn beta in HL.
    assert (AE : In a (everyone n)) by (rewrite <- E; apply in_map_iff; exists (a, l); auto).
    destruct (a =? i) eqn:EA; [subst l; destruct I2|]. apply Z.eqb_neq in EA. destruct HL as (_ & H2 & H3).
    split; [apply in_others; auto|]. split; [apply H2, in_map_iff; exists (j, x); auto|apply H3; exact I2]. }
  exists (map as3 L). split; [|split; [|split; [exact IN3|]]].
  - clear - FL. induction FL as [|m y H0 L0 HR _ IH]; [constructor|]. constructor; [|exact IH]. destruct y as [a [j x]]. exact HR.
  - apply (Permutation_map as3) in PL. apply (Permutation_map fst) in PL. apply (Permutation_NoDup PL). clear - E HL.
    assert (ND : NoDup (map fst LL)) by (rewrite E; apply nodup_everyone). clear E. induction LL as [|[a l] LL IH]; [constructor|].
    cbn [flat flat_map fst snd]. rewrite !map_app. fold (flat LL). cbn [map fst] in ND. apply NoDup_cons_iff in ND. destruct ND as [NI ND].
    specialize (IH (fun j l' I => HL j l' (or_intror I)) ND). specialize (HL a l (or_introl eq_refl)). cbn beta in HL.
    assert (NL : NoDup (map fst (map as3 (map (pair a) l)))).
    { replace (map fst (map as3 (map (pair a) l))) with (map (pair a) (map fst l)) by (rewrite !map_map; apply map_ext; intros []; reflexivity).
      destruct (a =? i); [subst l; constructor|]. apply FinFun.Injective_map_NoDup; [intros u v X1; injection X1; auto|apply HL]. }
    assert (DJ : forall k, In k (map fst (map as3 (map (pair a) l))) -> ~ In k (map fst (map as3 (flat LL)))).
    { intros k I1 I2. apply in_map_iff in I1. destruct I1 as (k1 & <- & I1). apply in_map_iff in I1. destruct I1 as (k2 & <- & I1). apply in_map_iff in I1. destruct I1 as (k3 & <- & _).
      apply in_map_iff in I2. destruct I2 as (k4 & Q2 & I2). apply in_map_iff in I2. destruct I2 as ([a2 [j2 x2]] & <- & I2). cbn in Q2. injection Q2 as Q2 _. subst a2.
      unfold flat in I2. apply in_flat_map in I2. destruct I2 as ([a' l'] & I2 & I3). cbn [fst snd] in I3. apply in_map_iff in I3. destruct I3 as (y & Q3 & _). injection Q3 as Q3 _. subst a'.
      apply NI. apply in_map_iff. exists (a, l'). split; [reflexivity|exact I2]. }
    revert NL DJ IH. generalize (map fst (map as3 (map (pair a) l))), (map fst (map as3 (flat LL))). clear. intros u v NU DJ NV. induction NU as [|x u NI NU IH]; [exact NV|].
    cbn. constructor; [rewrite in_app_iff; intros [X|X]; [contradiction|exact (DJ x (or_introl eq_refl) X)]|apply IH; intros k Hk; apply DJ; right; exact Hk].
  - intros a j Ha Hj. apply in_others in Ha as Ha'. destruct Ha' as [AE NE]. rewrite <- E in AE. apply in_map_iff in AE. destruct AE as ([a' l] & EQ & AE). cbn in EQ. subst a'.
    specialize (HL a l AE). cbn beta in HL. rewrite (proj2 (Z.eqb_neq a i)) in HL by exact NE. destruct HL as (_ & H2 & _). apply H2 in Hj. apply in_map_iff in Hj. destruct Hj as ([j' x] & EQ & Hj). cbn in EQ. subst j'.
    apply in_map_iff. exists ((a, j), x). split; [reflexivity|]. apply in_map_iff. exists (a, (j, x)). split; [reflexivity|]. apply (Permutation_in _ PL). unfold flat. apply in_flat_map.
    exists (a, l). split; [exact AE|]. cbn. apply in_map. exact Hj.
Qed.
