(** Property theorems C41-C43: wire structs and the long-term key file. *)
From Coq Require Import ZArith List Lia Bool Permutation.
From Coq Require Import Init.Byte.
From Verif Require Import Params NumTh Curve Order Bytes Res Secp Spec SecpProofs SecpProofs2 PublicKey
  Schnorr Dss Dto DtoSpec DtoProofs.
Import ListNotations.
Open Scope Z_scope.

(** ** C41 *)
Theorem C41_roundtrip : forall o, good o -> exists w, to_wire o = Ok w /\ from_wire (obj_kind o) w = Ok o.
Proof. exact wire_rt. Qed.
(** Conversion to the wire fails exactly when some point is off the curve, e.g.
    the identity (0,0); it never sends a truncated struct. *)
Theorem C41_commits_refused_iff : forall c,
  (to_wire (OCommits c) = Err <-> Exists (fun P => ~ on_curve (fst P) (snd P)) (co_commits c)).
Proof.
  intros c. cbn. unfold commits_to_dto. generalize (co_commits c) as l.
  intros l. assert (K : marshal_all l = Err <-> Exists (fun P => ~ on_curve (fst P) (snd P)) l).
  { induction l as [|P l IH]; cbn [marshal_all].
    - split; [discriminate|]. intros H; inversion H.
    - destruct (pt_marshal P) as [b| |] eqn:E; cbn [rbind].
      + assert (O : on_curve (fst P) (snd P)) by (apply pt_marshal_ok in E; tauto).
        destruct (marshal_all l) as [bs| |] eqn:EL; cbn [rbind].
        * split; [discriminate|]. intros H. inversion H as [? ? X|? ? X]; subst; [contradiction|]. apply IH in X. discriminate.
        * split; [|reflexivity]. intros _. right. apply IH. reflexivity.
        * split; [discriminate|]. intros H. inversion H as [? ? X|? ? X]; subst; [contradiction|]. apply IH in X. discriminate.
      + split; [|reflexivity]. intros _. left. apply pt_marshal_err. exact E.
      + destruct (pt_marshal_no_panic _ E). }
  rewrite <- K. destruct (marshal_all l); cbn [rbind]; split; congruence.
Qed.
Example C41_ex : good (OJust (mkJust 1 [x01] 2 (mkVss [x02] (mkPri 1 5) (mkPri 1 6) 2 [(Gx, Gy); (Gx, Gy)]) [x03])) /\
  to_wire (OCommits (mkCommits 0 [(Gx, Gy); (0, 0)] [] [])) = Err.
Proof.
  assert (CG : curve_point (Gx, Gy)) by (unfold curve_point, on_curve, eqP; vm_compute; repeat split; discriminate).
  split.
  - cbn. unfold good_deal, good_share. cbn [vd_sec vd_rnd vd_commits pr_v].
    split; [split; [discriminate|reflexivity]|]. split; [split; [discriminate|reflexivity]|].
    constructor; [exact CG|]. constructor; [exact CG|constructor].
  - apply C41_commits_refused_iff. right. left. vm_compute. discriminate.
Qed.
Print Assumptions C41_roundtrip. Print Assumptions C41_commits_refused_iff.

(** ** C42 *)
Theorem C42_decodes_iff : forall w k, wire_kind w = Some k ->
  (Forall is_scalar (wire_scalars w) /\ Forall is_point (wire_points w) ->
     exists o, from_wire k w = Ok o /\ obj_kind o = k /\ good o) /\
  (~ (Forall is_scalar (wire_scalars w) /\ Forall is_point (wire_points w)) -> from_wire k w = Err).
Proof. exact wire_dec. Qed.
Theorem C42_never_panics : forall w k, wire_kind w = Some k -> from_wire k w <> Panic.
Proof.
  intros w k H. destruct (wire_dec w k H) as [A B]. intros X.
  assert (D : (Forall is_scalar (wire_scalars w) /\ Forall is_point (wire_points w)) \/
             ~ (Forall is_scalar (wire_scalars w) /\ Forall is_point (wire_points w))).
  { destruct (all_point_dec (wire_points w)); [|tauto].
    assert (DS : forall l, Forall is_scalar l \/ ~ Forall is_scalar l).
    { induction l as [|b l IH]; [left; constructor|]. destruct (scalar_dec b), IH;
        try (left; constructor; assumption); right; intros Y; inversion Y; contradiction. }
    destruct (DS (wire_scalars w)); tauto. }
  destruct D as [D|D]; [destruct (A D) as (o & E & _)|pose proof (B D) as E]; congruence.
Qed.
(** Decoding and re-encoding gives an equivalent struct: encoding what was
    decoded always succeeds. *)
Theorem C42_decoded_reencodes : forall w k o, wire_kind w = Some k -> from_wire k w = Ok o ->
  exists w', to_wire o = Ok w' /\ from_wire k w' = Ok o.
Proof.
  intros w k o H E. destruct (wire_dec w k H) as [A B].
  assert (G : obj_kind o = k /\ good o).
  { destruct (all_point_dec (wire_points w)) as [DP|DP].
    - assert (DS : forall l, Forall is_scalar l \/ ~ Forall is_scalar l).
      { induction l as [|b l IH]; [left; constructor|]. destruct (scalar_dec b), IH;
          try (left; constructor; assumption); right; intros Y; inversion Y; contradiction. }
      destruct (DS (wire_scalars w)) as [D|D].
      + destruct (A (conj D DP)) as (o' & E' & G). assert (o' = o) by congruence. subst. exact G.
      + assert (X : from_wire k w = Err) by (apply B; tauto). congruence.
    - assert (X : from_wire k w = Err) by (apply B; tauto). congruence. }
  destruct G as [<- G]. apply wire_rt, G.
Qed.
Example C42_ex :
  let w s := WRecons (mkReconsD [] 1 2 (mkPriD 1 s) []) in
  is_scalar (repeat x01 32) /\ from_wire KRecons (w [x01]) = Err /\
  from_wire KCommits (WCommits (mkCommitsD 1 [[x00]] [] [])) = Err.
Proof. vm_compute. auto. Qed.
Print Assumptions C42_decodes_iff. Print Assumptions C42_never_panics. Print Assumptions C42_decoded_reencodes.

(** ** C43 *)
(** Maps are compared through lookup; [ord], [ord']: any iteration orders. *)
Theorem C43_save_load : forall G (guests : list (Z * G)) lts ord ord',
  NoDup (map fst lts) -> (forall k s, In (k, s) lts -> good_dks s) ->
  (forall l : list (Z * dks), Permutation (ord l) l) -> (forall l : list (Z * dks_dto), Permutation (ord' l) l) ->
  exists file lts', save_longterms (ord lts) = Ok file /\
    (forall k, mget lts' k = mget lts k) /\
    (load_longterms guests (ord' file) = Ok lts' <-> forall k, In k (map fst guests) -> exists s, mget lts k = Some s) /\
    (load_longterms guests (ord' file) = Ok lts' \/ load_longterms guests (ord' file) = Panic).
Proof.
  intros G guests lts ord ord' ND GD HO HO'.
  destruct (save_load G guests lts ord ord' ND GD HO HO') as (file & lts' & E1 & E2 & _ & E3).
  exists file, lts'. split; [exact E1|]. split; [exact E3|].
  destruct (load_iff G guests _ _ E2) as [A B]. split; [|exact B]. rewrite A.
  split; intros H k Hk; specialize (H k Hk); rewrite E3 in *; exact H.
Qed.
(** Whatever is in the file: loading returns only curve-point commitments and
    reduced shares, or stops the program. *)
Theorem C43_load_checks : forall G (guests : list (Z * G)) file,
  load_longterms guests file = Panic \/
  exists lts, load_longterms guests file = Ok lts /\ forall k s, mget lts k = Some s -> good_dks s.
Proof.
  intros G guests file.
  assert (K : forall l m0, (forall k s, mget m0 k = Some s -> good_dks s) ->
    conv dto_to_dks l (Ok m0) = Err \/
    exists m, conv dto_to_dks l (Ok m0) = Ok m /\ forall k s, mget m k = Some s -> good_dks s).
  { assert (E : forall l, conv dto_to_dks l Err = Err) by (induction l as [|e l IH]; [reflexivity|exact IH]).
    induction l as [|[k w] l IH]; intros m0 H; [right; exists m0; tauto|].
    cbn [conv fold_left fst snd rbind]. destruct (dks_dec w) as [A B].
    destruct (all_point_dec (dkd_commits w)) as [D1|D1]; [|left; rewrite (B ltac:(tauto)); apply E].
    destruct (scalar_dec (prd_v (dkd_share w))) as [D2|D2]; [|left; rewrite (B ltac:(tauto)); apply E].
    destruct (A (conj D1 D2)) as (s & -> & GS). cbn [rbind]. apply IH.
    intros k' s'. rewrite mget_mset. destruct (k =? k'); [intros X; injection X as <-; exact GS|apply H]. }
  unfold load_longterms. destruct (K file [] ltac:(discriminate)) as [E|(m & E & H)];
    change (conv dto_to_dks file (Ok [])) with (dto_to_lts file) in E; rewrite E; cbn [assert_nil rbind].
  - left; reflexivity.
  - destruct (subset_spec guests m) as [_ [X|X]]; rewrite X; cbn [assert_nil rbind]; [right; eauto|left; reflexivity].
Qed.
Example C43_ex : let lts := [(0, mkDks [(Gx, Gy)] (mkPri 0 5)); (2, mkDks [(Gx, Gy)] (mkPri 2 6))] in
  NoDup (map fst lts) /\ (forall k s, In (k, s) lts -> good_dks s).
Proof.
  assert (CG : curve_point (Gx, Gy)) by (unfold curve_point, on_curve, eqP; vm_compute; repeat split; discriminate).
  cbn [map fst]. split; [repeat constructor; cbn; intuition discriminate|].
  intros k s [E|[E|[]]]; injection E as <- <-; (split; [constructor; [exact CG|constructor]|split; [discriminate|reflexivity]]).
Qed.
Print Assumptions C43_save_load. Print Assumptions C43_load_checks.
