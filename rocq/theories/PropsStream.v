(** Property theorems C111, C112 (streams of points and scalars). *)
From Coq Require Import ZArith List Lia Bool.
From Coq Require Import Init.Byte.
From Verif Require Import Params Bytes Res Spec Secp SecpProofs SecpProofs2 PropsSecp Stream StreamSpec.
Import ListNotations.

(** * io.ReadFull *)
Lemma read_full_cons : forall k d e rest, (0 < k)%nat -> read_full k (mkChunk d e :: rest) =
  if (k <? length d)%nat then (firstn k d, false, mkChunk (skipn k d) e :: rest)
  else if (length d =? k)%nat then (d, false, rest)
  else if e then (d, true, rest)
  else let '(b, x, r') := read_full (k - length d) rest in (d ++ b, x, r').
Proof. intros [|k] d e rest H; [lia|reflexivity]. Qed.
Lemma read_full_available : forall r k, (k <= length (available r))%nat ->
  exists r', read_full k r = (firstn k (available r), false, r').
Proof.
  induction r as [|[d e] rest IH]; intros k H; destruct k as [|k']; try (eexists; reflexivity).
  - cbn in H. lia.
  - assert (Kp : (0 < S k')%nat) by lia. generalize dependent (S k'). clear k'. intros k H Kp. cbn [available ck_data ck_err] in *. rewrite read_full_cons by exact Kp.
    destruct (Nat.ltb_spec k (length d)).
    + eexists. rewrite firstn_app, (proj2 (Nat.sub_0_le k (length d))), app_nil_r by lia. reflexivity.
    + destruct (Nat.eqb_spec (length d) k) as [E|NE].
      * eexists. rewrite firstn_app, <- E, Nat.sub_diag, firstn_all, app_nil_r. reflexivity.
      * destruct e.
        -- rewrite app_nil_r in H. lia.
        -- rewrite app_length in H. destruct (IH (k - length d)%nat) as (r' & ->); [lia|].
           eexists. rewrite firstn_app, (firstn_all2 d) by lia. reflexivity.
Qed.
Lemma read_full_short : forall r k, (length (available r) < k)%nat ->
  exists r', read_full k r = (available r, true, r').
Proof.
  induction r as [|[d e] rest IH]; intros k H; destruct k as [|k']; try lia.
  - eexists. reflexivity.
  - assert (Kp : (0 < S k')%nat) by lia. generalize dependent (S k'). clear k'. intros k H Kp. cbn [available ck_data ck_err] in *. rewrite read_full_cons by exact Kp.
    rewrite app_length in H.
    destruct (Nat.ltb_spec k (length d)); [lia|]. destruct (Nat.eqb_spec (length d) k); [lia|].
    destruct e; [rewrite app_nil_r; eauto|].
    destruct (IH (k - length d)%nat) as (r' & ->); [lia|]. eauto.
Qed.
Lemma read_full_sound : forall r k, sound r -> (k <= length (delivers r))%nat ->
  exists r', read_full k r = (firstn k (delivers r), false, r') /\ sound r' /\ delivers r' = skipn k (delivers r).
Proof.
  unfold delivers, sound. induction r as [|[d e] rest IH]; intros k Sd H; destruct k as [|k'];
    try (eexists; split; [reflexivity|]; split; [exact Sd|reflexivity]).
  - cbn in H. lia.
  - assert (Kp : (0 < S k')%nat) by lia. generalize dependent (S k'). clear k'. intros k H Kp. inversion Sd as [|? ? E S']; subst. cbn [ck_err] in E. subst e.
    cbn [map concat ck_data] in *. rewrite read_full_cons by exact Kp.
    destruct (Nat.ltb_spec k (length d)).
    + eexists. rewrite firstn_app, skipn_app, (proj2 (Nat.sub_0_le k (length d))), app_nil_r by lia.
      split; [reflexivity|]. split; [constructor; [reflexivity|exact S']|reflexivity].
    + destruct (Nat.eqb_spec (length d) k) as [E|NE].
      * eexists. rewrite firstn_app, skipn_app, <- E, Nat.sub_diag, firstn_all, skipn_all, app_nil_r.
        split; [reflexivity|]. split; [exact S'|reflexivity].
      * rewrite app_length in H. destruct (IH (k - length d)%nat S') as (r' & -> & S1 & D1); [lia|].
        eexists. rewrite firstn_app, skipn_app, (firstn_all2 d), (skipn_all2 d) by lia.
        split; [reflexivity|]. split; [exact S1|exact D1].
Qed.
Lemma sound_available : forall r, sound r -> available r = delivers r.
Proof.
  unfold sound, delivers. induction 1 as [|[d e] rest E _ IH]; [reflexivity|].
  cbn in *. rewrite E, IH. reflexivity.
Qed.

(** * One item *)
(** What the item's MarshalBinary gives. *)
Definition item_bytes (i : item) : res bytes :=
  match i with IPoint P => pt_marshal P | IScalar s => sc_marshal s end.
Lemma encodable_bytes : forall i, encodable i -> exists b, item_bytes i = Ok b /\ length b = item_size i.
Proof.
  intros [P|s] H; cbn.
  - destruct (C06_point_roundtrip P H) as (b & E & L & _). eauto.
  - destruct (C03_scalar_encoding s) as (b & E & L & _). eauto.
Qed.
Lemma put_item_eq : forall i w, put_item i w =
  match item_bytes i with Ok b => Ok (w_write b w) | Err => Ok (w, (0%nat, true)) | Panic => Panic end.
Proof. intros [P|s] w; reflexivity. Qed.
Lemma recv_ok : forall P b Q, length b = 33%nat -> pt_unmarshal b = Ok Q -> pt_unmarshal_recv P b = (Q, Ok tt).
Proof.
  intros P b Q L. unfold pt_unmarshal, pt_unmarshal_recv. rewrite L.
  cbn [Nat.eqb negb]. destruct (negb _); [discriminate|].
  destruct (fe_maybe_sqrt _); [|discriminate].
  cbv zeta. destruct (_ || _); intros H; injection H as <-; reflexivity.
Qed.
Lemma get_item_bytes : forall i j b r r', encodable i -> same_kind i j -> item_bytes i = Ok b ->
  read_full (item_size i) r = (b, false, r') -> get_item j r = (meant i, (item_size j, false), r').
Proof.
  intros [P|s] [Q|t] b r r' En K E R; try contradiction; cbn in E, R |- *.
  - destruct (C06_point_roundtrip P En) as (b' & E' & L & U). rewrite E in E'. injection E' as <-.
    unfold pt_unmarshal_from, pt_size. rewrite R, (recv_ok Q b P L U), L. reflexivity.
  - destruct (C03_scalar_encoding s) as (b' & E' & L & _ & U). rewrite E in E'. injection E' as <-.
    unfold sc_unmarshal_from, sc_size. rewrite R, U, L. reflexivity.
Qed.
Lemma item_size_kind : forall i j, same_kind i j -> item_size j = item_size i.
Proof. intros [P|s] [Q|t] K; try contradiction; reflexivity. Qed.

(** ** C111 *)
Lemma written_all : forall l w, Forall encodable l ->
  (match w_room w with None => True | Some n => (sizes l <= n)%nat end) ->
  exists w' bs, written l w w' /\ Forall2 (fun i b => item_bytes i = Ok b /\ length b = item_size i) l bs /\
    w_out w' = w_out w ++ concat bs.
Proof.
  induction l as [|i l IH]; intros w En R.
  - exists w, []. split; [constructor|]. split; [constructor|]. cbn. rewrite app_nil_r. reflexivity.
  - inversion En as [|? ? Ei El]; subst. destruct (encodable_bytes i Ei) as (b & E & L).
    cbn [sizes fold_right] in R. fold (sizes l) in R.
    assert (W : exists w1, w_write b w = (w1, (item_size i, false)) /\ w_out w1 = w_out w ++ b /\
      match w_room w1 with None => True | Some n => (sizes l <= n)%nat end).
    { unfold w_write. destruct (w_room w) as [n|].
      - rewrite L. destruct (Nat.leb_spec (item_size i) n); [|lia].
        eexists. split; [reflexivity|]. split; [reflexivity|]. cbn. lia.
      - rewrite L. eexists. split; [reflexivity|]. split; [reflexivity|exact I]. }
    destruct W as (w1 & W & O1 & R1). destruct (IH w1 El R1) as (w' & bs & Wr & F & O).
    exists w', (b :: bs). split; [|split; [constructor; [split; assumption|exact F]|]].
    + econstructor; [|exact Wr]. rewrite put_item_eq, E, W. reflexivity.
    + rewrite O, O1. cbn. rewrite app_assoc. reflexivity.
Qed.
Lemma read_all : forall l recvs bs r rest, Forall encodable l -> Forall2 same_kind l recvs ->
  Forall2 (fun i b => item_bytes i = Ok b /\ length b = item_size i) l bs -> sound r ->
  delivers r = concat bs ++ rest ->
  exists r', read_back recvs r (map meant l) r' /\ sound r' /\ delivers r' = rest.
Proof.
  induction l as [|i l IH]; intros recvs bs r rest En K F S D; inversion K as [|? j ? recvs' Kj Ks]; subst;
    inversion F as [|? b ? bs' [Eb Lb] Fs]; subst.
  - exists r. split; [constructor|]. split; [exact S|exact D].
  - inversion En as [|? ? Ei El]; subst.
    cbn [concat] in D. rewrite <- app_assoc in D.
    destruct (read_full_sound r (item_size i) S) as (r1 & R & S1 & D1).
    { rewrite D, app_length. lia. }
    rewrite D in R, D1. rewrite <- Lb in R, D1 at 1. rewrite Lb in R at 1.
    rewrite firstn_app, Nat.sub_diag, firstn_all, app_nil_r in R.
    rewrite skipn_app, Nat.sub_diag, skipn_all in D1. cbn [app] in D1.
    destruct (IH recvs' bs' r1 rest El Ks Fs S1 D1) as (r2 & RB & S2 & D2).
    exists r2. split; [|split; [exact S2|exact D2]].
    cbn [map]. econstructor; [|exact RB].
    rewrite (get_item_bytes i j b r r1 Ei Kj Eb R). reflexivity.
Qed.

(** Items written to a stream one after the other are read back in order, however the
    bytes are cut into reads, into whatever receivers of their kinds; every call
    returns the item's size and no error, and what follows in the stream is
    left for the next reader. *)
Theorem C111_stream_roundtrip : forall l w, Forall encodable l ->
  (match w_room w with None => True | Some n => (sizes l <= n)%nat end) ->
  exists w' out, written l w w' /\ w_out w' = w_out w ++ out /\ length out = sizes l /\
    forall r rest recvs, sound r -> delivers r = out ++ rest -> Forall2 same_kind l recvs ->
      exists r', read_back recvs r (map meant l) r' /\ sound r' /\ delivers r' = rest.
Proof.
  intros l w En R. destruct (written_all l w En R) as (w' & bs & Wr & F & O).
  exists w', (concat bs). split; [exact Wr|]. split; [exact O|]. split.
  - clear -F. induction F as [|i b l bs [_ L] _ IH]; [reflexivity|].
    cbn. rewrite app_length, L, IH. reflexivity.
  - intros r rest recvs S D K. exact (read_all l recvs bs r rest En K F S D).
Qed.
(** Reading is decoding the bytes that are next in the stream. *)
Theorem C111_reads_what_is_next : forall r,
  (forall P, (33 <= length (available r))%nat -> exists r',
     pt_unmarshal_from P r =
       (fst (pt_unmarshal_recv P (firstn 33 (available r))),
        (33%nat, is_err (snd (pt_unmarshal_recv P (firstn 33 (available r))))), r')) /\
  (forall s, (32 <= length (available r))%nat -> exists r',
     sc_unmarshal_from s r = (be2z (firstn 32 (available r)) mod N, (32%nat, false), r')).
Proof.
  intros r. split; intros x H.
  - destruct (read_full_available r 33 H) as (r' & E). exists r'. unfold pt_unmarshal_from, pt_size.
    rewrite E. cbv beta iota zeta. destruct (pt_unmarshal_recv _ _). rewrite firstn_length_le by exact H. reflexivity.
  - destruct (read_full_available r 32 H) as (r' & E). exists r'. unfold sc_unmarshal_from, sc_size.
    rewrite E. cbv beta iota zeta.
    rewrite (proj2 (C03_scalar_decoding_fails_iff _) (firstn_length_le _ H)), firstn_length_le by exact H. reflexivity.
Qed.

Definition stream_items := [IScalar (N + 258); IPoint (Gx, Gy); IScalar 7].
Definition one_by_one (b : bytes) : reader := map (fun x => mkChunk [x] false) b.
Lemma one_by_one_sound : forall b, sound (one_by_one b) /\ delivers (one_by_one b) = b.
Proof.
  unfold sound, delivers, one_by_one. induction b as [|x b [S D]]; [split; constructor|].
  split; [constructor; [reflexivity|exact S]|]. cbn in *. rewrite D. reflexivity.
Qed.
Example C111_ex : exists w' out, written stream_items (mkWriter [x05] (Some 97%nat)) w' /\
  w_out w' = x05 :: out /\ length out = 97%nat /\
  exists r', read_back [IScalar 1; IPoint (0, 0)%Z; IScalar 1] (one_by_one (out ++ [x01; x02]))
    [IScalar 258; IPoint (Gx, Gy); IScalar 7] r' /\ delivers r' = [x01; x02].
Proof.
  destruct (C111_stream_roundtrip stream_items (mkWriter [x05] (Some 97%nat))) as (w' & out & W & O & L & H).
  - constructor; [exact I|]. constructor; [exact G_curve_point|]. constructor; [exact I|constructor].
  - cbn. lia.
  - exists w', out. split; [exact W|]. split; [exact O|]. split; [exact L|].
    destruct (one_by_one_sound (out ++ [x01; x02])) as [S D].
    destruct (H _ [x01; x02] [IScalar 1; IPoint (0, 0)%Z; IScalar 1] S D) as (r' & R & _ & D').
    { constructor; [exact I|]. constructor; [exact I|]. constructor; [exact I|constructor]. }
    exists r'. split; [|exact D'].
    assert (M : map meant stream_items = [IScalar 258; IPoint (Gx, Gy); IScalar 7]).
    { cbn [map meant stream_items]. replace ((N + 258) mod N)%Z with 258%Z by (vm_compute; reflexivity).
      replace (7 mod N)%Z with 7%Z by (vm_compute; reflexivity). reflexivity. }
    rewrite M in R. exact R.
Qed.
Print Assumptions C111_stream_roundtrip. Print Assumptions C111_reads_what_is_next.

(** ** C112 *)
(** A stream that ends or fails too early gives an error and leaves the receiver as it
    was.  The scalar's count is what was read, the point's is 0. *)
Theorem C112_short_stream : forall r,
  (forall P, (length (available r) < 33)%nat -> exists r', pt_unmarshal_from P r = (P, (0%nat, true), r')) /\
  (forall s, (length (available r) < 32)%nat -> exists r',
     sc_unmarshal_from s r = (s, (length (available r), true), r')).
Proof.
  intros r. split; intros x H.
  - destruct (read_full_short r 33 H) as (r' & E). exists r'. unfold pt_unmarshal_from, pt_size. rewrite E. reflexivity.
  - destruct (read_full_short r 32 H) as (r' & E). exists r'. unfold sc_unmarshal_from, sc_size. rewrite E. reflexivity.
Qed.
(** A writer without room for an item takes what fits, and the call returns that number
    and an error; an item that cannot be encoded writes nothing. *)
Theorem C112_failed_write : forall i out,
  (encodable i -> forall n, (n < item_size i)%nat -> exists b,
     put_item i (mkWriter [] None) = Ok (mkWriter b None, (item_size i, false)) /\
     put_item i (mkWriter out (Some n)) = Ok (mkWriter (out ++ firstn n b) (Some 0%nat), (n, true))) /\
  (forall P room, i = IPoint P -> ~ on_curve (fst P) (snd P) ->
     put_item i (mkWriter out room) = Ok (mkWriter out room, (0%nat, true))).
Proof.
  intros i out. split.
  - intros En n H. destruct (encodable_bytes i En) as (b & E & L). exists b.
    rewrite !put_item_eq, E. unfold w_write. cbn [w_room w_out app]. rewrite L.
    split; [reflexivity|]. destruct (Nat.leb_spec (item_size i) n); [lia|reflexivity].
  - intros P room -> C. rewrite put_item_eq. cbn [item_bytes]. rewrite (proj2 (C07_marshal_fails_iff_off_curve P) C). reflexivity.
Qed.
Example C112_ex :
  (exists r', pt_unmarshal_from (1, 2)%Z [mkChunk [x01; x02] false; mkChunk [x03] true; mkChunk (repeat x00 40) false]
     = ((1, 2)%Z, (0%nat, true), r')) /\
  (exists r', sc_unmarshal_from 9 [mkChunk [x01; x02] false; mkChunk [x03] true; mkChunk (repeat x00 40) false]
     = (9%Z, (3%nat, true), r')) /\
  put_item (IScalar 5) (mkWriter [x07] (Some 3%nat)) = Ok (mkWriter [x07; x00; x00; x00] (Some 0%nat), (3%nat, true)) /\
  put_item (IPoint (0, 0)%Z) (mkWriter [x07] None) = Ok (mkWriter [x07] None, (0%nat, true)).
Proof.
  split; [eexists; reflexivity|]. split; [eexists; reflexivity|]. split; [vm_compute; reflexivity|].
  apply (proj2 (C112_failed_write (IPoint (0, 0)%Z) [x07]) (0, 0)%Z None eq_refl). exact null_off_curve.
Qed.
Print Assumptions C112_short_stream. Print Assumptions C112_failed_write.
