(** Proofs about configurations and member lists. *)
From Coq Require Import ZArith List Lia Bool Permutation Sorting.Sorted.
From Coq Require Import Init.Byte.
From Verif Require Import Params Bytes Res Secp Spec SecpProofs SecpProofs2 Net Layout LayoutSpec.
Import ListNotations.
Open Scope Z_scope.

(** ** Strings *)
Lemma str_ltb_tricho a : forall b, str_ltb a b = false -> str_ltb b a = false -> a = b.
Proof.
  induction a as [|x a IH]; intros [|y b]; cbn; intros H1 H2; try reflexivity; try discriminate.
  destruct (Z.ltb_spec (z_of_byte x) (z_of_byte y)); [discriminate|].
  destruct (Z.ltb_spec (z_of_byte y) (z_of_byte x)); [discriminate|].
  f_equal; [apply z_of_byte_inj; lia|apply IH; assumption].
Qed.

Lemma hex_digit_z d : 0 <= d < 16 -> z_of_byte (hex_digit d) = if d <? 10 then 48 + d else 87 + d.
Proof. intros H. unfold hex_digit. rewrite z_byte_z. apply Z.mod_small. destruct (d <? 10); lia. Qed.
Lemma hex_digit_lt a b : 0 <= a < 16 -> 0 <= b < 16 -> (z_of_byte (hex_digit a) <? z_of_byte (hex_digit b)) = (a <? b).
Proof.
  intros Ha Hb. rewrite !hex_digit_z by assumption.
  destruct (Z.ltb_spec a 10), (Z.ltb_spec b 10), (Z.ltb_spec a b); try (apply Z.ltb_lt; lia); apply Z.ltb_ge; lia.
Qed.
Lemma hex_ltb a : forall b, length a = length b -> str_ltb (hex_encode a) (hex_encode b) = str_ltb a b.
Proof.
  induction a as [|x a IH]; intros [|y b] L; try discriminate; [reflexivity|].
  cbn [length] in L. injection L as L. change (hex_encode (x :: a)) with ([hex_digit (z_of_byte x / 16); hex_digit (z_of_byte x mod 16)] ++ hex_encode a).
  change (hex_encode (y :: b)) with ([hex_digit (z_of_byte y / 16); hex_digit (z_of_byte y mod 16)] ++ hex_encode b).
  cbn [app str_ltb]. rewrite (IH b L).
  pose proof (z_of_byte_range x) as Rx. pose proof (z_of_byte_range y) as Ry.
  pose proof (Z.mod_pos_bound (z_of_byte x) 16 ltac:(lia)). pose proof (Z.mod_pos_bound (z_of_byte y) 16 ltac:(lia)).
  pose proof (Z.div_mod (z_of_byte x) 16 ltac:(lia)). pose proof (Z.div_mod (z_of_byte y) 16 ltac:(lia)).
  rewrite !hex_digit_lt by lia.
  set (q := z_of_byte x / 16) in *. set (q' := z_of_byte y / 16) in *. set (r := z_of_byte x mod 16) in *. set (r' := z_of_byte y mod 16) in *.
  destruct (Z.ltb_spec q q'), (Z.ltb_spec q' q), (Z.ltb_spec r r'), (Z.ltb_spec r' r),
    (Z.ltb_spec (z_of_byte x) (z_of_byte y)), (Z.ltb_spec (z_of_byte y) (z_of_byte x)); try reflexivity; lia.
Qed.
Lemma str_ltb_be2z a : forall b, length a = length b -> str_ltb a b = (be2z a <? be2z b).
Proof.
  induction a as [|x a IH]; intros [|y b] L; try discriminate; [reflexivity|].
  cbn [length] in L. injection L as L. cbn [str_ltb]. rewrite (IH b L), !be2z_cons, <- L.
  pose proof (be2z_range a) as Ra. pose proof (be2z_range b) as Rb. rewrite <- L in Rb.
  set (B := 256 ^ Z.of_nat (length a)) in *.
  destruct (Z.ltb_spec (z_of_byte x) (z_of_byte y)); [symmetry; apply Z.ltb_lt; nia|].
  destruct (Z.ltb_spec (z_of_byte y) (z_of_byte x)); [symmetry; apply Z.ltb_ge; nia|].
  replace (z_of_byte y) with (z_of_byte x) by lia.
  destruct (Z.ltb_spec (be2z a) (be2z b)); symmetry; [apply Z.ltb_lt|apply Z.ltb_ge]; lia.
Qed.

(** ** Loading *)
Definition enc (P : point) : bytes := be_fixed 32 (fst P mod p) ++ [if snd P mod 2 =? 0 then x00 else x01].
Lemma enc_length P : length (enc P) = 33%nat.
Proof. unfold enc. rewrite app_length, be_fixed_length. reflexivity. Qed.
Lemma marshal_enc P : curve_point P -> pt_marshal P = Ok (enc P).
Proof. intros C. apply pt_marshal_ok. split; [apply C|reflexivity]. Qed.
Lemma enc_inj P Q : curve_point P -> curve_point Q -> enc P = enc Q -> P = Q.
Proof.
  intros CP CQ E. pose proof (pt_roundtrip P _ CP (marshal_enc P CP)). pose proof (pt_roundtrip Q _ CQ (marshal_enc Q CQ)). congruence.
Qed.
Lemma hex_inj a b : length a = length b -> hex_encode a = hex_encode b -> a = b.
Proof.
  intros L E. apply str_ltb_tricho; [rewrite <- hex_ltb by exact L|rewrite <- hex_ltb by (symmetry; exact L)]; rewrite E;
    clear; induction (hex_encode b) as [|x l IH]; cbn; try reflexivity; rewrite Z.ltb_irrefl; exact IH.
Qed.

Definition mem_of (fs : bytes -> option bytes) (f : bytes) : option member :=
  match fs f with
  | Some b => match pt_unmarshal b with Ok P => Some (mkMem f 0 P (hex_encode (enc P))) | _ => None end
  | None => None
  end.
Fixpoint allsome {A B} (f : A -> option B) (l : list A) : option (list B) :=
  match l with
  | [] => Some []
  | x :: r => match f x, allsome f r with Some y, Some ys => Some (y :: ys) | _, _ => None end
  end.
Lemma allsome_perm {A B} (f : A -> option B) l l' : Permutation l l' ->
  match allsome f l, allsome f l' with Some a, Some b => Permutation a b | None, None => True | _, _ => False end.
Proof.
  induction 1; cbn.
  - constructor.
  - destruct (f x); [|exact I]. destruct (allsome f l), (allsome f l'); try contradiction; [|exact I]. constructor. assumption.
  - destruct (f x), (f y), (allsome f l); try exact I. constructor.
  - destruct (allsome f l), (allsome f l'), (allsome f l''); try contradiction; try exact I. etransitivity; eassumption.
Qed.
Lemma allsome_ext {A B} (f g : A -> option B) l : (forall x, In x l -> f x = g x) -> allsome f l = allsome g l.
Proof.
  induction l as [|x l IH]; intros H; cbn; [reflexivity|].
  rewrite (H x) by (left; reflexivity). rewrite IH by (intros; apply H; right; assumption). reflexivity.
Qed.
Lemma allsome_forall2 {A B} (f : A -> option B) l r : allsome f l = Some r <-> Forall2 (fun x y => f x = Some y) l r.
Proof.
  revert r. induction l as [|x l IH]; intros r; cbn.
  - split; [intros E; injection E as <-; constructor|inversion 1; reflexivity].
  - destruct (f x) as [y|] eqn:F.
    + destruct (allsome f l) as [ys|].
      * split.
        -- intros E. injection E as <-. constructor; [exact F|]. apply IH. reflexivity.
        -- inversion 1; subst. rewrite F in H2. injection H2 as <-. apply IH in H4. congruence.
      * split; [discriminate|]. inversion 1; subst. apply IH in H4. discriminate.
    + split; [discriminate|]. inversion 1; subst. congruence.
Qed.

Lemma load_spec srt fs names : load_and_sort srt fs names =
  match allsome (mem_of fs) names with Some ms => Ok (number_from 0 (srt ms)) | None => Panic end.
Proof.
  unfold load_and_sort.
  assert (G: (blobs <- slurp_all1 fs names ;; pubs <- unmarshal_public_keys blobs ;; make_members names pubs) =
             match allsome (mem_of fs) names with Some ms => Ok ms | None => Panic end).
  { induction names as [|f r IH]; [reflexivity|]. unfold slurp_all1, unmarshal_public_keys in *. cbn [rmap allsome]. unfold mem_of at 1.
    destruct (fs f) as [b|]; [|reflexivity]. cbn [rbind].
    destruct (rmap _ r) as [blobs| |] eqn:S.
    - cbn [rbind rmap] in *. destruct (pt_unmarshal b) as [P| |] eqn:U; cbn [must rbind]; try reflexivity.
      destruct (rmap _ blobs) as [pubs| |] eqn:Q; cbn [rbind make_members] in *.
      + unfold pubhex. rewrite (marshal_enc P (pt_unmarshal_point _ _ U)). cbn [must rbind]. rewrite IH.
        destruct (allsome (mem_of fs) r); reflexivity.
      + destruct (allsome (mem_of fs) r); congruence.
      + destruct (allsome (mem_of fs) r); [discriminate|reflexivity].
    - destruct (allsome (mem_of fs) r); discriminate.
    - cbn [rbind] in *. destruct (allsome (mem_of fs) r); [discriminate|]. destruct (pt_unmarshal b); reflexivity. }
  destruct (slurp_all1 fs names) as [blobs| |]; cbn [rbind] in *; [|destruct (allsome _ _); congruence|destruct (allsome _ _); congruence].
  destruct (unmarshal_public_keys blobs) as [pubs| |]; cbn [rbind] in *; [|destruct (allsome _ _); congruence|destruct (allsome _ _); congruence].
  rewrite G. destruct (allsome _ _); reflexivity.
Qed.

Lemma mem_of_some fs f m : mem_of fs f = Some m <-> exists P, holds fs f P /\ m = mkMem f 0 P (hex_encode (enc P)).
Proof.
  unfold mem_of, holds. split.
  - destruct (fs f) as [b|]; [|discriminate]. destruct (pt_unmarshal b) as [P| |] eqn:U; try discriminate.
    intros E. injection E as <-. exists P. split; [|reflexivity]. exists b. auto.
  - intros (P&(b&->&->)&->). reflexivity.
Qed.
Lemma holds_curve fs f P : holds fs f P -> curve_point P.
Proof. intros (b&_&U). exact (pt_unmarshal_point _ _ U). Qed.
Lemma holds_fun fs f P Q : holds fs f P -> holds fs f Q -> P = Q.
Proof. intros (b&E&U) (c&F&V). congruence. Qed.

(** ** Sorting *)
Lemma sorted_unique {A} (R : A -> A -> Prop) l1 : forall l2, StronglySorted R l1 -> StronglySorted R l2 -> Permutation l1 l2 ->
  (forall a b, In a l1 -> In b l1 -> R a b -> R b a -> a = b) -> l1 = l2.
Proof.
  induction l1 as [|a l1 IH]; intros l2 S1 S2 P AS.
  - apply Permutation_nil in P. auto.
  - destruct l2 as [|b l2]; [symmetry in P; apply Permutation_nil in P; discriminate|].
    inversion S1; subst. inversion S2; subst.
    assert (a = b).
    { assert (Ia: In a (b :: l2)) by (eapply Permutation_in; [exact P|left; reflexivity]).
      assert (Ib: In b (a :: l1)) by (eapply Permutation_in; [symmetry; exact P|left; reflexivity]).
      destruct Ia as [->|Ia]; [reflexivity|]. destruct Ib as [->|Ib]; [reflexivity|].
      rewrite Forall_forall in H2, H4. apply AS; [left; reflexivity|right; exact Ib|auto|auto]. }
    subst b. f_equal. apply IH; [assumption|assumption|eapply Permutation_cons_inv; exact P|].
    intros x y Ix Iy. apply AS; right; assumption.
Qed.

(** ** Numbering *)
Lemma number_nth ms : forall i k, nth_error (number_from i ms) k =
  match nth_error ms k with Some m => Some (mkMem (mb_file m) (i + Z.of_nat k) (mb_pub m) (mb_hex m)) | None => None end.
Proof.
  induction ms as [|m ms IH]; intros i [|k]; cbn [number_from nth_error]; try reflexivity.
  - rewrite Z.add_0_r. reflexivity.
  - rewrite IH. destruct (nth_error ms k); [|reflexivity]. do 2 f_equal. lia.
Qed.
Lemma number_length i ms : length (number_from i ms) = length ms.
Proof. revert i. induction ms as [|m ms IH]; intros i; cbn; auto. Qed.
Lemma number_map {A} (f : member -> A) i ms : (forall m j, f (mkMem (mb_file m) j (mb_pub m) (mb_hex m)) = f m) ->
  map f (number_from i ms) = map f ms.
Proof. intros H. revert i. induction ms as [|m ms IH]; intros i; cbn; [reflexivity|]. rewrite H, IH. reflexivity. Qed.

(** ** Maps *)
Lemma zget_zset {V} (m : list (Z * V)) k v j : zget (zset m k v) j = if k =? j then Some v else zget m j.
Proof.
  unfold zset. cbn. destruct (Z.eqb_spec k j) as [->|N]; [reflexivity|].
  induction m as [|[a w] m IH]; cbn; [reflexivity|]. destruct (Z.eqb_spec a k) as [->|N2]; cbn.
  - destruct (Z.eqb_spec k j); [congruence|exact IH].
  - destruct (a =? j); [reflexivity|exact IH].
Qed.
Lemma zset_fresh {V} (m : list (Z * V)) k v : ~ In k (map fst m) -> zset m k v = (k, v) :: m.
Proof.
  intros H. unfold zset. f_equal. induction m as [|[a w] m IH]; cbn in *; [reflexivity|].
  destruct (Z.eqb_spec a k) as [->|]; [tauto|]. cbn. f_equal. apply IH. tauto.
Qed.
Lemma zget_in {V} (m : list (Z * V)) k v : NoDup (map fst m) -> (zget m k = Some v <-> In (k, v) m).
Proof.
  induction m as [|[a w] m IH]; cbn; intros D; [split; [discriminate|intros []]|]. inversion D; subst.
  destruct (Z.eqb_spec a k) as [->|N].
  - split; [intros E; injection E as ->; auto|]. intros [E|I]; [congruence|]. exfalso. apply H1. apply in_map_iff. exists (k, v). auto.
  - rewrite IH by assumption. split; [auto|]. intros [E|I]; [congruence|exact I].
Qed.

Lemma sget0_rev l s i : NoDup (map fst l) -> In (s, i) l -> sget0 l s = i.
Proof.
  induction l as [|[k v] l IH]; cbn; intros D I; [destruct I|]. inversion D; subst.
  destruct (bytes_eqb_spec k s) as [->|N].
  - destruct I as [I|I]; [congruence|]. exfalso. apply H1. apply in_map_iff. exists (s, i). auto.
  - apply IH; [assumption|]. destruct I as [I|I]; [congruence|exact I].
Qed.
Lemma map_pubfile_rev ms : map_pubfile_to_index ms = rev (map (fun m => (mb_file m, mb_index m)) ms).
Proof.
  unfold map_pubfile_to_index. rewrite <- fold_left_rev_right.
  rewrite <- map_rev. induction (rev ms) as [|m l IH]; cbn; [reflexivity|]. rewrite IH. reflexivity.
Qed.
Lemma sget0_absent l s : ~ In s (map fst l) -> sget0 l s = 0.
Proof.
  induction l as [|[k v] l IH]; cbn; intros H; [reflexivity|].
  destruct (bytes_eqb_spec k s) as [->|]; [tauto|]. apply IH. tauto.
Qed.

Lemma nodup_app_r {A} (a b : list A) : NoDup (a ++ b) -> NoDup b.
Proof. induction a as [|x a IH]; cbn; intros D; [exact D|]. inversion D; auto. Qed.

(** The pairs of member and host, in order. *)
Fixpoint pairs_from (i : Z) (sets : list (list Z)) : list (Z * Z) :=
  match sets with [] => [] | ms :: r => map (fun m => (m, i)) ms ++ pairs_from (i + 1) r end.
Lemma pairs_fst i sets : map fst (pairs_from i sets) = concat sets.
Proof.
  revert i. induction sets as [|ms r IH]; intros i; cbn; [reflexivity|].
  rewrite map_app, map_map, IH. cbn. rewrite map_id. reflexivity.
Qed.
Lemma fold_zset ms (i : Z) acc : NoDup (ms ++ map fst acc) -> fold_left (fun a m => zset a m i) ms acc = rev (map (fun m => (m, i)) ms) ++ acc.
Proof.
  revert acc. induction ms as [|m ms IH]; intros acc D; cbn; [reflexivity|].
  cbn in D. inversion D; subst. rewrite zset_fresh by (intros I; apply H1; apply in_or_app; auto).
  rewrite IH; [rewrite <- app_assoc; reflexivity|]. cbn.
  apply (Permutation_NoDup (l := m :: ms ++ map fst acc)); [apply Permutation_middle|exact D].
Qed.
Lemma m2a_rev sets : forall i acc, NoDup (concat sets ++ map fst acc) -> m2a_from i sets acc = rev (pairs_from i sets) ++ acc.
Proof.
  induction sets as [|ms r IH]; intros i acc D; cbn; [reflexivity|].
  cbn in D. rewrite <- app_assoc in D.
  assert (P: Permutation (ms ++ concat r ++ map fst acc) (concat r ++ ms ++ map fst acc)) by apply Permutation_app_swap_app.
  pose proof (Permutation_NoDup P D) as D2.
  assert (D3: NoDup (ms ++ map fst acc)) by (apply (nodup_app_r _ _ D2)).
  rewrite fold_zset by exact D3.
  rewrite IH; [rewrite rev_app_distr, <- app_assoc; reflexivity|].
  rewrite map_app, map_rev, map_map. cbn. rewrite map_id.
  eapply Permutation_NoDup; [|exact D2]. apply Permutation_app_head, Permutation_app_tail, Permutation_rev.
Qed.
Lemma in_pairs i sets m j : In (m, j) (pairs_from i sets) <-> exists k ms, nth_error sets k = Some ms /\ In m ms /\ j = i + Z.of_nat k.
Proof.
  revert i. induction sets as [|ms r IH]; intros i; cbn [pairs_from].
  - split; [intros []|]. intros (k&x&E&_). destruct k; discriminate.
  - rewrite in_app_iff, IH, in_map_iff. split.
    + intros [(x&E&I)|(k&x&E&I&->)].
      * injection E as -> ->. exists 0%nat, ms. split; [reflexivity|]. split; [exact I|]. lia.
      * exists (S k), x. split; [exact E|]. split; [exact I|]. lia.
    + intros ([|k]&x&E&I&->); cbn in E.
      * injection E as <-. left. exists m. split; [f_equal; lia|exact I].
      * right. exists k, x. split; [exact E|]. split; [exact I|]. lia.
Qed.

(** ** Queues *)
Lemma put_nth_length {A} (l : list A) n x : length (put_nth l n x) = length l.
Proof. revert n. induction l as [|y l IH]; intros [|n]; cbn; auto. Qed.
Lemma nth_put_nth {A} (l : list A) n x k : nth_error (put_nth l n x) k =
  if Nat.eqb n k then match nth_error l k with Some _ => Some x | None => None end else nth_error l k.
Proof.
  revert n k. induction l as [|y l IH]; intros [|n] [|k]; cbn; try reflexivity.
  - destruct (Nat.eqb n k); reflexivity.
  - apply IH.
Qed.
Lemma start_queues_ok {Ad} (addrs : list Ad) m2a : forall qs,
  NoDup (map fst m2a) ->
  (forall k a, In (k, a) m2a -> 0 <= k < Z.of_nat (length qs) /\ 0 <= a < Z.of_nat (length addrs)) ->
  exists qs', start_queues addrs qs m2a = Ok qs' /\ length qs' = length qs /\
    (forall k a, In (k, a) m2a -> nth_error qs' (Z.to_nat k) = Some (nth_error addrs (Z.to_nat a))) /\
    (forall k, ~ In (Z.of_nat k) (map fst m2a) -> nth_error qs' k = nth_error qs k).
Proof.
  induction m2a as [|[m i] r IH]; intros qs D B; cbn [start_queues].
  - exists qs. split; [reflexivity|]. split; [reflexivity|]. split; [intros k a []|auto].
  - destruct (B m i (or_introl eq_refl)) as [Bm Bi]. inversion D; subst.
    destruct (Z.leb_spec 0 m); [|lia]. destruct (Z.ltb_spec m (Z.of_nat (length qs))); [|lia]. cbn [andb].
    destruct (Z.ltb_spec i 0); [lia|].
    destruct (nth_error addrs (Z.to_nat i)) as [a|] eqn:A; [|apply nth_error_None in A; lia].
    destruct (IH (put_nth qs (Z.to_nat m) (Some a))) as (qs'&E&L&G1&G2); [assumption| |].
    { intros k b I. rewrite put_nth_length. apply B. right. exact I. }
    rewrite put_nth_length in L. exists qs'. split; [exact E|]. split; [exact L|]. split.
    + intros k b [I|I]; [|apply G1; exact I]. injection I as <- <-. rewrite G2; [|rewrite Z2Nat.id by lia; exact H1].
      rewrite nth_put_nth, Nat.eqb_refl, A. destruct (nth_error qs (Z.to_nat m)) eqn:Q; [reflexivity|]. apply nth_error_None in Q. lia.
    + intros k NI. cbn in NI. rewrite G2 by tauto. rewrite nth_put_nth.
      destruct (Nat.eqb_spec (Z.to_nat m) k) as [<-|]; [|reflexivity]. exfalso. apply NI. left. lia.
Qed.
