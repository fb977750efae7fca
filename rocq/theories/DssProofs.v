(** Lemmas about the model of ethdss.go. *)
From Coq Require Import ZArith Znumtheory List Lia Bool Permutation.
From Coq Require Import Init.Byte.
From Verif Require Import Params NumTh PrimeN Zmod Curve Order Bytes Res Secp Spec SecpProofs SecpProofs2
  PublicKey Schnorr SchnorrProofs Lagrange Dss DssSpec.
Import ListNotations.
Open Scope Z_scope.

Notation FN := (Fm N).
Notation oN := (of_Z N).

(** * Points and polynomials *)


Lemma commits_exist C : Forall group_elt C -> exists c, commits_of c C.
Proof.
  induction C as [|P C IH]; intros H.
  - exists []. constructor.
  - inversion H as [|? ? HP HC]; subst. destruct (IH HC) as [c Hc].
    destruct (elt_of_E _ HP) as [e ->]. destruct (cyclic e) as (k & _ & ->).
    exists (k :: c). constructor; [apply pt_mul_base; tauto|exact Hc].
Qed.

Lemma pub_eval_spec c C i : commits_of c C -> pub_eval C i = Ok (of_E (smul (poly c (i + 1)) eG)).
Proof.
  unfold pub_eval. induction 1 as [|a P c C HP _ IH].
  - cbn. reflexivity.
  - cbn [fold_right poly]. rewrite IH. cbn [rbind]. rewrite pt_mul_of_E. cbn [rbind].
    rewrite pt_mul_base in HP by tauto. assert (EP : P = of_E (smul a eG)) by congruence. subst P.
    rewrite pt_add_of_E. unfold sc_set_int64, sc_mod. rewrite smul_modN, <- smul_mul, <- smul_add.
    f_equal. f_equal. f_equal. rewrite (Z.add_comm 1 i). ring.
Qed.

Lemma poly_comb h f : forall r, exists c, length c = Nat.max (length f) (length r) /\
  forall x, poly c x = poly r x - h * poly f x.
Proof.
  induction f as [|a f IH]; intros r.
  - exists r. split; [reflexivity|]. intros x. cbn. ring.
  - destruct r as [|b r].
    + destruct (IH []) as (c & L & H). exists (- h * a :: c). split; [cbn; rewrite L; cbn; lia|].
      intros x. cbn [poly]. rewrite H. cbn [poly]. ring.
    + destruct (IH r) as (c & L & H). exists (b - h * a :: c). split; [cbn; rewrite L; reflexivity|].
      intros x. cbn [poly]. rewrite H. ring.
Qed.

(** * RecoverSecret *)
Lemma map_set_keys m k v : forall j, In j (map fst (map_set m k v)) <-> j = k \/ In j (map fst m).
Proof.
  induction m as [|[k' v'] m IH]; intros j; cbn; [intuition congruence|].
  destruct (Z.eqb_spec k' k) as [->|NE]; cbn; [intuition congruence|]. rewrite IH. intuition congruence.
Qed.
Lemma map_set_nodup m k v : NoDup (map fst m) -> NoDup (map fst (map_set m k v)).
Proof.
  induction m as [|[k' v'] m IH]; intros H; cbn.
  - constructor; [cbn; tauto|constructor].
  - inversion H as [|? ? Hk Hm]; subst. destruct (Z.eqb_spec k' k) as [->|NE]; cbn.
    + constructor; assumption.
    + constructor; [|apply IH, Hm]. rewrite map_set_keys. intros [E|E]; [congruence|contradiction].
Qed.
Lemma map_set_in m k v e : In e (map_set m k v) -> e = (k, v) \/ In e m.
Proof.
  induction m as [|[k' v'] m IH]; cbn.
  - intuition congruence.
  - destruct (Z.eqb_spec k' k) as [->|NE]; cbn; intuition congruence.
Qed.
Lemma map_set_length m k v : length (map_set m k v) = if existsb (Z.eqb k) (map fst m) then length m else S (length m).
Proof.
  induction m as [|[k' v'] m IH]; cbn; [reflexivity|].
  rewrite (Z.eqb_sym k k'). destruct (Z.eqb k' k); cbn; [reflexivity|]. rewrite IH.
  destruct (existsb _ _); reflexivity.
Qed.

Lemma insert_perm s l : Permutation (insert_share s l) (s :: l).
Proof.
  induction l as [|t l IH]; cbn; [reflexivity|]. destruct (fst s <=? fst t); [reflexivity|].
  rewrite IH. apply perm_swap.
Qed.
Lemma sort_perm l : Permutation (sort_shares l) l.
Proof.
  induction l as [|s l IH]; cbn; [reflexivity|]. rewrite insert_perm. constructor. exact IH.
Qed.

Definition ndk (l : list (Z * Z)) : nat := length (nodup Z.eq_dec (map fst l)).

Lemma xy_nodup t s : forall m, NoDup (map fst m) -> NoDup (map fst (xy_scalar t s m)).
Proof.
  induction s as [|[i v] s IH]; intros m H; cbn; [exact H|].
  destruct (i <? 0); [apply IH, H|]. destruct (_ =? t); [|apply IH]; apply map_set_nodup, H.
Qed.
Lemma xy_in t s : forall m e, In e (xy_scalar t s m) -> In e m \/ In e s.
Proof.
  induction s as [|[i v] s IH]; intros m e; cbn; [tauto|].
  destruct (i <? 0).
  - intros H. destruct (IH _ _ H); tauto.
  - destruct (_ =? t).
    + intros H. apply map_set_in in H. intuition congruence.
    + intros H. destruct (IH _ _ H) as [H'|H']; [|tauto]. apply map_set_in in H'. intuition congruence.
Qed.

Lemma filter_len {A} (f g : A -> bool) l : (forall x, f x = true -> g x = true) ->
  (length (filter f l) <= length (filter g l))%nat.
Proof.
  intros H. induction l as [|x l IH]; cbn; [lia|]. specialize (H x).
  destruct (f x); [rewrite H by reflexivity; cbn; lia|]. destruct (g x); cbn; lia.
Qed.

(** With t >= 1 the loop collects min(t, number of distinct indices). *)
Lemma xy_length t s : 1 <= t -> Forall (fun e => 0 <= fst e) s -> forall m, NoDup (map fst m) ->
  Z.of_nat (length m) < t ->
  Z.of_nat (length (xy_scalar t s m)) = Z.min t (Z.of_nat (length (nodup Z.eq_dec (map fst m ++ map fst s)))).
Proof.
  intros T. induction 1 as [|[i v] s Hi Hs IH]; intros m ND Lm; cbn [xy_scalar map].
  - rewrite app_nil_r, nodup_fixed_point by exact ND. rewrite map_length. lia.
  - cbn in Hi. destruct (Z.ltb_spec i 0); [lia|].
    assert (Q : forall l, length (nodup Z.eq_dec (map fst (map_set m i v) ++ l))
                = length (nodup Z.eq_dec (map fst m ++ i :: l))).
    { intros l. apply Permutation_length. apply NoDup_Permutation; try apply NoDup_nodup.
      intros j. rewrite !nodup_In, !in_app_iff, map_set_keys. cbn. intuition congruence. }
    cbn [fst]. destruct (Z.eqb_spec (Z.of_nat (length (map_set m i v))) t) as [E|E].
    + rewrite <- Q. rewrite E.
      assert (G : (length (map_set m i v) <= length (nodup Z.eq_dec (map fst (map_set m i v) ++ map fst s)))%nat).
      { rewrite <- (map_length fst (map_set m i v)). apply NoDup_incl_length; [apply map_set_nodup, ND|].
        intros j Hj. apply nodup_In, in_app_iff. tauto. }
      lia.
    + rewrite <- Q. apply IH; [apply map_set_nodup, ND|].
      pose proof (map_set_length m i v). destruct (existsb _ _); lia.
Qed.

Lemma xy_count t l : 1 <= t -> Forall (fun e => 0 <= fst e) l ->
  Z.of_nat (length (xy_scalar t (sort_shares l) [])) = Z.min t (Z.of_nat (ndk l)).
Proof.
  intros T H. rewrite xy_length.
  - cbn [app map]. f_equal. f_equal. unfold ndk. apply Permutation_length.
    apply NoDup_Permutation; try apply NoDup_nodup. intros j. rewrite !nodup_In.
    split; apply Permutation_in; apply Permutation_map; [|symmetry]; apply sort_perm.
  - exact T.
  - apply (Permutation_Forall (Permutation_sym (sort_perm l))), H.
  - constructor.
  - cbn. lia.
Qed.

(** ** Interpolation in the code's arithmetic *)
Definition nxf (i : Z) : FN := oN (i + 1).
Notation nprod := (prod_skip FN fone fmul Z Z.eqb).
Notation nsum := (sum FN fzero fadd Z).
Notation nnum := (num FN fone fmul Z Z.eqb nxf).
Notation nden := (den FN fone fmul fsub Z Z.eqb nxf).
Definition FNth := Fm_field N prime_N.
Definition FNint := fmul_eq_0 N prime_N.

Lemma oN_mod z : oN (sc_mod z) = oN z. Proof. apply of_Z_mod. Qed.
Lemma oN_x i : oN (x_of i) = nxf i. Proof. apply of_Z_mod. Qed.

Lemma lag_loop_gen i (l : list (Z * Z)) : forall nm dn,
  let nd := fold_left (fun nd e => if i =? fst e then nd
                         else (sc_mul (fst nd) (x_of (fst e)), sc_mul (snd nd) (sc_sub (x_of (fst e)) (x_of i))))
            l (nm, dn) in
  oN (fst nd) = fmul (oN nm) (nprod nxf i (map fst l)) /\
  oN (snd nd) = fmul (oN dn) (nprod (fun j => fsub (nxf j) (nxf i)) i (map fst l)).
Proof.
  induction l as [|[j w] l IH]; intros nm dn; cbn [fold_left map prod_skip fst].
  - destruct (Fm_field N prime_N) as [R _ _ _].
    rewrite (Ring_theory.Rmul_comm R (oN nm)), (Ring_theory.Rmul_comm R (oN dn)).
    rewrite !(Ring_theory.Rmul_1_l R). tauto.
  - destruct (Z.eqb i j); cbn [fst snd]; [apply IH|].
    destruct (IH (sc_mul nm (x_of j)) (sc_mul dn (sc_sub (x_of j) (x_of i)))) as [A B].
    cbn zeta in *. rewrite A, B. unfold sc_mul, sc_sub. rewrite !oN_mod, !of_Z_mul, oN_mod, of_Z_sub, !oN_x.
    destruct (Fm_field N prime_N) as [R _ _ _].
    rewrite !(Ring_theory.Rmul_assoc R). tauto.
Qed.

Lemma lag_loop_spec i y (l : list (Z * Z)) : let nd := lagrange_loop i y l in
  oN (fst nd) = fmul (oN y) (nprod nxf i (map fst l)) /\
  oN (snd nd) = nprod (fun j => fsub (nxf j) (nxf i)) i (map fst l).
Proof.
  unfold lagrange_loop. destruct (lag_loop_gen i l (sc_mod y) sc_one) as [A B]. cbn zeta in *.
  rewrite A, B, oN_mod. split; [reflexivity|]. unfold sc_one, sc_set_int64. rewrite oN_mod.
  destruct (Fm_field N prime_N) as [R _ _ _]. apply (Ring_theory.Rmul_1_l R).
Qed.

Lemma nxf_inj n a b : n < N -> 0 <= a < n -> 0 <= b < n -> nxf a = nxf b -> a = b.
Proof.
  intros Hn Ha Hb E. apply of_Z_eq in E. rewrite !Z.mod_small in E by lia. lia.
Qed.

Lemma ks_distinct n (l : list (Z * Z)) : n < N -> NoDup (map fst l) -> Forall (fun e => 0 <= fst e < n) l ->
  distinct FN Z nxf (map fst l).
Proof.
  intros Hn ND F. split; [exact ND|]. intros a b Ha Hb NE E. apply NE.
  rewrite Forall_forall in F. apply in_map_iff in Ha, Hb.
  destruct Ha as (ea & <- & Ia), Hb as (eb & <- & Ib). eapply nxf_inj; [exact Hn|apply F, Ia|apply F, Ib|exact E].
Qed.

Lemma nsum_app g a b : nsum g (a ++ b) = fadd (nsum g a) (nsum g b).
Proof.
  destruct (Fm_field N prime_N) as [R _ _ _].
  induction a as [|k a IH]; cbn; [symmetry; apply (Ring_theory.Radd_0_l R)|].
  rewrite IH. apply (Ring_theory.Radd_assoc R).
Qed.

(** The value of each share as a function of its index. *)
Definition poly_N (c : list Z) (i : Z) : FN := eval FN fzero fadd fmul (map oN c) (nxf i).

Lemma eval_poly c x : eval FN fzero fadd fmul (map oN c) (oN x) = oN (poly c x).
Proof.
  induction c as [|a c IH]; cbn [map eval poly]; [reflexivity|].
  rewrite IH, of_Z_add, of_Z_mul. reflexivity.
Qed.

Lemma recover_loop (ord : Z -> list (Z * Z) -> list (Z * Z)) n x (yf : Z -> FN) :
  (forall i l, Permutation (ord i l) l) -> n < N ->
  NoDup (map fst x) -> Forall (fun e => 0 <= fst e < n) x ->
  Forall (fun e => oN (snd e) = yf (fst e)) x ->
  forall l a, incl l x ->
  exists s, fold_left (fun acc e =>
         a <- acc ;;
         let nd := lagrange_loop (fst e) (snd e) (ord (fst e) x) in
         q <- sc_div (fst nd) (snd nd) ;;
         Ok (sc_add a q)) l (Ok a) = Ok s /\
    (0 <= a < N -> 0 <= s < N) /\
    oN s = fadd (oN a) (nsum (fun k => fdiv (fmul (yf k) (nnum k (map fst x))) (nden k (map fst x))) (map fst l)).
Proof.
  intros HO Hn ND F V. induction l as [|[i v] l IH]; intros a Hl.
  - exists a. cbn. split; [reflexivity|]. split; [tauto|]. destruct (Fm_field N prime_N) as [R _ _ _].
    rewrite (Ring_theory.Radd_comm R). symmetry. apply (Ring_theory.Radd_0_l R).
  - cbn [fold_left rbind fst snd map].
    assert (Ii : In (i, v) x) by (apply Hl; left; reflexivity).
    pose proof (lag_loop_spec i v (ord i x)) as LS. cbn zeta in LS.
    set (nd := lagrange_loop i v (ord i x)) in *. destruct LS as [Ln Ld].
    assert (PM : Permutation (map fst (ord i x)) (map fst x)) by (apply Permutation_map, HO).
    rewrite (prod_skip_perm _ _ _ _ _ _ _ _ _ FNth Z Z.eqb _ _ _ _ PM) in Ln.
    rewrite (prod_skip_perm _ _ _ _ _ _ _ _ _ FNth Z Z.eqb _ _ _ _ PM) in Ld.
    assert (Dn : nden i (map fst x) <> fzero).
    { eapply (den_nz FN _ _ _ _ _ _ _ _ FNth FNint Z Z.eqb Z.eqb_spec nxf i (map fst x)).
      - eapply ks_distinct; eassumption.
      - apply in_map_iff. exists (i, v). tauto.
      - tauto. }
    assert (NDv : ~ (N | snd nd)).
    { intros D. apply Dn. unfold den. rewrite <- Ld. apply of_Z_eq. rewrite (Zdivide_mod _ _ D). reflexivity. }
    destruct (sc_div_ok (fst nd) (snd nd) NDv) as (q & Eq & Rq & Hq & _). rewrite Eq. cbn [rbind].
    destruct (IH (sc_add a q)) as (s & Es & Rs & Hs); [intros e He; apply Hl; right; exact He|].
    exists s. split; [exact Es|]. split; [intros _; apply Rs; apply modN_range|].
    rewrite Hs. cbn [sum]. unfold sc_add. rewrite oN_mod, of_Z_add.
    destruct (Fm_field N prime_N) as [R _ _ _]. rewrite <- (Ring_theory.Radd_assoc R). f_equal. f_equal.
    apply (field_div_eq _ _ _ _ _ _ _ _ _ FNth); [exact Dn|].
    transitivity (oN (fst nd)).
    + apply of_Z_eq in Hq. rewrite of_Z_mul in Hq. rewrite <- Hq. f_equal. symmetry. exact Ld.
    + rewrite Ln. f_equal. rewrite Forall_forall in V. apply (V (i, v) Ii).
Qed.

Lemma recover_ok ord n shares t c :
  (forall i l, Permutation (ord i l) l) -> n < N -> Z.of_nat (length c) <= t -> 1 <= t ->
  Forall (fun e => 0 <= fst e < n) shares ->
  Forall (fun e => eqN (snd e) (poly c (fst e + 1))) shares ->
  (Z.of_nat (ndk shares) < t -> recover_secret ord shares t = Err) /\
  (t <= Z.of_nat (ndk shares) -> recover_secret ord shares t = Ok (poly c 0 mod N)).
Proof.
  intros HO Hn Lc T1 F V.
  assert (F0 : Forall (fun e : Z * Z => 0 <= fst e) shares) by (eapply Forall_impl; [|exact F]; cbn; intros; lia).
  pose proof (xy_count t shares T1 F0) as XC. unfold recover_secret. cbv zeta.
  set (x := xy_scalar t (sort_shares shares) []) in *.
  assert (Hx : forall e, In e x -> In e shares).
  { intros e He. apply xy_in in He. destruct He as [[]|He]. eapply Permutation_in; [apply sort_perm|exact He]. }
  assert (NDx : NoDup (map fst x)) by (apply xy_nodup; constructor).
  assert (Fx : Forall (fun e : Z * Z => 0 <= fst e < n) x).
  { rewrite Forall_forall in *. intros e He. apply F, Hx, He. }
  assert (Vx : Forall (fun e : Z * Z => oN (snd e) = poly_N c (fst e)) x).
  { rewrite Forall_forall in *. intros e He. unfold poly_N, nxf. rewrite eval_poly. apply of_Z_eq, V, Hx, He. }
  split; intros H.
  - destruct (Z.ltb_spec (Z.of_nat (length x)) t); [reflexivity|lia].
  - destruct (Z.ltb_spec (Z.of_nat (length x)) t); [lia|].
    destruct (recover_loop ord n x (poly_N c) HO Hn NDx Fx Vx (ord (-1) x) sc_zero) as (s & Es & Rs & Hs).
    { intros e He. eapply Permutation_in; [apply HO|exact He]. }
    transitivity (Ok s); [exact Es|]. f_equal.
    assert (R0 : 0 <= sc_zero < N) by apply modN_range.
    rewrite <- (Z.mod_small s N) by (apply Rs, R0). apply of_Z_eq. rewrite Hs.
    destruct (Fm_field N prime_N) as [R _ _ _].
    change (oN sc_zero) with (@fzero N). rewrite (Ring_theory.Radd_0_l R).
    assert (PM : Permutation (map fst (ord (-1) x)) (map fst x)) by (apply Permutation_map, HO).
    rewrite (sum_perm _ _ _ _ _ _ _ _ _ FNth Z _ _ _ PM).
    pose proof (interp_eval FN _ _ _ _ _ _ _ _ FNth FNint Z Z.eqb Z.eqb_spec nxf (map fst x) (map oN c)) as IE.
    unfold interp in IE. unfold poly_N. rewrite IE.
    + change (@fzero N) with (oN 0) at 2. apply eval_poly.
    + rewrite !map_length. lia.
    + eapply ks_distinct; eassumption.
Qed.

(** Whether RecoverSecret succeeds does not depend on the values. *)
Fixpoint lookup (x : list (Z * Z)) (k : Z) : Z :=
  match x with [] => 0 | (i, v) :: r => if k =? i then v else lookup r k end.
Lemma lookup_in x i v : NoDup (map fst x) -> In (i, v) x -> lookup x i = v.
Proof.
  induction x as [|[j w] x IH]; intros ND H; [destruct H|].
  inversion ND as [|? ? Hj Hx]; subst. cbn. destruct H as [E|H].
  - injection E as -> ->. rewrite Z.eqb_refl. reflexivity.
  - destruct (Z.eqb_spec i j) as [->|]; [|apply IH; assumption].
    exfalso. apply Hj. apply in_map_iff. exists (j, v). tauto.
Qed.

Lemma recover_total ord n shares t :
  (forall i l, Permutation (ord i l) l) -> n < N -> 1 <= t ->
  Forall (fun e => 0 <= fst e < n) shares ->
  (Z.of_nat (ndk shares) < t -> recover_secret ord shares t = Err) /\
  (t <= Z.of_nat (ndk shares) -> exists s, recover_secret ord shares t = Ok s /\ 0 <= s < N).
Proof.
  intros HO Hn T1 F.
  assert (F0 : Forall (fun e : Z * Z => 0 <= fst e) shares) by (eapply Forall_impl; [|exact F]; cbn; intros; lia).
  pose proof (xy_count t shares T1 F0) as XC. unfold recover_secret. cbv zeta.
  set (x := xy_scalar t (sort_shares shares) []) in *.
  assert (Hx : forall e, In e x -> In e shares).
  { intros e He. apply xy_in in He. destruct He as [[]|He]. eapply Permutation_in; [apply sort_perm|exact He]. }
  assert (NDx : NoDup (map fst x)) by (apply xy_nodup; constructor).
  assert (Fx : Forall (fun e : Z * Z => 0 <= fst e < n) x).
  { rewrite Forall_forall in *. intros e He. apply F, Hx, He. }
  assert (Vx : Forall (fun e : Z * Z => oN (snd e) = oN (lookup x (fst e))) x).
  { apply Forall_forall. intros [i v] He. cbn [fst snd]. rewrite (lookup_in x i v NDx He). reflexivity. }
  split; intros H.
  - destruct (Z.ltb_spec (Z.of_nat (length x)) t); [reflexivity|lia].
  - destruct (Z.ltb_spec (Z.of_nat (length x)) t); [lia|].
    destruct (recover_loop ord n x (fun k => oN (lookup x k)) HO Hn NDx Fx Vx (ord (-1) x) sc_zero) as (s & Es & Rs & _).
    { intros e He. eapply Permutation_in; [apply HO|exact He]. }
    exists s. split; [exact Es|]. apply Rs. apply modN_range.
Qed.
