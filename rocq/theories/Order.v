(** The order of secp256k1: N * G = O, N is the order of G, and every point
    of the curve is a multiple of G (cofactor 1).  No modelled code here. *)
From Coq Require Import ZArith Znumtheory List Lia Bool Field FinFun.
From Verif Require Import Params NumTh FastP PrimeP PrimeN Zmod ECGroup Curve OrderCert.
Import ListNotations.
Open Scope Z_scope.

Add Field FpField2 : Fp_field.

(** (x,y), arbitrary integers, denote the affine point Q. *)
Definition den (x y : Z) (Q : E) : Prop := epoint Q = PAff (fp x) (fp y).

Lemma fp_mod_eq x y : x mod p = y mod p -> fp x = fp y.
Proof. intros H. apply of_Z_eq. exact H. Qed.

Lemma fp_redp x : fp (redp x) = fp x.
Proof. apply fp_mod_eq, redp_spec. Qed.

Lemma fp_is0 x : is0 x = true -> fp x = fzero.
Proof.
  intros H. apply is0_spec in H. change fzero with (fp 0). apply fp_mod_eq. rewrite H. reflexivity.
Qed.

Lemma fp_add x y : fp (x + y) = fadd (fp x) (fp y). Proof. apply of_Z_add. Qed.
Lemma fp_sub x y : fp (x - y) = fsub (fp x) (fp y). Proof. apply of_Z_sub. Qed.
Lemma fp_mul x y : fp (x * y) = fmul (fp x) (fp y). Proof. apply of_Z_mul. Qed.
Lemma fp_opp x : fp (- x) = fopp (fp x). Proof. apply of_Z_opp. Qed.
Lemma fp_3 : fp 3 = fadd (fadd fone fone) fone.
Proof. change 3 with (1 + 1 + 1). rewrite !fp_add. reflexivity. Qed.
Lemma fp_2 : fp 2 = fadd fone fone.
Proof. change 2 with (1 + 1). rewrite !fp_add. reflexivity. Qed.

Lemma fsub_0 (a b : Fp) : fsub a b = fzero -> a = b.
Proof. intros H. transitivity (fadd (fsub a b) b); [ring|]. rewrite H. ring. Qed.

Lemma den_ynz x y Q : den x y Q -> fp y <> fzero.
Proof.
  intros H. pose proof (e_on Q) as O. rewrite H in O.
  apply (y_nz Fp fzero fone fadd fmul fsub fopp fdiv finv Fp_field b7 fp_noroot (fp x) (fp y)).
  exact O.
Qed.

Lemma dbl_step_sound l x y x' y' Q :
  den x y Q -> dbl_step l x y = Some (x', y') -> den x' y' (eadd Q Q).
Proof.
  intros D H. unfold dbl_step in H. cbv zeta in H.
  destruct (is0 _) eqn:Z0; [|discriminate]. injection H as <- <-.
  apply fp_is0 in Z0.
  rewrite fp_sub, !fp_mul, fp_add, fp_3 in Z0. apply fsub_0 in Z0.
  pose proof (den_ynz _ _ _ D) as Y.
  unfold den. cbn [eadd epack epoint proj1_sig]. fold (epoint Q).
  rewrite D. unfold caddp. cbn [padd].
  destruct (Fm_eq_dec (fp x) (fp x)) as [_|NE]; [|congruence].
  destruct (Fm_eq_dec (fadd (fp y) (fp y)) fzero) as [E0|_].
  { exfalso. apply (mul_nz Fp fzero fmul (fmul_eq_0 p prime_p) _ _ fp_two_nz Y).
    rewrite <- E0. ring. }
  assert (EL : fdiv (fmul (fadd (fadd fone fone) fone) (fmul (fp x) (fp x)))
                    (fmul (fadd fone fone) (fp y)) = fp l).
  { apply (div_eq Fp fzero fone fadd fmul fsub fopp fdiv finv Fp_field).
    - apply (mul_nz Fp fzero fmul (fmul_eq_0 p prime_p)); [exact fp_two_nz|exact Y].
    - rewrite <- Z0. ring. }
  rewrite EL. unfold chord. rewrite !fp_redp, !fp_sub, !fp_mul, !fp_sub, fp_redp, !fp_sub, fp_mul.
  reflexivity.
Qed.

Lemma add_step_sound l x y u v x' y' P Q :
  den x y P -> den u v Q -> add_step l x y u v = Some (x', y') -> den x' y' (eadd P Q).
Proof.
  intros DP DQ H. unfold add_step in H. cbv zeta in H.
  destruct (is0 _) eqn:Z0; [|discriminate].
  destruct (Z.eqb_spec ((x - u) mod p) 0) as [|NZ]; [discriminate|].
  injection H as <- <-.
  apply fp_is0 in Z0.
  rewrite fp_sub, !fp_mul, !fp_sub in Z0. apply fsub_0 in Z0.
  assert (NX : fp x <> fp u).
  { intros E0. apply NZ. apply of_Z_eq in E0. apply eqm_divide in E0; [|discriminate].
    apply Zdivide_mod, E0. }
  assert (HD : fsub (fp u) (fp x) <> fzero).
  { intros E0. apply NX. symmetry. apply fsub_0, E0. }
  unfold den. cbn [eadd epack epoint proj1_sig]. fold (epoint P). fold (epoint Q).
  rewrite DP, DQ. unfold caddp. cbn [padd].
  destruct (Fm_eq_dec (fp x) (fp u)) as [E0|_]; [contradiction|].
  assert (EL : fdiv (fsub (fp v) (fp y)) (fsub (fp u) (fp x)) = fp l).
  { apply (div_eq Fp fzero fone fadd fmul fsub fopp fdiv finv Fp_field); [exact HD|exact Z0]. }
  rewrite EL. unfold chord. rewrite !fp_redp, !fp_sub, !fp_mul, !fp_sub, fp_redp, !fp_sub, fp_mul.
  reflexivity.
Qed.

Lemma den_neg x y Q : den x y Q -> den x (- y) (eneg Q).
Proof.
  unfold den. intros H. cbn [eneg epack epoint proj1_sig]. fold (epoint Q).
  rewrite H. cbn. rewrite fp_opp. reflexivity.
Qed.

Definition acc_den (acc : option (Z * Z)) (A : E) : Prop :=
  match acc with None => A = eO | Some (x, y) => den x y A end.

Lemma run_steps_sound st : forall x y acc Q A w B,
  den x y Q -> acc_den acc A -> Q = smul w B ->
  run_steps st x y acc = true ->
  eadd A (smul (digits_val st w) B) = smul (w * 2 ^ Z.of_nat (length st)) B.
Proof.
  induction st as [|[[dg la] l] st IH]; intros x y acc Q A w B DQ DA HQ H.
  - cbn [run_steps] in H. destruct acc as [[ax ay]|]; [|discriminate].
    apply andb_prop in H. destruct H as [H1 H2].
    apply fp_is0 in H1, H2. rewrite fp_sub in H1, H2. apply fsub_0 in H1, H2.
    cbn [digits_val length]. rewrite smul_0, eadd_0_r.
    change (2 ^ Z.of_nat 0) with 1. rewrite Z.mul_1_r, <- HQ.
    apply E_eq. cbn in DA. rewrite DA, DQ, H1, H2. reflexivity.
  - cbn [run_steps] in H. cbv zeta in H.
    set (v := if dg =? 1 then y else - y) in *.
    set (QQ := smul (if dg =? 0 then 0 else if dg =? 1 then w else - w) B).
    destruct (dbl_step l x y) as [[x' y']|] eqn:ED.
    2:{ match type of H with match ?X with _ => _ end = true => destruct X; discriminate end. }
    pose proof (dbl_step_sound _ _ _ _ _ _ DQ ED) as DQ'.
    assert (HQ' : eadd Q Q = smul (2 * w) B).
    { rewrite HQ, <- smul_add. f_equal. lia. }
    assert (S : exists acc', acc_den acc' (eadd A QQ) /\ run_steps st x' y' acc' = true).
    { destruct (Z.eqb_spec dg 0) as [Z0|NZ].
      - exists acc. split; [|exact H]. unfold QQ. rewrite smul_0, eadd_0_r. exact DA.
      - assert (DV : den x v QQ).
        { unfold v, QQ. destruct (Z.eqb_spec dg 1).
          - rewrite <- HQ. exact DQ.
          - rewrite smul_opp, <- HQ. apply den_neg, DQ. }
        destruct acc as [[ax ay]|].
        + destruct (add_step la ax ay x v) as [[a1 a2]|] eqn:EA; [|discriminate].
          exists (Some (a1, a2)). split; [|exact H].
          cbn in DA |- *. eapply add_step_sound; eassumption.
        + exists (Some (x, v)). split; [|exact H].
          cbn in DA |- *. rewrite DA, eadd_0_l. exact DV. }
    destruct S as (acc' & DA' & H').
    specialize (IH x' y' acc' _ _ (2 * w) B DQ' DA' HQ' H').
    cbn [digits_val length]. rewrite smul_add, <- eadd_assoc. fold QQ. rewrite IH.
    f_equal. rewrite Nat2Z.inj_succ, Z.pow_succ_r by lia. ring.
Qed.

Theorem order_G : smul N eG = eO.
Proof.
  assert (D : den Gx Gy eG) by reflexivity.
  pose proof (run_steps_sound order_steps Gx Gy None eG eO 1 eG D eq_refl eq_refl order_check) as H.
  rewrite eadd_0_l, Z.mul_1_l in H.
  rewrite <- order_digits, smul_sub, <- H. apply eadd_neg_r.
Qed.

Lemma smul_mod k : smul (k mod N) eG = smul k eG.
Proof.
  rewrite (Z_div_mod_eq_full k N) at 2. rewrite smul_add, Z.mul_comm, smul_mul, order_G, smul_eO.
  rewrite eadd_0_l. reflexivity.
Qed.

(** Multiples of G are distinct below N. *)
Lemma smul_G_0 k : smul k eG = eO -> (N | k).
Proof.
  intros H. destruct (Zdivide_dec N k) as [D|ND]; [exact D|exfalso].
  assert (RP : rel_prime N k) by (apply prime_rel_prime; [exact prime_N|exact ND]).
  apply rel_prime_bezout in RP. destruct RP as [u v Huv].
  apply eG_neq. rewrite <- (smul_1 eG), <- Huv, smul_add, !smul_mul, order_G, H, !smul_eO.
  apply eadd_0_l.
Qed.

Lemma smul_G_inj a c : smul a eG = smul c eG <-> a mod N = c mod N.
Proof.
  split.
  - intros H. apply eqm_divide; [discriminate|]. apply smul_G_0.
    rewrite smul_sub, H. apply eadd_neg_r.
  - intros H. rewrite <- (smul_mod a), <- (smul_mod c), H. reflexivity.
Qed.

(** Every point has a code below 2p+1: x and the parity of y. *)
Definition code (P : E) : Z :=
  match epoint P with
  | Inf _ => 0
  | Aff _ x y => 1 + 2 * val x + val y mod 2
  end.

Lemma code_range P : 0 <= code P < 2 * p + 1.
Proof.
  unfold code. destruct (epoint P) as [|x y].
  - pose proof p_pos. lia.
  - pose proof (val_range p x p_pos). pose proof (Z.mod_pos_bound (val y) 2 ltac:(lia)). lia.
Qed.

Lemma fopp_val (y : Fp) : y <> fzero -> val (fopp y) = p - val y.
Proof.
  intros Hy. rewrite val_opp. pose proof (val_range p y p_pos).
  assert (val y <> 0).
  { intros E0. apply Hy. apply Fm_eq. rewrite E0. reflexivity. }
  symmetry. apply (Z.mod_unique _ _ (-1)); lia.
Qed.

Lemma p_odd : p mod 2 = 1. Proof. reflexivity. Qed.

Lemma parity_neg (y : Fp) : y <> fzero -> val (fopp y) mod 2 <> val y mod 2.
Proof.
  intros Hy. rewrite fopp_val by exact Hy. pose proof p_odd as O.
  rewrite Zminus_mod, O. pose proof (Z.mod_pos_bound (val y) 2 ltac:(lia)).
  assert (C : val y mod 2 = 0 \/ val y mod 2 = 1) by lia.
  destruct C as [-> | ->]; cbn; lia.
Qed.

Lemma on_same_x x y y' : onc (PAff x y) -> onc (PAff x y') -> y' = y \/ y' = fopp y.
Proof.
  intros H1 H2.
  destruct (Fm_eq_dec (fadd y y') fzero) as [E0|N0].
  - right. transitivity (fsub (fadd y y') y); [ring|]. rewrite E0. ring.
  - left. symmetry.
    exact (same_x Fp fzero fone fadd fmul fsub fopp fdiv finv Fp_field (fmul_eq_0 p prime_p)
             b7 x y y' H1 H2 N0).
Qed.

Lemma code_inj P Q : code P = code Q -> P = Q.
Proof.
  unfold code. intros H. apply E_eq.
  pose proof (e_on P) as OP. pose proof (e_on Q) as OQ.
  destruct (epoint P) as [|x y], (epoint Q) as [|x' y'].
  - reflexivity.
  - exfalso. pose proof (val_range p x' p_pos). pose proof (Z.mod_pos_bound (val y') 2 ltac:(lia)). lia.
  - exfalso. pose proof (val_range p x p_pos). pose proof (Z.mod_pos_bound (val y) 2 ltac:(lia)). lia.
  - pose proof (Z.mod_pos_bound (val y') 2 ltac:(lia)). pose proof (Z.mod_pos_bound (val y) 2 ltac:(lia)).
    assert (X : x = x') by (apply Fm_eq; lia). subst x'.
    assert (Y : val y mod 2 = val y' mod 2) by lia.
    destruct (on_same_x x y y' OP OQ) as [->| ->]; [reflexivity|].
    exfalso. apply (parity_neg y); [|symmetry; exact Y].
    apply (y_nz Fp fzero fone fadd fmul fsub fopp fdiv finv Fp_field b7 fp_noroot x y). exact OP.
Qed.

(** Integers below n as a list. *)
Definition zrange (n : Z) : list Z := map Z.of_nat (seq 0 (Z.to_nat n)).
Lemma in_zrange z n : In z (zrange n) <-> 0 <= z < n.
Proof.
  unfold zrange. rewrite in_map_iff. split.
  - intros (k & <- & Hk). apply in_seq in Hk. lia.
  - intros H. exists (Z.to_nat z). rewrite in_seq. lia.
Qed.
Lemma zrange_nodup n : NoDup (zrange n).
Proof. apply Injective_map_NoDup; [|apply seq_NoDup]. intros x y. lia. Qed.
Lemma zrange_len n : length (zrange n) = Z.to_nat n.
Proof. unfold zrange. rewrite map_length, seq_length. reflexivity. Qed.

Lemma nodup_map_on {A B} (f : A -> B) l :
  (forall a c, In a l -> In c l -> f a = f c -> a = c) -> NoDup l -> NoDup (map f l).
Proof.
  induction l as [|a l IH]; intros Hf ND; cbn; constructor.
  - rewrite in_map_iff. intros (c & Hc & Hin). inversion ND; subst.
    assert (c = a) by (apply Hf; [now right|now left|exact Hc]). subst. contradiction.
  - inversion ND; subst. apply IH; [|assumption].
    intros a' c Ha Hc. apply Hf; now right.
Qed.

Lemma count_3N : 2 * p + 1 < 3 * N. Proof. reflexivity. Qed.
Lemma N_odd : N mod 2 = 1. Proof. reflexivity. Qed.

Lemma half_multiple P k : eadd P P = smul k eG -> exists j, P = smul j eG.
Proof.
  intros H. exists (k * ((N + 1) / 2)).
  assert (EN : 2 * ((N + 1) / 2) = N + 1).
  { pose proof N_odd as O. pose proof (Z_div_mod_eq_full (N + 1) 2) as D.
    assert ((N + 1) mod 2 = 0); [|lia].
    rewrite Zplus_mod, O. reflexivity. }
  set (R := smul (k * ((N + 1) / 2)) eG).
  assert (HR : eadd R R = smul k eG).
  { unfold R. rewrite <- smul_add.
    replace (k * ((N + 1) / 2) + k * ((N + 1) / 2)) with (k * N + k)
      by (replace (k * ((N + 1) / 2) + k * ((N + 1) / 2)) with (k * (2 * ((N + 1) / 2))) by ring;
          rewrite EN; ring).
    rewrite smul_add, smul_mul, order_G, smul_eO, eadd_0_l. reflexivity. }
  assert (T : esub P R = eO).
  { apply no2tors. unfold esub.
    transitivity (eadd (eadd P P) (eneg (eadd R R))).
    - rewrite eneg_add, !eadd_assoc. f_equal. rewrite <- !eadd_assoc. f_equal. apply eadd_comm.
    - rewrite H, HR. apply eadd_neg_r. }
  unfold esub in T. apply (eadd_cancel_r (eneg R)). rewrite T, eadd_neg_r. reflexivity.
Qed.

(** Cofactor 1. *)
Theorem cyclic P : exists k, 0 <= k < N /\ P = smul k eG.
Proof.
  assert (W : exists k, P = smul k eG).
  2:{ destruct W as [k ->]. exists (k mod N). rewrite smul_mod. split; [|reflexivity].
      apply Z.mod_pos_bound, N_pos. }
  (* decide membership by searching the codes *)
  set (cG := map (fun k => code (smul k eG)) (zrange N)).
  set (cP := map (fun k => code (eadd P (smul k eG))) (zrange N)).
  set (cM := map (fun k => code (eadd (eneg P) (smul k eG))) (zrange N)).
  assert (inj : forall R a c, In a (zrange N) -> In c (zrange N) ->
            code (eadd R (smul a eG)) = code (eadd R (smul c eG)) -> a = c).
  { intros R a c Ha Hc H. apply code_inj, eadd_cancel_l, smul_G_inj in H.
    apply in_zrange in Ha, Hc. rewrite !Z.mod_small in H by assumption. exact H. }
  destruct (in_dec Z.eq_dec (code P) cG) as [I|NI].
  { apply in_map_iff in I. destruct I as (k & Hk & _). exists k. symmetry. apply code_inj, Hk. }
  destruct (in_dec Z.eq_dec (code (eadd P P)) cG) as [I2|NI2].
  { apply in_map_iff in I2. destruct I2 as (k & Hk & _). apply code_inj in Hk.
    symmetry in Hk. apply (half_multiple P k Hk). }
  exfalso.
  assert (inG : forall k, In (code (smul k eG)) cG).
  { intros k. apply in_map_iff. exists (k mod N). rewrite smul_mod. split; [reflexivity|].
    apply in_zrange, Z.mod_pos_bound, N_pos. }
  assert (ND : NoDup (cG ++ cP ++ cM)).
  { assert (ndG : NoDup cG).
    { apply nodup_map_on; [|apply zrange_nodup]. intros a c Ha Hc H.
      apply (inj eO a c Ha Hc). rewrite !eadd_0_l. exact H. }
    assert (ndP : NoDup cP) by (apply nodup_map_on; [apply inj|apply zrange_nodup]).
    assert (ndM : NoDup cM) by (apply nodup_map_on; [apply inj|apply zrange_nodup]).
    assert (app : forall l1 l2 : list Z, NoDup l1 -> NoDup l2 ->
       (forall z, In z l1 -> In z l2 -> False) -> NoDup (l1 ++ l2)).
    { induction l1 as [|z l1 IH]; intros l2 N1 N2 D; cbn; [exact N2|].
      inversion N1; subst. constructor.
      - rewrite in_app_iff. intros [X|X]; [contradiction|]. apply (D z); [now left|exact X].
      - apply IH; try assumption. intros y Y1 Y2. apply (D y); [now right|exact Y2]. }
    apply app; [exact ndG| |].
    - apply app; [exact ndP|exact ndM|]. intros z H1 H2.
      apply in_map_iff in H1, H2. destruct H1 as (a & <- & _), H2 as (c & Hc & _).
      apply code_inj in Hc.
      (* -P + cG = P + aG  =>  2P = (c - a) G *)
      apply NI2. assert (X : eadd P P = smul (c - a) eG).
      { rewrite smul_sub. unfold esub.
        assert (Y : eadd P (eadd (eneg P) (smul c eG)) = smul c eG).
        { rewrite <- eadd_assoc, eadd_neg_r, eadd_0_l. reflexivity. }
        rewrite <- Y, Hc. rewrite !eadd_assoc, eadd_neg_r, eadd_0_r. reflexivity. }
      rewrite X. apply inG.
    - intros z H1 H2. apply in_app_iff in H2.
      apply in_map_iff in H1. destruct H1 as (a & <- & _).
      destruct H2 as [H2|H2]; apply in_map_iff in H2; destruct H2 as (c & Hc & _);
        apply code_inj in Hc; apply NI.
      + assert (X : P = smul (a - c) eG).
        { rewrite smul_sub. unfold esub. rewrite <- Hc, eadd_assoc, eadd_neg_r, eadd_0_r. reflexivity. }
        rewrite X. apply inG.
      + assert (X : P = smul (c - a) eG).
        { rewrite smul_sub. unfold esub. rewrite <- Hc, eneg_add, eneg_neg.
          rewrite (eadd_comm P), <- eadd_assoc, eadd_neg_r, eadd_0_l. reflexivity. }
        rewrite X. apply inG. }
  assert (INC : incl (cG ++ cP ++ cM) (zrange (2 * p + 1))).
  { intros z Hz. apply in_zrange. rewrite !in_app_iff in Hz.
    destruct Hz as [Hz|[Hz|Hz]]; apply in_map_iff in Hz; destruct Hz as (k & <- & _); apply code_range. }
  pose proof (NoDup_incl_length ND INC) as L.
  rewrite !app_length in L. unfold cG, cP, cM in L. rewrite !map_length, !zrange_len in L.
  pose proof count_3N. pose proof N_pos. pose proof p_pos. lia.
Qed.

Theorem order_all P : smul N P = eO.
Proof.
  destruct (cyclic P) as (k & _ & ->). rewrite <- smul_mul, Z.mul_comm, smul_mul, order_G.
  apply smul_eO.
Qed.

Lemma smul_modN k P : smul (k mod N) P = smul k P.
Proof.
  rewrite (Z_div_mod_eq_full k N) at 2. rewrite smul_add, Z.mul_comm, smul_mul, order_all, smul_eO.
  rewrite eadd_0_l. reflexivity.
Qed.

Lemma smul_eq_0 k P : smul k P = eO -> (N | k) \/ P = eO.
Proof.
  intros H. destruct (cyclic P) as (j & _ & ->).
  rewrite <- smul_mul in H. apply smul_G_0 in H. apply prime_mult in H; [|exact prime_N].
  destruct H as [H|H]; [now left|right].
  destruct H as [i ->]. rewrite smul_mul, order_G, smul_eO. reflexivity.
Qed.
