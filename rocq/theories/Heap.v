(** Pointer-level model of scalars and points: which big.Ints the methods of
    scalar.go and point.go read and overwrite.  Scalars are pointers to a
    big.Int; points are pointers to a pair of pointers to big.Ints.  Receivers
    and operands may be the same object. *)
From Coq Require Import ZArith List Lia Bool.
From Coq Require Import Init.Byte.
From Verif Require Import Params Bytes Res Secp Spec SecpProofs SecpProofs2 PublicKey Schnorr SchnorrProofs.
Import ListNotations.
Open Scope Z_scope.

Definition upd {A} (f : nat -> A) (i : nat) (v : A) : nat -> A :=
  fun j => if Nat.eqb j i then v else f j.

Lemma upd_same {A} (f : nat -> A) i v : upd f i v i = v.
Proof. unfold upd. rewrite Nat.eqb_refl. reflexivity. Qed.
Lemma upd_other {A} (f : nat -> A) i j v : j <> i -> upd f i v j = f j.
Proof. intros H. unfold upd. destruct (Nat.eqb_spec j i); [contradiction|reflexivity]. Qed.

Record mem := mkMem {
  cell : nat -> Z;     (* the fieldElts' big.Ints *)
  px : nat -> nat;     (* point id -> cell of X *)
  py : nat -> nat;     (* point id -> cell of Y *)
  nextc : nat;         (* cells from here on are unallocated *)
  npts : nat;          (* point ids from here on are unallocated *)
  sval : nat -> Z      (* scalar id -> its big.Int *)
}.

Definition set_cell (m : mem) (c : nat) (v : Z) : mem :=
  mkMem (upd (cell m) c v) (px m) (py m) (nextc m) (npts m) (sval m).
Definition set_sval (m : mem) (s : nat) (v : Z) : mem :=
  mkMem (cell m) (px m) (py m) (nextc m) (npts m) (upd (sval m) s v).
(** Give point r two fresh cells holding x and y (P.X = ...; P.Y = ...). *)
Definition fresh_cells (m : mem) (r : nat) (x y : Z) : mem :=
  mkMem (upd (upd (cell m) (nextc m) x) (S (nextc m)) y)
        (upd (px m) r (nextc m)) (upd (py m) r (S (nextc m)))
        (S (S (nextc m))) (npts m) (sval m).
Definition new_point (m : mem) : mem :=
  mkMem (cell m) (px m) (py m) (nextc m) (S (npts m)) (sval m).

Definition X (m : mem) (q : nat) : Z := cell m (px m q).
Definition Y (m : mem) (q : nat) : Z := cell m (py m q).

(** The calls of the API; operands are object ids. *)
Inductive op :=
| ONew                                  (* curve.go:42-44 Point() *)
| OClone (a : nat)                      (* point.go:90-92 *)
| ONull (r : nat)                       (* 50-54 *)
| OBase (r : nat)                       (* 57-61 *)
| OSet (r a : nat)                      (* 83-87 *)
| OAdd (r a b : nat)                    (* 149-156 *)
| OSub (r a b : nat)                    (* 159-167 *)
| ONeg (r a : nat)                      (* 170-174 *)
| OMul (r s : nat) (a : option nat)     (* 178-194; None: nil *)
| OUnmarshal (r : nat) (buf : bytes)    (* 234-263 *)
| OMarshal (a : nat)                    (* 199-222 *)
| SSet (r a : nat) | SSetInt (r : nat) (v : Z) | SAdd (r a b : nat) | SSub (r a b : nat)
| SNeg (r a : nat) | SMul (r a b : nat) | SSetBytes (r : nat) (buf : bytes).

(** P.X.SetInt(x); P.Y.SetInt(y): writes through the existing pointers. *)
Definition set_xy (m : mem) (r : nat) (x y : Z) : mem :=
  let m1 := set_cell m (px m r) (fe_set x) in
  set_cell m1 (py m1 r) (fe_set y).

Definition heap_step (m : mem) (o : op) : mem :=
  match o with
  | ONew => new_point (fresh_cells m (npts m) 0 0)
  | OClone a =>
      let m1 := set_cell m (px m a) (fe_modQ (X m a)) in
      let m2 := set_cell m1 (py m1 a) (fe_modQ (Y m1 a)) in
      new_point (fresh_cells m2 (npts m2) (fe_set (X m2 a)) (fe_set (Y m2 a)))
  | ONull r => fresh_cells m r (fe_modQ 0) (fe_modQ 0)
  | OBase r => set_xy m r Gx Gy
  | OSet r a =>
      let m1 := set_cell m (px m r) (fe_set (X m a)) in
      set_cell m1 (py m1 r) (fe_set (Y m1 a))
  | OAdd r a b =>
      let R := btc_add (X m a, Y m a) (X m b, Y m b) in set_xy m r (fst R) (snd R)
  | OSub r a b =>
      let R := btc_add (X m a, Y m a) (X m b, fe_neg (Y m b)) in set_xy m r (fst R) (snd R)
  | ONeg r a =>
      let m1 := set_cell m (px m a) (fe_modQ (X m a)) in
      (* P.X = clone: r's X cell is replaced before a's Y is read *)
      let x := fe_set (X m1 a) in
      fresh_cells m1 r x (fe_neg (Y m1 a))
  | OMul r s a =>
      let m1 := set_sval m s (sc_mod (sval m s)) in (* MarshalBinary reduces s *)
      let k := be_fixed 32 (sval m1 s) in
      let R := match a with
               | None => btc_mul pt_base k
               | Some a => btc_mul (X m1 a, Y m1 a) k
               end in
      set_xy m1 r (fst R) (snd R)
  | OUnmarshal r buf =>
      if negb (length buf =? 33)%nat then m
      else
        let s := nth 32 buf x00 in
        if negb (byte_eqb s x00 || byte_eqb s x01) then m
        else
          let x := fe_set_bytes (firstn 32 buf) in
          (* P.X = newFieldZero().SetBytes(...) *)
          let m1 := mkMem (upd (cell m) (nextc m) x) (upd (px m) r (nextc m)) (py m)
                          (S (nextc m)) (npts m) (sval m) in
          match fe_maybe_sqrt (fe_rhs x) with
          | None => m1
          | Some y0 =>
              let m2 := set_cell m1 (py m1 r) (fe_set y0) in
              if (byte_eqb s x00 && negb (fe_is_even y0)) || (byte_eqb s x01 && fe_is_even y0)
              then set_cell m2 (py m2 r) (fe_neg (Y m2 r))
              else m2
          end
  | OMarshal a =>
      match fe_maybe_sqrt (fe_rhs (X m a)) with
      | None => m
      | Some s => if negb (fe_equal (Y m a) s) && negb (fe_equal (Y m a) (fe_neg s)) then m
                  else set_cell m (px m a) (fe_modQ (X m a))
      end
  | SSet r a => set_sval m r (sc_mod (sval m a))
  | SSetInt r v => let m1 := set_sval m r v in set_sval m1 r (sc_mod (sval m1 r))
  | SAdd r a b => let m1 := set_sval m r (sval m a + sval m b) in set_sval m1 r (sc_mod (sval m1 r))
  | SSub r a b => let m1 := set_sval m r (sval m a - sval m b) in set_sval m1 r (sc_mod (sval m1 r))
  | SNeg r a => let m1 := set_sval m r (- sval m a) in set_sval m1 r (sc_mod (sval m1 r))
  | SMul r a b => let m1 := set_sval m r (sval m a * sval m b) in set_sval m1 r (sc_mod (sval m1 r))
  | SSetBytes r buf => let m1 := set_sval m r (be2z buf) in set_sval m1 r (sc_mod (sval m1 r))
  end.

(** * The value-level reading of the same program: variables hold values. *)
Record vals := mkVals { pv : nat -> point; sv : nat -> Z; np : nat }.

Definition setp (v : vals) r P := mkVals (upd (pv v) r P) (sv v) (np v).
Definition sets (v : vals) r s := mkVals (pv v) (upd (sv v) r s) (np v).

Definition val_step (v : vals) (o : op) : vals :=
  match o with
  | ONew => mkVals (upd (pv v) (np v) (0, 0)) (sv v) (S (np v))
  | OClone a => mkVals (upd (pv v) (np v) (pv v a)) (sv v) (S (np v))
  | ONull r => setp v r (0, 0)
  | OBase r => setp v r (Gx, Gy)
  | OSet r a => setp v r (pv v a)
  | OAdd r a b => setp v r (pt_add (pv v a) (pv v b))
  | OSub r a b => setp v r (pt_sub (pv v a) (pv v b))
  | ONeg r a => setp v r (pt_neg (pv v a))
  | OMul r s a =>
      match pt_mul (sv v s) (match a with None => KP_nil | Some a => KP (pv v a) end) with
      | Ok R => setp v r R
      | _ => v
      end
  | OUnmarshal r buf => setp v r (fst (pt_unmarshal_recv (pv v r) buf))
  | OMarshal _ => v
  | SSet r a => sets v r (sv v a)
  | SSetInt r z => sets v r (z mod N)
  | SAdd r a b => sets v r ((sv v a + sv v b) mod N)
  | SSub r a b => sets v r ((sv v a - sv v b) mod N)
  | SNeg r a => sets v r ((- sv v a) mod N)
  | SMul r a b => sets v r ((sv v a * sv v b) mod N)
  | SSetBytes r buf => sets v r (be2z buf mod N)
  end.

(** Points an operation mentions must have been created. *)
Definition op_points (o : op) : list nat :=
  match o with
  | ONew => []
  | OClone a | OMarshal a => [a]
  | ONull r | OBase r | OUnmarshal r _ => [r]
  | OSet r a | ONeg r a => [r; a]
  | OAdd r a b | OSub r a b => [r; a; b]
  | OMul r _ (Some a) => [r; a]
  | OMul r _ None => [r]
  | _ => []
  end.
Definition live (n : nat) (o : op) : Prop := Forall (fun q => (q < n)%nat) (op_points o).
Definition creates (o : op) : nat := match o with ONew | OClone _ => 1%nat | _ => 0%nat end.
Fixpoint well_scoped (n : nat) (ops : list op) : Prop :=
  match ops with
  | [] => True
  | o :: ops' => live n o /\ well_scoped (n + creates o) ops'
  end.

Definition mem0 : mem := mkMem (fun _ => 0) (fun _ => O) (fun _ => O) O O (fun _ => 0).
Definition vals0 : vals := mkVals (fun _ => (0, 0)) (fun _ => 0) O.

(** * Proof *)
Record wf (m : mem) : Prop := {
  wf_x : forall q, (q < npts m)%nat -> (px m q < nextc m)%nat;
  wf_y : forall q, (q < npts m)%nat -> (py m q < nextc m)%nat;
  wf_xy : forall q r, (q < npts m)%nat -> (r < npts m)%nat -> px m q <> py m r;
  wf_xx : forall q r, (q < npts m)%nat -> (r < npts m)%nat -> q <> r -> px m q <> px m r;
  wf_yy : forall q r, (q < npts m)%nat -> (r < npts m)%nat -> q <> r -> py m q <> py m r;
  wf_rx : forall q, (q < npts m)%nat -> 0 <= X m q < p;
  wf_ry : forall q, (q < npts m)%nat -> 0 <= Y m q < p;
  wf_s : forall s, 0 <= sval m s < N
}.

Definition same (m : mem) (v : vals) : Prop :=
  np v = npts m /\ (forall q, (q < npts m)%nat -> pv v q = (X m q, Y m q)) /\ forall s, sv v s = sval m s.

Lemma modQ_small x : 0 <= x < p -> fe_modQ x = x.
Proof. intros H. rewrite fe_modQ_spec. apply Z.mod_small, H. Qed.

Lemma modQ_range x : 0 <= fe_modQ x < p.
Proof. rewrite fe_modQ_spec. apply modp_range. Qed.

(** Overwriting the coordinates of r through its pointers. *)
Lemma set_cells_ok m r x y : wf m -> (r < npts m)%nat -> 0 <= x < p -> 0 <= y < p ->
  let m' := set_cell (set_cell m (px m r) x) (py m r) y in
  wf m' /\ forall q, (q < npts m)%nat -> (X m' q, Y m' q) = upd (fun q => (X m q, Y m q)) r (x, y) q.
Proof.
  intros W Hr Hx Hy m'.
  assert (V : forall q, (q < npts m)%nat -> (X m' q, Y m' q) = upd (fun q => (X m q, Y m q)) r (x, y) q).
  { intros q Hq. unfold X, Y, m', set_cell; cbn.
    pose proof (wf_xy m W q r Hq Hr) as XY. pose proof (wf_xy m W r q Hr Hq) as YX.
    pose proof (wf_xy m W r r Hr Hr) as RR.
    destruct (Nat.eq_dec q r) as [->|NE].
    - rewrite (upd_other _ _ _ _ RR), !upd_same. reflexivity.
    - rewrite (upd_other (fun q => (cell m (px m q), cell m (py m q))) _ _ _ NE).
      rewrite (upd_other _ _ _ _ XY), (upd_other _ _ _ _ (wf_xx m W q r Hq Hr NE)).
      rewrite (upd_other _ _ _ _ (wf_yy m W q r Hq Hr NE)). rewrite upd_other by congruence. reflexivity. }
  split; [|exact V].
  destruct W. constructor; unfold m'; cbn [npts px py nextc sval set_cell]; auto.
  - intros q Hq. specialize (V q Hq). apply (f_equal fst) in V. cbn [fst] in V. change (0 <= X m' q < p). rewrite V.
    unfold upd. destruct (Nat.eqb q r); [exact Hx|apply wf_rx0, Hq].
  - intros q Hq. specialize (V q Hq). apply (f_equal snd) in V. cbn [snd] in V. change (0 <= Y m' q < p). rewrite V.
    unfold upd. destruct (Nat.eqb q r); [exact Hy|apply wf_ry0, Hq].
Qed.

Lemma set_xy_ok m r x y : wf m -> (r < npts m)%nat ->
  wf (set_xy m r x y) /\ forall q, (q < npts m)%nat ->
    (X (set_xy m r x y) q, Y (set_xy m r x y) q)
    = upd (fun q => (X m q, Y m q)) r (fe_set x, fe_set y) q.
Proof. intros W Hr. exact (set_cells_ok m r (fe_set x) (fe_set y) W Hr (modQ_range _) (modQ_range _)). Qed.

Lemma self_write_ok m c v : v = cell m c -> forall i, cell (set_cell m c v) i = cell m i.
Proof. intros -> i. cbn. unfold upd. destruct (Nat.eqb_spec i c) as [->|]; reflexivity. Qed.

(** Writing back the value a cell already has changes nothing observable. *)
Lemma self_write_wf m c v : v = cell m c -> wf m -> wf (set_cell m c v) /\
  (forall q, X (set_cell m c v) q = X m q) /\ (forall q, Y (set_cell m c v) q = Y m q).
Proof.
  intros E W. assert (A : forall q, X (set_cell m c v) q = X m q) by (intros; apply self_write_ok, E).
  assert (B : forall q, Y (set_cell m c v) q = Y m q) by (intros; apply self_write_ok, E).
  split; [|tauto]. destruct W. constructor; cbn [npts px py nextc sval set_cell]; auto;
    intros q Hq; [rewrite A|rewrite B]; auto.
Qed.

Lemma set_sval_ok m s v : wf m -> 0 <= v < N -> wf (set_sval m s v).
Proof.
  intros [] H. constructor; cbn [npts px py nextc sval set_sval]; auto.
  intros s'. unfold upd. destruct (Nat.eqb s' s); [exact H|apply wf_s0].
Qed.

Lemma fresh_ok m r x y n : wf m -> (r < n)%nat -> (forall q, (q < n)%nat -> q = r \/ (q < npts m)%nat) ->
  0 <= x < p -> 0 <= y < p ->
  let m1 := fresh_cells m r x y in
  let m' := mkMem (cell m1) (px m1) (py m1) (nextc m1) n (sval m1) in
  wf m' /\ forall q, (q < n)%nat -> (X m' q, Y m' q) = upd (fun q => (X m q, Y m q)) r (x, y) q.
Proof.
  intros W Hr Hn Hx Hy m1 m'.
  assert (PX : forall q, (q < n)%nat -> q <> r -> (px m q < nextc m)%nat /\ (py m q < nextc m)%nat).
  { intros q Hq NE. destruct (Hn q Hq) as [|L]; [contradiction|]. split; [apply (wf_x m W)|apply (wf_y m W)]; exact L. }
  assert (V : forall q, (q < n)%nat -> (X m' q, Y m' q) = upd (fun q => (X m q, Y m q)) r (x, y) q).
  { intros q Hq. unfold X, Y, m', m1, fresh_cells; cbn. unfold upd.
    destruct (Nat.eqb_spec q r) as [->|NE].
    - rewrite Nat.eqb_refl. destruct (Nat.eqb_spec (nextc m) (S (nextc m))); [lia|].
      rewrite !Nat.eqb_refl. reflexivity.
    - destruct (PX q Hq NE).
      destruct (Nat.eqb_spec (px m q) (S (nextc m))); [lia|].
      destruct (Nat.eqb_spec (px m q) (nextc m)); [lia|].
      destruct (Nat.eqb_spec (py m q) (S (nextc m))); [lia|].
      destruct (Nat.eqb_spec (py m q) (nextc m)); [lia|]. reflexivity. }
  split; [|exact V].
  constructor; unfold m', m1, fresh_cells; cbn [npts px py nextc sval]; unfold upd.
  - intros q Hq. destruct (Nat.eqb_spec q r); [lia|]. destruct (PX q Hq); lia.
  - intros q Hq. destruct (Nat.eqb_spec q r); [lia|]. destruct (PX q Hq); lia.
  - intros q t Hq Ht. destruct (Nat.eqb_spec q r), (Nat.eqb_spec t r); try lia.
    + destruct (PX t Ht); lia.
    + destruct (PX q Hq); lia.
    + apply (wf_xy m W); [destruct (Hn q Hq)|destruct (Hn t Ht)]; tauto.
  - intros q t Hq Ht NE. destruct (Nat.eqb_spec q r), (Nat.eqb_spec t r); try lia.
    + destruct (PX t Ht); lia.
    + destruct (PX q Hq); lia.
    + apply (wf_xx m W); [destruct (Hn q Hq)|destruct (Hn t Ht)|]; tauto.
  - intros q t Hq Ht NE. destruct (Nat.eqb_spec q r), (Nat.eqb_spec t r); try lia.
    + destruct (PX t Ht); lia.
    + destruct (PX q Hq); lia.
    + apply (wf_yy m W); [destruct (Hn q Hq)|destruct (Hn t Ht)|]; tauto.
  - intros q Hq. specialize (V q Hq). apply (f_equal fst) in V. cbn [fst] in V.
    change (0 <= X m' q < p). rewrite V. unfold upd. destruct (Nat.eqb_spec q r); [exact Hx|].
    apply (wf_rx m W). destruct (Hn q Hq); tauto.
  - intros q Hq. specialize (V q Hq). apply (f_equal snd) in V. cbn [snd] in V.
    change (0 <= Y m' q < p). rewrite V. unfold upd. destruct (Nat.eqb_spec q r); [exact Hy|].
    apply (wf_ry m W). destruct (Hn q Hq); tauto.
  - apply (wf_s m W).
Qed.

Lemma same_point m v m' r P : same m v -> npts m' = npts m -> (forall s, sval m' s = sval m s) ->
  (forall q, (q < npts m)%nat -> (X m' q, Y m' q) = upd (fun q => (X m q, Y m q)) r P q) ->
  same m' (setp v r P).
Proof.
  intros (A & B & C) HN HS HV. unfold same, setp. cbn. rewrite HN. split; [exact A|]. split.
  - intros q Hq. rewrite HV by exact Hq. unfold upd. destruct (Nat.eqb q r); [reflexivity|apply B, Hq].
  - intros s. rewrite HS. apply C.
Qed.

Lemma same_scalar m v r z : same m v -> same (set_sval m r z) (sets v r z).
Proof.
  intros (A & B & C). unfold same, sets, set_sval; cbn. split; [exact A|]. split; [exact B|].
  intros s. unfold upd. destruct (Nat.eqb s r); [reflexivity|apply C].
Qed.

Lemma same_sval_write m v r z z' : wf m -> same m v -> z' = z mod N ->
  let m1 := set_sval m r z in let m2 := set_sval m1 r (sc_mod (sval m1 r)) in
  wf m2 /\ same m2 (sets v r z').
Proof.
  intros W Sm -> m1 m2. unfold m2, m1. cbn [sval set_sval]. rewrite upd_same.
  assert (V : forall s, upd (upd (sval m) r z) r (sc_mod z) s = upd (sval m) r (z mod N) s).
  { intros s. unfold upd. destruct (Nat.eqb s r); reflexivity. }
  split.
  - destruct W. constructor; cbn [npts px py nextc sval set_sval]; auto.
    intros s. rewrite V. unfold upd. destruct (Nat.eqb s r); [apply modN_range|apply wf_s0].
  - destruct Sm as (A & B & C). unfold same, sets, set_sval; cbn. split; [exact A|]. split; [exact B|].
    intros s. rewrite V. unfold upd. destruct (Nat.eqb s r); [reflexivity|apply C].
Qed.

Lemma step_ok m v o : wf m -> same m v -> live (npts m) o ->
  wf (heap_step m o) /\ same (heap_step m o) (val_step v o) /\ npts (heap_step m o) = (npts m + creates o)%nat.
Proof.
  intros W Sm L. pose proof Sm as (HN & HP & HS).
  destruct o as [|a|r|r|r a|r a b|r a b|r a|r s a|r buf|a|r a|r z|r a b|r a b|r a|r a b|r buf];
    unfold live in L; cbn [op_points creates] in *; rewrite ?Nat.add_0_r.
  - (* ONew *)
    cbn [heap_step val_step].
    destruct (fresh_ok m (npts m) 0 0 (S (npts m)) W) as [W' V']; try lia.
    1,2: pose proof p_pos; lia.
    split; [exact W'|]. split; [|cbn; lia].
    unfold same. cbn [np npts new_point pv sv]. rewrite HN. split; [reflexivity|]. split.
    + intros q Hq. unfold new_point in *. rewrite V' by exact Hq. unfold upd.
      destruct (Nat.eqb_spec q (npts m)); [reflexivity|]. apply HP. cbn in Hq. lia.
    + exact HS.
  - (* OClone *)
    inversion L as [|? ? La _]; subst. cbn [heap_step val_step].
    assert (EX : fe_modQ (X m a) = cell m (px m a)) by (apply modQ_small, (wf_rx m W), La).
    destruct (self_write_wf m (px m a) _ EX W) as (W1 & X1 & Y1).
    set (m1 := set_cell m (px m a) (fe_modQ (X m a))) in *.
    assert (EY : fe_modQ (Y m1 a) = cell m1 (py m1 a)) by (change (fe_modQ (Y m1 a) = Y m1 a); apply modQ_small; rewrite Y1; apply (wf_ry m W), La).
    destruct (self_write_wf m1 (py m1 a) _ EY W1) as (W2 & X2 & Y2).
    set (m2 := set_cell m1 (py m1 a) (fe_modQ (Y m1 a))) in *.
    assert (VX : fe_set (X m2 a) = X m a) by (unfold fe_set; rewrite X2, X1; apply modQ_small, (wf_rx m W), La).
    assert (VY : fe_set (Y m2 a) = Y m a) by (unfold fe_set; rewrite Y2, Y1; apply modQ_small, (wf_ry m W), La).
    rewrite VX, VY.
    destruct (fresh_ok m2 (npts m2) (X m a) (Y m a) (S (npts m2)) W2) as [W' V']; try lia.
    1: apply (wf_rx m W), La. 1: apply (wf_ry m W), La.
    split; [exact W'|]. split; [|cbn; lia].
    unfold same. cbn [np npts new_point pv sv]. rewrite HN. split; [reflexivity|]. split.
    + intros q Hq. unfold new_point in *. rewrite V' by exact Hq. unfold upd. change (npts m2) with (npts m).
      destruct (Nat.eqb_spec q (npts m)); [apply HP, La|]. rewrite X2, X1, Y2, Y1. apply HP.
      cbn in Hq. lia.
    + exact HS.
  - (* ONull *)
    inversion L as [|? ? Lr _]; subst. cbn [heap_step val_step].
    rewrite (modQ_small 0) by (pose proof p_pos; lia).
    destruct (fresh_ok m r 0 0 (npts m) W) as [W' V']; try tauto. 1,2: pose proof p_pos; lia.
    split; [exact W'|]. split; [|reflexivity]. eapply same_point; [exact Sm|reflexivity|reflexivity|exact V'].
  - (* OBase *)
    inversion L as [|? ? Lr _]; subst. cbn [heap_step val_step].
    destruct (set_xy_ok m r Gx Gy W Lr) as [W' V'].
    split; [exact W'|]. split; [|reflexivity].
    eapply same_point; [exact Sm|reflexivity|reflexivity|].
    change (Gx, Gy) with (fe_set Gx, fe_set Gy). exact V'.
  - (* OSet *)
    inversion L as [|? ? Lr L']; subst. inversion L' as [|? ? La _]; subst. cbn [heap_step val_step].
    cbn [py set_cell].
    assert (EY : Y (set_cell m (px m r) (fe_set (X m a))) a = Y m a).
    { unfold Y. cbn. apply upd_other. intros E. symmetry in E. exact (wf_xy m W r a Lr La E). }
    rewrite EY. unfold fe_set.
    rewrite (modQ_small (X m a)) by (apply (wf_rx m W), La).
    rewrite (modQ_small (Y m a)) by (apply (wf_ry m W), La).
    destruct (set_cells_ok m r (X m a) (Y m a) W Lr) as [W' V'].
    1: apply (wf_rx m W), La. 1: apply (wf_ry m W), La.
    split; [exact W'|]. split; [|reflexivity].
    eapply same_point; [exact Sm|reflexivity|reflexivity|]. rewrite (HP a La). exact V'.
  - (* OAdd *)
    inversion L as [|? ? Lr L']; subst. inversion L' as [|? ? La L'']; subst. inversion L'' as [|? ? Lb _]; subst.
    cbn [heap_step val_step]. cbv zeta.
    destruct (set_xy_ok m r (fst (btc_add (X m a, Y m a) (X m b, Y m b))) (snd (btc_add (X m a, Y m a) (X m b, Y m b))) W Lr) as [W' V'].
    split; [exact W'|]. split; [|reflexivity].
    eapply same_point; [exact Sm|reflexivity|reflexivity|]. rewrite (HP a La), (HP b Lb). exact V'.
  - (* OSub *)
    inversion L as [|? ? Lr L']; subst. inversion L' as [|? ? La L'']; subst. inversion L'' as [|? ? Lb _]; subst.
    cbn [heap_step val_step]. cbv zeta.
    destruct (set_xy_ok m r (fst (btc_add (X m a, Y m a) (X m b, fe_neg (Y m b)))) (snd (btc_add (X m a, Y m a) (X m b, fe_neg (Y m b)))) W Lr) as [W' V'].
    split; [exact W'|]. split; [|reflexivity].
    eapply same_point; [exact Sm|reflexivity|reflexivity|]. rewrite (HP a La), (HP b Lb). exact V'.
  - (* ONeg *)
    inversion L as [|? ? Lr L']; subst. inversion L' as [|? ? La _]; subst. cbn [heap_step val_step].
    assert (EX : fe_modQ (X m a) = cell m (px m a)) by (apply modQ_small, (wf_rx m W), La).
    destruct (self_write_wf m (px m a) _ EX W) as (W1 & X1 & Y1).
    set (m1 := set_cell m (px m a) (fe_modQ (X m a))) in *. cbv zeta. rewrite X1, Y1.
    destruct (fresh_ok m1 r (fe_set (X m a)) (fe_neg (Y m a)) (npts m1) W1) as [W' V']; try tauto.
    1,2: apply modQ_range.
    split; [exact W'|]. split; [|reflexivity].
    eapply same_point; [exact Sm|reflexivity|reflexivity|]. rewrite (HP a La). unfold pt_neg. cbn [fst snd].
    intros q Hq. etransitivity; [apply V', Hq|]. unfold upd. rewrite X1, Y1. reflexivity.
  - (* OMul *)
    cbn [heap_step val_step]. cbv zeta.
    assert (ES : sc_mod (sval m s) = sval m s) by (apply Z.mod_small, (wf_s m W)).
    rewrite ES. set (m1 := set_sval m s (sval m s)).
    assert (S1 : forall t, sval m1 t = sval m t).
    { intros t. cbn. unfold upd. destruct (Nat.eqb_spec t s) as [->|]; reflexivity. }
    assert (W1 : wf m1) by (apply set_sval_ok; [exact W|apply (wf_s m W)]).
    assert (Sm1 : same m1 v) by (split; [exact HN|split; [exact HP|intros t; rewrite S1; apply HS]]).
    rewrite S1. unfold pt_mul. rewrite sc_marshal_spec, HS.
    change (sval m s mod N) with (sc_mod (sval m s)). rewrite ES.
    destruct a as [a|].
    + inversion L as [|? ? Lr L']; subst. inversion L' as [|? ? La _]; subst.
      destruct (set_xy_ok m1 r (fst (btc_mul (X m1 a, Y m1 a) (be_fixed 32 (sval m s))))
                 (snd (btc_mul (X m1 a, Y m1 a) (be_fixed 32 (sval m s)))) W1 Lr) as [W' V'].
      split; [exact W'|]. split; [|reflexivity].
      eapply same_point; [exact Sm1|reflexivity|reflexivity|]. rewrite (HP a La). exact V'.
    + inversion L as [|? ? Lr L']; subst.
      destruct (set_xy_ok m1 r (fst (btc_mul pt_base (be_fixed 32 (sval m s))))
                 (snd (btc_mul pt_base (be_fixed 32 (sval m s)))) W1 Lr) as [W' V'].
      split; [exact W'|]. split; [|reflexivity].
      eapply same_point; [exact Sm1|reflexivity|reflexivity|]. exact V'.
  - (* OUnmarshal *)
    inversion L as [|? ? Lr _]; subst. cbn [heap_step val_step]. unfold pt_unmarshal_recv.
    assert (Keep : wf m /\ same m (setp v r (pv v r)) /\ npts m = npts m).
    { split; [exact W|]. split; [|reflexivity]. unfold same, setp; cbn. split; [exact HN|]. split; [|exact HS].
      intros q Hq. unfold upd. destruct (Nat.eqb_spec q r) as [->|]; apply HP; assumption. }
    destruct (negb (length buf =? 33)%nat); [exact Keep|]. cbv zeta.
    destruct (negb (byte_eqb (nth 32 buf x00) x00 || byte_eqb (nth 32 buf x00) x01)); [exact Keep|].
    clear Keep. unfold fe_set_bytes.
    set (x := fe_modQ (be2z (firstn 32 buf))).
    set (m1 := mkMem (upd (cell m) (nextc m) x) (upd (px m) r (nextc m)) (py m) (S (nextc m)) (npts m) (sval m)).
    assert (V1 : forall q, (q < npts m)%nat -> (X m1 q, Y m1 q) = upd (fun q => (X m q, Y m q)) r (x, Y m r) q).
    { intros q Hq. unfold X, Y, m1; cbn. pose proof (wf_x m W q Hq). pose proof (wf_y m W q Hq).
      rewrite (upd_other (cell m) _ (py m q)) by lia. unfold upd.
      destruct (Nat.eqb_spec q r) as [->|NE]; [rewrite Nat.eqb_refl; reflexivity|].
      destruct (Nat.eqb_spec (px m q) (nextc m)); [lia|reflexivity]. }
    assert (W1 : wf m1).
    { constructor; unfold m1; cbn [npts px py nextc sval]; unfold upd.
      - intros q Hq. pose proof (wf_x m W q Hq). destruct (Nat.eqb_spec q r); lia.
      - intros q Hq. pose proof (wf_y m W q Hq). lia.
      - intros q t Hq Ht. pose proof (wf_y m W t Ht). destruct (Nat.eqb_spec q r); [lia|]. apply (wf_xy m W); assumption.
      - intros q t Hq Ht NE. pose proof (wf_x m W q Hq). pose proof (wf_x m W t Ht).
        destruct (Nat.eqb_spec q r), (Nat.eqb_spec t r); try lia. apply (wf_xx m W); assumption.
      - apply (wf_yy m W).
      - intros q Hq. specialize (V1 q Hq). apply (f_equal fst) in V1. cbn [fst] in V1. fold m1. fold m1.
        change (0 <= X m1 q < p). rewrite V1. unfold upd. destruct (Nat.eqb q r); [apply modQ_range|apply (wf_rx m W), Hq].
      - intros q Hq. specialize (V1 q Hq). apply (f_equal snd) in V1. cbn [snd] in V1.
        change (0 <= Y m1 q < p). rewrite V1. unfold upd. destruct (Nat.eqb_spec q r) as [->|]; apply (wf_ry m W); assumption.
      - apply (wf_s m W). }
    assert (Sm1 : same m1 (setp v r (x, snd (pv v r)))).
    { eapply same_point; [exact Sm|reflexivity|reflexivity|]. rewrite (HP r Lr). exact V1. }
    destruct (fe_maybe_sqrt (fe_rhs x)) as [y0|]; [|split; [exact W1|split; [exact Sm1|reflexivity]]].
    assert (Wr : forall m' y, wf m' -> npts m' = npts m -> 0 <= y < p ->
      wf (set_cell m' (py m' r) y) /\ forall q, (q < npts m)%nat ->
        (X (set_cell m' (py m' r) y) q, Y (set_cell m' (py m' r) y) q)
        = upd (fun q => (X m' q, Y m' q)) r (X m' r, y) q).
    { intros m' y W' E' Hy. rewrite <- E' in *.
      assert (U := set_cells_ok m' r (X m' r) y W' Lr (wf_rx m' W' r Lr) Hy). cbv zeta in U.
      destruct U as [U1 U2].
      assert (EC : forall c, cell (set_cell (set_cell m' (px m' r) (X m' r)) (py m' r) y) c
                           = cell (set_cell m' (py m' r) y) c).
      { intros c. cbn. unfold upd, X. destruct (Nat.eqb c (py m' r)); [reflexivity|].
        destruct (Nat.eqb_spec c (px m' r)) as [->|]; reflexivity. }
      assert (V : forall q, (q < npts m')%nat -> (X (set_cell m' (py m' r) y) q, Y (set_cell m' (py m' r) y) q)
        = upd (fun q => (X m' q, Y m' q)) r (X m' r, y) q).
      { intros q Hq. rewrite <- U2 by exact Hq. unfold X at 1, Y at 1. cbn [px py set_cell].
        rewrite <- !EC. reflexivity. }
      split; [|exact V]. destruct U1. constructor; cbn [npts px py nextc sval set_cell] in *; auto.
      - intros q Hq. specialize (wf_rx0 q Hq). unfold X in *. cbn [px set_cell] in *. rewrite EC in wf_rx0. exact wf_rx0.
      - intros q Hq. specialize (wf_ry0 q Hq). unfold Y in *. cbn [py set_cell] in *. rewrite EC in wf_ry0. exact wf_ry0. }
    assert (Tr : forall m' y P, wf m' -> same m' (setp v r P) -> npts m' = npts m -> 0 <= y < p ->
       wf (set_cell m' (py m' r) y) /\ same (set_cell m' (py m' r) y) (setp v r (fst P, y)) /\
       Y (set_cell m' (py m' r) y) r = y).
    { intros m' y P W' S' E' Hy. destruct (Wr m' y W' E' Hy) as [W2 V2]. split; [exact W2|].
      destruct S' as (A & B & C). rewrite E' in B.
      assert (PR : P = (X m' r, Y m' r)).
      { specialize (B r Lr). cbn in B. rewrite upd_same in B. exact B. }
      split.
      - unfold same. cbn [np setp pv sv set_cell npts sval]. split; [exact A|]. split; [|exact C].
        rewrite E'. intros q Hq. rewrite V2 by exact Hq. specialize (B q Hq). cbn in B. unfold upd in *.
        destruct (Nat.eqb q r); [rewrite PR; reflexivity|exact B].
      - specialize (V2 r Lr). apply (f_equal snd) in V2. cbn [snd] in V2. rewrite V2, upd_same. reflexivity. }
    destruct (Tr m1 (fe_set y0) _ W1 Sm1 eq_refl (modQ_range _)) as (W2 & S2 & Y2).
    set (m2 := set_cell m1 (py m1 r) (fe_set y0)) in *. cbn [fst] in S2.
    destruct (byte_eqb (nth 32 buf x00) x00 && negb (fe_is_even y0) ||
      byte_eqb (nth 32 buf x00) x01 && fe_is_even y0).
    + rewrite Y2. destruct (Tr m2 (fe_neg (fe_set y0)) _ W2 S2 eq_refl (modQ_range _)) as (W3 & S3 & Y3).
      split; [exact W3|]. split; [exact S3|reflexivity].
    + split; [exact W2|]. split; [exact S2|reflexivity].
  - (* OMarshal *)
    inversion L as [|? ? La _]; subst. cbn [heap_step val_step].
    destruct (fe_maybe_sqrt _); [|tauto]. destruct (_ && _); [tauto|].
    assert (EX : fe_modQ (X m a) = cell m (px m a)) by (apply modQ_small, (wf_rx m W), La).
    destruct (self_write_wf m (px m a) _ EX W) as (W1 & X1 & Y1).
    split; [exact W1|]. split; [|reflexivity]. split; [exact HN|]. split; [|exact HS].
    intros q Hq. rewrite X1, Y1. apply HP, Hq.
  - (* SSet *)
    cbn [heap_step val_step]. rewrite HS.
    assert (ES : sc_mod (sval m a) = sval m a) by (apply Z.mod_small, (wf_s m W)). rewrite ES.
    split; [apply set_sval_ok; [exact W|apply (wf_s m W)]|]. split; [apply same_scalar, Sm|reflexivity].
  - destruct (same_sval_write m v r z _ W Sm eq_refl) as [A B]. split; [exact A|]. split; [exact B|reflexivity].
  - cbn [heap_step val_step]. rewrite !HS.
    destruct (same_sval_write m v r (sval m a + sval m b) _ W Sm eq_refl) as [A B]. split; [exact A|]. split; [exact B|reflexivity].
  - cbn [heap_step val_step]. rewrite !HS.
    destruct (same_sval_write m v r (sval m a - sval m b) _ W Sm eq_refl) as [A B]. split; [exact A|]. split; [exact B|reflexivity].
  - cbn [heap_step val_step]. rewrite !HS.
    destruct (same_sval_write m v r (- sval m a) _ W Sm eq_refl) as [A B]. split; [exact A|]. split; [exact B|reflexivity].
  - cbn [heap_step val_step]. rewrite !HS.
    destruct (same_sval_write m v r (sval m a * sval m b) _ W Sm eq_refl) as [A B]. split; [exact A|]. split; [exact B|reflexivity].
  - destruct (same_sval_write m v r (be2z buf) _ W Sm eq_refl) as [A B]. split; [exact A|]. split; [exact B|reflexivity].
Qed.

Lemma run_ok ops : forall m v, wf m -> same m v -> well_scoped (npts m) ops ->
  wf (fold_left heap_step ops m) /\ same (fold_left heap_step ops m) (fold_left val_step ops v).
Proof.
  induction ops as [|o ops IH]; intros m v W Sm L; [tauto|].
  destruct L as [L1 L2]. destruct (step_ok m v o W Sm L1) as (W' & S' & E').
  cbn [fold_left]. apply IH; [exact W'|exact S'|]. rewrite E'. exact L2.
Qed.

Lemma mem0_ok : wf mem0 /\ same mem0 vals0.
Proof.
  split.
  - constructor; cbn [mem0 npts]; try (intros; lia). intros s. cbn. pose proof N_pos. lia.
  - split; [reflexivity|]. split; [|reflexivity]. cbn. lia.
Qed.

Lemma aliasing ops : well_scoped 0 ops ->
  let m := fold_left heap_step ops mem0 in let v := fold_left val_step ops vals0 in
  np v = npts m /\ (forall q, (q < npts m)%nat -> pv v q = (X m q, Y m q)) /\ (forall s, sv v s = sval m s) /\
  (forall q, (q < npts m)%nat -> 0 <= X m q < p /\ 0 <= Y m q < p) /\ (forall s, 0 <= sval m s < N).
Proof.
  intros L. destruct mem0_ok as [W Sm]. destruct (run_ok ops mem0 vals0 W Sm L) as [W' (A & B & C)].
  cbv zeta. split; [exact A|]. split; [exact B|]. split; [exact C|].
  split; [intros q Hq; split; [apply (wf_rx _ W'), Hq|apply (wf_ry _ W'), Hq]|apply (wf_s _ W')].
Qed.

(** * ethschnorr.go:116-153 on the heap: [ps], [pm] the big.Ints of the
    signature and the message, [cx], [cy] those of the public point; any of them may
    coincide.  Only the writes to these four are kept: all other big.Ints the
    function touches are its own. *)
Section VerifyHeap.
  Variable keccak : bytes -> bytes.

  Definition verify_heap (h : nat -> Z) (ps pm cx cy : nat) (addr : bytes) : (nat -> Z) * res unit :=
    let z := h ps in
    if negb ((z <? N) && negb (z <? 0)) then (h, Err)
    else if negb (valid_public_key (KP (h cx, h cy))) then (h, Err)
    else if (h pm <? 0) || (max_uint256 <? h pm) then (h, Err)
    else
      match pt_marshal (h cx, h cy) with
      | Ok b =>
          let h1 := upd h cx (fe_modQ (h cx)) in            (* P.X.Bytes() in MarshalBinary *)
          let c := sc_set_bytes (keccak (b ++ big_bytes (h1 pm) ++ addr)) in
          let h2 := upd h1 ps (sc_mod (h1 ps)) in           (* IntToScalar *)
          let h3 := upd h2 ps (sc_mod (h2 ps)) in           (* MarshalBinary in Mul *)
          match pt_mul (h3 ps) KP_nil, pt_mul c (KP (h3 cx, h3 cy)) with
          | Ok A, Ok B =>
              match eth_address keccak (pt_add A B) with
              | Ok maddr => (h3, if negb (bytes_eqb addr maddr) then Err else Ok tt)
              | Err => (h3, Err)
              | Panic => (h3, Panic)
              end
          | _, _ => (h3, Panic)
          end
      | Err => (h, Err)
      | Panic => (h, Panic)
      end.

  Lemma upd_self (h : nat -> Z) i v : v = h i -> forall j, upd h i v j = h j.
  Proof. intros -> j. unfold upd. destruct (Nat.eqb_spec j i) as [->|]; reflexivity. Qed.

  Lemma verify_heap_pure h ps pm cx cy addr : 0 <= h cx < p ->
    snd (verify_heap h ps pm cx cy addr) = verify keccak (KP (h cx, h cy)) (h pm) (Sig addr (Some (h ps))) /\
    forall i, fst (verify_heap h ps pm cx cy addr) i = h i.
  Proof.
    intros HX. unfold verify_heap, verify. cbn [valid_signature rbind is_secp_point negb andb].
    destruct ((h ps <? N) && negb (h ps <? 0)) eqn:EZ; cbn [negb andb]; [|split; reflexivity].
    assert (Z1 : 0 <= h ps < N).
    { apply (valid_signature_spec addr). cbn. rewrite EZ. reflexivity. }
    destruct (valid_public_key (KP (h cx, h cy))) eqn:EP; cbn [negb andb]; [|split; reflexivity].
    destruct ((h pm <? 0) || (max_uint256 <? h pm)); [split; reflexivity|].
    apply valid_public_key_spec in EP.
    destruct (pt_marshal (h cx, h cy)) as [b| |] eqn:EM.
    2:{ apply pt_marshal_err in EM. contradiction. }
    2:{ exfalso. exact (pt_marshal_no_panic _ EM). }
    assert (E1 : forall j, upd h cx (fe_modQ (h cx)) j = h j) by (apply upd_self, modQ_small, HX).
    set (h1 := upd h cx (fe_modQ (h cx))) in *. cbv zeta.
    assert (E2 : forall j, upd h1 ps (sc_mod (h1 ps)) j = h j).
    { intros j. rewrite <- E1. apply upd_self. rewrite E1. apply Z.mod_small, Z1. }
    set (h2 := upd h1 ps (sc_mod (h1 ps))) in *.
    assert (E3 : forall j, upd h2 ps (sc_mod (h2 ps)) j = h j).
    { intros j. rewrite <- E2. apply upd_self. rewrite E2. apply Z.mod_small, Z1. }
    set (h3 := upd h2 ps (sc_mod (h2 ps))) in *.
    unfold challenge_hash. rewrite EM. cbn [is_ok negb andb rbind].
    rewrite E1, !E3, <- app_assoc. unfold sc_mod at 1. rewrite (Z.mod_small _ _ Z1).
    destruct (base_mul (h ps) KP_nil (or_introl eq_refl)) as (A & EA & _). rewrite EA. cbn [rbind].
    destruct (pt_mul_total (sc_set_bytes (keccak (b ++ big_bytes (h pm) ++ addr))) (h cx, h cy)) as [B EB].
    rewrite EB. cbn [rbind]. rewrite eth_address_spec. cbn [rbind fst snd]. split; [reflexivity|exact E3].
  Qed.
End VerifyHeap.
