(** What the firewall's state says about the trace so far. *)
From Coq Require Import ZArith List Lia Bool.
From Verif Require Import Bytes Res Prot KMap Firewall FwSpec FwProofs.
Import ListNotations.
Open Scope Z_scope.

Lemma firstn_snoc {A} n (l : list A) x : firstn n (l ++ [x]) = if Nat.ltb (length l) n then l ++ [x] else firstn n l.
Proof.
  destruct (Nat.ltb_spec (length l) n).
  - apply firstn_all2. rewrite app_length. cbn. lia.
  - rewrite firstn_app. replace (n - length l)%nat with 0%nat by lia. cbn. apply app_nil_r.
Qed.

Section Inv.
  Context {D : Type}.
  Notation message := (message D). Notation fobs := (fobs D). Notation fevent := (fevent D). Notation fw := (fw D).
  Variables (d0 : bool) (until : Z) (kn : key -> bool).

  Lemma passed_app k (a b : list fobs) : passed k (a ++ b) = passed k a ++ passed k b.
  Proof. apply flat_map_app. Qed.
  Lemma told_app k n (a b : list fobs) : told_to k n (a ++ b) = told_to k n a ++ told_to k n b.
  Proof. apply flat_map_app. Qed.
  Lemma phase_snoc k (a : list fobs) o : phase k (a ++ [o]) =
    match o with FSet _ k' _ => if key_eqb k' k then Some 0 else phase k a
               | FPhase _ k' q => if key_eqb k' k then Some q else phase k a | _ => phase k a end.
  Proof. unfold phase. rewrite fold_left_app. reflexivity. Qed.
  Lemma dropping_app (a b : list fobs) : dropping d0 (a ++ b) = dropping (dropping d0 a) b.
  Proof. unfold dropping. rewrite existsb_app, negb_orb, andb_assoc. reflexivity. Qed.
  Lemma arrivals_app k p (b : list fobs) : forall pre c, arrivals d0 k p pre (b ++ c) = arrivals d0 k p pre b ++ arrivals d0 k p (pre ++ b) c.
  Proof.
    induction b as [|o b IH]; intros pre c; cbn [app arrivals]; [rewrite app_nil_r; reflexivity|].
    rewrite IH, <- !app_assoc. reflexivity.
  Qed.

  (** Observations about other runs. *)
  Lemma other_obs k (o : list fobs) : filter (about_obs k) o = [] -> forall tr : list fobs,
    passed k o = [] /\ (forall n, told_to k n o = []) /\ phase k (tr ++ o) = phase k tr /\ dropping d0 (tr ++ o) = dropping d0 tr /\
    existsb (is_set k) o = false /\ (forall p, existsb (is_phase k p) o = false) /\ (forall p pre, arrivals d0 k p pre o = []).
  Proof.
    induction o as [|x o IH]; intros H tr; [rewrite app_nil_r; repeat split; auto|]. cbn [filter] in H.
    destruct (about_obs k x) eqn:AX; [discriminate|]. specialize (IH H (tr ++ [x])). rewrite <- app_assoc in IH.
    destruct IH as (I1 & I2 & I3 & I4 & I5 & I6 & I7). cbn [passed told_to flat_map existsb arrivals]. 
    assert (DX : dropping d0 (tr ++ [x]) = dropping d0 tr).
    { unfold dropping. rewrite existsb_app. destruct x; try discriminate AX; cbn; rewrite ?orb_false_r; reflexivity. }
    assert (PX : phase k (tr ++ [x]) = phase k tr).
    { rewrite phase_snoc. destruct x; cbn in AX; rewrite ?AX; reflexivity. }
    rewrite DX in I4. rewrite PX in I3. fold (passed k o). rewrite I1. 
    split; [destruct x; cbn in AX |- *; rewrite ?AX; reflexivity|]. 
    split; [intros n; fold (told_to k n o); rewrite I2; destruct x; cbn in AX |- *; rewrite ?AX; reflexivity|].
    split; [exact I3|]. split; [exact I4|]. split; [rewrite I5; destruct x; cbn in AX |- *; rewrite ?AX; reflexivity|].
    split; [intros p; rewrite I6; destruct x; cbn in AX |- *; rewrite ?AX; reflexivity|].
    intros p pre. rewrite I7. destruct x; cbn in AX |- *; rewrite ?AX; reflexivity.
  Qed.

  Definition dead (s : slot) : Prop := sl_thread s = None \/ sl_thread s = Some FEnd.
  Definition done (s : slot) : nat :=
    match sl_thread s with Some (FStart _) => 1 | Some (FStop _) => 2 | Some FEnd => 3 | _ => 0 end.
  Definition chans (k : key) (cs : list slot) (tr : list fobs) : Prop := forall n,
    match nth_error cs n with
    | Some s => told_to k n tr = firstn (done s) [1; 2; 3] /\ (length (sl_chan s) <= done s)%nat
    | None => told_to k n tr = [] end.
  Definition flow (k : key) (t0 : Z) (a : allowance) (a1 a2 : list fobs) : Prop :=
    passed k a2 = (if existsb (is_phase k 2) a2 then firstn 2048 (arrivals d0 k 1 (a1 ++ [FSet t0 k a]) a2) else [])
                  ++ arrivals d0 k 2 (a1 ++ [FSet t0 k a]) a2.
  Definition arrived (a : allowance) (t0 T : Z) (a2 : list fobs) (m : message) : Prop :=
    exists tm, In (FIn tm m) a2 /\ al_buf a <= tm /\ t0 <= tm <= T /\ until <= tm.
  Definition idle (k : key) (v : view (D := D)) (tr : list fobs) : Prop :=
    v_allow v = None /\ v_st v = None /\ v_buf v = [] /\ (forall n s, nth_error (v_calls v) n = Some s -> dead s) /\
    (phase k tr = None /\ passed k tr = [] /\ existsb (is_set k) tr = false \/
     exists t0 a a1 a2, tr = a1 ++ FSet t0 k a :: a2 /\ existsb (is_set k) a2 = false /\ phase k tr = Some 3 /\ existsb (is_phase k 3) a2 = true /\ flow k t0 a a1 a2).
  Definition active (k : key) (v : view (D := D)) (tr : list fobs) (T : Z) : Prop :=
    exists n s a t0 a1 a2, nth_error (v_calls v) n = Some s /\ (forall m s', m <> n -> nth_error (v_calls v) m = Some s' -> dead s') /\
      v_allow v = Some a /\ kn k = true /\ tr = a1 ++ FSet t0 k a :: a2 /\ existsb (is_set k) a2 = false /\ existsb (is_phase k 3) a2 = false /\
      t0 <= T /\ flow k t0 a a1 a2 /\
      match sl_thread s with
      | Some FNew => v_st v = Some 0 /\ phase k tr = Some 0 /\ v_buf v = [] /\ existsb (is_phase k 2) a2 = false /\ passed k a2 = [] /\ arrivals d0 k 1 (a1 ++ [FSet t0 k a]) a2 = []
      | Some (FBuf a') => a' = a /\ v_st v = Some 0 /\ phase k tr = Some 0 /\ v_buf v = [] /\ existsb (is_phase k 2) a2 = false /\ passed k a2 = [] /\ arrivals d0 k 1 (a1 ++ [FSet t0 k a]) a2 = []
      | Some (FStart a') => a' = a /\ v_st v = Some 1 /\ phase k tr = Some 1 /\ al_buf a <= T /\ existsb (is_phase k 2) a2 = false /\ passed k a2 = [] /\
          v_buf v = firstn 2048 (arrivals d0 k 1 (a1 ++ [FSet t0 k a]) a2) /\ Forall (arrived a t0 T a2) (v_buf v)
      | Some (FStop a') => a' = a /\ v_st v = Some 2 /\ phase k tr = Some 2 /\ al_buf a <= T /\ al_start a <= T /\ v_buf v = [] /\ existsb (is_phase k 2) a2 = true
      | _ => False
      end.
  Definition KI (k : key) (v : view (D := D)) (tr : list fobs) (T : Z) : Prop :=
    v_drop v = dropping d0 tr /\ (v_drop v = false -> until <= T) /\ chans k (v_calls v) tr /\ (idle k v tr \/ active k v tr T).

  (** Steps of other runs keep it. *)
  Lemma flow_other k t0 a a1 a2 o : filter (about_obs k) o = [] -> flow k t0 a a1 a2 -> flow k t0 a a1 (a2 ++ o).
  Proof.
    intros H F. destruct (other_obs k o H []) as (O1 & _ & _ & _ & _ & O6 & O7). unfold flow.
    rewrite passed_app, O1, existsb_app, O6, !arrivals_app, !O7, orb_false_r, !app_nil_r. exact F.
  Qed.
  Lemma ki_other k v tr o T T' : T <= T' -> filter (about_obs k) o = [] -> KI k v tr T -> KI k v (tr ++ o) T'.
  Proof.
    intros LT H (A & B & C & E). destruct (other_obs k o H tr) as (O1 & O2 & O3 & O4 & O5 & O6 & O7).
    split; [rewrite O4; exact A|]. split; [intros X; specialize (B X); lia|].
    split. { intros n. specialize (C n). rewrite told_app, O2, app_nil_r. exact C. }
    destruct E as [(I1 & I2 & I3 & I4 & I5)|(n & s & a & t0 & a1 & a2 & X1 & X2 & X3 & X4 & -> & X6 & X7 & X8 & X9 & X10)].
    - left. split; [exact I1|]. split; [exact I2|]. split; [exact I3|]. split; [exact I4|].
      destruct I5 as [(J1 & J2 & J3)|(t0 & a & a1 & a2 & -> & J2 & J3 & J4 & J5)].
      + left. rewrite O3, passed_app, O1, app_nil_r, existsb_app, O5, orb_false_r. auto.
      + right. exists t0, a, a1, (a2 ++ o). rewrite O3, !existsb_app, O5, O6, !orb_false_r. split; [rewrite <- app_assoc; reflexivity|]. repeat split; auto. apply flow_other; assumption.
    - right. exists n, s, a, t0, a1, (a2 ++ o). rewrite O3. split; [exact X1|]. split; [exact X2|]. split; [exact X3|]. split; [exact X4|].
      split; [rewrite <- app_assoc; reflexivity|]. rewrite !existsb_app, O5, !O6, !orb_false_r. split; [exact X6|]. split; [exact X7|]. split; [lia|].
      split; [apply flow_other; assumption|]. rewrite passed_app, O1, arrivals_app, O7, !app_nil_r. 
      destruct (sl_thread s) as [[|a'|a'|a'|]|]; auto.
      + destruct X10 as (-> & Y1 & Y2 & Y3 & Y4 & Y5 & Y6 & Y7). repeat split; auto; [lia|]. eapply Forall_impl; [|exact Y7].
        intros m (tm & Z1 & Z2 & Z3 & Z4). exists tm. split; [apply in_or_app; auto|]. repeat split; lia.
      + destruct X10 as (-> & Y1 & Y2 & Y3 & Y4 & Y5 & Y6). repeat split; auto; lia.
  Qed.

  (** ** Steps of the run itself *)
  (** What is said of a message passed on. *)
  Definition P61 (pre : list fobs) (o : fobs) : Prop :=
    match o with
    | FPass t m => exists t0 a a1 a2 tm, pre = a1 ++ FSet t0 (key_of m) a :: a2 /\
        existsb (is_set (key_of m)) a2 = false /\ existsb (is_phase (key_of m) 3) a2 = false /\
        In (FIn tm m) a2 /\ al_start a <= t /\ al_buf a <= tm /\ t0 <= tm <= t /\ until <= tm
    | _ => True
    end.
  Definition alw (pre o : list fobs) : Prop := forall x c y, o = x ++ c :: y -> P61 (pre ++ x) c.
  Lemma alw_nopass pre o : Forall (fun c => match c with FPass _ _ => False | _ => True end) o -> alw pre o.
  Proof.
    intros H x c y ->. apply Forall_app in H. destruct H as [_ H]. inversion H as [|? ? H1 _]; subst. destruct c; try exact I. contradiction.
  Qed.
  Lemma alw_app pre a b : alw pre a -> alw (pre ++ a) b -> alw pre (a ++ b).
  Proof.
    intros HA HB x c y E. revert x E. 
    assert (X : forall a x, a ++ b = x ++ c :: y -> (exists z, a = x ++ c :: z) \/ exists x', x = a ++ x' /\ b = x' ++ c :: y).
    { induction a0 as [|z a0 IH]; intros [|w x] E; cbn in E.
      - right. exists []. auto.
      - right. exists (w :: x). auto.
      - injection E as -> E. left. exists a0. reflexivity.
      - injection E as -> E. destruct (IH x E) as [(z & ->)|(x' & -> & ->)]; [left; exists z; reflexivity|right; exists x'; auto]. }
    intros x E. destruct (X a x E) as [(z & ->)|(x' & -> & ->)]; [eapply HA; reflexivity|]. rewrite app_assoc. eapply HB. reflexivity.
  Qed.

  Lemma told_other k n n' t v : n <> n' -> told_to k n' [FTold (D := D) t k n v] = [].
  Proof. intros H. cbn. rewrite key_eqb_refl. destruct (Nat.eqb_spec n n'); [contradiction|reflexivity]. Qed.
  Lemma told_same k n t v : told_to k n [FTold (D := D) t k n v] = [v].
  Proof. cbn. rewrite key_eqb_refl, Nat.eqb_refl. reflexivity. Qed.
  Lemma nth_lt {A} (l : list A) n x : nth_error l n = Some x -> Nat.ltb n (length l) = true.
  Proof. intros H. apply Nat.ltb_lt. apply nth_error_Some. congruence. Qed.

  (** Changing the live slot. *)
  Lemma chans_put k cs n s s' tr o : chans k cs tr -> nth_error cs n = Some s ->
    (forall n', n <> n' -> told_to k n' o = []) ->
    firstn (done s) [1; 2; 3] ++ told_to k n o = firstn (done s') [1; 2; 3] -> (length (sl_chan s') <= done s')%nat ->
    chans k (put cs n s') (tr ++ o).
  Proof.
    intros C EN HO HT HL n'. specialize (C n'). rewrite put_nth, told_app. destruct (Nat.eqb_spec n' n) as [->|NE].
    - rewrite (nth_lt _ _ _ EN). rewrite EN in C. destruct C as [-> _]. auto.
    - rewrite HO by congruence. rewrite app_nil_r. exact C.
  Qed.
  Lemma chans_app k cs tr o : chans k cs tr -> (forall n', told_to k n' o = []) -> chans k cs (tr ++ o).
  Proof. intros C HO n'. specialize (C n'). rewrite told_app, HO, app_nil_r. exact C. Qed.
  Lemma chans_new k cs tr o t : chans k cs tr -> (forall n', told_to k n' o = []) -> t = None \/ t = Some FNew -> chans k (cs ++ [mkSlot t []]) (tr ++ o).
  Proof.
    intros C HO HT n'. rewrite told_app, HO, app_nil_r. destruct (Nat.lt_ge_cases n' (length cs)) as [L|L].
    - rewrite nth_error_app1 by exact L. apply C.
    - rewrite nth_error_app2 by exact L. specialize (C n'). rewrite (proj2 (nth_error_None _ _) L) in C.
      destruct (n' - length cs)%nat as [|[|]]; cbn; try exact C. rewrite C. destruct HT as [->| ->]; cbn; auto.
  Qed.

  (** A message for the run. *)
  Lemma dropping_in tr t m : dropping d0 (tr ++ [FIn (D := D) t m]) = dropping d0 tr.
  Proof. unfold dropping. rewrite existsb_app. cbn. rewrite orb_false_r. reflexivity. Qed.
  Lemma arrivals_in k p pre b t (m : message) : arrivals d0 k p pre (b ++ [FIn t m]) =
    arrivals d0 k p pre b ++ (if key_eqb (key_of m) k && negb (dropping d0 (pre ++ b)) && phase_is k p (pre ++ b) then [m] else []).
  Proof. rewrite arrivals_app. cbn. rewrite app_nil_r. reflexivity. Qed.

  Lemma ki_in m v tr T now : T <= now -> KI (key_of m) v tr T ->
    (* what fw_process does to the view *)
    forall v' o, (if v_drop v || negb (kn (key_of m)) then v' = v /\ o = [] else
      match v_st v with
      | None => v' = v /\ o = []
      | Some st => if st =? fw_buffering then
          if Z.of_nat (length (v_buf v)) <? fw_buf_max then v' = mkView (v_drop v) (v_allow v) (v_st v) (v_buf v ++ [m]) (v_calls v) /\ o = []
          else v' = v /\ o = []
        else if st =? fw_forwarding then v' = v /\ o = [FPass now m] else v' = v /\ o = [] end) ->
    KI (key_of m) v' (tr ++ FIn now m :: o) now /\ alw tr (FIn now m :: o).
  Proof.
    intros LT (A & B & C & E) v' o HV. set (k := key_of m) in *.
    assert (TI : forall n, told_to k n (FIn now m :: o) = []).
    { intros n. assert (o = [] \/ o = [FPass now m]) as [-> | ->]; [|reflexivity|reflexivity].
      destruct (_ || _); [tauto|]. destruct (v_st v); [|tauto]. destruct (_ =? _); [destruct (_ <? _); tauto|]. destruct (_ =? _); tauto. }
    assert (DR : dropping d0 (tr ++ FIn now m :: o) = dropping d0 tr).
    { assert (o = [] \/ o = [FPass now m]) as [-> | ->]; [|apply dropping_in|].
      - destruct (_ || _); [tauto|]. destruct (v_st v); [|tauto]. destruct (_ =? _); [destruct (_ <? _); tauto|]. destruct (_ =? _); tauto.
      - change (FIn now m :: [FPass now m]) with ([FIn now m] ++ [FPass now m]). rewrite app_assoc, dropping_app, dropping_in. unfold dropping. cbn. apply andb_true_r. }
    assert (C' : v_drop v' = v_drop v /\ v_calls v' = v_calls v).
    { destruct (_ || _); [destruct HV as [-> _]; auto|]. destruct (v_st v) as [st|]; [|destruct HV as [-> _]; auto].
      destruct (st =? _); [destruct (_ <? _); destruct HV as [-> _]; auto|]. destruct (st =? _); destruct HV as [-> _]; auto. }
    destruct C' as [VD VC].
    assert (BASE : (idle k v' (tr ++ FIn now m :: o) \/ active k v' (tr ++ FIn now m :: o) now) -> KI k v' (tr ++ FIn now m :: o) now).
    { intros X. split; [rewrite VD, DR; exact A|]. split; [intros Y; rewrite VD in Y; specialize (B Y); lia|].
      split; [rewrite VC; apply chans_app; assumption|exact X]. }
    assert (PH : forall tr' : list fobs, phase k (tr' ++ [FIn now m]) = phase k tr') by (intros; apply phase_snoc).
    destruct E as [(I1 & I2 & I3 & I4 & I5)|(n & s & a & t0 & a1 & a2 & X1 & X2 & X3 & X4 & -> & X6 & X7 & X8 & X9 & X10)].
    - rewrite I2 in HV. assert (v' = v /\ o = []) as [-> ->] by (destruct (_ || _); exact HV). clear HV.
      split; [|apply alw_nopass; repeat constructor]. apply BASE. left. split; [exact I1|]. split; [exact I2|]. split; [exact I3|]. split; [exact I4|].
      destruct I5 as [(J1 & J2 & J3)|(t0 & a & a1 & a2 & -> & J2 & J3 & J4 & J5)].
      + left. rewrite PH, passed_app, existsb_app, J2, J3. auto.
      + right. exists t0, a, a1, (a2 ++ [FIn now m]). rewrite PH, !existsb_app, J2, J4. split; [rewrite <- app_assoc; reflexivity|]. repeat split; auto.
        unfold flow in *. rewrite passed_app, existsb_app, !arrivals_in.
        change ((a1 ++ [FSet t0 k a]) ++ a2) with ((a1 ++ [FSet t0 k a]) ++ a2). rewrite <- (app_assoc a1). cbn [app]. unfold phase_is. rewrite J3. cbn. rewrite !andb_false_r, !app_nil_r, orb_false_r. exact J5.
    - rewrite X4, orb_false_r in HV. rewrite A in *. set (tr := a1 ++ FSet t0 k a :: a2) in *.
      assert (APP : (a1 ++ [FSet t0 k a]) ++ a2 = tr) by (unfold tr; rewrite <- app_assoc; reflexivity).
      assert (PER : tr ++ [FIn now m] = a1 ++ FSet t0 k a :: a2 ++ [FIn now m]) by (unfold tr; rewrite <- app_assoc; reflexivity).
      assert (IG : forall p, phase_is k p tr = false \/ dropping d0 tr = true -> arrivals d0 k p (a1 ++ [FSet t0 k a]) (a2 ++ [FIn now m]) = arrivals d0 k p (a1 ++ [FSet t0 k a]) a2).
      { intros p Hp. rewrite arrivals_in, APP. destruct Hp as [-> | ->]; cbn; rewrite ?andb_false_r; cbn; rewrite ?app_nil_r; reflexivity. }
      assert (YES : forall p, phase_is k p tr = true -> dropping d0 tr = false -> arrivals d0 k p (a1 ++ [FSet t0 k a]) (a2 ++ [FIn now m]) = arrivals d0 k p (a1 ++ [FSet t0 k a]) a2 ++ [m]).
      { intros p Hp Hd. rewrite arrivals_in, APP, Hp, Hd. unfold k. rewrite key_eqb_refl. reflexivity. }
      assert (AR : forall l, Forall (arrived a t0 T a2) l -> Forall (arrived a t0 now (a2 ++ [FIn now m])) l).
      { intros l. apply Forall_impl. intros x (tm & Z1 & Z2 & Z3 & Z4). exists tm. split; [apply in_or_app; auto|]. repeat split; lia. }
      (* nothing changes but the trace *)
      assert (QUIET : v' = v -> o = [] ->
        (forall p, p = 1 \/ p = 2 -> phase_is k p tr = false \/ dropping d0 tr = true \/ (p = 1 /\ (2048 <= length (v_buf v))%nat)) ->
        KI k v' (tr ++ FIn now m :: o) now /\ alw tr (FIn now m :: o)).
      { intros -> -> HQ. split; [|apply alw_nopass; repeat constructor]. apply BASE. right. exists n, s, a, t0, a1, (a2 ++ [FIn now m]).
        split; [exact X1|]. split; [exact X2|]. split; [exact X3|]. split; [exact X4|]. split; [exact PER|]. rewrite !existsb_app, X6, X7.
        split; [reflexivity|]. split; [reflexivity|]. split; [lia|].
        assert (A2 : arrivals d0 k 2 (a1 ++ [FSet t0 k a]) (a2 ++ [FIn now m]) = arrivals d0 k 2 (a1 ++ [FSet t0 k a]) a2).
        { apply IG. destruct (HQ 2 (or_intror eq_refl)) as [|[|[]]]; [auto|auto|discriminate]. }
        assert (A1 : firstn 2048 (arrivals d0 k 1 (a1 ++ [FSet t0 k a]) (a2 ++ [FIn now m])) = firstn 2048 (arrivals d0 k 1 (a1 ++ [FSet t0 k a]) a2)).
        { destruct (phase_is k 1 tr) eqn:P1; [|rewrite IG by auto; reflexivity]. destruct (dropping d0 tr) eqn:DD; [rewrite IG by auto; reflexivity|].
          destruct (HQ 1 (or_introl eq_refl)) as [Q|[Q|[_ Q]]]; [congruence|congruence|]. rewrite (YES 1); [|exact P1|reflexivity]. rewrite firstn_snoc.
          destruct (Nat.ltb_spec (length (arrivals d0 k 1 (a1 ++ [FSet t0 k a]) a2)) 2048) as [L|]; [|reflexivity]. exfalso.
          unfold phase_is in P1. destruct (phase k tr) as [q|] eqn:EP; [|discriminate]. apply Z.eqb_eq in P1. subst q.
          destruct (sl_thread s) as [[|a'|a'|a'|]|]; try contradiction; try (destruct X10 as (_ & Z0); try congruence; intuition congruence).
          - destruct X10 as (_ & Y1 & Y2 & Y3 & Y4 & Y5 & Y6 & Y7). rewrite Y6 in Q. rewrite firstn_length in Q. lia. }
        split. { unfold flow in *. rewrite passed_app, existsb_app, A2, A1. cbn. rewrite app_nil_r, orb_false_r. exact X9. }
        change (tr ++ [FIn now m]) with (tr ++ [FIn now m]). rewrite PH, passed_app, A1.
        assert (A0 : phase_is k 1 tr = false -> arrivals d0 k 1 (a1 ++ [FSet t0 k a]) (a2 ++ [FIn now m]) = arrivals d0 k 1 (a1 ++ [FSet t0 k a]) a2) by (intros; apply IG; auto).
        assert (P0 : phase k tr = Some 0 -> phase_is k 1 tr = false) by (unfold phase_is; intros ->; reflexivity).
        destruct (sl_thread s) as [[|a'|a'|a'|]|]; try contradiction.
        - destruct X10 as (Y1 & Y2 & Y3 & Y4 & Y5 & Y6). rewrite A0 by auto. rewrite Y4, Y5. auto 10.
        - destruct X10 as (-> & Y1 & Y2 & Y3 & Y4 & Y5 & Y6). rewrite A0 by auto. rewrite Y4, Y5. auto 10.
        - destruct X10 as (-> & Y1 & Y2 & Y3 & Y4 & Y5 & Y6 & Y7). rewrite Y4, Y5. repeat split; auto. lia.
        - destruct X10 as (-> & Y1 & Y2 & Y3 & Y4 & Y5 & Y6). rewrite Y6. repeat split; auto; lia. }
      destruct (dropping d0 tr) eqn:DD; [destruct HV as [-> ->]; apply QUIET; auto|]. 
      assert (UN : until <= now) by (specialize (B eq_refl); lia).
      destruct (sl_thread s) as [[|a'|a'|a'|]|] eqn:ET; try contradiction.
      + destruct X10 as (Y1 & Y2 & _). rewrite Y1 in HV. cbn in HV. destruct HV as [-> ->]. apply QUIET; auto. intros p Hp. left. unfold phase_is. rewrite Y2. destruct Hp as [-> | ->]; reflexivity.
      + destruct X10 as (_ & Y1 & Y2 & _). rewrite Y1 in HV. cbn in HV. destruct HV as [-> ->]. apply QUIET; auto. intros p Hp. left. unfold phase_is. rewrite Y2. destruct Hp as [-> | ->]; reflexivity.
      + pose proof X10 as (Ea & Y1 & Y2 & Y3 & Y4 & Y5 & Y6 & Y7). subst a'. rewrite Y1 in HV. cbn [fw_buffering] in HV. change (1 =? fw_buffering) with true in HV. cbv iota in HV.
        destruct (Z.ltb_spec (Z.of_nat (length (v_buf v))) fw_buf_max) as [L|L]; destruct HV as [-> ->].
        * split; [|apply alw_nopass; repeat constructor]. apply BASE. right. exists n, s, a, t0, a1, (a2 ++ [FIn now m]). cbn [v_calls v_allow v_st v_buf].
          split; [exact X1|]. split; [exact X2|]. split; [exact X3|]. split; [exact X4|]. split; [exact PER|]. rewrite !existsb_app, X6, X7.
          split; [reflexivity|]. split; [reflexivity|]. split; [lia|].
          assert (P1 : phase_is k 1 tr = true) by (unfold phase_is; rewrite Y2; reflexivity).
          assert (P2 : phase_is k 2 tr = false) by (unfold phase_is; rewrite Y2; reflexivity).
          split. { unfold flow in *. rewrite passed_app, existsb_app, Y4, Y5, (IG 2) by auto. cbn. rewrite Y4, Y5 in X9. cbn in X9. exact X9. }
          rewrite ET, PH, passed_app, Y4, Y5, YES by auto. cbn [existsb is_phase orb passed flat_map app].
          split; [reflexivity|]. split; [reflexivity|]. split; [exact Y2|]. split; [lia|]. split; [reflexivity|]. split; [reflexivity|].
          change fw_buf_max with 2048 in L.
          assert (LA : (length (arrivals d0 k 1 (a1 ++ [FSet t0 k a]) a2) < 2048)%nat).
          { rewrite Y6, firstn_length in L. lia. }
          split. { rewrite firstn_snoc. apply Nat.ltb_lt in LA. rewrite LA. apply Nat.ltb_lt in LA. rewrite Y6, firstn_all2 by lia. reflexivity. }
          apply Forall_app. split; [apply AR, Y7|]. constructor; [|constructor]. exists now. split; [apply in_or_app; right; left; reflexivity|]. repeat split; lia.
        * apply QUIET; auto. intros p [-> | ->]; [right; right; split; [reflexivity|change fw_buf_max with 2048 in L; lia]|left; unfold phase_is; rewrite Y2; reflexivity].
      + pose proof X10 as (Ea & Y1 & Y2 & Y3 & Y4 & Y5 & Y6). subst a'. rewrite Y1 in HV. change (2 =? fw_buffering) with false in HV. change (2 =? fw_forwarding) with true in HV. cbv iota in HV.
        destruct HV as [-> ->]. 
        assert (P1 : phase_is k 1 tr = false) by (unfold phase_is; rewrite Y2; reflexivity).
        assert (P2 : phase_is k 2 tr = true) by (unfold phase_is; rewrite Y2; reflexivity).
        split.
        * apply BASE. right. exists n, s, a, t0, a1, (a2 ++ [FIn now m; FPass now m]).
          split; [exact X1|]. split; [exact X2|]. split; [exact X3|]. split; [exact X4|]. split; [unfold tr; rewrite <- app_assoc; reflexivity|].
          rewrite !existsb_app, X6, X7. split; [reflexivity|]. split; [reflexivity|]. split; [lia|].
          assert (NO : forall p pre, arrivals d0 k p pre [FPass now m] = []) by reflexivity.
          change [FIn now m; FPass now m] with ([FIn now m] ++ [FPass now m]). rewrite (app_assoc a2).
          split. { unfold flow in *. rewrite !passed_app, !existsb_app, !(arrivals_app _ _ (a2 ++ _)), !NO, !app_nil_r, Y6 in *. rewrite (IG 1) by auto. rewrite (YES 2) by auto.
                   rewrite X9. cbn. unfold k. rewrite key_eqb_refl. rewrite <- app_assoc. reflexivity. }
          rewrite ET. rewrite app_assoc, phase_snoc, PH. rewrite !existsb_app, Y6. repeat split; auto; lia.
        * intros x c y EQ. destruct x as [|x1 x]; [injection EQ as <- _; exact I|]. injection EQ as <- EQ.
          destruct x as [|x2 x]; [|destruct x; discriminate EQ]. injection EQ as <- _. cbn [P61]. fold k.
          exists t0, a, a1, (a2 ++ [FIn now m]), now. split; [exact PER|]. rewrite !existsb_app, X6, X7. split; [reflexivity|]. split; [reflexivity|].
          split; [apply in_or_app; right; left; reflexivity|]. repeat split; lia.
  Qed.
End Inv.
