(** Runs requested once: what happens after their cleanup. *)
From Coq Require Import ZArith List Lia Bool.
From Coq Require Import Init.Byte.
From Verif Require Import Params Bytes Res Secp Dto Dss Prot ProtSpec ProtProofs3 ProtProofs6 DkgProt DkgProofs KMap Firewall FwSpec FwProofs FwProofs2 FwProofs3 FwProofs4
  Outputs Node NodeSpec NodeRun NodeProofs NodeProofs2 NodeProofs3.
Import ListNotations.
Open Scope Z_scope.

(** A run without a live goroutine of the firewall gets nothing. *)
Lemma idle_nopass {D} (f f' : fw D) k ev o t (m : message D) : tidy_buf f -> kget (f_state f) k = None ->
  (forall n s, nth_error (kslice (f_calls f) k) n = Some s -> dead s) -> fstep f ev = Ok (f', o) -> In (FPass t m) o -> key_of m <> k.
Proof.
  intros TB ST DD HS HI. destruct ev as [now m0|now|now k' a|now k' n|now k' n]; cbn [fstep] in HS.
  - injection HS as _ <-. destruct HI as [HI|HI]; [discriminate|]. unfold fw_process in HI; change (@fw_key) with (@key_of) in HI. destruct (_ || _); [contradiction|].
    destruct (kget (f_state f) (key_of m0)) as [st|] eqn:ES; [|contradiction]. destruct (st =? _); [destruct (_ <? _); contradiction|]. destruct (st =? _); [|contradiction].
    destruct HI as [HI|[]]. injection HI as _ <-. congruence.
  - destruct (_ && _); injection HS as _ <-; destruct HI as [HI|[]] || destruct HI; discriminate.
  - unfold fw_set_allowance in HS. destruct (negb _); [discriminate|]. destruct (kget (f_allow f) k'); injection HS as _ <-; [contradiction|]. destruct HI as [HI|[]]. discriminate.
  - unfold fw_state_step in HS. destruct (nth_error (kslice (f_calls f) k') n) as [s|] eqn:EN; [|injection HS as _ <-; contradiction].
    destruct (sl_thread s) as [[|a|a|a|]|] eqn:ET; try (injection HS as _ <-; contradiction); destruct (_ <? _); try (injection HS as _ <-; contradiction);
      destruct (told _ _); try discriminate; injection HS as _ <-; cbn [fw_flush fst snd] in HI.
    + destruct HI as [HI|[HI|[]]]; discriminate.
    + apply in_app_or in HI. destruct HI as [HI|[HI|[HI|[]]]]; try discriminate. apply in_map_iff in HI. destruct HI as (x & E & HI). injection E as _ ->. rewrite (TB _ _ HI).
      intros ->. destruct (DD n s EN) as [X|X]; congruence.
    + destruct HI as [HI|[HI|[]]]; discriminate.
  - injection HS as _ <-. contradiction.
Qed.

Section NP.
  Context {G : Type}.
  Variable ky : kyber G.
  Variable keccak : bytes -> bytes.
  Variable pshash : Z -> Z -> bytes.
  Variable su : setup.
  Variables until now0 : Z.
  Notation message := (message payload).
  Notation nevent := (nevent (G := G)). Notation node := (node (G := G)).
  Implicit Types (evs : list nevent) (n : node) (tr : list nobs).
  Notation INV := (INV ky keccak pshash su until now0).
  Notation nstep := (nstep ky keccak pshash su).
  Notation GI := (GI su).

  (** ** Requests *)
  Definition rsig (r : request) : Z * bytes := (rq_pc r, rq_id r).
  Definition esig (ev : nevent) : list (Z * bytes) :=
    match ev with VRequest _ base start doc => [(pc_for doc, run_id_for base start)] | _ => [] end.
  Lemma map_put {A B} (f : A -> B) l i x y : nth_error l i = Some y -> f x = f y -> map f (put l i x) = map f l.
  Proof. intros E H. destruct (put_split l i y E) as (a & b & E1 & E2). rewrite E2, E1, !map_app. cbn. rewrite H. reflexivity. Qed.
  Lemma guest_reqs n now k start l gen n' l' o : guest_go ky keccak pshash su n now k start l gen = Ok (n', l', o) -> n_reqs n' = n_reqs n.
  Proof.
    assert (F : forall fev (y : gloc) x, (x <- firewall ky keccak pshash su n fev ;; Ok (fst x, y, snd x)) = Ok x -> n_reqs (fst (fst x)) = n_reqs n).
    { intros fev y x. destruct (firewall _ _ _ _ _ _) as [[n1 o1]| |] eqn:EF; cbn [rbind fst snd]; try discriminate. intros E. injection E as <-.
      destruct (firewall_eff _ _ _ _ _ _ _ _ EF) as (_ & _ & (_ & _ & _ & X & _) & _). exact X. }
    unfold guest_go. cbv zeta. destruct l as [|c|c|c|c|c| |]; intros E.
    - apply (F (EvAllow now k (allowance_for ky keccak pshash (k_pc k) start)) (GBuf (length (kslice (f_calls (n_fw n)) k))) _ E).
    - destruct (chan_ready n k c); [apply (F _ _ _ E)|injection E as <- _ _; reflexivity].
    - destruct (now <? start); [injection E as <- _ _; reflexivity|]. destruct (ensure_run su n now k gen) as [[n1 j] o1] eqn:EE. injection E as <- _ _.
      destruct (ensure_eff _ _ _ _ _ _ _ _ EE) as (_ & _ & _ & X & _). exact X.
    - destruct (terminated_run n k); injection E as <- _ _; reflexivity.
    - destruct (chan_ready n k c); [apply (F _ _ _ E)|injection E as <- _ _; reflexivity].
    - destruct (chan_ready n k c); [apply (F _ _ _ E)|injection E as <- _ _; reflexivity].
    - destruct (receive _ _ _ _ _ _) as [[n1 o1]| |] eqn:ER; [|injection E as <- _ _; reflexivity|discriminate]. injection E as <- _ _.
      destruct (receive_eff _ _ _ _ _ _ _ _ ER) as (_ & _ & (_ & _ & _ & X & _) & _). exact X.
    - injection E as <- _ _; reflexivity.
  Qed.
  Lemma step_sigs n ev n' o : nstep n ev = Ok (n', o) -> map rsig (n_reqs n') = map rsig (n_reqs n) ++ esig ev.
  Proof.
    assert (FW : forall fev, firewall ky keccak pshash su n fev = Ok (n', o) -> map rsig (n_reqs n') = map rsig (n_reqs n) ++ []).
    { intros fev EF. destruct (firewall_eff _ _ _ _ _ _ _ _ EF) as (_ & _ & (_ & _ & _ & X & _) & _). rewrite X, app_nil_r. reflexivity. }
    destruct ev as [now base start doc|now i g|now i|now i g gen|now m|now|now k c|now pc g gen|now pc g nonce ord|now j nonce ord]; cbn [Node.nstep esig]; intros HS;
      try (apply (FW _ HS)); rewrite ?app_nil_r.
    - injection HS as <- _. cbn. rewrite map_app. unfold new_request. destruct doc; [destruct (su_guests su)|]; reflexivity.
    - unfold request_go in HS. destruct (nth_error (n_reqs n) i) as [r|] eqn:EN; [|injection HS as <- _; reflexivity].
      destruct (rq_phase r) as [todo| |todo|todo|]; try (injection HS as <- _; reflexivity); (destruct (existsb (Z.eqb g) todo); [|injection HS as <- _; reflexivity]); cbv zeta in HS.
      + injection HS as <- _. assert (X : forall n1 r1, n_reqs n1 = n_reqs n -> rsig r1 = rsig r -> map rsig (n_reqs (put_req n1 i r1)) = map rsig (n_reqs n)).
        { intros n1 r1 E1 E2. cbn. rewrite E1. apply map_put with (y := r); assumption. }
        apply X; [destruct (rq_doc r); reflexivity|destruct (remove g todo); reflexivity].
      + injection HS as <- _. apply map_put with (y := r); [assumption|reflexivity].
      + assert (X : map rsig (n_reqs (put_req (set_outs n (fst (pop_output (n_outs n) (rq_key r g)))) i (with_phase r match remove g todo with [] => RDone | _ => RPop (remove g todo) end))) = map rsig (n_reqs n)).
        { apply map_put with (y := r); [assumption|reflexivity]. }
        destruct (rq_doc r), (snd (pop_output (n_outs n) (rq_key r g))) as [[]|]; try discriminate; try (injection HS as <- _; exact X).
        destruct (_ <? _)%nat; [discriminate|]. injection HS as <- _; exact X.
    - injection HS as <- _. unfold request_wait. destruct (nth_error (n_reqs n) i) as [r|] eqn:EN; [|reflexivity]. destruct (rq_phase r); try reflexivity.
      destruct (forallb _ _); [|reflexivity]. apply map_put with (y := r); [assumption|reflexivity].
    - unfold request_guest in HS. destruct (nth_error (n_reqs n) i) as [r|] eqn:EN; [|injection HS as <- _; reflexivity].
      destruct (loc_of (rq_locs r) g) as [l|] eqn:EL; [|injection HS as <- _; reflexivity].
      destruct (guest_go _ _ _ _ _ _ _ _ _ _) as [[[n1 l1] o1]| |] eqn:EG; cbn [rbind fst snd] in HS; try discriminate. injection HS as <- _.
      cbn. rewrite (guest_reqs _ _ _ _ _ _ _ _ _ EG). apply map_put with (y := r); [assumption|reflexivity].
    - injection HS as HS. unfold consumer_take in HS; change (@fw_key) with (@key_of) in HS. destruct (kget (n_cons n) (qkey pc g)); [injection HS as <- _; reflexivity|].
      destruct (kslice (n_qs n) (qkey pc g)) as [|m q]; [injection HS as <- _; reflexivity|]. cbv zeta in HS. destruct (m_pc m <? 0); [injection HS as <- _; reflexivity|].
      destruct (ensure_run su _ now (key_of m) gen) as [[n2 j] o2] eqn:EE. injection HS as <- _. destruct (ensure_eff _ _ _ _ _ _ _ _ EE) as (_ & _ & _ & X & _). cbn [set_cons fst n_reqs]. rewrite X. reflexivity.
    - unfold consumer_deliver in HS. destruct (kget (n_cons n) (qkey pc g)) as [[j m]|]; [|injection HS as <- _; reflexivity].
      destruct (nth_error (n_heap n) j) as [[k r]|]; [|discriminate]. destruct (deliver _ _ _ _ _) as [x| |]; cbn [rbind] in HS; try discriminate. injection HS as <- _. reflexivity.
    - unfold run_tick in HS. destruct (nth_error (n_heap n) j) as [[k r]|]; [|injection HS as <- _; reflexivity].
      destruct (now <? r_wake r); [injection HS as <- _; reflexivity|]. destruct (tick _ _ _ _ _) as [x| |]; cbn [rbind] in HS; try discriminate. injection HS as <- _. reflexivity.
  Qed.
  Definition is_sig (k : key) (x : Z * bytes) : bool := (fst x =? k_pc k) && bytes_eqb (snd x) (k_run k).
  Lemma matches_count k (rs : list request) : length (filter (matches k) rs) = length (filter (is_sig k) (map rsig rs)).
  Proof. induction rs as [|r rs IH]; [reflexivity|]. cbn. change (is_sig k (rsig r)) with (matches k r). destruct (matches k r); cbn; rewrite IH; reflexivity. Qed.
  Lemma requests_count k evs : requests_for k evs = length (filter (is_sig k) (flat_map esig evs)).
  Proof.
    unfold requests_for. induction evs as [|ev evs IH]; [reflexivity|]. cbn [filter flat_map]. rewrite filter_app, app_length, <- IH.
    destruct ev; try reflexivity. cbn. unfold is_sig. cbn. destruct (_ && _); reflexivity.
  Qed.
  Lemma requests_snoc k evs ev : (requests_for k evs <= requests_for k (evs ++ [ev]))%nat.
  Proof. unfold requests_for. rewrite filter_app, app_length. lia. Qed.
  Lemma locs_one g (l : list (Z * gloc)) : NoDup (map fst l) -> (length (locs_at g l) <= 1)%nat.
  Proof.
    induction l as [|[h x] l IH]; cbn; [lia|]. intros H. inversion H as [|? ? H1 H2]; subst. destruct (Z.eqb_spec h g) as [->|]; [|apply IH, H2].
    cbn [app]. change (flat_map _ l) with (locs_at g l). enough (locs_at g l = []) as -> by (cbn; lia). clear IH H H2. induction l as [|[h x'] l IH]; [reflexivity|]. cbn in *. destruct (Z.eqb_spec h g); [tauto|]. apply IH. tauto.
  Qed.
  Lemma klocs_le k (rs : list request) : (forall r, In r rs -> rq_locs r = [] \/ NoDup (map fst (rq_locs r))) -> (length (klocs k rs) <= length (filter (matches k) rs))%nat.
  Proof.
    induction rs as [|r rs IH]; intros H; [cbn; lia|]. rewrite klocs_cons, app_length. cbn [filter].
    assert (X := IH (fun r H1 => H r (or_intror H1))). destruct (matches k r); [|cbn; lia]. cbn [length].
    destruct (H r (or_introl eq_refl)) as [-> | N]; [cbn; lia|]. pose proof (locs_one (k_guest k) _ N). lia.
  Qed.
  Definition SIGS evs (n : node) : Prop := map rsig (n_reqs n) = flat_map esig evs.
  Lemma one_loc k evs tr n : NoDup (su_guests su) -> GI tr n -> SIGS evs n -> (requests_for k evs <= 1)%nat -> (length (klocs k (n_reqs n)) <= 1)%nat.
  Proof.
    intros ND HG HS HR. etransitivity; [apply klocs_le|].
    - intros r Hr. apply In_nth_error in Hr. destruct Hr as [i Hr]. destruct (proj1 (g_locs _ _ _ HG i r Hr)) as [E|E]; [auto|]. right. rewrite E. exact ND.
    - rewrite matches_count, HS, <- requests_count. exact HR.
  Qed.
  Lemma loc_kloc n i r g l : nth_error (n_reqs n) i = Some r -> loc_of (rq_locs r) g = Some l -> In l (klocs (rq_key r g) (n_reqs n)).
  Proof. intros A B. destruct (proj1 (klocs_set _ _ _ _ _ A B)) as (a & b & -> & _). apply in_elt. Qed.
  Lemma kloc_loc k (rs : list request) l : In l (klocs k rs) -> exists i r, nth_error rs i = Some r /\ In (k_guest k, l) (rq_locs r) /\ rq_key r (k_guest k) = k.
  Proof.
    intros H. unfold klocs in H. apply in_flat_map in H. destruct H as (r & H1 & H2). apply In_nth_error in H1. destruct H1 as [i H1]. exists i, r. split; [exact H1|].
    destruct (matches k r) eqn:EM; [|contradiction]. split; [|apply matches_key; [exact EM|reflexivity]]. unfold locs_at in H2. apply in_flat_map in H2. destruct H2 as ([h x] & H3 & H4).
    cbn in H4. destruct (Z.eqb_spec h (k_guest k)) as [->|]; [|contradiction]. destruct H4 as [->|[]]. exact H3.
  Qed.

  (** The firewall has stopped the run. *)
  Lemma over k evs tr n T l : INV evs tr n T -> GI tr n -> klocs k (n_reqs n) = [l] -> l = GSignal \/ l = GEnd ->
    tidy_buf (n_fw n) /\ kget (f_state (n_fw n)) k = None /\ (forall i s, nth_error (kslice (f_calls (n_fw n)) k) i = Some s -> dead s).
  Proof.
    intros [W R] HG EK HL. assert (IL : In l (klocs k (n_reqs n))) by (rewrite EK; left; reflexivity). destruct (kloc_loc _ _ _ IL) as (i & r & H1 & H2 & H3).
    destruct (r_req _ _ _ _ _ _ _ _ R i r H1) as (_ & _ & RC). destruct (RC _ _ H2) as [_ LO]. rewrite H3 in LO.
    assert (SL : exists c, slot_at (n_fw n) k c 3) by (destruct HL as [-> | ->]; apply LO). destruct SL as (c & s & E & L).
    assert (D3 : sl_thread s = Some FEnd) by (unfold done in L; destruct (sl_thread s) as [[]|]; try lia; reflexivity).
    pose proof (g_calls _ _ _ HG k) as CL. rewrite EK in CL. assert (CN : cnt past [l] = 1%nat) by (destruct HL as [-> | ->]; reflexivity). rewrite CN in CL.
    destruct (w_sound _ _ _ _ _ _ _ _ _ _ W) as (TB & _ & _ & KI). split; [exact TB|].
    destruct (KI k) as (_ & _ & _ & [(_ & I2 & _ & I4 & _)|(c2 & s2 & a & t0 & a1 & a2 & X1 & _ & _ & _ & _ & _ & _ & _ & _ & X10)]); [split; [exact I2|exact I4]|].
    exfalso. cbn [view_of v_calls] in X1. assert (A1 : (c < 1)%nat) by (rewrite <- CL; apply nth_error_Some; congruence). assert (A2 : (c2 < 1)%nat) by (rewrite <- CL; apply nth_error_Some; congruence).
    assert (c2 = c) by lia. subst c2. rewrite E in X1. injection X1 as <-. rewrite D3 in X10. exact X10.
  Qed.

  (** ** Kinds of steps *)
  Definition quiet (n n' : node) (o : list nobs) : Prop :=
    Forall calm o /\ qstep n n' o /\ n_table n' = n_table n /\ (forall q x, kget (n_cons n') q = Some x -> kget (n_cons n) q = Some x) /\
    (forall m, In (NQueued m) o -> exists t fev fl f', fstep (n_fw n) fev = Ok (f', fl) /\ In (FPass t m) fl).
  Definition creation (n n' : node) (T : Z) (o : list nobs) : Prop :=
    exists k j c, o = [NCreate T k] /\ In (GSleep c) (klocs k (n_reqs n)) /\ n_qs n' = n_qs n /\ n_cons n' = n_cons n /\ n_table n' = kset (n_table n) k j.
  Definition clean (n n' : node) (o : list nobs) : Prop :=
    exists k x, o = [NCleanup k; x] /\ (x = NQueued (signal nil_dto k) \/ x = NRefused (signal nil_dto k) /\ k_pc k <> pc_dss) /\ In GSignal (klocs k (n_reqs n)) /\ qstep n n' o /\ n_cons n' = n_cons n /\ n_table n' = n_table n.
  Definition taking (n n' : node) (T : Z) (o : list nobs) : Prop :=
    exists pc g m, kget (n_cons n) (qkey pc g) = None /\ kslice (n_qs n) (qkey pc g) = m :: kslice (n_qs n') (qkey pc g) /\
      (forall q, q <> qkey pc g -> kslice (n_qs n') q = kslice (n_qs n) q) /\
      (m_pc m < 0 /\ (let k := mkKey (- m_pc m) (m_rcpt m) (m_run m) in o = [NTake m; NDelete k] /\ n_table n' = kdel (n_table n) k /\ n_cons n' = n_cons n) \/
       0 <= m_pc m /\ (exists j, n_cons n' = kset (n_cons n) (qkey pc g) (j, m) /\
         (o = [NTake m] /\ n_table n' = n_table n \/ o = [NTake m; NCreate T (key_of m)] /\ n_table n' = kset (n_table n) (key_of m) j))).
  Lemma quiet_refl n n' : n_qs n' = n_qs n -> n_table n' = n_table n -> n_cons n' = n_cons n -> quiet n n' [].
  Proof. intros A B C. split; [constructor|]. split; [intros pc g; cbn; rewrite app_nil_r, A; reflexivity|]. split; [exact B|]. split; [intros q x; rewrite C; auto|contradiction]. Qed.
  Lemma quiet_same n n' n2 o : quiet n n' o -> n_qs n2 = n_qs n' -> n_table n2 = n_table n' -> n_cons n2 = n_cons n' -> quiet n n2 o.
  Proof. intros (A & B & C & E & F) H1 H2 H3. split; [exact A|]. split; [intros pc g; rewrite H1; apply B|]. split; [congruence|]. split; [intros q x; rewrite H3; apply E|exact F]. Qed.
  Lemma fw_quiet n fev n' o : firewall ky keccak pshash su n fev = Ok (n', o) -> quiet n n' o.
  Proof.
    intros EF. destruct (firewall_eff _ _ _ _ _ _ _ _ EF) as (A & B & (C1 & C2 & _) & fl & E & H). split; [exact A|]. split; [exact B|]. split; [exact C1|]. split; [intros q x; rewrite C2; auto|].
    intros m Hm. destruct (H m Hm) as [t Ht]. eauto 8.
  Qed.
  Lemma run_quiet n j k x (c' : kmap (nat * message)) : (forall q y, kget c' q = Some y -> kget (n_cons n) q = Some y) ->
    quiet n (set_cons (fst (run_after n j k x)) c') (snd (run_after n j k x)).
  Proof.
    intros HC. destruct (run_after_eff n j k x) as (Y1 & Y2 & Y3 & Y4 & Y5 & Y6 & Y7). split; [exact Y6|].
    split; [intros pc g; rewrite no_queued_to by exact Y7; cbn [set_cons n_qs]; rewrite Y1, app_nil_r; reflexivity|]. split; [exact Y5|]. split; [exact HC|].
    intros m Hm. rewrite Forall_forall in Y7. destruct (Y7 _ Hm).
  Qed.
  Lemma kinds n ev n' o : nstep n ev = Ok (n', o) -> quiet n n' o \/ creation n n' (ntime ev) o \/ clean n n' o \/ taking n n' (ntime ev) o.
  Proof.
    intros HS. assert (NO : forall n1, n_qs n1 = n_qs n -> n_table n1 = n_table n -> n_cons n1 = n_cons n -> Ok (n1, []) = Ok (n', o) -> quiet n n' o \/ creation n n' (ntime ev) o \/ clean n n' o \/ taking n n' (ntime ev) o).
    { intros n1 A B C E. injection E as <- <-. left. apply quiet_refl; assumption. }
    destruct ev as [now base start doc|now i g|now i|now i g gen|now m|now|now k c|now pc g gen|now pc g nonce ord|now j nonce ord]; cbn [Node.nstep ntime] in *;
      try (left; eapply fw_quiet; exact HS).
    - eapply NO; [| | |exact HS]; reflexivity.
    - unfold request_go in HS. destruct (nth_error (n_reqs n) i) as [r|] eqn:EN; [|eapply NO; [| | |exact HS]; reflexivity].
      destruct (rq_phase r) as [todo| |todo|todo|]; try (eapply NO; [| | |exact HS]; reflexivity); (destruct (existsb (Z.eqb g) todo); [|eapply NO; [| | |exact HS]; reflexivity]); cbv zeta in HS.
      + eapply NO; [| | |exact HS]; destruct (rq_doc r); reflexivity.
      + eapply NO; [| | |exact HS]; reflexivity.
      + left. assert (X : forall r2 k v, quiet n (put_req (set_outs n (fst (pop_output (n_outs n) (rq_key r g)))) i r2) [NPop k v]).
        { intros r2 k v. split; [repeat constructor|]. split; [intros pc0 g0; cbn; rewrite app_nil_r; reflexivity|]. split; [reflexivity|]. split; [auto|]. intros m [H|[]]. discriminate. }
        destruct (rq_doc r), (snd (pop_output (n_outs n) (rq_key r g))) as [[]|]; try discriminate; try (injection HS as <- <-; apply X).
        destruct (_ <? _)%nat; [discriminate|]. injection HS as <- <-. apply X.
    - eapply NO; [| | |exact HS]; unfold request_wait; (destruct (nth_error (n_reqs n) i) as [r|] eqn:EN; [|reflexivity]); (destruct (rq_phase r); try reflexivity; destruct (forallb _ _); reflexivity).
    - unfold request_guest in HS. destruct (nth_error (n_reqs n) i) as [r|] eqn:EN; [|eapply NO; [| | |exact HS]; reflexivity].
      destruct (loc_of (rq_locs r) g) as [l|] eqn:EL; [|eapply NO; [| | |exact HS]; reflexivity]. pose proof (loc_kloc _ _ _ _ _ EN EL) as KL.
      destruct (guest_go _ _ _ _ _ _ _ _ _ _) as [[[n1 l1] o1]| |] eqn:EG; cbn [rbind fst snd] in HS; try discriminate. injection HS as <- <-.
      set (r1 := with_locs r (set_loc (rq_locs r) g l1)). clearbody r1. set (k := rq_key r g) in *. clearbody k.
      assert (NO1 : forall y, Ok (n, y, []) = Ok (n1, l1, o1) -> quiet n (put_req n1 i r1) o1) by (intros y E; injection E as <- _ <-; apply quiet_refl; reflexivity).
      assert (F : forall fev (y : gloc), (x <- firewall ky keccak pshash su n fev ;; Ok (fst x, y, snd x)) = Ok (n1, l1, o1) -> quiet n (put_req n1 i r1) o1).
      { intros fev y. destruct (firewall _ _ _ _ _ _) as [[n2 o2]| |] eqn:EF; cbn [rbind fst snd]; try discriminate. intros E. injection E as <- _ <-.
        eapply quiet_same; [eapply fw_quiet; exact EF|reflexivity|reflexivity|reflexivity]. }
      unfold guest_go in EG. cbv zeta in EG. destruct l as [|c|c|c|c|c| |].
      + left. destruct (firewall _ _ _ _ _ _) as [[n2 o2]| |] eqn:EF; cbn [rbind fst snd] in EG; try discriminate. injection EG as <- <- <-.
        eapply quiet_same; [eapply fw_quiet; exact EF|reflexivity|reflexivity|reflexivity].
      + left. destruct (chan_ready n k c); [apply (F _ _ EG)|apply (NO1 _ EG)].
      + destruct (now <? rq_start r); [left; apply (NO1 _ EG)|]. destruct (ensure_run su n now k gen) as [[n2 j] o2] eqn:EE. cbn [fst snd] in EG. injection EG as <- <- <-.
        destruct (ensure_eff _ _ _ _ _ _ _ _ EE) as (Y1 & Y2 & Y3 & Y4 & Y5 & Y6). destruct Y6 as [(-> & Y6 & _)|(-> & Y6 & _)].
        * left. apply quiet_refl; assumption.
        * right. left. exists k, j, c. auto.
      + left. destruct (terminated_run n k); apply (NO1 _ EG).
      + left. destruct (chan_ready n k c); [apply (F _ _ EG)|apply (NO1 _ EG)].
      + left. destruct (chan_ready n k c); [apply (F _ _ EG)|apply (NO1 _ EG)].
      + destruct (receive _ _ _ _ _ _) as [[n2 o2]| |] eqn:ER; [|left; apply (NO1 _ EG)|discriminate]. cbn [fst snd] in EG. injection EG as <- <- <-. right. right. left.
        destruct (receive_eff _ _ _ _ _ _ _ _ ER) as (X1 & X2 & (Y1 & Y2 & _) & _ & X5).
        assert (E : exists x, o2 = [x] /\ (x = NQueued (signal nil_dto k) \/ x = NRefused (signal nil_dto k) /\ k_pc k <> pc_dss)).
        { destruct X5 as [->|[-> L]]; [eauto|]. eexists. split; [reflexivity|]. right. split; [reflexivity|]. change (m_pc (signal nil_dto k)) with (- k_pc k) in L. unfold pc_dss. lia. }
        destruct E as (x & -> & E). exists k, x. split; [reflexivity|]. split; [exact E|]. split; [exact KL|]. split; [exact X2|]. auto.
      + left. apply (NO1 _ EG).
    - injection HS as HS. unfold consumer_take in HS; change (@fw_key) with (@key_of) in HS. destruct (kget (n_cons n) (qkey pc g)) eqn:EC; [eapply NO; [| | |f_equal; exact HS]; reflexivity|].
      destruct (kslice (n_qs n) (qkey pc g)) as [|m q] eqn:EQ; [eapply NO; [| | |f_equal; exact HS]; reflexivity|]. cbv zeta in HS. right. right. right. exists pc, g, m.
      split; [exact EC|]. destruct (Z.ltb_spec (m_pc m) 0) as [L|L].
      + injection HS as <- <-. cbn [set_table set_qs n_qs n_table n_cons]. rewrite kslice_kset, key_eqb_refl. split; [exact EQ|].
        split; [intros q0 N; rewrite kslice_kset; destruct (key_eqb_spec (qkey pc g) q0); [congruence|reflexivity]|]. left. auto.
      + destruct (ensure_run su _ now (key_of m) gen) as [[n2 j] o2] eqn:EE. cbn [fst snd] in HS. injection HS as <- <-. destruct (ensure_eff _ _ _ _ _ _ _ _ EE) as (Y1 & Y2 & Y3 & Y4 & Y5 & Y6).
        cbn [set_cons set_qs n_qs n_table n_cons] in *. rewrite Y1, kslice_kset, key_eqb_refl. split; [exact EQ|].
        split; [intros q0 N; rewrite kslice_kset; destruct (key_eqb_spec (qkey pc g) q0); [congruence|reflexivity]|]. right. split; [exact L|]. exists j. split; [reflexivity|].
        destruct Y6 as [(-> & Y6 & _)|(-> & Y6 & _)]; auto.
    - unfold consumer_deliver in HS. destruct (kget (n_cons n) (qkey pc g)) as [[j m]|] eqn:EC; [|eapply NO; [| | |exact HS]; reflexivity].
      destruct (nth_error (n_heap n) j) as [[k r]|] eqn:EN; [|discriminate]. destruct (deliver _ _ _ _ _) as [x| |]; cbn [rbind] in HS; try discriminate. cbv zeta in HS. injection HS as <- <-.
      left. apply run_quiet. intros q y. destruct (run_after_eff n j k x) as (_ & Y2 & _). change (n_cons (fst (run_after n j k x))) with (n_cons n). rewrite kget_kdel. destruct (key_eqb _ _); [discriminate|auto].
    - unfold run_tick in HS. destruct (nth_error (n_heap n) j) as [[k r]|]; [|eapply NO; [| | |exact HS]; reflexivity].
      destruct (now <? r_wake r); [eapply NO; [| | |exact HS]; reflexivity|]. destruct (tick _ _ _ _ _) as [x| |]; cbn [rbind] in HS; try discriminate. injection HS as <- <-.
      left. eapply quiet_same; [apply (run_quiet n j k x (n_cons n)); auto|reflexivity|reflexivity|reflexivity].
  Qed.

  (** ** A signing run requested at most once *)
  Definition unk (k : key) (l : list message) : Prop := forall m, In m l -> key_of m <> k.
  Definition U (k : key) evs tr n : Prop := SIGS evs n /\ ((requests_for k evs <= 1)%nat ->
    (cleanups k tr <= 1)%nat /\
    ((1 <= cleanups k tr)%nat -> deletes k tr = 0%nat ->
      exists a s b, kslice (n_qs n) (qkey pc_dss (k_guest k)) = a ++ s :: b /\ sig_for k s = true /\ unk k b) /\
    ((1 <= deletes k tr)%nat -> unk k (kslice (n_qs n) (qkey pc_dss (k_guest k))) /\ (forall j m, kget (n_cons n) (qkey pc_dss (k_guest k)) = Some (j, m) -> key_of m <> k) /\ kget (n_table n) k = None) /\
    (forall a b, tr = a ++ NDelete k :: b -> forall t, ~ In (NCreate t k) b)).
  Lemma no_create k a b tr o : (forall a b, tr = a ++ NDelete k :: b -> forall t, ~ In (NCreate t k) b) -> tr ++ o = a ++ NDelete k :: b ->
    (forall t, In (NCreate t k) o -> deletes k tr = 0%nat) -> (forall x y, o = x ++ NDelete k :: y -> forall t, ~ In (NCreate t k) y) -> forall t, ~ In (NCreate t k) b.
  Proof.
    intros H0 E H1 H2 t HI. destruct (app_eq_app _ _ _ _ E) as (l & [[E1 E2]|[E1 E2]]).
    - destruct l as [|x l]; cbn in E2.
      + apply (H2 [] b (eq_sym E2) t HI).
      + injection E2 as <- ->. apply in_app_or in HI. destruct HI as [HI|HI]; [apply (H0 a l E1 t HI)|].
        specialize (H1 t HI). rewrite E1, deletes_app in H1. unfold deletes in H1. cbn in H1. rewrite key_eqb_refl in H1. cbn in H1. lia.
    - apply (H2 l b E2 t HI).
  Qed.
  Lemma u_step k evs tr n T ev n' o : NoDup (su_guests su) -> k_pc k = pc_dss -> INV evs tr n T -> GI tr n -> T <= ntime ev -> U k evs tr n -> nstep n ev = Ok (n', o) -> U k (evs ++ [ev]) (tr ++ o) n'.
  Proof.
    intros ND KP HI HG HT [SG HU] HS. split; [unfold SIGS; rewrite (step_sigs _ _ _ _ HS), SG, flat_map_app; cbn; rewrite app_nil_r; reflexivity|].
    intros HR. assert (HR0 : (requests_for k evs <= 1)%nat) by (pose proof (requests_snoc k evs ev); lia). destruct (HU HR0) as (U0 & U1 & U2 & U3).
    pose proof (one_loc k evs tr n ND HG SG HR0) as KL. pose proof (g_ends _ _ _ HG k) as GE. pose proof (g_cln _ _ _ HG k KP) as GC. pose proof (g_del _ _ _ HG k KP) as GD.
    pose proof (g_fifo _ _ _ HG pc_dss (k_guest k)) as GF. rewrite GF, sigs_app, <- GD in GC.
    (** what passes the firewall after the cleanup *)
    assert (OV : (1 <= cleanups k tr)%nat -> klocs k (n_reqs n) = [GEnd]).
    { intros C1. rewrite GE in C1. destruct (klocs k (n_reqs n)) as [|l [|l2 ls]]; cbn in KL, C1; try lia. destruct l; cbn in C1; try lia. reflexivity. }
    assert (PA : (1 <= cleanups k tr)%nat -> forall t fev fl f' m, fstep (n_fw n) fev = Ok (f', fl) -> In (FPass t m) fl -> key_of m <> k).
    { intros C1 t fev fl f' m E1 E2. destruct (over k evs tr n T GEnd HI HG (OV C1) (or_intror eq_refl)) as (O1 & O2 & O3). eapply idle_nopass; eassumption. }
    assert (QU : forall o', (forall m, In (NQueued m) o' -> exists t fev fl f', fstep (n_fw n) fev = Ok (f', fl) /\ In (FPass t m) fl) -> (1 <= cleanups k tr)%nat -> unk k (queued_to pc_dss (k_guest k) o')).
    { intros o' H C1 m Hm. unfold queued_to in Hm. apply in_flat_map in Hm. destruct Hm as (x & X1 & X2). destruct x; try contradiction. destruct (for_queue _ _ _); [|contradiction]. destruct X2 as [->|[]].
      destruct (H m X1) as (t & fev & fl & f' & E1 & E2). eapply PA; eassumption. }
    destruct (kinds _ _ _ _ HS) as [(CA & QS & TE & CE & PF)|[(k1 & j & c & -> & KI & QE & CE & TE)|[(k1 & x & -> & SX & KI & QS & CE & TE)|(pc & g & m & EC & EQ & EO & TK)]]].
    - destruct (calm_facts o CA) as (_ & _ & F3 & F4). rewrite !cleanups_app, !deletes_app, F3, F4, !Nat.add_0_r, (QS pc_dss (k_guest k)), TE. split; [exact U0|]. split; [|split].
      + intros C1 D0. destruct (U1 C1 D0) as (a & s & b & E1 & E2 & E3). exists a, s, (b ++ queued_to pc_dss (k_guest k) o). rewrite E1, <- app_assoc. split; [reflexivity|]. split; [exact E2|].
        intros m Hm. apply in_app_or in Hm. destruct Hm as [Hm|Hm]; [apply E3, Hm|]. apply (QU o PF C1 m Hm).
      + intros D1. destruct (U2 D1) as (E1 & E2 & E3). split; [|split; [intros j m Hm; apply (E2 j), CE, Hm|exact E3]].
        intros m Hm. apply in_app_or in Hm. destruct Hm as [Hm|Hm]; [apply E1, Hm|]. apply (QU o PF); [lia|exact Hm].
      + intros a b E. rewrite Forall_forall in CA. eapply no_create; [exact U3|exact E| |]; [intros t Ht; destruct (CA _ Ht)|].
        intros x y -> t Ht. apply (CA (NCreate t k)). apply in_or_app. right. right. exact Ht.
    - (* a run is made by its goroutine *)
      assert (C0 : k1 = k -> cleanups k tr = 0%nat).
      { intros ->. destruct (cleanups k tr) eqn:E; [reflexivity|]. rewrite OV in KI by lia. destruct KI as [KI|[]]. discriminate. }
      rewrite !cleanups_app, !deletes_app. cbn [cleanups deletes filter length]. rewrite !Nat.add_0_r, QE, CE, TE. split; [exact U0|]. split; [exact U1|]. split.
      + intros D1. destruct (U2 D1) as (E1 & E2 & E3). split; [exact E1|]. split; [exact E2|]. rewrite kget_kset. destruct (key_eqb_spec k1 k) as [E|]; [|exact E3]. specialize (C0 E). lia.
      + intros a b E. eapply no_create; [exact U3|exact E| |].
        * intros t [Ht|[]]. injection Ht as _ Ht. specialize (C0 Ht). lia.
        * intros [|y l] y0 E0; cbn in E0; [discriminate|]. injection E0 as _ E0. destruct l; discriminate.
    - (* a cleanup *)
      assert (X0 : deletes k [NCleanup k1; x] = 0%nat) by (destruct SX as [->|[-> _]]; reflexivity).
      assert (X1 : cleanups k [NCleanup k1; x] = if key_eqb k1 k then 1%nat else 0%nat) by (destruct SX as [->|[-> _]]; unfold cleanups; cbn; destruct (key_eqb k1 k); reflexivity).
      assert (C0 : k1 = k -> cleanups k tr = 0%nat).
      { intros ->. destruct (cleanups k tr) eqn:E; [reflexivity|]. rewrite OV in KI by lia. destruct KI as [KI|[]]. discriminate. }
      rewrite !cleanups_app, !deletes_app, X0, X1, !Nat.add_0_r, CE, TE, (QS pc_dss (k_guest k)).
      assert (UQ : unk k (queued_to pc_dss (k_guest k) [NCleanup k1; x])).
      { intros m Hm. unfold queued_to in Hm. cbn in Hm. rewrite app_nil_r in Hm. destruct SX as [->|[-> _]]; [|contradiction]. destruct (for_queue _ _ _) eqn:FQ; [|contradiction]. destruct Hm as [<-|[]].
        intros E. apply (f_equal k_pc) in E. change (k_pc (key_of (signal nil_dto k1))) with (- k_pc k1) in E. assert (KK : k_pc k1 = - pc_dss) by lia.
        destruct (kloc_loc _ _ _ KI) as (i & r & _ & _ & H3). unfold rq_key in H3. apply (f_equal k_pc) in H3. cbn [k_pc] in H3. unfold rq_pc in H3. rewrite <- H3 in KK. destruct (rq_doc r); discriminate KK. }
      destruct (key_eqb_spec k1 k) as [->|NE].
      + specialize (C0 eq_refl). rewrite C0 in *. split; [lia|]. split; [|split].
        * intros _ D0. destruct SX as [->|[_ N]]; [|contradiction]. exists (kslice (n_qs n) (qkey pc_dss (k_guest k))), (signal nil_dto k), [].
          split; [|split; [rewrite sig_signal by auto; rewrite KP, key_eqb_refl; reflexivity|intros m []]]. f_equal. unfold queued_to. cbn [flat_map app]. rewrite app_nil_r.
          assert (FQ : for_queue pc_dss (k_guest k) (signal nil_dto k) = true) by (unfold for_queue, signal; cbn [m_pc m_rcpt]; rewrite KP, (Z.eqb_refl (k_guest k)); reflexivity). rewrite FQ. reflexivity.
        * intros D1. exfalso. lia.
        * intros a b E. eapply no_create; [exact U3|exact E| |]; [intros t Ht; lia|]. intros y z E0. destruct SX as [->|[-> _]]; destruct y as [|y1 [|y2 [|]]]; discriminate.
      + rewrite Nat.add_0_r. split; [exact U0|]. split; [|split].
        * intros C1 D0. destruct (U1 C1 D0) as (a & s & b & E1 & E2 & E3). exists a, s, (b ++ queued_to pc_dss (k_guest k) [NCleanup k1; x]). rewrite E1, <- app_assoc. split; [reflexivity|]. split; [exact E2|].
          intros m Hm. apply in_app_or in Hm. destruct Hm as [Hm|Hm]; [apply E3, Hm|apply UQ, Hm].
        * intros D1. destruct (U2 D1) as (E1 & E2 & E3). split; [|split; [exact E2|exact E3]]. intros m Hm. apply in_app_or in Hm. destruct Hm as [Hm|Hm]; [apply E1, Hm|apply UQ, Hm].
        * intros a b E. eapply no_create; [exact U3|exact E| |].
          -- intros t Ht. destruct SX as [->|[-> _]]; destruct Ht as [Ht|[Ht|[]]]; discriminate.
          -- intros y z E0. destruct SX as [->|[-> _]]; destruct y as [|y1 [|y2 [|]]]; discriminate.
    - (* a consumer takes a message *)
      assert (MO : qkey pc g = qkey (Z.abs (m_pc m)) (m_rcpt m)) by (apply (r_q _ _ _ _ _ _ _ _ (proj2 HI)); rewrite EQ; left; reflexivity).
      destruct TK as [(L & -> & TE & CE)|(L & j & CE & TK)].
      + set (k1 := mkKey (- m_pc m) (m_rcpt m) (m_run m)) in *. rewrite !cleanups_app, !deletes_app, TE, CE. change (cleanups k [NTake m; NDelete k1]) with 0%nat. rewrite Nat.add_0_r.
        replace (deletes k [NTake m; NDelete k1]) with (if key_eqb k1 k then 1%nat else 0%nat) by (unfold deletes; cbn; destruct (key_eqb k1 k); reflexivity).
        assert (SM : sig_for k m = key_eqb k1 k) by (unfold sig_for, k1; destruct (Z.ltb_spec (m_pc m) 0); [reflexivity|lia]).
        split; [exact U0|]. destruct (key_eqb_spec k1 k) as [E|NE].
        * assert (QQ : qkey pc g = qkey pc_dss (k_guest k)).
          { rewrite MO, <- E. unfold k1. cbn [k_guest]. f_equal. apply (f_equal k_pc) in E. unfold k1 in E. cbn in E. lia. }
          rewrite QQ in EQ. rewrite EQ in GC. unfold sigs in GC. cbn [filter] in GC. rewrite SM in GC. cbn [length] in GC.
          destruct (deletes k tr) eqn:ED; [|exfalso; lia]. destruct U1 as (a & s & b & E1 & E2 & E3); [lia|reflexivity|].
          rewrite EQ in E1. destruct a as [|y a]; cbn in E1.
          2:{ exfalso. injection E1 as _ E1. rewrite E1, filter_app, app_length in GC. cbn in GC. rewrite E2 in GC. cbn in GC. lia. }
          injection E1 as _ ->. split; [intros _ D0; lia|]. split.
          -- intros _. split; [exact E3|]. split; [intros j m0; rewrite <- QQ, EC; discriminate|]. rewrite kget_kdel, E, key_eqb_refl. reflexivity.
          -- intros a b0 E0. eapply no_create; [exact U3|exact E0| |]; [intros t [Ht|[Ht|[]]]; discriminate|].
             intros y z E4 t Ht. destruct y as [|y1 [|y2 [|]]]; try discriminate. injection E4 as _ _ <-. destruct Ht.
        * rewrite Nat.add_0_r. assert (QE : forall x, In x (kslice (n_qs n') (qkey pc_dss (k_guest k))) -> In x (kslice (n_qs n) (qkey pc_dss (k_guest k)))).
          { intros x. destruct (key_eqb_spec (qkey pc_dss (k_guest k)) (qkey pc g)) as [E|N]; [rewrite E, EQ; right; assumption|rewrite EO by exact N; auto]. }
          split; [|split].
          -- intros C1 D0. destruct (U1 C1 D0) as (a & s & b & E1 & E2 & E3).
             destruct (key_eqb_spec (qkey pc_dss (k_guest k)) (qkey pc g)) as [E|N]; [|rewrite EO by exact N; eauto 6].
             rewrite E, EQ in E1. destruct a as [|y a]; injection E1 as <- E1; [congruence|]. rewrite E. eauto 6.
          -- intros D1. destruct (U2 D1) as (E1 & E2 & E3). split; [intros x Hx; apply E1, QE, Hx|]. split; [exact E2|]. rewrite kget_kdel. destruct (key_eqb _ _); [reflexivity|exact E3].
          -- intros a b0 E0. eapply no_create; [exact U3|exact E0| |]; [intros t [Ht|[Ht|[]]]; discriminate|].
             intros y z E4 t Ht. destruct y as [|y1 [|y2 [|]]]; try discriminate. injection E4 as _ _ <-. destruct Ht.
      + assert (X0 : deletes k o = 0%nat) by (destruct TK as [[-> _]|[-> _]]; reflexivity). assert (X1 : cleanups k o = 0%nat) by (destruct TK as [[-> _]|[-> _]]; reflexivity).
        assert (SM : sig_for k m = false) by (unfold sig_for; destruct (Z.ltb_spec (m_pc m) 0); [lia|reflexivity]).
        rewrite !cleanups_app, !deletes_app, X0, X1, !Nat.add_0_r, CE. split; [exact U0|].
        assert (QE : forall x, In x (kslice (n_qs n') (qkey pc_dss (k_guest k))) -> In x (kslice (n_qs n) (qkey pc_dss (k_guest k)))).
        { intros x. destruct (key_eqb_spec (qkey pc_dss (k_guest k)) (qkey pc g)) as [E|N]; [rewrite E, EQ; right; assumption|rewrite EO by exact N; auto]. }
        assert (KM : key_of m = k -> qkey pc g = qkey pc_dss (k_guest k)).
        { intros E. rewrite MO, <- E. unfold key_of. cbn [k_guest]. f_equal. apply (f_equal k_pc) in E. unfold key_of in E. cbn in E. lia. }
        assert (NK : (1 <= deletes k tr)%nat -> key_of m <> k).
        { intros D1 E. destruct (U2 D1) as (E1 & _). apply (E1 m); [|exact E]. rewrite <- (KM E), EQ. left. reflexivity. }
        split; [|split].
        * intros C1 D0. destruct (U1 C1 D0) as (a & s & b & E1 & E2 & E3).
          destruct (key_eqb_spec (qkey pc_dss (k_guest k)) (qkey pc g)) as [E|N]; [|rewrite EO by exact N; eauto 6].
          rewrite E, EQ in E1. destruct a as [|y a]; injection E1 as <- E1; [congruence|]. rewrite E. eauto 6.
        * intros D1. destruct (U2 D1) as (E1 & E2 & E3). split; [intros x Hx; apply E1, QE, Hx|]. split.
          -- intros j0 m0. rewrite kget_kset. destruct (key_eqb_spec (qkey pc g) (qkey pc_dss (k_guest k))); [|apply E2]. intros X. injection X as <- <-. apply NK, D1.
          -- destruct TK as [[_ ->]|[_ ->]]; [exact E3|]. rewrite kget_kset. destruct (key_eqb_spec (key_of m) k) as [E|]; [destruct (NK D1 E)|exact E3].
        * intros a b0 E0. eapply no_create; [exact U3|exact E0| |].
          -- intros t Ht. destruct (deletes k tr) eqn:ED; [reflexivity|]. exfalso. destruct TK as [[-> _]|[-> _]]; [destruct Ht as [Ht|[]]; discriminate|].
             destruct Ht as [Ht|[Ht|[]]]; [discriminate|]. injection Ht as _ Ht. apply NK; [lia|exact Ht].
          -- intros y z E4. destruct TK as [[-> _]|[-> _]]; destruct y as [|y1 [|y2 [|]]]; discriminate.
  Qed.
  Lemma history_u k evs n tr : NoDup (su_guests su) -> k_pc k = pc_dss -> nhistory ky keccak pshash su until now0 evs n tr -> GI tr n /\ U k evs tr n.
  Proof.
    intros ND KP HH. destruct (history_ind ky keccak pshash su until now0 (U k)) with (3 := HH) as (_ & A & B); [| |auto].
    - intros. eapply u_step; eassumption.
    - split; [reflexivity|]. intros _. split; [cbn; lia|]. split; [cbn; lia|]. split; [cbn; lia|]. intros [|]; discriminate.
  Qed.
End NP.
