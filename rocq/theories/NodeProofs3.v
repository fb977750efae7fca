(** Queues, run table and requests of a running node. *)
From Coq Require Import ZArith List Lia Bool.
From Coq Require Import Init.Byte.
From Verif Require Import Params Bytes Res Secp Dto Dss Prot ProtSpec ProtProofs3 ProtProofs6 DkgProt DkgProofs KMap Firewall FwSpec FwProofs FwProofs2 FwProofs3 FwProofs4
  Outputs Node NodeSpec NodeRun NodeProofs NodeProofs2.
Import ListNotations.
Open Scope Z_scope.

Section Pure.
  (** ** Traces *)
  Lemma live_app k a b : in_table k (a ++ b) = fold_left (fun b o => match o with
      | NCreate _ k' => if key_eqb k' k then true else b
      | NDelete k' => if key_eqb k' k then false else b
      | _ => b end) b (in_table k a).
  Proof. apply fold_left_app. Qed.
  Lemma queued_app pc g a b : queued_to pc g (a ++ b) = queued_to pc g a ++ queued_to pc g b. Proof. apply flat_map_app. Qed.
  Lemma taken_app pc g a b : taken_from pc g (a ++ b) = taken_from pc g a ++ taken_from pc g b. Proof. apply flat_map_app. Qed.
  Lemma deletes_app k a b : deletes k (a ++ b) = (deletes k a + deletes k b)%nat. Proof. unfold deletes. rewrite filter_app, app_length. reflexivity. Qed.
  Lemma cleanups_app k a b : cleanups k (a ++ b) = (cleanups k a + cleanups k b)%nat. Proof. unfold cleanups. rewrite filter_app, app_length. reflexivity. Qed.

  Lemma for_queue_key pc g m : for_queue pc g m = true <-> qkey (Z.abs (m_pc m)) (m_rcpt m) = qkey pc g.
  Proof.
    unfold for_queue, qkey. rewrite andb_true_iff, !Z.eqb_eq. split; [intros [-> ->]; reflexivity|intros E; injection E; auto].
  Qed.
  (** A signal to remove [k]. *)
  Definition sig_for (k : key) (m : message payload) : bool := (m_pc m <? 0) && key_eqb (mkKey (- m_pc m) (m_rcpt m) (m_run m)) k.
  Definition sigs (k : key) (l : list (message payload)) : nat := length (filter (sig_for k) l).
  Lemma sigs_app k a b : sigs k (a ++ b) = (sigs k a + sigs k b)%nat. Proof. unfold sigs. rewrite filter_app, app_length. reflexivity. Qed.

  (** Observations that only concern the firewall and the queues. *)
  Definition calm (o : nobs) : Prop := match o with NFw _ | NQueued _ | NRefused _ | NRun _ _ | NPop _ _ => True | _ => False end.
  Lemma calm_facts o : Forall calm o -> (forall k b, fold_left (fun b o => match o with
      | NCreate _ k' => if key_eqb k' k then true else b | NDelete k' => if key_eqb k' k then false else b | _ => b end) o b = b) /\
    (forall pc g, taken_from pc g o = []) /\ (forall k, deletes k o = 0%nat) /\ (forall k, cleanups k o = 0%nat).
  Proof.
    induction 1 as [|x o H _ (I1 & I2 & I3 & I4)]; [repeat split|]. unfold deletes, cleanups, taken_from in *.
    destruct x; cbn in H; try contradiction; cbn; auto.
  Qed.
  Definition no_queued (o : nobs) : Prop := match o with NQueued _ => False | _ => True end.
  Lemma no_queued_to o : Forall no_queued o -> forall pc g, queued_to pc g o = [].
  Proof. induction 1 as [|x o H _ IH]; [reflexivity|]. intros pc g. destruct x; cbn in H; try contradiction; cbn; apply IH. Qed.
End Pure.

Section NP.
  Context {G : Type}.
  Variable ky : kyber G.
  Variable keccak : bytes -> bytes.
  Variable pshash : Z -> Z -> bytes.
  Variable su : setup.
  Variables until now0 : Z.
  Notation message := (message payload).
  Notation nevent := (nevent (G := G)). Notation node := (node (G := G)).
  Implicit Types (evs : list nevent) (n : node) (tr : list nobs).
  Notation INV := (INV ky keccak pshash su until now0).
  Notation nstep := (nstep ky keccak pshash su).

  (** ** Requests and what their goroutines did *)
  Definition matches (k : key) (r : request) : bool := (rq_pc r =? k_pc k) && bytes_eqb (rq_id r) (k_run k).
  Definition locs_at (g : Z) (l : list (Z * gloc)) : list gloc := flat_map (fun x => if fst x =? g then [snd x] else []) l.
  Definition klocs (k : key) (rs : list request) : list gloc :=
    flat_map (fun r => if matches k r then locs_at (k_guest k) (rq_locs r) else []) rs.
  Definition past (l : gloc) : bool := match l with GAllow => false | _ => true end.
  Definition ended (l : gloc) : bool := match l with GEnd => true | _ => false end.
  Definition cnt (f : gloc -> bool) (l : list gloc) : nat := length (filter f l).
  Lemma cnt_app f a b : cnt f (a ++ b) = (cnt f a + cnt f b)%nat. Proof. unfold cnt. rewrite filter_app, app_length. reflexivity. Qed.
  Lemma cnt_mid f a x b : cnt f (a ++ x :: b) = (cnt f a + (if f x then 1 else 0) + cnt f b)%nat.
  Proof. rewrite cnt_app. unfold cnt. cbn. destruct (f x); cbn; lia. Qed.

  Lemma matches_key k r g : matches k r = true -> g = k_guest k -> rq_key r g = k.
  Proof. unfold matches, rq_key. rewrite andb_true_iff, Z.eqb_eq. intros [A B] ->. destruct (bytes_eqb_spec (rq_id r) (k_run k)); [|discriminate]. destruct k; cbn in *; congruence. Qed.
  Lemma matches_self r g : matches (rq_key r g) r = true.
  Proof. unfold matches, rq_key. cbn. rewrite Z.eqb_refl. destruct (bytes_eqb_spec (rq_id r) (rq_id r)); [reflexivity|contradiction]. Qed.

  Lemma put_split {A} (l : list A) i y : nth_error l i = Some y -> exists a b, l = a ++ y :: b /\ forall x, put l i x = a ++ x :: b.
  Proof.
    revert i. induction l as [|z l IH]; intros [|i]; cbn; try discriminate.
    - intros E. injection E as ->. exists [], l. auto.
    - intros E. destruct (IH i E) as (a & b & -> & H). exists (z :: a), b. split; [reflexivity|]. intros x. rewrite H. reflexivity.
  Qed.
  Lemma locs_set l g x : loc_of l g = Some x -> exists a b, locs_at g l = a ++ x :: b /\ forall y, locs_at g (set_loc l g y) = a ++ y :: b.
  Proof.
    induction l as [|[h z] l IH]; cbn; [discriminate|]. destruct (Z.eqb_spec h g) as [->|N].
    - intros E. injection E as ->. exists [], (locs_at g l). split; [reflexivity|]. intros y. cbn. rewrite Z.eqb_refl. reflexivity.
    - intros E. destruct (IH E) as (a & b & A & B). exists a, b. split; [exact A|]. intros y. cbn. destruct (Z.eqb_spec h g); [contradiction|]. apply B.
  Qed.
  Lemma locs_other l g y g' : g' <> g -> locs_at g' (set_loc l g y) = locs_at g' l.
  Proof.
    intros N. induction l as [|[h z] l IH]; cbn; [reflexivity|]. destruct (Z.eqb_spec h g) as [->|].
    - cbn. destruct (Z.eqb_spec g g'); [congruence|]. reflexivity.
    - cbn. unfold locs_at in IH. rewrite IH. reflexivity.
  Qed.
  Lemma klocs_app k a b : klocs k (a ++ b) = klocs k a ++ klocs k b. Proof. apply flat_map_app. Qed.
  Lemma klocs_cons k r l : klocs k (r :: l) = (if matches k r then locs_at (k_guest k) (rq_locs r) else []) ++ klocs k l. Proof. reflexivity. Qed.
  Lemma klocs_set rs i r g x : nth_error rs i = Some r -> loc_of (rq_locs r) g = Some x ->
    (exists a b, klocs (rq_key r g) rs = a ++ x :: b /\ forall y, klocs (rq_key r g) (put rs i (with_locs r (set_loc (rq_locs r) g y))) = a ++ y :: b) /\
    (forall k y, k <> rq_key r g -> klocs k (put rs i (with_locs r (set_loc (rq_locs r) g y))) = klocs k rs).
  Proof.
    intros EN EL. destruct (put_split rs i r EN) as (l1 & l2 & E1 & E2). split.
    - destruct (locs_set _ _ _ EL) as (a & b & A & B).
      exists (klocs (rq_key r g) l1 ++ a), (b ++ klocs (rq_key r g) l2). split.
      + rewrite E1, klocs_app, klocs_cons, matches_self. cbn [rq_key k_guest]. rewrite A, <- !app_assoc. reflexivity.
      + intros y. rewrite E2, klocs_app, klocs_cons. change (matches (rq_key r g) (with_locs r (set_loc (rq_locs r) g y))) with (matches (rq_key r g) r).
        rewrite matches_self. cbn [rq_key k_guest with_locs rq_locs]. rewrite B, <- !app_assoc. reflexivity.
    - intros k y N. rewrite E2, E1, !klocs_app, !klocs_cons. change (matches k (with_locs r (set_loc (rq_locs r) g y))) with (matches k r).
      destruct (matches k r) eqn:EM; [|reflexivity]. cbn [with_locs rq_locs]. rewrite locs_other; [reflexivity|]. intros E. apply N. symmetry. apply matches_key; [exact EM|congruence].
  Qed.
  (** Replacing a request by one with the same locations. *)
  Lemma klocs_same k rs i r r' : nth_error rs i = Some r -> matches k r' = matches k r -> rq_locs r' = rq_locs r -> klocs k (put rs i r') = klocs k rs.
  Proof.
    intros EN EM EL. destruct (put_split rs i r EN) as (l1 & l2 & E1 & E2). rewrite E2, E1, !klocs_app, !klocs_cons, EM, EL. reflexivity.
  Qed.
  Lemma locs_spawn g l : cnt past (locs_at g (map (fun g => (g, GAllow)) l)) = 0%nat /\ cnt ended (locs_at g (map (fun g => (g, GAllow)) l)) = 0%nat.
  Proof. induction l as [|h l [A B]]; cbn; [auto|]. destruct (h =? g); cbn; auto. Qed.
  Lemma klocs_spawn k rs i r : nth_error rs i = Some r -> rq_locs r = [] ->
    cnt past (klocs k (put rs i (spawn su r))) = cnt past (klocs k rs) /\ cnt ended (klocs k (put rs i (spawn su r))) = cnt ended (klocs k rs).
  Proof.
    intros EN EL. destruct (put_split rs i r EN) as (l1 & l2 & E1 & E2). rewrite E2, E1, !klocs_app, !klocs_cons, EL, !cnt_app.
    change (matches k (spawn su r)) with (matches k r). destruct (matches k r); [|auto]. cbn [spawn rq_locs]. destruct (locs_spawn (k_guest k) (su_guests su)) as [-> ->]. auto.
  Qed.

  (** ** What steps do to the queues *)
  Definition qstep (n n' : node) (o : list nobs) : Prop := forall pc g, kslice (n_qs n') (qkey pc g) = kslice (n_qs n) (qkey pc g) ++ queued_to pc g o.
  Definition untouched (n n' : node) : Prop := n_table n' = n_table n /\ n_cons n' = n_cons n /\ n_heap n' = n_heap n /\ n_reqs n' = n_reqs n /\ n_docs n' = n_docs n.

  Lemma receive_eff n m n' o : receive ky keccak pshash su n m = Ok (n', o) ->
    Forall calm o /\ qstep n n' o /\ untouched n n' /\ n_fw n' = n_fw n /\ (o = [NQueued m] \/ o = [NRefused m] /\ 0 <= m_pc m).
  Proof.
    unfold receive. destruct (_ <=? _); [discriminate|].
    assert (NO : 0 <= m_pc m -> Ok (n, [NRefused m]) = Ok (n', o) -> Forall calm o /\ qstep n n' o /\ untouched n n' /\ n_fw n' = n_fw n /\ (o = [NQueued m] \/ o = [NRefused m] /\ 0 <= m_pc m)).
    { intros L E. injection E as <- <-. split; [repeat constructor|]. split; [intros pc g; cbn; rewrite app_nil_r; reflexivity|]. split; [repeat split|]. auto. }
    assert (YES : Ok (set_qs n (kset (n_qs n) (qkey (Z.abs (m_pc m)) (m_rcpt m)) (kslice (n_qs n) (qkey (Z.abs (m_pc m)) (m_rcpt m)) ++ [m])), [NQueued m]) = Ok (n', o) ->
      Forall calm o /\ qstep n n' o /\ untouched n n' /\ n_fw n' = n_fw n /\ (o = [NQueued m] \/ o = [NRefused m] /\ 0 <= m_pc m)).
    { intros E. injection E as <- <-. split; [repeat constructor|]. split; [|split; [repeat split|auto]]. intros pc g. cbn [set_qs n_qs queued_to flat_map]. rewrite kslice_kset, app_nil_r.
      destruct (for_queue pc g m) eqn:EQ.
      - apply for_queue_key in EQ. rewrite EQ, key_eqb_refl. reflexivity.
      - destruct (key_eqb_spec (qkey (Z.abs (m_pc m)) (m_rcpt m)) (qkey pc g)) as [E|]; [apply for_queue_key in E; congruence|]. rewrite app_nil_r. reflexivity. }
    destruct (Z.ltb_spec (m_pc m) 0) as [L|L].
    - destruct (_ && _); [exact YES|discriminate].
    - destruct (negb _); [exact (NO L)|]. destruct (_ && _); [exact YES|exact (NO L)].
  Qed.
  Lemma receive_all_eff l : forall n n' o, receive_all ky keccak pshash su n l = Ok (n', o) ->
    Forall calm o /\ qstep n n' o /\ untouched n n' /\ n_fw n' = n_fw n /\ (forall m, In (NQueued m) o -> exists t, In (FPass t m) l).
  Proof.
    induction l as [|x l IH]; intros n n' o; cbn [receive_all].
    - intros E. injection E as <- <-. split; [constructor|]. split; [intros pc g; cbn; rewrite app_nil_r; reflexivity|]. split; [repeat split|]. split; [reflexivity|contradiction].
    - destruct (match x with FPass _ m => receive ky keccak pshash su n m | _ => Ok (n, []) end) as [[n1 o1]| |] eqn:E1; cbn [rbind fst snd]; try discriminate.
      destruct (receive_all ky keccak pshash su n1 l) as [[n2 o2]| |] eqn:E2; cbn [rbind fst snd]; try discriminate. intros E. injection E as <- <-.
      assert (X : Forall calm o1 /\ qstep n n1 o1 /\ untouched n n1 /\ n_fw n1 = n_fw n /\ (forall m, In (NQueued m) o1 -> exists t, x = FPass t m)).
      { assert (NP : Ok (n, []) = Ok (n1, o1) -> Forall calm o1 /\ qstep n n1 o1 /\ untouched n n1 /\ n_fw n1 = n_fw n /\ (forall m, In (NQueued m) o1 -> exists t, x = FPass t m)).
        { intros E. injection E as <- <-. split; [constructor|]. split; [intros pc g; cbn; rewrite app_nil_r; reflexivity|]. split; [repeat split|]. split; [reflexivity|contradiction]. }
        destruct x as [| | | | |t m]; try exact (NP E1). destruct (receive_eff _ _ _ _ E1) as (A & B & C & F & H). repeat (split; [assumption|]).
        intros m0 H0. destruct H as [->|[-> _]]; destruct H0 as [H0|[]]; [injection H0 as <-; eauto|discriminate]. }
      destruct X as (A & B & C & F & H). destruct (IH _ _ _ E2) as (A2 & B2 & C2 & F2 & H2).
      split; [constructor; [exact I|]; apply Forall_app; auto|]. split.
      { intros pc g. rewrite (B2 pc g), (B pc g). cbn [queued_to flat_map app]. change (flat_map _ (o1 ++ o2)) with (queued_to pc g (o1 ++ o2)). rewrite queued_app, <- app_assoc. reflexivity. }
      split. { destruct C as (Z1 & Z2 & Z3 & Z4 & Z5), C2 as (Z6 & Z7 & Z8 & Z9 & Z0). repeat split; congruence. }
      split; [congruence|]. intros m [H0|H0]; [discriminate|]. apply in_app_or in H0. destruct H0 as [H0|H0]; [destruct (H m H0) as [t ->]; exists t; left; reflexivity|].
      destruct (H2 m H0) as [t H3]. exists t. right. exact H3.
  Qed.
  Lemma firewall_eff n ev n' o : firewall ky keccak pshash su n ev = Ok (n', o) ->
    Forall calm o /\ qstep n n' o /\ untouched n n' /\ exists l, fstep (n_fw n) ev = Ok (n_fw n', l) /\ (forall m, In (NQueued m) o -> exists t, In (FPass t m) l).
  Proof.
    unfold firewall. destruct (fstep (n_fw n) ev) as [[f1 l]| |] eqn:ES; cbn [rbind fst snd]; try discriminate. intros E.
    destruct (receive_all_eff _ _ _ _ E) as (A & B & C & F & H). split; [exact A|]. split; [exact B|]. split; [exact C|]. exists l. split; [rewrite F; reflexivity|exact H].
  Qed.
  Lemma ensure_eff n T k gen n' j o : ensure_run su n T k gen = (n', j, o) ->
    n_qs n' = n_qs n /\ n_cons n' = n_cons n /\ n_fw n' = n_fw n /\ n_reqs n' = n_reqs n /\ n_docs n' = n_docs n /\
    (o = [] /\ n_table n' = n_table n /\ kget (n_table n) k = Some j \/ o = [NCreate T k] /\ n_table n' = kset (n_table n) k j /\ kget (n_table n) k = None).
  Proof.
    unfold ensure_run. destruct (kget (n_table n) k) as [j0|] eqn:ET; intros E; injection E as <- <- <-; repeat (split; [reflexivity|]); auto.
  Qed.
  Lemma run_after_eff n j k x : let y := run_after n j k x in
    n_qs (fst y) = n_qs n /\ n_cons (fst y) = n_cons n /\ n_fw (fst y) = n_fw n /\ n_reqs (fst y) = n_reqs n /\ n_table (fst y) = n_table n /\ Forall calm (snd y) /\ Forall no_queued (snd y).
  Proof.
    cbn. repeat (split; [reflexivity|]). split; induction (snd x); constructor; auto; exact I.
  Qed.

  Record GI (tr : list nobs) (n : node) : Prop := mkGI {
    g_tab : forall k, (if kget (n_table n) k then true else false) = in_table k tr;
    g_fifo : forall pc g, queued_to pc g tr = taken_from pc g tr ++ kslice (n_qs n) (qkey pc g);
    g_calls : forall k, length (kslice (f_calls (n_fw n)) k) = cnt past (klocs k (n_reqs n));
    g_ends : forall k, cleanups k tr = cnt ended (klocs k (n_reqs n));
    g_del : forall k, k_pc k = pc_dss -> deletes k tr = sigs k (taken_from pc_dss (k_guest k) tr);
    g_cln : forall k, k_pc k = pc_dss -> cleanups k tr = sigs k (queued_to pc_dss (k_guest k) tr);
    g_locs : forall i r, nth_error (n_reqs n) i = Some r -> (rq_locs r = [] \/ map fst (rq_locs r) = su_guests su) /\ (forall todo, rq_phase r = RReg todo -> rq_locs r = []) }.

  (** The parts about the trace and the queues, after a calm step. *)
  Lemma calm_gi tr n n' o : GI tr n -> Forall calm o -> qstep n n' o -> n_table n' = n_table n ->
    (forall k, length (kslice (f_calls (n_fw n')) k) = cnt past (klocs k (n_reqs n'))) ->
    (forall k, cnt ended (klocs k (n_reqs n')) = cnt ended (klocs k (n_reqs n))) ->
    (forall k, sigs k (queued_to pc_dss (k_guest k) o) = 0%nat) ->
    (forall i r, nth_error (n_reqs n') i = Some r -> (rq_locs r = [] \/ map fst (rq_locs r) = su_guests su) /\ (forall todo, rq_phase r = RReg todo -> rq_locs r = [])) ->
    GI (tr ++ o) n'.
  Proof.
    intros [A B C E F H I0] CA QS TT HC HE HQ HL. destruct (calm_facts o CA) as (F1 & F2 & F3 & F4). constructor.
    - intros k. rewrite live_app, F1, TT. apply A.
    - intros pc g. rewrite queued_app, taken_app, F2, app_nil_r, (QS pc g), B, app_assoc. reflexivity.
    - exact HC.
    - intros k. rewrite cleanups_app, F4, Nat.add_0_r, HE. apply E.
    - intros k K. rewrite deletes_app, F3, taken_app, F2, app_nil_r, Nat.add_0_r. apply F, K.
    - intros k K. rewrite cleanups_app, F4, queued_app, sigs_app, HQ, !Nat.add_0_r. apply H, K.
    - exact HL.
  Qed.
  Lemma nosig_queued (o : list nobs) : (forall m, In (NQueued m) o -> 0 <= m_pc m) -> forall k pc g, sigs k (queued_to pc g o) = 0%nat.
  Proof.
    intros H k pc g. induction o as [|x o IH]; [reflexivity|]. change (x :: o) with ([x] ++ o). rewrite queued_app, sigs_app, IH; [|intros m Hm; apply H; right; exact Hm].
    destruct x; try reflexivity. cbn. destruct (for_queue pc g m); [|reflexivity]. unfold sigs. cbn. unfold sig_for. pose proof (H m (or_introl eq_refl)) as L.
    destruct (Z.ltb_spec (m_pc m) 0); [lia|reflexivity].
  Qed.
  Lemma put_locs n i r0 : (forall i r, nth_error (n_reqs n) i = Some r -> (rq_locs r = [] \/ map fst (rq_locs r) = su_guests su) /\ (forall todo, rq_phase r = RReg todo -> rq_locs r = [])) ->
    (rq_locs r0 = [] \/ map fst (rq_locs r0) = su_guests su) -> (forall todo, rq_phase r0 = RReg todo -> rq_locs r0 = []) ->
    forall j r, nth_error (put (n_reqs n) i r0) j = Some r -> (rq_locs r = [] \/ map fst (rq_locs r) = su_guests su) /\ (forall todo, rq_phase r = RReg todo -> rq_locs r = []).
  Proof. intros H A B j r Hr. apply nth_put in Hr. destruct Hr as [[_ ->]|Hr]; [auto|eauto]. Qed.
  Lemma set_loc_fst l g x : map fst (set_loc l g x) = map fst l.
  Proof. induction l as [|[h y] l IH]; cbn; [reflexivity|]. destruct (Z.eqb_spec h g) as [->|]; cbn; [reflexivity|rewrite IH; reflexivity]. Qed.

  Lemma sig_signal k k' : k_pc k = pc_dkg \/ k_pc k = pc_dss -> sig_for k' (signal nil_dto k) = (k_pc k =? pc_dss) && key_eqb k k'.
  Proof. destruct k as [pc g run]. cbn [k_pc]. intros [-> | ->]; reflexivity. Qed.
  (** The node after a guest's goroutine went on. *)
  Lemma gi_guest evs tr n i r g l n1 l1 o1 now gen : INV evs tr n now -> GI tr n -> nth_error (n_reqs n) i = Some r -> loc_of (rq_locs r) g = Some l ->
    guest_go ky keccak pshash su n now (rq_key r g) (rq_start r) l gen = Ok (n1, l1, o1) ->
    GI (tr ++ o1) (put_req n1 i (with_locs r (set_loc (rq_locs r) g l1))).
  Proof.
    intros HI GIn EN EL EG. destruct (klocs_set _ _ _ _ _ EN EL) as [(a & b & KA & KB) KO].
    assert (RL : forall y, (rq_locs (with_locs r (set_loc (rq_locs r) g y)) = [] \/ map fst (rq_locs (with_locs r (set_loc (rq_locs r) g y))) = su_guests su) /\
       (forall todo, rq_phase (with_locs r (set_loc (rq_locs r) g y)) = RReg todo -> rq_locs (with_locs r (set_loc (rq_locs r) g y)) = [])).
    { intros y. destruct (g_locs _ _ GIn i r EN) as [X Y]. cbn. rewrite set_loc_fst. split.
      - destruct X as [X|X]; [rewrite X; auto|auto].
      - intros todo E. specialize (Y todo E). rewrite Y in *. discriminate EL. }
    pose proof (fun y => put_locs n i _ (g_locs _ _ GIn) (proj1 (RL y)) (proj2 (RL y))) as PL.
    set (k := rq_key r g) in *.
    assert (NOP : forall y, past y = past l -> ended y = ended l -> Ok (n, y, []) = Ok (n1, l1, o1) -> GI (tr ++ o1) (put_req n1 i (with_locs r (set_loc (rq_locs r) g l1)))).
    { intros y P1 P2 E. injection E as <- <- <-. apply (calm_gi tr n); [exact GIn|constructor|intros pc g0; cbn; rewrite app_nil_r; reflexivity|reflexivity| | |reflexivity|exact (PL y)].
      - intros k'. cbn [put_req set_reqs n_fw n_reqs]. rewrite (g_calls _ _ GIn). destruct (key_eqb_spec k' k) as [->|N]; [|rewrite KO by exact N; reflexivity].
        rewrite KA, KB, !cnt_mid, P1. reflexivity.
      - intros k'. cbn [put_req set_reqs n_fw n_reqs]. destruct (key_eqb_spec k' k) as [->|N]; [|rewrite KO by exact N; reflexivity].
        rewrite KA, KB, !cnt_mid, P2. reflexivity. }
    assert (FWC : forall fev y, (forall t k0 a0, fev = EvAllow t k0 a0 -> exists start doc tq, requested su evs k0 start doc tq /\ tq <= t /\ a0 = allowance_for ky keccak pshash (k_pc k0) start) ->
       time_of fev = now -> firewall ky keccak pshash su n fev = Ok (n1, o1) -> l1 = y -> ended y = ended l ->
       (forall k', (length (filter (is_call k') [fev]) + cnt past (klocs k' (n_reqs n)) = cnt past (klocs k' (put (n_reqs n) i (with_locs r (set_loc (rq_locs r) g y)))))%nat) ->
       GI (tr ++ o1) (put_req n1 i (with_locs r (set_loc (rq_locs r) g l1)))).
    { intros fev y HA HT EF -> P2 HC. destruct (firewall_eff _ _ _ _ EF) as (X1 & X2 & X3 & fl & X4 & X5). destruct X3 as (Y1 & Y2 & Y3 & Y4 & Y5).
      destruct (firewall_inv ky keccak pshash su until now0 evs tr n fev n1 o1 now HI HT HA EF) as ([W _] & _ & X6).
      apply (calm_gi tr n); cbn [put_req set_reqs n_fw n_reqs n_table]; rewrite ?Y4; [exact GIn|exact X1|exact X2|exact Y1| | | |exact (PL y)].
      - intros k'. rewrite (step_calls k' _ _ _ _ X4), (g_calls _ _ GIn), <- HC, Nat.add_comm. reflexivity.
      - intros k'. destruct (key_eqb_spec k' k) as [->|N]; [|rewrite KO by exact N; reflexivity]. rewrite KA, KB, !cnt_mid, P2. reflexivity.
      - intros k'. apply nosig_queued. intros m Hm. destruct (X5 m Hm) as [t Ht]. rewrite X4 in X6. injection X6 as X6. 
        destruct (w_pass _ _ _ _ _ _ _ _ _ _ W t m) as [Z1 _]; [rewrite fwt_app, <- X6; apply in_or_app; auto|]. lia. }
    assert (RECV : forall c y, past y = past l -> ended y = ended l ->
      (if chan_ready n k c then x <- firewall ky keccak pshash su n (EvRecv now k c) ;; Ok (fst x, y, snd x) else Ok (n, l, [])) = Ok (n1, l1, o1) ->
      GI (tr ++ o1) (put_req n1 i (with_locs r (set_loc (rq_locs r) g l1)))).
    { intros c y P1 P2. destruct (chan_ready n k c); [|apply NOP; reflexivity]. destruct (firewall _ _ _ _ _ _) as [[n2 o2]| |] eqn:EF; cbn [rbind fst snd]; try discriminate.
      intros E. injection E as <- <- <-. refine (FWC _ _ _ _ EF eq_refl P2 _); [discriminate|reflexivity|]. intros k'. cbn [filter is_call length Nat.add].
      destruct (key_eqb_spec k' k) as [->|N]; [|rewrite KO by exact N; reflexivity]. rewrite KA, KB, !cnt_mid, P1. reflexivity. }
    pose proof (r_req _ _ _ _ _ _ _ _ (proj2 HI) i r EN) as RQ. destruct (RQ) as (_ & _ & RC). destruct (RC g l (loc_in _ _ _ EL)) as [IG LO].
    destruct (key_requested su _ _ _ _ g RQ IG) as (tq & RK & LQ). fold k in RK, LO.
    unfold guest_go in EG. cbv zeta in EG. destruct l as [|c|c|c|c|c| |].
    - destruct (firewall _ _ _ _ _ _) as [[n2 o2]| |] eqn:EF; cbn [rbind fst snd] in EG; try discriminate. injection EG as <- <- <-.
      refine (FWC _ _ _ _ EF eq_refl _ _); [|reflexivity|reflexivity|].
      + intros t k0 a0 E. injection E as <- <- <-. exists (rq_start r), (rq_doc r), tq. auto.
      + intros k'. cbn [filter is_call length]. destruct (key_eqb_spec k k') as [<-|N].
        * rewrite KA, KB, !cnt_mid. cbn [past ended length]. lia.
        * rewrite KO by congruence. reflexivity.
    - apply (RECV c (GSleep c)); [reflexivity|reflexivity|exact EG].
    - destruct (now <? rq_start r); [apply (NOP (GSleep c)); [reflexivity|reflexivity|exact EG]|].
      destruct (ensure_run su n now k gen) as [[n2 j] o2] eqn:EE. cbn [fst snd] in EG. injection EG as <- <- <-.
      destruct (ensure_eff _ _ _ _ _ _ _ EE) as (Y1 & Y2 & Y3 & Y4 & Y5 & Y6). destruct GIn as [A B C E F H I0].
      assert (Q0 : forall pc g, queued_to pc g o2 = []) by (destruct Y6 as [(-> & _)|(-> & _)]; reflexivity).
      assert (T0 : forall pc g, taken_from pc g o2 = []) by (destruct Y6 as [(-> & _)|(-> & _)]; reflexivity).
      assert (D0 : forall k, deletes k o2 = 0%nat) by (destruct Y6 as [(-> & _)|(-> & _)]; reflexivity).
      assert (C0 : forall k, cleanups k o2 = 0%nat) by (destruct Y6 as [(-> & _)|(-> & _)]; reflexivity).
      constructor; cbn [put_req set_reqs n_fw n_reqs n_table n_qs]; rewrite ?Y1, ?Y3, ?Y4.
      + intros k'. rewrite live_app, <- A. destruct Y6 as [(-> & -> & _)|(-> & -> & ET)]; [reflexivity|]. rewrite kget_kset. cbn. destruct (key_eqb k k'); reflexivity.
      + intros pc g0. rewrite queued_app, taken_app, Q0, T0, !app_nil_r. apply B.
      + intros k'. rewrite C. destruct (key_eqb_spec k' k) as [->|N]; [|rewrite KO by exact N; reflexivity]. rewrite KA, KB, !cnt_mid. reflexivity.
      + intros k'. rewrite cleanups_app, C0, Nat.add_0_r, E. destruct (key_eqb_spec k' k) as [->|N]; [|rewrite KO by exact N; reflexivity]. rewrite KA, KB, !cnt_mid. reflexivity.
      + intros k' K. rewrite deletes_app, D0, taken_app, T0, app_nil_r, Nat.add_0_r. apply F, K.
      + intros k' K. rewrite cleanups_app, C0, queued_app, Q0, app_nil_r, Nat.add_0_r. apply H, K.
      + exact (PL (GTerm c)).
    - destruct (terminated_run n k); [apply (NOP (GClean2 c))|apply (NOP (GTerm c))]; reflexivity || exact EG.
    - apply (RECV c (GClean1 c)); [reflexivity|reflexivity|exact EG].
    - apply (RECV c GSignal); [reflexivity|reflexivity|exact EG].
    - destruct (receive _ _ _ _ _ _) as [[n2 o2]| |] eqn:ER; [|apply (NOP GSignal); [reflexivity|reflexivity|exact EG]|discriminate]. cbn [fst snd] in EG. injection EG as <- <- <-.
      destruct (receive_eff _ _ _ _ ER) as (X1 & X2 & (Y1 & Y2 & Y3 & Y4 & Y5) & X4 & X5). destruct GIn as [A B C E F H I0].
      destruct (calm_facts o2 X1) as (F1 & F2 & F3 & F4). change (NCleanup k :: o2) with ([NCleanup k] ++ o2).
      constructor; cbn [put_req set_reqs n_fw n_reqs n_table n_qs]; rewrite ?Y1, ?Y4, ?X4.
      + intros k'. rewrite !live_app. cbn [app fold_left]. rewrite F1. apply A.
      + intros pc g0. rewrite !queued_app, !taken_app, F2. cbn [queued_to taken_from flat_map app]. rewrite !app_nil_r, (X2 pc g0), B, app_assoc. reflexivity.
      + intros k'. rewrite C. destruct (key_eqb_spec k' k) as [->|N]; [|rewrite KO by exact N; reflexivity]. rewrite KA, KB, !cnt_mid. reflexivity.
      + intros k'. rewrite !cleanups_app, F4, Nat.add_0_r, E. unfold cleanups. cbn. destruct (key_eqb_spec k k') as [<-|N].
        * rewrite KA, KB, !cnt_mid. cbn [past ended length]. lia.
        * rewrite KO by congruence. cbn. lia.
      + intros k' K. rewrite !deletes_app, F3, !taken_app, F2. cbn [taken_from flat_map app]. rewrite app_nil_r. unfold deletes at 2. cbn. rewrite !Nat.add_0_r. apply F, K.
      + intros k' K. rewrite !cleanups_app, F4, !queued_app, !sigs_app, <- (H k' K). cbn [queued_to flat_map]. unfold cleanups at 2. cbn [filter].
        assert (PC : k_pc k = pc_dkg \/ k_pc k = pc_dss) by (destruct RK as (bb & _ & _ & -> & _); destruct (rq_doc r); auto).
        assert (SG : sig_for k' (signal nil_dto k) = (k_pc k =? pc_dss) && key_eqb k k').
        { apply sig_signal, PC. }
        destruct X5 as [-> |[-> L]].
        * unfold queued_to. cbn [flat_map app]. rewrite app_nil_r. unfold for_queue. change (m_rcpt (signal nil_dto k)) with (k_guest k). change (m_pc (signal nil_dto k)) with (- k_pc k).
          destruct (key_eqb_spec k k') as [<-|N].
          -- rewrite K in SG. change ((pc_dss =? pc_dss) && true) with true in SG. rewrite K, (Z.eqb_refl (k_guest k)). change ((Z.abs (- pc_dss) =? pc_dss) && true) with true. cbv iota. unfold sigs. cbn [filter]. rewrite SG. reflexivity.
          -- rewrite andb_false_r in SG. destruct (_ && _); unfold sigs; cbn; rewrite ?SG; cbn; lia.
        * change (m_pc (signal nil_dto k)) with (- k_pc k) in L. cbn. destruct (key_eqb_spec k k') as [<-|N]; [|cbn; lia]. rewrite K in L. cbv in L. congruence.
      + exact (PL GEnd).
    - apply (NOP GEnd); [reflexivity|reflexivity|exact EG].
  Qed.

  Lemma gi_step evs tr n T ev n' o : INV evs tr n T -> T <= ntime ev -> GI tr n -> nstep n ev = Ok (n', o) -> GI (tr ++ o) n'.
  Proof.
    intros HI0 HT GIn HS. pose proof (nstep_inv ky keccak pshash su until now0 _ _ _ _ _ _ _ HI0 HT HS) as HI1.
    set (evs1 := evs ++ [ev]) in *. assert (IE : incl evs evs1) by (intros x H; apply in_or_app; auto).
    assert (HI : INV evs1 tr n (ntime ev)) by (destruct HI0 as [W R]; split; [eapply fwok_mono; eassumption|eapply rest_mono; eassumption]). clearbody evs1. clear HI0 HT IE.
    assert (FW : forall fev, time_of fev = ntime ev -> (forall t k a, fev <> EvAllow t k a) -> firewall ky keccak pshash su n fev = Ok (n', o) -> GI (tr ++ o) n').
    { intros fev H1 H2 EF. destruct (firewall_eff _ _ _ _ EF) as (X1 & X2 & (Y1 & Y2 & Y3 & Y4 & Y5) & fl & X4 & X5).
      destruct (firewall_inv ky keccak pshash su until now0 evs1 tr n fev n' o (ntime ev) HI H1) with (2 := EF) as ([W _] & _ & X6); [intros t k a E; destruct (H2 _ _ _ E)|].
      apply (calm_gi tr n); rewrite ?Y4; [exact GIn|exact X1|exact X2|exact Y1| |reflexivity| |exact (g_locs _ _ GIn)].
      - intros k'. rewrite (step_calls k' _ _ _ _ X4), (g_calls _ _ GIn). destruct fev; cbn [filter is_call length]; try apply Nat.add_0_r. destruct (H2 now k a eq_refl).
      - intros k'. apply nosig_queued. intros m Hm. destruct (X5 m Hm) as [t Ht]. rewrite X4 in X6. injection X6 as X6. 
        destruct (w_pass _ _ _ _ _ _ _ _ _ _ W t m) as [Z1 _]; [rewrite fwt_app, <- X6; apply in_or_app; auto|]. lia. }
    assert (SAME : forall r i r0 n1 o1, nth_error (n_reqs n) i = Some r -> (forall k, matches k r0 = matches k r) -> rq_locs r0 = rq_locs r -> (forall td, rq_phase r0 = RReg td -> rq_locs r = []) ->
      n_table n1 = n_table n -> n_qs n1 = n_qs n -> n_fw n1 = n_fw n -> n_reqs n1 = n_reqs n -> Forall calm o1 -> Forall no_queued o1 -> GI (tr ++ o1) (put_req n1 i r0)).
    { intros r i r0 n1 o1 EN M1 M2 M3 Y1 Y2 Y3 Y4 CA NQ. apply (calm_gi tr n); cbn [put_req set_reqs n_fw n_reqs n_table n_qs]; rewrite ?Y3, ?Y4; [exact GIn|exact CA| |exact Y1| | | |].
      - intros pc g. rewrite no_queued_to by exact NQ. cbn. rewrite app_nil_r, Y2. reflexivity.
      - intros k. rewrite (klocs_same k _ i r r0 EN (M1 k) M2). apply (g_calls _ _ GIn).
      - intros k. rewrite (klocs_same k _ i r r0 EN (M1 k) M2). reflexivity.
      - intros k. rewrite no_queued_to by exact NQ. reflexivity.
      - apply put_locs; [exact (g_locs _ _ GIn)|rewrite M2; exact (proj1 (g_locs _ _ GIn i r EN))|rewrite M2; exact M3]. }
    assert (NOP : forall n1, n_table n1 = n_table n -> n_qs n1 = n_qs n -> n_fw n1 = n_fw n -> n_reqs n1 = n_reqs n -> forall o1, Forall calm o1 -> Forall no_queued o1 -> GI (tr ++ o1) n1).
    { intros n1 Y1 Y2 Y3 Y4 o1 CA NQ. apply (calm_gi tr n); rewrite ?Y3, ?Y4; [exact GIn|exact CA| |exact Y1|exact (g_calls _ _ GIn)|reflexivity| |exact (g_locs _ _ GIn)].
      - intros pc g. rewrite no_queued_to by exact NQ. rewrite app_nil_r, Y2. reflexivity.
      - intros k. rewrite no_queued_to by exact NQ. reflexivity. }
    assert (NOP1 : forall o1, Ok (n, []) = Ok (n', o1) -> o1 = o -> GI (tr ++ o) n').
    { intros o1 E <-. injection E as <- <-. apply NOP; auto. }
    destruct ev as [now base start doc|now i g|now i|now i g gen|now m|now|now k c|now pc g gen|now pc g nonce ord|now j nonce ord]; cbn [Node.nstep ntime] in *.
    - injection HS as <- <-.
      assert (NR : forall k, cnt past (klocs k [new_request su base start doc]) = 0%nat /\ cnt ended (klocs k [new_request su base start doc]) = 0%nat).
      { intros k. rewrite klocs_cons. cbn [klocs flat_map]. rewrite app_nil_r. destruct (matches _ _); [|auto].
        unfold new_request. destruct doc; [destruct (su_guests su) eqn:EG; rewrite <- EG|]; cbn [spawn rq_locs]; auto; apply locs_spawn. }
      apply (calm_gi tr n); cbn [set_reqs n_fw n_reqs n_table n_qs]; [exact GIn|constructor|intros pc g; cbn; rewrite app_nil_r; reflexivity|reflexivity| | |reflexivity|].
      + intros k. rewrite klocs_app, cnt_app, (proj1 (NR k)), Nat.add_0_r. apply (g_calls _ _ GIn).
      + intros k. rewrite klocs_app, cnt_app, (proj2 (NR k)), Nat.add_0_r. reflexivity.
      + intros i r H. apply nth_snoc in H. destruct H as [[_ ->]|H]; [|exact (g_locs _ _ GIn _ _ H)].
        assert (MF : map fst (map (fun g : Z => (g, GAllow)) (su_guests su)) = su_guests su) by (rewrite map_map; apply map_id).
        unfold new_request. destruct doc; [destruct (su_guests su) eqn:EG; rewrite <- EG in *|]; cbn [spawn rq_locs rq_phase]; split; auto; discriminate.
    - unfold request_go in HS. destruct (nth_error (n_reqs n) i) as [r|] eqn:EN; [|exact (NOP1 _ HS eq_refl)].
      destruct (g_locs _ _ GIn i r EN) as [L1 L2].
      destruct (rq_phase r) as [todo| |todo|todo|] eqn:EP; try exact (NOP1 _ HS eq_refl).
      + destruct (existsb (Z.eqb g) todo); [|exact (NOP1 _ HS eq_refl)]. cbv zeta in HS. injection HS as <- <-.
        set (n1 := match rq_doc r with Some d => set_docs n (kset (n_docs n) (dkey g (rq_id r)) d) | None => n end).
        assert (N1 : n_table n1 = n_table n /\ n_qs n1 = n_qs n /\ n_fw n1 = n_fw n /\ n_reqs n1 = n_reqs n) by (unfold n1; destruct (rq_doc r); auto).
        destruct N1 as (Y1 & Y2 & Y3 & Y4). destruct (remove g todo) as [|h t] eqn:ER.
        * apply (calm_gi tr n); cbn [put_req set_reqs n_fw n_reqs n_table n_qs]; rewrite ?Y3, ?Y4; [exact GIn|constructor|intros pc g0; cbn; rewrite app_nil_r; rewrite Y2; reflexivity|exact Y1| | |reflexivity|].
          -- intros k. rewrite (proj1 (klocs_spawn k _ i r EN (L2 todo eq_refl))). apply (g_calls _ _ GIn).
          -- intros k. apply (proj2 (klocs_spawn k _ i r EN (L2 todo eq_refl))).
          -- apply put_locs; [exact (g_locs _ _ GIn)|right; cbn; rewrite map_map; apply map_id|discriminate].
        * apply (SAME r); auto; try (intros; reflexivity). intros td E. apply (L2 todo eq_refl).
      + destruct (existsb (Z.eqb g) todo); [|exact (NOP1 _ HS eq_refl)]. cbv zeta in HS. injection HS as <- <-. apply (SAME r); auto; try (intros; reflexivity).
        cbn. destruct (remove g todo); discriminate.
      + destruct (existsb (Z.eqb g) todo); [|exact (NOP1 _ HS eq_refl)]. cbv zeta in HS.
        assert (FIN : forall k v, (put_req (set_outs n (fst (pop_output (n_outs n) (rq_key r g)))) i (with_phase r match remove g todo with [] => RDone | _ => RPop (remove g todo) end), [NPop k v]) = (n', o) -> GI (tr ++ o) n').
        { intros k v E. injection E as <- <-. apply (SAME r); auto; try (intros; reflexivity); try (repeat constructor). cbn. destruct (remove g todo); discriminate. }
        revert HS. destruct (rq_doc r), (snd (pop_output (n_outs n) (rq_key r g))) as [[]|]; try discriminate; try (intros E; injection E as <- <-; eapply FIN; reflexivity).
        destruct (_ <? _)%nat; [discriminate|]. intros E; injection E as <- <-; eapply FIN; reflexivity.
    - injection HS as <- <-. unfold request_wait. destruct (nth_error (n_reqs n) i) as [r|] eqn:EN; [|apply NOP; auto]. destruct (rq_phase r) eqn:EP; try (apply NOP; auto; fail).
      destruct (forallb _ _); [|apply NOP; auto]. apply (SAME r); auto; try (intros; reflexivity). cbn. destruct (rq_doc r); discriminate.
    - unfold request_guest in HS. destruct (nth_error (n_reqs n) i) as [r|] eqn:EN; [|exact (NOP1 _ HS eq_refl)].
      destruct (loc_of (rq_locs r) g) as [l|] eqn:EL; [|exact (NOP1 _ HS eq_refl)].
      destruct (guest_go _ _ _ _ _ _ _ _ _ _) as [[[n1 l1] o1]| |] eqn:EG; cbn [rbind fst snd] in HS; try discriminate. injection HS as <- <-.
      eapply gi_guest; eassumption.
    - apply (FW (EvIn now m)); [reflexivity|discriminate|exact HS].
    - apply (FW (EvUndrop now)); [reflexivity|discriminate|exact HS].
    - apply (FW (EvWake now k c)); [reflexivity|discriminate|exact HS].
    - unfold consumer_take in HS; change (@fw_key) with (@key_of) in HS. injection HS as HS. destruct (kget (n_cons n) (qkey pc g)) as [|] eqn:EC; [injection HS as <- <-; apply NOP; auto|].
      destruct (kslice (n_qs n) (qkey pc g)) as [|m q] eqn:EQ; [injection HS as <- <-; apply NOP; auto|]. cbv zeta in HS.
      assert (MO : msg_ok ky keccak pshash su evs1 tr now (qkey pc g) m) by (apply (r_q _ _ _ _ _ _ _ _ (proj2 HI)); rewrite EQ; left; reflexivity).
      destruct MO as (M1 & M2 & M3 & M4 & M5). destruct GIn as [A B C E F H I0].
      assert (FQ : for_queue pc g m = true) by (apply for_queue_key; congruence).
      assert (TK : forall pc' g', taken_from pc' g' [NTake m] = if for_queue pc' g' m then [m] else []) by (intros; cbn; apply app_nil_r).
      assert (QQ : forall pc' g', kslice (n_qs n) (qkey pc' g') = (if for_queue pc' g' m then [m] else []) ++ kslice (kset (n_qs n) (qkey pc g) q) (qkey pc' g')).
      { intros pc' g'. rewrite kslice_kset. destruct (for_queue pc' g' m) eqn:F1.
        - apply for_queue_key in F1. rewrite M1, F1, key_eqb_refl. rewrite M1, F1 in EQ. exact EQ.
        - destruct (key_eqb_spec (qkey pc g) (qkey pc' g')) as [EK|]; [|reflexivity]. rewrite M1 in EK. apply for_queue_key in EK. congruence. }
      destruct (Z.ltb_spec (m_pc m) 0) as [L|L].
      + injection HS as <- <-. set (k0 := mkKey (- m_pc m) (m_rcpt m) (m_run m)).
        assert (TK2 : forall pc' g', taken_from pc' g' [NTake m; NDelete k0] = if for_queue pc' g' m then [m] else []) by (intros; cbn; apply app_nil_r).
        constructor; cbn [set_table set_qs n_fw n_reqs n_table n_qs].
        * intros k. rewrite live_app, <- A. cbn. rewrite kget_kdel. destruct (key_eqb k0 k); reflexivity.
        * intros pc' g'. rewrite queued_app, taken_app, TK2. cbn [queued_to flat_map app]. rewrite app_nil_r, B, (QQ pc' g'), app_assoc. reflexivity.
        * exact C.
        * intros k. rewrite cleanups_app. cbn. rewrite Nat.add_0_r. apply E.
        * intros k K. rewrite deletes_app, taken_app, sigs_app, <- (F k K), TK2. f_equal. unfold deletes. cbn [filter length]. unfold sigs.
          assert (SG : sig_for k m = key_eqb k0 k) by (unfold sig_for, k0; destruct (Z.ltb_spec (m_pc m) 0); [reflexivity|lia]).
          destruct (key_eqb_spec k0 k) as [<-|N].
          -- assert (FQ2 : for_queue pc_dss (k_guest k0) m = true) by (unfold for_queue; cbn in K |- *; rewrite Z.eqb_refl, andb_true_r; apply Z.eqb_eq; lia).
             rewrite FQ2. cbn [filter]. rewrite SG. reflexivity.
          -- destruct (for_queue pc_dss (k_guest k) m); cbn [filter]; rewrite ?SG; reflexivity.
        * intros k K. rewrite cleanups_app, queued_app. cbn. rewrite Nat.add_0_r, app_nil_r. apply H, K.
        * exact I0.
      + destruct (ensure_run su (set_qs n (kset (n_qs n) (qkey pc g) q)) now (key_of m) gen) as [[n2 j] o2] eqn:EE. cbn [fst snd] in HS. injection HS as <- <-.
        destruct (ensure_eff _ _ _ _ _ _ _ EE) as (Y1 & Y2 & Y3 & Y4 & Y5 & Y6). cbn [set_qs n_table n_qs n_cons n_fw n_reqs n_docs] in *.
        change (NTake m :: o2) with ([NTake m] ++ o2).
        assert (Q0 : forall pc g, queued_to pc g o2 = []) by (destruct Y6 as [(-> & _)|(-> & _)]; reflexivity).
        assert (T0 : forall pc g, taken_from pc g o2 = []) by (destruct Y6 as [(-> & _)|(-> & _)]; reflexivity).
        assert (D0 : forall k, deletes k o2 = 0%nat) by (destruct Y6 as [(-> & _)|(-> & _)]; reflexivity).
        assert (C0 : forall k, cleanups k o2 = 0%nat) by (destruct Y6 as [(-> & _)|(-> & _)]; reflexivity).
        constructor; cbn [set_cons n_fw n_reqs n_table n_qs]; rewrite ?Y1, ?Y3, ?Y4.
        * intros k. rewrite !live_app. cbn [app fold_left]. rewrite <- A. destruct Y6 as [(-> & -> & _)|(-> & -> & ET)]; [reflexivity|]. rewrite kget_kset. cbn. destruct (key_eqb (key_of m) k); reflexivity.
        * intros pc' g'. rewrite !queued_app, !taken_app, TK, Q0, T0. cbn [queued_to flat_map app]. rewrite !app_nil_r, B, (QQ pc' g'), app_assoc. reflexivity.
        * exact C.
        * intros k. rewrite !cleanups_app, C0. cbn. rewrite !Nat.add_0_r. apply E.
        * intros k K. rewrite !deletes_app, D0, !taken_app, T0, app_nil_r, sigs_app, <- (F k K), TK. cbn. rewrite !Nat.add_0_r.
          assert (SG : sig_for k m = false) by (unfold sig_for; destruct (Z.ltb_spec (m_pc m) 0); [lia|reflexivity]).
          destruct (for_queue pc_dss (k_guest k) m); unfold sigs; cbn; rewrite ?SG; cbn; lia.
        * intros k K. rewrite !cleanups_app, C0, !queued_app, Q0. cbn. rewrite !Nat.add_0_r, !app_nil_r. apply H, K.
        * exact I0.
    - unfold consumer_deliver in HS. destruct (kget (n_cons n) (qkey pc g)) as [[j m]|] eqn:EC; [|exact (NOP1 _ HS eq_refl)].
      destruct (nth_error (n_heap n) j) as [[k r]|] eqn:EN; [|discriminate].
      destruct (deliver _ _ _ _ _) as [x| |] eqn:ED; cbn [rbind] in HS; try discriminate. cbv zeta in HS.
      destruct (run_after_eff n j k x) as (Y1 & Y2 & Y3 & Y4 & Y5 & Y6 & Y7). injection HS as <- <-. apply NOP; assumption.
    - unfold run_tick in HS. destruct (nth_error (n_heap n) j) as [[k r]|] eqn:EN; [|exact (NOP1 _ HS eq_refl)].
      destruct (now <? r_wake r); [exact (NOP1 _ HS eq_refl)|].
      destruct (tick _ _ _ _ _) as [x| |] eqn:ED; cbn [rbind] in HS; try discriminate.
      destruct (run_after_eff n j k x) as (Y1 & Y2 & Y3 & Y4 & Y5 & Y6 & Y7). injection HS as <- <-. apply NOP; assumption.
  Qed.

  (** A property of executions kept by every step holds in every history. *)
  Lemma nexec_ind (P : list nevent -> list nobs -> node -> Prop) :
    (forall evs tr n T ev n' o, INV evs tr n T -> GI tr n -> T <= ntime ev -> P evs tr n -> nstep n ev = Ok (n', o) -> P (evs ++ [ev]) (tr ++ o) n') ->
    forall l evs tr n T n' o, INV evs tr n T -> GI tr n -> P evs tr n -> nclock T l -> nexec ky keccak pshash su n l = Ok (n', o) ->
      (exists T', INV (evs ++ l) (tr ++ o) n' T') /\ GI (tr ++ o) n' /\ P (evs ++ l) (tr ++ o) n'.
  Proof.
    intros HP. induction l as [|ev l IH]; intros evs tr n T n' o HI GIn Pn HC; cbn [nexec].
    - intros E. injection E as <- <-. rewrite !app_nil_r. split; [eauto|auto].
    - destruct HC as [C1 C2]. destruct (nstep n ev) as [[n1 o1]| |] eqn:E1; cbn [rbind fst snd]; try discriminate.
      destruct (nexec ky keccak pshash su n1 l) as [[n2 o2]| |] eqn:E2; cbn [rbind fst snd]; try discriminate. intros E. injection E as <- <-.
      destruct (IH _ _ _ _ _ _ (nstep_inv _ _ _ _ _ _ _ _ _ _ _ _ _ HI C1 E1) (gi_step _ _ _ _ _ _ _ HI C1 GIn E1) (HP _ _ _ _ _ _ _ HI GIn C1 Pn E1) C2 E2) as (X & Y & Z0).
      rewrite <- (app_assoc tr) in X, Y, Z0. rewrite <- (app_assoc evs) in X, Z0. exact (conj X (conj Y Z0)).
  Qed.
  Lemma start_gi : GI [] (start_node su until now0).
  Proof. constructor; try reflexivity. intros [|i] r H; discriminate. Qed.
  Lemma history_ind (P : list nevent -> list nobs -> node -> Prop) :
    (forall evs tr n T ev n' o, INV evs tr n T -> GI tr n -> T <= ntime ev -> P evs tr n -> nstep n ev = Ok (n', o) -> P (evs ++ [ev]) (tr ++ o) n') ->
    P [] [] (start_node su until now0) -> forall evs n tr, nhistory ky keccak pshash su until now0 evs n tr -> (exists T, INV evs tr n T) /\ GI tr n /\ P evs tr n.
  Proof.
    intros HP H0 evs n tr [HC HE]. apply (nexec_ind P HP evs [] [] (start_node su until now0) now0 n tr); auto using start_gi, start_inv.
  Qed.
  Lemma history_gi evs n tr : nhistory ky keccak pshash su until now0 evs n tr -> GI tr n.
  Proof. intros H. exact (proj1 (proj2 (history_ind (fun _ _ _ => True) (fun _ _ _ _ _ _ _ _ _ _ _ _ => I) I evs n tr H))). Qed.
End NP.
