(** A request whose call of the firewall found an allowance for its run never ends. *)
From Coq Require Import ZArith List Lia Bool.
From Coq Require Import Init.Byte.
From Verif Require Import Params Bytes Res Secp Dto Dss Prot ProtSpec ProtProofs3 ProtProofs6 DkgProt DkgProofs KMap Firewall FwSpec FwProofs FwProofs2 FwProofs3 FwProofs4
  Outputs Node NodeSpec NodeRun NodeProofs NodeProofs2 NodeProofs3 NodeProofs4.
Import ListNotations.
Open Scope Z_scope.

Section NP.
  Context {G : Type}.
  Variable ky : kyber G.
  Variable keccak : bytes -> bytes.
  Variable pshash : Z -> Z -> bytes.
  Variable su : setup.
  Variables until now0 : Z.
  Notation message := (message payload).
  Notation nevent := (nevent (G := G)). Notation node := (node (G := G)).
  Implicit Types (evs : list nevent) (n : node) (tr : list nobs).
  Notation INV := (INV ky keccak pshash su until now0).
  Notation nstep := (nstep ky keccak pshash su).
  Notation GI := (GI su).
  Notation fw_sound := (sound (D := payload) (now0 <? until) until (fun k => known (D := payload) (make_fw nprots (su_guests su) until now0) (k_pc k) (k_guest k))).

  Lemma put_same {A} (l : list A) i x y : nth_error l i = Some y -> nth_error (put l i x) i = Some x.
  Proof. intros E. rewrite put_nth, Nat.eqb_refl, (nth_lt _ _ _ E). reflexivity. Qed.
  Lemma put_diff {A} (l : list A) i j x : i <> j -> nth_error (put l j x) i = nth_error l i.
  Proof. intros N. rewrite put_nth. destruct (Nat.eqb_spec i j); [contradiction|reflexivity]. Qed.
  Lemma loc_set_same l g x y : loc_of l g = Some y -> loc_of (set_loc l g x) g = Some x.
  Proof. induction l as [|[h z] l IH]; cbn; [discriminate|]. destruct (Z.eqb_spec h g) as [->|N]; cbn; [rewrite Z.eqb_refl; auto|]. destruct (Z.eqb_spec h g); [contradiction|auto]. Qed.
  Lemma loc_set_diff l g x h : h <> g -> loc_of (set_loc l g x) h = loc_of l h.
  Proof.
    intros N. induction l as [|[h' z] l IH]; cbn; [reflexivity|]. destruct (Z.eqb_spec h' g) as [->|].
    - cbn. destruct (Z.eqb_spec g h); [congruence|reflexivity].
    - cbn. rewrite IH. reflexivity.
  Qed.

  (** The guest [g] of request [i] waits for a channel nobody sends on. *)
  Definition hung (i : nat) (g : Z) (k : key) (n : node) : Prop :=
    exists r c, nth_error (n_reqs n) i = Some r /\ rq_key r g = k /\ rq_phase r = RRun /\ loc_of (rq_locs r) g = Some (GBuf c) /\ hit k c (n_fw n).
  Lemma fw_step_of n fev n' o : firewall ky keccak pshash su n fev = Ok (n', o) -> exists fl, fstep (n_fw n) fev = Ok (n_fw n', fl) /\ n_reqs n' = n_reqs n.
  Proof. intros EF. destruct (firewall_eff _ _ _ _ _ _ _ _ EF) as (_ & _ & (_ & _ & _ & X & _) & fl & E & _). eauto. Qed.
  Lemma guest_hit n now k0 start l gen n' l' o ftr T k c : fw_sound (n_fw n) ftr T -> guest_go ky keccak pshash su n now k0 start l gen = Ok (n', l', o) -> hit k c (n_fw n) -> hit k c (n_fw n').
  Proof.
    intros SO EG H. assert (F : forall fev (y : gloc), (x <- firewall ky keccak pshash su n fev ;; Ok (fst x, y, snd x)) = Ok (n', l', o) -> hit k c (n_fw n')).
    { intros fev y. destruct (firewall _ _ _ _ _ _) as [[n1 o1]| |] eqn:EF; cbn [rbind fst snd]; try discriminate. intros E. injection E as <- _ _.
      destruct (fw_step_of _ _ _ _ EF) as (fl & E & _). eapply hit_step; eassumption. }
    unfold guest_go in EG. cbv zeta in EG. destruct l as [|c0|c0|c0|c0|c0| |].
    - destruct (firewall _ _ _ _ _ _) as [[n1 o1]| |] eqn:EF; cbn [rbind fst snd] in EG; try discriminate. injection EG as <- _ _.
      destruct (fw_step_of _ _ _ _ EF) as (fl & E & _). eapply hit_step; eassumption.
    - destruct (chan_ready n k0 c0); [apply (F _ _ EG)|injection EG as <- _ _; exact H].
    - destruct (now <? start); [injection EG as <- _ _; exact H|]. destruct (ensure_run su n now k0 gen) as [[n1 j] o1] eqn:EE. injection EG as <- _ _.
      destruct (ensure_eff _ _ _ _ _ _ _ _ EE) as (_ & _ & X & _). cbn [fst]. rewrite X. exact H.
    - destruct (terminated_run n k0); injection EG as <- _ _; exact H.
    - destruct (chan_ready n k0 c0); [apply (F _ _ EG)|injection EG as <- _ _; exact H].
    - destruct (chan_ready n k0 c0); [apply (F _ _ EG)|injection EG as <- _ _; exact H].
    - destruct (receive _ _ _ _ _ _) as [[n1 o1]| |] eqn:ER; [|injection EG as <- _ _; exact H|discriminate]. injection EG as <- _ _.
      destruct (receive_eff _ _ _ _ _ _ _ _ ER) as (_ & _ & _ & X & _). cbn [fst]. rewrite X. exact H.
    - injection EG as <- _ _; exact H.
  Qed.
  Lemma hung_step i g k evs tr n T ev n' o : INV evs tr n T -> hung i g k n -> nstep n ev = Ok (n', o) -> hung i g k n'.
  Proof.
    intros [W R] (r & c & EN & EK & EP & EL & HH) HS. pose proof (w_sound _ _ _ _ _ _ _ _ _ _ W) as SO.
    assert (SAME : n_reqs n' = n_reqs n -> n_fw n' = n_fw n -> hung i g k n') by (intros E1 E2; exists r, c; rewrite E1, E2; auto).
    assert (FW : forall fev, firewall ky keccak pshash su n fev = Ok (n', o) -> hung i g k n').
    { intros fev EF. destruct (fw_step_of _ _ _ _ EF) as (fl & E & X). exists r, c. rewrite X. split; [exact EN|]. repeat (split; [assumption|]). eapply hit_step; eassumption. }
    assert (PUT : forall i' r' n1, n_reqs n1 = n_reqs n -> n_fw n1 = n_fw n -> i <> i' -> hung i g k (put_req n1 i' r')).
    { intros i' r' n1 E1 E2 N. exists r, c. cbn. rewrite E1, E2, put_diff by exact N. auto. }
    destruct ev as [now base start doc|now i' g'|now i'|now i' g' gen|now m|now|now k' c'|now pc g' gen|now pc g' nonce ord|now j nonce ord]; cbn [Node.nstep] in HS; try (apply (FW _ HS)).
    - injection HS as <- _. exists r, c. cbn. rewrite nth_error_app1 by (apply nth_error_Some; congruence). auto.
    - unfold request_go in HS. destruct (Nat.eq_dec i i') as [<-|N].
      { rewrite EN, EP in HS. injection HS as <- _. apply SAME; reflexivity. }
      destruct (nth_error (n_reqs n) i') as [r'|]; [|injection HS as <- _; apply SAME; reflexivity].
      destruct (rq_phase r') as [todo| |todo|todo|]; try (injection HS as <- _; apply SAME; reflexivity); (destruct (existsb (Z.eqb g') todo); [|injection HS as <- _; apply SAME; reflexivity]); cbv zeta in HS.
      + injection HS as <- _. apply PUT; [destruct (rq_doc r'); reflexivity|destruct (rq_doc r'); reflexivity|exact N].
      + injection HS as <- _. apply PUT; [reflexivity|reflexivity|exact N].
      + destruct (rq_doc r'), (snd (pop_output (n_outs n) (rq_key r' g'))) as [[]|]; try discriminate; try (injection HS as <- _; apply PUT; [reflexivity|reflexivity|exact N]).
        destruct (_ <? _)%nat; [discriminate|]. injection HS as <- _; apply PUT; [reflexivity|reflexivity|exact N].
    - injection HS as <- _. unfold request_wait. destruct (Nat.eq_dec i i') as [<-|N].
      { rewrite EN, EP. destruct (forallb _ _) eqn:EF; [|exists r, c; auto]. exfalso. rewrite forallb_forall in EF. specialize (EF _ (loc_in _ _ _ EL)). discriminate EF. }
      destruct (nth_error (n_reqs n) i') as [r'|]; [|exists r, c; auto]. destruct (rq_phase r'); try (exists r, c; auto; fail). destruct (forallb _ _); [|exists r, c; auto].
      apply PUT; [reflexivity|reflexivity|exact N].
    - unfold request_guest in HS. destruct (nth_error (n_reqs n) i') as [r'|] eqn:EN'; [|injection HS as <- _; apply SAME; reflexivity].
      destruct (loc_of (rq_locs r') g') as [l|] eqn:EL'; [|injection HS as <- _; apply SAME; reflexivity].
      destruct (guest_go _ _ _ _ _ _ _ _ _ _) as [[[n1 l1] o1]| |] eqn:EG; cbn [rbind fst snd] in HS; try discriminate. injection HS as <- _.
      pose proof (guest_hit _ _ _ _ _ _ _ _ _ _ _ _ _ SO EG HH) as HH1. pose proof (guest_reqs _ _ _ _ _ _ _ _ _ _ _ _ _ EG) as ER.
      destruct (Nat.eq_dec i i') as [<-|N]; [|exists r, c; cbn; rewrite ER, put_diff by exact N; auto].
      rewrite EN in EN'. injection EN' as <-. exists (with_locs r (set_loc (rq_locs r) g' l1)), c. cbn [put_req set_reqs n_reqs n_fw with_locs rq_phase rq_locs rq_key rq_pc rq_doc rq_id]. rewrite ER.
      split; [eapply put_same; exact EN|]. split; [exact EK|]. split; [exact EP|]. split; [|exact HH1].
      destruct (Z.eq_dec g g') as [<-|N]; [|rewrite loc_set_diff by exact N; exact EL].
      rewrite EL in EL'. injection EL' as <-. erewrite loc_set_same by exact EL. f_equal. unfold guest_go in EG. cbv zeta in EG. rewrite EK in EG.
      assert (CR : chan_ready n k c = false).
      { unfold chan_ready. destruct HH as (s & E1 & E2). rewrite E1. destruct SO as (_ & _ & _ & KI). destruct (KI k) as (_ & _ & C & _). specialize (C c). cbn [view_of v_calls] in C. rewrite E1 in C.
        destruct C as [_ C]. unfold done in C. rewrite E2 in C. destruct (sl_chan s); [reflexivity|cbn in C; lia]. }
      rewrite CR in EG. injection EG as _ <- _. reflexivity.
    - injection HS as HS. unfold consumer_take in HS; change (@fw_key) with (@key_of) in HS. destruct (kget (n_cons n) (qkey pc g')); [injection HS as <- _; apply SAME; reflexivity|].
      destruct (kslice (n_qs n) (qkey pc g')) as [|m q]; [injection HS as <- _; apply SAME; reflexivity|]. cbv zeta in HS. destruct (m_pc m <? 0); [injection HS as <- _; apply SAME; reflexivity|].
      destruct (ensure_run su _ now (key_of m) gen) as [[n2 j] o2] eqn:EE. injection HS as <- _. destruct (ensure_eff _ _ _ _ _ _ _ _ EE) as (_ & _ & X1 & X2 & _). apply SAME; cbn; assumption.
    - unfold consumer_deliver in HS. destruct (kget (n_cons n) (qkey pc g')) as [[j m]|]; [|injection HS as <- _; apply SAME; reflexivity].
      destruct (nth_error (n_heap n) j) as [[k0 r0]|]; [|discriminate]. destruct (deliver _ _ _ _ _) as [x| |]; cbn [rbind] in HS; try discriminate. injection HS as <- _. apply SAME; reflexivity.
    - unfold run_tick in HS. destruct (nth_error (n_heap n) j) as [[k0 r0]|]; [|injection HS as <- _; apply SAME; reflexivity].
      destruct (now <? r_wake r0); [injection HS as <- _; apply SAME; reflexivity|]. destruct (tick _ _ _ _ _) as [x| |]; cbn [rbind] in HS; try discriminate. injection HS as <- _. apply SAME; reflexivity.
  Qed.

  (** A request that has left wg.Wait has its guests done. *)
  Definition PH (n : node) : Prop := forall i r, nth_error (n_reqs n) i = Some r ->
    match rq_phase r with RReg _ | RRun => True | _ => forallb (fun x => guest_done (snd x)) (rq_locs r) = true end.
  Lemma done_stays l g x y : loc_of l g = Some y -> (guest_done y = true -> guest_done x = true) -> forallb (fun x => guest_done (snd x)) l = true -> forallb (fun x => guest_done (snd x)) (set_loc l g x) = true.
  Proof.
    induction l as [|[h z] l IH]; cbn; [auto|]. destruct (Z.eqb_spec h g) as [->|].
    - intros E H. injection E as ->. cbn. rewrite !andb_true_iff. intros [A B]. auto.
    - intros E H. cbn. rewrite !andb_true_iff. intros [A B]. auto.
  Qed.
  Lemma ph_step n ev n' o : PH n -> nstep n ev = Ok (n', o) -> PH n'.
  Proof.
    intros HP HS. assert (SAME : n_reqs n' = n_reqs n -> PH n') by (intros E i r; rewrite E; apply HP).
    assert (FW : forall fev, firewall ky keccak pshash su n fev = Ok (n', o) -> PH n') by (intros fev EF; apply SAME; destruct (fw_step_of _ _ _ _ EF) as (fl & _ & X); exact X).
    assert (PUT : forall i r1 n1, n_reqs n1 = n_reqs n -> match rq_phase r1 with RReg _ | RRun => True | _ => forallb (fun x => guest_done (snd x)) (rq_locs r1) = true end -> PH (put_req n1 i r1)).
    { intros i r1 n1 E H j r Hr. cbn in Hr. rewrite E in Hr. apply nth_put in Hr. destruct Hr as [[_ ->]|Hr]; [exact H|]. apply (HP _ _ Hr). }
    destruct ev as [now base start doc|now i g|now i|now i g gen|now m|now|now k c|now pc g gen|now pc g nonce ord|now j nonce ord]; cbn [Node.nstep] in HS; try (apply (FW _ HS)).
    - injection HS as <- _. intros i r Hr. cbn in Hr. apply nth_snoc in Hr. destruct Hr as [[_ ->]|Hr]; [|apply (HP _ _ Hr)]. unfold new_request. destruct doc; [destruct (su_guests su)|]; exact I.
    - unfold request_go in HS. destruct (nth_error (n_reqs n) i) as [r|] eqn:EN; [|injection HS as <- _; apply SAME; reflexivity]. pose proof (HP _ _ EN) as HR.
      destruct (rq_phase r) as [todo| |todo|todo|]; try (injection HS as <- _; apply SAME; reflexivity); (destruct (existsb (Z.eqb g) todo); [|injection HS as <- _; apply SAME; reflexivity]); cbv zeta in HS.
      + injection HS as <- _. apply PUT; [destruct (rq_doc r); reflexivity|]. destruct (remove g todo); exact I.
      + injection HS as <- _. apply PUT; [reflexivity|]. cbn. destruct (remove g todo); exact HR.
      + assert (X : PH (put_req (set_outs n (fst (pop_output (n_outs n) (rq_key r g)))) i (with_phase r match remove g todo with [] => RDone | _ => RPop (remove g todo) end))).
        { apply PUT; [reflexivity|]. cbn. destruct (remove g todo); exact HR. }
        destruct (rq_doc r), (snd (pop_output (n_outs n) (rq_key r g))) as [[]|]; try discriminate; try (injection HS as <- _; exact X).
        destruct (_ <? _)%nat; [discriminate|]. injection HS as <- _; exact X.
    - injection HS as <- _. unfold request_wait. destruct (nth_error (n_reqs n) i) as [r|] eqn:EN; [|exact HP]. destruct (rq_phase r); try exact HP. destruct (forallb _ _) eqn:EF; [|exact HP].
      apply PUT; [reflexivity|]. cbn. destruct (rq_doc r); exact EF.
    - unfold request_guest in HS. destruct (nth_error (n_reqs n) i) as [r|] eqn:EN; [|injection HS as <- _; apply SAME; reflexivity].
      destruct (loc_of (rq_locs r) g) as [l|] eqn:EL; [|injection HS as <- _; apply SAME; reflexivity].
      destruct (guest_go _ _ _ _ _ _ _ _ _ _) as [[[n1 l1] o1]| |] eqn:EG; cbn [rbind fst snd] in HS; try discriminate. injection HS as <- _.
      apply PUT; [eapply guest_reqs; exact EG|]. cbn [with_locs rq_phase rq_locs]. pose proof (HP _ _ EN) as HR.
      assert (DN : guest_done l = true -> guest_done l1 = true).
      { unfold guest_go in EG. cbv zeta in EG. destruct l as [|c|c|c|c|c| |]; try discriminate; intros _.
        - destruct (chan_ready _ _ _); [destruct (firewall _ _ _ _ _ _); cbn [rbind] in EG; try discriminate|]; injection EG as _ <- _; reflexivity.
        - destruct (chan_ready _ _ _); [destruct (firewall _ _ _ _ _ _); cbn [rbind] in EG; try discriminate|]; injection EG as _ <- _; reflexivity.
        - destruct (receive _ _ _ _ _ _); try discriminate; injection EG as _ <- _; reflexivity.
        - injection EG as _ <- _; reflexivity. }
      destruct (rq_phase r); auto; eapply done_stays; eassumption.
    - injection HS as HS. unfold consumer_take in HS; change (@fw_key) with (@key_of) in HS. destruct (kget (n_cons n) (qkey pc g)); [injection HS as <- _; apply SAME; reflexivity|].
      destruct (kslice (n_qs n) (qkey pc g)) as [|m q]; [injection HS as <- _; apply SAME; reflexivity|]. cbv zeta in HS. destruct (m_pc m <? 0); [injection HS as <- _; apply SAME; reflexivity|].
      destruct (ensure_run su _ now (key_of m) gen) as [[n2 j] o2] eqn:EE. injection HS as <- _. destruct (ensure_eff _ _ _ _ _ _ _ _ EE) as (_ & _ & X1 & X2 & _). apply SAME; cbn; assumption.
    - unfold consumer_deliver in HS. destruct (kget (n_cons n) (qkey pc g)) as [[j m]|]; [|injection HS as <- _; apply SAME; reflexivity].
      destruct (nth_error (n_heap n) j) as [[k0 r0]|]; [|discriminate]. destruct (deliver _ _ _ _ _) as [x| |]; cbn [rbind] in HS; try discriminate. injection HS as <- _. apply SAME; reflexivity.
    - unfold run_tick in HS. destruct (nth_error (n_heap n) j) as [[k0 r0]|]; [|injection HS as <- _; apply SAME; reflexivity].
      destruct (now <? r_wake r0); [injection HS as <- _; apply SAME; reflexivity|]. destruct (tick _ _ _ _ _) as [x| |]; cbn [rbind] in HS; try discriminate. injection HS as <- _. apply SAME; reflexivity.
  Qed.

  Lemma nexec_app (n : node) a b : nexec ky keccak pshash su n (a ++ b) = (x <- nexec ky keccak pshash su n a ;; y <- nexec ky keccak pshash su (fst x) b ;; Ok (fst y, snd x ++ snd y)).
  Proof.
    revert n. induction a as [|ev a IH]; intros n; cbn [nexec app].
    - cbn [rbind fst snd app]. destruct (nexec ky keccak pshash su n b) as [[n' o]| |]; reflexivity.
    - destruct (nstep n ev) as [[n1 o1]| |]; cbn [rbind fst snd]; [|reflexivity|reflexivity]. rewrite IH. destruct (nexec ky keccak pshash su n1 a) as [[n2 o2]| |]; cbn [rbind fst snd]; [|reflexivity|reflexivity].
      destruct (nexec ky keccak pshash su n2 b) as [[n3 o3]| |]; cbn [rbind fst snd]; [rewrite app_assoc; reflexivity|reflexivity|reflexivity].
  Qed.
  Lemma nclock_app (a b : list nevent) : forall t, nclock t (a ++ b) -> nclock t a.
  Proof. induction a as [|ev a IH]; intros t; cbn; [auto|]. intros [A B]. split; [exact A|apply (IH _ B)]. Qed.
  Lemma history_prefix a b n tr : nhistory ky keccak pshash su until now0 (a ++ b) n tr ->
    exists n1 tr1 tr2, nhistory ky keccak pshash su until now0 a n1 tr1 /\ nexec ky keccak pshash su n1 b = Ok (n, tr2) /\ tr = tr1 ++ tr2.
  Proof.
    intros [HC HE]. rewrite nexec_app in HE. destruct (nexec ky keccak pshash su (start_node su until now0) a) as [[n1 tr1]| |] eqn:E1; cbn [rbind fst snd] in HE; try discriminate.
    destruct (nexec ky keccak pshash su n1 b) as [[n2 tr2]| |] eqn:E2; cbn [rbind fst snd] in HE; try discriminate. injection HE as <- <-.
    exists n1, tr1, tr2. split; [split; [eapply nclock_app; exact HC|exact E1]|]. auto.
  Qed.
  Lemma hung_forever i g k evs1 : forall evs n tr, (exists n1 tr1, nhistory ky keccak pshash su until now0 evs1 n1 tr1 /\ hung i g k n1) -> nhistory ky keccak pshash su until now0 (evs1 ++ evs) n tr -> hung i g k n.
  Proof.
    induction evs as [|ev evs IH] using rev_ind; intros n tr H1 H2.
    - rewrite app_nil_r in H2. destruct H1 as (n1 & tr1 & A & B). destruct H2 as [_ H2], A as [_ A]. rewrite A in H2. injection H2 as <- _. exact B.
    - rewrite app_assoc in H2. destruct (history_prefix _ _ _ _ H2) as (n2 & t2 & t3 & A & B & C). cbn [nexec] in B.
      destruct (nstep n2 ev) as [[n3 o3]| |] eqn:ES; cbn [rbind fst snd] in B; try discriminate. injection B as <- _.
      destruct (history_inv _ _ _ _ _ _ _ _ _ A) as [T HI]. eapply hung_step; [exact HI|apply (IH _ _ H1 A)|exact ES].
  Qed.
  Lemma history_ph evs n tr : nhistory ky keccak pshash su until now0 evs n tr -> PH n.
  Proof.
    intros HH. destruct (history_ind ky keccak pshash su until now0 (fun _ _ n => PH n)) with (3 := HH) as (_ & _ & X); [| |exact X].
    - intros. eapply ph_step; eassumption.
    - intros [|i] r H; discriminate.
  Qed.
  Lemma allow_hangs n now i g gen r n' o : PH n -> nth_error (n_reqs n) i = Some r -> loc_of (rq_locs r) g = Some GAllow -> rq_phase r = RRun -> kget (f_allow (n_fw n)) (rq_key r g) <> None ->
    nstep n (VGuest now i g gen) = Ok (n', o) -> hung i g (rq_key r g) n'.
  Proof.
    intros HP EN EL EP EA HS. cbn [Node.nstep] in HS. unfold request_guest in HS. rewrite EN, EL in HS. unfold guest_go in HS. cbv zeta in HS.
    destruct (firewall _ _ _ _ _ _) as [[n1 o1]| |] eqn:EF; cbn [rbind fst snd] in HS; try discriminate. injection HS as <- _.
    destruct (fw_step_of _ _ _ _ EF) as (fl & E & X). eexists _, _. cbn [put_req set_reqs n_reqs n_fw]. rewrite X. split; [eapply put_same; exact EN|]. split; [reflexivity|]. split; [exact EP|].
    split; [cbn; eapply loc_set_same; exact EL|]. cbn [fstep] in E. unfold fw_set_allowance in E. destruct (negb _); [discriminate|].
    destruct (kget (f_allow (n_fw n)) (rq_key r g)); [|congruence]. injection E as <- _. unfold hit. cbn [set_calls f_calls]. rewrite kslice_kset, key_eqb_refl, nth_error_app2, Nat.sub_diag by lia.
    eexists. split; reflexivity.
  Qed.
End NP.
