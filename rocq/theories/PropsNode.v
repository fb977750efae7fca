(** Statements about a running node. *)
From Coq Require Import ZArith List Lia Bool.
From Coq Require Import Init.Byte.
From Verif Require Import Params NumTh Curve Order Bytes Res Secp Spec SecpProofs SecpProofs2 PublicKey Schnorr Dto DtoProofs
  Dss DssProofs DssProofs2 DssProofs3 Prot ProtSpec DkgProt KMap Firewall FwSpec FwProofs4 Outputs PropsOutputs Node NodeSpec
  DkgProofs NodeRun NodeProofs NodeProofs2 NodeProofs3 NodeProofs4 NodeProofs5.
Import ListNotations.
Open Scope Z_scope.

Section Statements.
  Context {G : Type}.
  Variable ky : kyber G.
  Variable keccak : bytes -> bytes.
  Variable pshash : Z -> Z -> bytes.
  Variable su : setup.
  Variables until now0 : Z.
  Notation history := (nhistory ky keccak pshash su until now0).

  (** C57.  An incoming message is not treated as a signal to remove a run: if it reaches
      a queue at all it is the message itself, in range, for a local guest; the run
      table is as before. *)
  Theorem C57_incoming evs n tr now m n' o : history evs n tr -> nclock now0 (evs ++ [VIn now m]) ->
    nstep ky keccak pshash su n (VIn now m) = Ok (n', o) ->
    n_table n' = n_table n /\ (forall m', In (NQueued m') o -> m' = m /\ in_range ky keccak pshash su m) /\ (forall k, ~ In (NDelete k) o /\ ~ In (NCleanup k) o).
  Proof.
    intros HH HC HS. destruct (history_inv _ _ _ _ _ _ _ _ _ HH) as [T HI].
    assert (HH' : history (evs ++ [VIn now m]) n' (tr ++ o)).
    { split; [exact HC|]. destruct HH as [_ HE]. rewrite nexec_app, HE. cbn [rbind fst snd nexec]. rewrite HS. cbn [rbind fst snd]. rewrite app_nil_r. reflexivity. }
    destruct (history_inv _ _ _ _ _ _ _ _ _ HH') as [T' HI']. cbn [nstep] in HS.
    destruct (firewall_eff _ _ _ _ _ _ _ _ HS) as (CA & _ & (TE & _) & fl & EF & HQ). split; [exact TE|]. rewrite Forall_forall in CA. split.
    - intros m' Hm. destruct (HQ m' Hm) as [t Ht]. cbn [fstep] in EF. injection EF as _ <-. unfold fw_process in Ht; change (@fw_key) with (@key_of) in Ht.
      assert (E : m' = m).
      { destruct Ht as [Ht|Ht]; [discriminate|]. destruct (_ || _); [contradiction|]. destruct (kget _ _) as [st|]; [|contradiction].
        destruct (st =? _); [destruct (_ <? _); contradiction|]. destruct (st =? _); [|contradiction]. destruct Ht as [Ht|[]]. injection Ht as _ ->. reflexivity. }
      subst m'. split; [reflexivity|]. apply in_split in Hm. destruct Hm as (a & b & ->). 
      destruct (r_tr _ _ _ _ _ _ _ _ (proj2 HI') (tr ++ a) (NQueued m) b) as [X|[L _]]; [rewrite <- app_assoc; reflexivity|exact X|].
      exfalso. assert (Y : In (NFw (FPass t m)) (tr ++ a ++ NQueued m :: b)).
      { apply in_or_app. right. unfold firewall in HS. destruct (fstep (n_fw n) (EvIn now m)) as [[f1 l1]| |] eqn:EF; cbn [rbind fst snd] in HS; try discriminate.
        cbn [fstep] in EF. injection EF as <- <-. revert HS. clear -Ht. generalize (set_fw n (fst (fw_process (n_fw n) now m))). unfold fw_process; change (@fw_key) with (@key_of).
        assert (R : forall l (n0 : node) n1 o1, receive_all ky keccak pshash su n0 l = Ok (n1, o1) -> In (FPass t m) l -> In (NFw (FPass t m)) o1).
        { induction l as [|x l IH]; intros n0 n1 o1; cbn [receive_all]; [contradiction|].
          destruct (match x with FPass _ m => receive ky keccak pshash su n0 m | _ => Ok (n0, []) end) as [[n2 o2]| |]; cbn [rbind fst snd]; try discriminate.
          destruct (receive_all ky keccak pshash su n2 l) as [[n3 o3]| |] eqn:E3; cbn [rbind fst snd]; try discriminate. intros E. injection E as <- <-.
          intros [->|H]; [left; reflexivity|]. right. apply in_or_app. right. eapply IH; eassumption. }
        intros n0 HS. eapply R; [exact HS|]. exact Ht. }
      assert (Z : In (FPass t m) (fw_trace (tr ++ a ++ NQueued m :: b))) by (unfold fw_trace; apply in_flat_map; exists (NFw (FPass t m)); split; [exact Y|left; reflexivity]).
      destruct (w_pass _ _ _ _ _ _ _ _ _ _ (proj1 HI') t m Z) as [B _]. lia.
    - intros k. split; intros H; apply (CA _ H).
  Qed.
  (** Whatever the interleaving: a message in a queue is in range or the signal of a
      finished local request; a removed run was a signing run whose own request had sent
      that signal, once for each removal, after the firewall had stopped the run. *)
  Theorem C57_queues evs n tr a m b : history evs n tr -> tr = a ++ NQueued m :: b ->
    in_range ky keccak pshash su m \/ m_pc m < 0 /\ In (NCleanup (mkKey (- m_pc m) (m_rcpt m) (m_run m))) a.
  Proof. intros HH E. destruct (history_inv _ _ _ _ _ _ _ _ _ HH) as [T [_ R]]. exact (r_tr _ _ _ _ _ _ _ _ R _ _ _ E). Qed.
  Theorem C57_removals evs n tr a k b : history evs n tr -> tr = a ++ NDelete k :: b ->
    k_pc k = pc_dss /\ In (NCleanup k) a /\ (deletes k tr <= cleanups k tr)%nat /\
    (exists t, In (NFw (FPhase t k fw_stopped)) a) /\ exists start doc t, requested su evs k start doc t.
  Proof.
    intros HH E. destruct (history_inv _ _ _ _ _ _ _ _ _ HH) as [T [_ R]]. destruct (r_tr _ _ _ _ _ _ _ _ R _ _ _ E) as [A B].
    split; [exact B|]. split; [exact A|]. pose proof (history_gi _ _ _ _ _ _ _ _ _ HH) as GI. split.
    - rewrite (g_del _ _ _ GI k B), (g_cln _ _ _ GI k B), (g_fifo _ _ _ GI), sigs_app. lia.
    - apply in_split in A. destruct A as (a1 & a2 & ->). assert (E2 : tr = a1 ++ NCleanup k :: (a2 ++ NDelete k :: b)) by (rewrite E, <- app_assoc; reflexivity).
      destruct (r_tr _ _ _ _ _ _ _ _ R _ _ _ E2) as [(t & X1) (t2 & start & doc & t3 & X2 & _)]. split; [exists t; apply in_or_app; auto|]. eauto.
  Qed.

  (** C75.  Runs are made only for requests; what a run signs is what was requested under
      its id. *)
  Theorem C75_only_requested_runs evs n tr t k : history evs n tr -> In (NCreate t k) tr -> exists start doc tq, requested su evs k start doc tq.
  Proof.
    intros HH H. destruct (history_inv _ _ _ _ _ _ _ _ _ HH) as [T [_ R]]. apply in_split in H. destruct H as (a & b & E).
    destruct (r_tr _ _ _ _ _ _ _ _ R _ _ _ E) as (start & doc & tq & X & _). eauto.
  Qed.
  Theorem C75_only_requested_documents evs n tr k o : history evs n tr -> In (NRun k o) tr -> on_request ky keccak pshash su evs k o.
  Proof.
    intros HH H. destruct (history_inv _ _ _ _ _ _ _ _ _ HH) as [T [_ R]]. apply in_split in H. destruct H as (a & b & E).
    exact (proj1 (proj2 (r_tr _ _ _ _ _ _ _ _ R _ _ _ E))).
  Qed.
  (** C76.  A run is made at its start time or later, after the request; nothing happens
      in a run before it is made. *)
  Theorem C76_not_before_start evs n tr t k : history evs n tr -> In (NCreate t k) tr ->
    exists start doc tq, requested su evs k start doc tq /\ start <= t /\ tq <= t.
  Proof.
    intros HH H. destruct (history_inv _ _ _ _ _ _ _ _ _ HH) as [T [_ R]]. apply in_split in H. destruct H as (a & b & E).
    destruct (r_tr _ _ _ _ _ _ _ _ R _ _ _ E) as (start & doc & tq & X & Y & W). eauto 6.
  Qed.
  Theorem C76_silent_before evs n tr a k o b : history evs n tr -> tr = a ++ NRun k o :: b -> exists t, In (NCreate t k) a.
  Proof. intros HH E. destruct (history_inv _ _ _ _ _ _ _ _ _ HH) as [T [_ R]]. exact (proj1 (r_tr _ _ _ _ _ _ _ _ R _ _ _ E)). Qed.

  (** C56.  Signing runs: when the signal of its (only) request has been sent and the
      queue has been emptied, the run has been removed once and is not in the table.
      Each signal removes once, whether or not ids were reused. *)
  Theorem C56_signing_runs_removed evs n tr k : NoDup (su_guests su) -> history evs n tr -> k_pc k = pc_dss -> (requests_for k evs <= 1)%nat ->
    In (NCleanup k) tr -> queued_to pc_dss (k_guest k) tr = taken_from pc_dss (k_guest k) tr -> kget (n_table n) k = None /\ deletes k tr = 1%nat.
  Proof.
    intros ND HH KP HR HC HQ. destruct (history_u _ _ _ _ _ _ k _ _ _ ND KP HH) as [GI [_ U]]. destruct (U HR) as (U0 & _ & U2 & _).
    assert (C1 : (1 <= cleanups k tr)%nat).
    { unfold cleanups. apply in_split in HC. destruct HC as (a & b & ->). rewrite filter_app, app_length. cbn. rewrite key_eqb_refl. cbn. lia. }
    assert (D1 : deletes k tr = cleanups k tr) by (rewrite (g_del _ _ _ GI k KP), (g_cln _ _ _ GI k KP), HQ; reflexivity).
    split; [apply U2; lia|lia].
  Qed.
  Theorem C56_each_signal_removes evs n tr k : history evs n tr -> k_pc k = pc_dss ->
    queued_to pc_dss (k_guest k) tr = taken_from pc_dss (k_guest k) tr -> deletes k tr = cleanups k tr.
  Proof. intros HH KP HQ. pose proof (history_gi _ _ _ _ _ _ _ _ _ HH) as GI. rewrite (g_del _ _ _ GI k KP), (g_cln _ _ _ GI k KP), HQ. reflexivity. Qed.
  (** Key generation runs are never removed. *)
  Theorem C56_key_generation_runs_stay evs n tr t k : history evs n tr -> k_pc k = pc_dkg -> In (NCreate t k) tr -> kget (n_table n) k <> None.
  Proof.
    intros HH KP HC. pose proof (history_gi _ _ _ _ _ _ _ _ _ HH) as GI. pose proof (g_tab _ _ _ GI k) as X.
    enough (Y : in_table k tr = true) by (rewrite Y in X; destruct (kget (n_table n) k); congruence).
    destruct (history_inv _ _ _ _ _ _ _ _ _ HH) as [T [_ R]]. apply in_split in HC. destruct HC as (a & b & E). rewrite E. unfold in_table. rewrite fold_left_app. cbn. rewrite key_eqb_refl.
    assert (ND : ~ In (NDelete k) b).
    { intros H. apply in_split in H. destruct H as (b1 & b2 & ->). destruct (r_tr _ _ _ _ _ _ _ _ R (a ++ NCreate t k :: b1) (NDelete k) b2) as [_ H]; [rewrite E, <- app_assoc; reflexivity|].
      rewrite KP in H. discriminate H. }
    clear E. induction b as [|x b IH]; [reflexivity|]. assert (ND2 : ~ In (NDelete k) b) by (intros H; apply ND; right; exact H). cbn.
    destruct x as [| | | |t' k'|k'| | |]; try (apply IH, ND2).
    - destruct (key_eqb k' k); apply IH, ND2.
    - destruct (key_eqb_spec k' k) as [->|]; [exfalso; apply ND; left; reflexivity|apply IH, ND2].
  Qed.

  (** C78.  Once removed, a run requested at most once is not made again. *)
  Theorem C78_not_recreated evs n tr k a b : NoDup (su_guests su) -> history evs n tr -> k_pc k = pc_dss -> (requests_for k evs <= 1)%nat ->
    tr = a ++ NDelete k :: b -> (forall t, ~ In (NCreate t k) b) /\ kget (n_table n) k = None.
  Proof.
    intros ND HH KP HR E. destruct (history_u _ _ _ _ _ _ k _ _ _ ND KP HH) as [GI [_ U]]. destruct (U HR) as (_ & _ & U2 & U3). split; [apply (U3 _ _ E)|].
    apply U2. rewrite E, deletes_app. unfold deletes. cbn. rewrite key_eqb_refl. cbn. lia.
  Qed.

  (** C82.  A request that asks the firewall for a run while an allowance for that run
      exists never returns, in no continuation. *)
  Theorem C82_duplicate_never_returns evs n tr now i g gen r n1 o : history evs n tr ->
    nth_error (n_reqs n) i = Some r -> loc_of (rq_locs r) g = Some GAllow -> kget (f_allow (n_fw n)) (rq_key r g) <> None ->
    nclock now0 (evs ++ [VGuest now i g gen]) -> nstep ky keccak pshash su n (VGuest now i g gen) = Ok (n1, o) ->
    forall evs' n' tr', history ((evs ++ [VGuest now i g gen]) ++ evs') n' tr' ->
      exists r', nth_error (n_reqs n') i = Some r' /\ rq_phase r' = RRun /\ exists c, loc_of (rq_locs r') g = Some (GBuf c).
  Proof.
    intros HH EN EL EA HC HS evs' n' tr' HH2. pose proof (history_ph _ _ _ _ _ _ _ _ _ HH) as PH0.
    assert (EP : rq_phase r = RRun).
    { pose proof (PH0 i r EN) as X. pose proof (history_gi _ _ _ _ _ _ _ _ _ HH) as GI. destruct (g_locs _ _ _ GI i r EN) as [_ L].
      destruct (rq_phase r) as [todo| |todo|todo|]; [rewrite (L todo eq_refl) in EL; discriminate|reflexivity|..];
        exfalso; rewrite forallb_forall in X; specialize (X _ (loc_in _ _ _ EL)); discriminate X. }
    assert (H1 : exists n1 tr1, history (evs ++ [VGuest now i g gen]) n1 tr1 /\ hung i g (rq_key r g) n1).
    { exists n1, (tr ++ o). split; [|eapply allow_hangs; eassumption]. split; [exact HC|]. destruct HH as [_ HE]. rewrite nexec_app, HE. cbn [rbind fst snd nexec]. rewrite HS. cbn [rbind fst snd]. rewrite app_nil_r. reflexivity. }
    destruct (hung_forever _ _ _ _ _ _ _ _ _ _ evs' n' tr' H1 HH2) as (r' & c & X1 & _ & X3 & X4 & _). eauto.
  Qed.

  (** C83.  Incoming queues are first in, first out; nothing is lost or made up in them. *)
  Theorem C83_queues_fifo evs n tr pc g : history evs n tr -> queued_to pc g tr = taken_from pc g tr ++ kslice (n_qs n) (qkey pc g).
  Proof. intros HH. exact (g_fifo _ _ _ (history_gi _ _ _ _ _ _ _ _ _ HH) pc g). Qed.
End Statements.

(** ** Concrete histories *)
(** Guest 0 is asked at time 0 for run "a20", from 20 ms on; a message for it comes
    at 16 ms, is buffered and passed on; the run goes to its end and is cleaned up. *)
Definition ex_start : Z := 20 * ms.
Definition ex_key (pc : Z) : key := mkKey pc 0 (run_id_for [x61] ex_start).
Definition ex_end : Z := 100000000 * ms.
Definition ex_begin (i : nat) (doc : option Z) : list (nevent (G := Z)) :=
  VRequest 0 [x61] ex_start doc :: match doc with Some _ => [VGo 0 i 0] | None => [] end.
Definition ex_go (doc : option Z) : list (nevent (G := Z)) :=
  let k := ex_key (pc_for doc) in let stray s := mkMsg s (k_pc k) 0 (k_run k) 2 (PWire WOther) in
  [VGuest 0 0 0 7; VFw 0 k 0; VFw (15 * ms) k 0; VGuest (15 * ms) 0 0 7; VIn (16 * ms) (stray 0); VFw (20 * ms) k 0; VTake ex_start (k_pc k) 0 7;
   VDeliver ex_start (k_pc k) 0 5 (fun _ l => l); VGuest ex_start 0 0 7].
Definition ex_ticks (nonce : Z) (n : nat) : list (nevent (G := Z)) := map (fun i => VTick (ex_start + Z.of_nat i * 100000 * ms) 0 nonce (fun _ l => l)) (seq 0 n).

Lemma nexec_cons {G} (ky : kyber G) keccak pshash su n ev l n1 t1 n2 t2 :
  nstep ky keccak pshash su n ev = Ok (n1, t1) -> nexec ky keccak pshash su n1 l = Ok (n2, t2) -> nexec ky keccak pshash su n (ev :: l) = Ok (n2, t1 ++ t2).
Proof. intros E1 E2. cbn [nexec]. rewrite E1. cbn [rbind fst snd]. rewrite E2. reflexivity. Qed.
Lemma tick_node {G} (ky : kyber G) keccak pshash su n now j nonce ord k r x : nth_error (n_heap n) j = Some (k, r) -> (now <? r_wake r) = false ->
  Prot.step (the_prot ky keccak pshash (k_pc k)) (run_info su k) r (ETick (env_for su n k nonce ord) now) = Ok x ->
  nstep ky keccak pshash su n (VTick now j nonce ord) = Ok (run_after n j k x).
Proof. intros E1 E2 E3. cbn [nstep]. unfold run_tick. rewrite E1, E2. cbn [Prot.step] in E3. rewrite E3. reflexivity. Qed.
Section Sign.
  Variable keccak : bytes -> bytes. Variable pshash : Z -> Z -> bytes.
  Lemma sign_history random long P0 P1 d d' sg w s nonce : 
    new_dss keccak 3 [P0; P1] (share_of long) (share_of random) [0; 1] 10 1 = Ok d ->
    partial_sig keccak pshash nonce d = Ok (d', sg, true) -> to_wire (OPart sg) = Ok w ->
    enough d' = true -> signature keccak (fun _ l => l) d' = Ok s ->
    let ky := mkKyber Z (fun g => (g, Some [])) (fun g d => (g + 1, Some None)) (fun g r => (g, None)) (fun g j => g) (fun g => g)
      (fun g => true) (fun g => [0; 1]) (fun g => (g, Some (mkCommits 0 [] [] []))) (fun g c => (g, None)) (fun g c => (g, None))
      (fun g r => g) (fun g => true) (fun g => Some random) in
    let su := mkSetup [0] [P0; P1] 1 2 (fun _ => 3) (fun _ => Some long) in
    exists n tr, nexec ky keccak pshash su (start_node su 0 0) (ex_begin 0 (Some 10) ++ ex_go (Some 10) ++ ex_ticks nonce 25) = Ok (n, tr) /\
      In (NRun (ex_key pc_dss) (OSent (mkMsg 0 pc_dss 1 (k_run (ex_key pc_dss)) op_dss_partsig (PWire w)))) tr /\
      In (NRun (ex_key pc_dss) (OOutput pc_dss (VSig s))) tr.
  Proof.
    intros E3 E4 E5 E6 E7 ky su. lazy -[share_of new_dss] in E3. eexists _, _. split.
    { lazy beta delta [ex_begin ex_go ex_ticks app seq map] iota.
      do 11 (eapply nexec_cons; [lazy -[share_of new_dss partial_sig enough signature]; reflexivity|]).
      do 19 (eapply nexec_cons; [lazy -[share_of new_dss partial_sig enough signature]; reflexivity|]).
      eapply nexec_cons.
      { eapply tick_node; [reflexivity|reflexivity|]. eapply enter_plain; [reflexivity|reflexivity|reflexivity|reflexivity|reflexivity|
        lazy -[share_of new_dss]; rewrite E3; reflexivity|reflexivity|reflexivity]. }
      eapply nexec_cons; [lazy; reflexivity|].
      eapply nexec_cons.
      { eapply tick_node; [reflexivity|reflexivity|]. eapply enter_plain; [reflexivity|reflexivity|reflexivity|reflexivity|reflexivity|
        lazy -[partial_sig to_wire]; rewrite E4; rewrite E5; reflexivity|reflexivity|reflexivity]. }
      eapply nexec_cons; [lazy; reflexivity|].
      eapply nexec_cons.
      { eapply tick_node; [reflexivity|reflexivity|]. eapply enter_plain; [reflexivity|reflexivity|reflexivity|reflexivity|reflexivity|
        lazy -[enough signature]; rewrite E6; rewrite E7; reflexivity|reflexivity|reflexivity]. }
      eapply nexec_cons; [lazy; reflexivity|].
      reflexivity. }
    split; repeat first [left; reflexivity | right].
  Qed.

End Sign.

Definition ex_stop (i : nat) (doc : option Z) : list (nevent (G := Z)) :=
  let k := ex_key (pc_for doc) in let go := VGuest ex_end i 0 7 in
  [go; VWait ex_end i; VFw ex_end k 0; go; VFw ex_end k 0; go; VFw ex_end k 0; go; VGo ex_end i 0; VGo ex_end i 0].
Definition ex_all doc := ex_begin 0 doc ++ ex_go doc ++ ex_ticks 5 26 ++ ex_stop 0 doc ++ [VTake ex_end (pc_for doc) 0 7].
(** The DKG library finishes if it makes deals; a signing run without deals is abandoned. *)
Definition ex_ky (deals : option (list (Z * enc_deal))) : kyber Z := mkKyber Z
  (fun g => (g, deals)) (fun g d => (g + 1, Some None)) (fun g r => (g, None)) (fun g j => g) (fun g => g)
  (fun g => true) (fun g => [0]) (fun g => (g, Some (mkCommits 0 [] [] []))) (fun g c => (g, None)) (fun g c => (g, None))
  (fun g r => g) (fun g => true) (fun g => Some (mkDks [] (mkPri 0 1))).
Definition ex_su : setup := mkSetup [0] [(1, 1)] 1 1 (fun _ => 3) (fun _ => None).
Definition ex_run deals evs := nexec (ex_ky deals) (fun b => b) (fun _ _ => []) ex_su (start_node ex_su 0 0) evs.
Definition ex_history deals evs n tr := nhistory (ex_ky deals) (fun b => b) (fun _ _ => []) ex_su 0 0 evs n tr.
Lemma ex_all_clock doc : nclock 0 (ex_all doc).
Proof. destruct doc; vm_compute; intuition discriminate. Qed.
Definition kind_of (o : nobs) : list Z :=
  match o with NQueued _ => [1] | NTake _ => [2] | NCreate _ _ => [3] | NDelete _ => [4] | NCleanup _ => [5] | NPop _ _ => [6] | NRun _ (OHandle _) => [7] | _ => [] end.

(** C56, C57, C76, C78, C83: a signing run; the message and the signal go through the
    queue, the run is made, handles the message, ends, is removed. *)
Example C56_ex : exists n tr, ex_history None (ex_all (Some 10)) n tr /\ requests_for (ex_key pc_dss) (ex_all (Some 10)) = 1%nat /\
  flat_map kind_of tr = [1; 2; 3; 7; 5; 1; 6; 2; 4] /\ In (NCleanup (ex_key pc_dss)) tr /\ In (NCreate ex_start (ex_key pc_dss)) tr /\
  queued_to pc_dss 0 tr = taken_from pc_dss 0 tr /\ length (queued_to pc_dss 0 tr) = 2%nat /\ n_table n = [] /\
  map rq_phase (n_reqs n) = [RDone].
Proof.
  destruct (ex_run None (ex_all (Some 10))) as [[n tr]| |] eqn:E; [|vm_compute in E; discriminate..]. exists n, tr. vm_compute in E. injection E as <- <-.
  split; [split; [apply ex_all_clock|vm_compute; reflexivity]|]. 
  repeat match goal with |- _ /\ _ => split end; lazymatch goal with |- In _ _ => repeat first [left; reflexivity | right] | _ => vm_compute; reflexivity end.
Qed.
(** C56: key generation: the request has returned its share, the signal has been sent and
    taken, and the run is still in the table. *)
Theorem C56_every_run_removed_refuted : exists (ky : kyber Z) keccak pshash su until now0 evs n tr k, nhistory ky keccak pshash su until now0 evs n tr /\
  NoDup (su_guests su) /\ requests_for k evs = 1%nat /\ In (NCleanup k) tr /\ (forall pc g, kslice (n_qs n) (qkey pc g) = []) /\
  map rq_phase (n_reqs n) = [RDone] /\ kget (n_table n) k <> None.
Proof.
  exists (ex_ky (Some [])), (fun b => b), (fun _ _ => []), ex_su, 0, 0, (ex_all None).
  destruct (ex_run (Some []) (ex_all None)) as [[n tr]| |] eqn:E; [|vm_compute in E; discriminate..]. exists n, tr, (ex_key pc_dkg). vm_compute in E. injection E as <- <-.
  split; [split; [apply ex_all_clock|vm_compute; reflexivity]|]. split; [repeat constructor; intuition discriminate|].
  split; [vm_compute; reflexivity|]. split; [repeat first [left; reflexivity | right]|]. split; [|split; [reflexivity|vm_compute; discriminate]].
  intros pc g. cbn [n_qs kslice kget]. unfold kslice. cbn [kget]. destruct (key_eqb _ _); reflexivity.
Qed.
(** C57: a forged signal from the network, at any time of a history. *)
Example C57_ex : exists n tr, ex_history None (ex_begin 0 (Some 10) ++ ex_go (Some 10)) n tr /\
  exists n' o, nstep (ex_ky None) (fun b => b) (fun _ _ => []) ex_su n (VIn ex_start (signal nil_dto (ex_key pc_dss))) = Ok (n', o) /\
  kget (n_table n') (ex_key pc_dss) = Some 0%nat /\ flat_map kind_of o = [].
Proof.
  destruct (ex_run None (ex_begin 0 (Some 10) ++ ex_go (Some 10))) as [[n tr]| |] eqn:E; [|vm_compute in E; discriminate..]. exists n, tr. vm_compute in E. injection E as <- <-.
  split; [split; [vm_compute; intuition discriminate|vm_compute; reflexivity]|]. eexists _, _. split; [vm_compute; reflexivity|]. split; reflexivity.
Qed.
(** C75: a request to sign 10 whose run sends a partial signature and outputs a signature. *)
Example C75_ex : forall keccak pshash, exists (ky : kyber Z) su n tr evs w s, nhistory ky keccak pshash su 0 0 evs n tr /\
  In (NRun (ex_key pc_dss) (OSent (mkMsg 0 pc_dss 1 (k_run (ex_key pc_dss)) op_dss_partsig (PWire w)))) tr /\
  In (NRun (ex_key pc_dss) (OOutput pc_dss (VSig s))) tr.
Proof.
  intros keccak pshash. set (dl := mkDks [of_E (smul 5 eG)] (mkPri 0 (poly [5] (0 + 1)))). set (dr := mkDks [of_E (smul 7 eG)] (mkPri 0 (poly [7] (0 + 1)))).
  pose proof (demo_new keccak 0 [5] [7] [0; 1] 10 1 (or_introl eq_refl)) as EN.
  destruct (demo_partial keccak pshash 0 5 [] 7 [] [0; 1] 10 1 9) as (v & ps & EP & EV); [split; reflexivity|auto|].
  set (d := demo_dss keccak 0 [5] [7] [0; 1] 10 1) in *. change (3 + 3 * 0) with 3 in EN.
  assert (W : exists w, to_wire (OPart ps) = Ok w).
  { cbn [to_wire]. unfold partsig_to_dto. rewrite EV. destruct (pri_ok (mkPri 0 v)) as [w ->]. eexists. reflexivity. }
  destruct W as [w EW].
  destruct (sig_total keccak (fun _ l => l) (add_partial d 0 v true)) as [_ [a [sv [ES _]]]].
  - intros i l. apply Permutation.Permutation_refl.
  - pose proof (new_dss_ok keccak pshash _ _ _ _ _ _ _ _ EN) as (I & _). apply (inv_step keccak pshash d (CallPartial 9)) in I.
    cbn [Dss.step] in I. rewrite EP in I. exact I.
  - reflexivity.
  - discriminate.
  - cbn. lia.
  - destruct (sign_history keccak pshash dr dl _ _ d (add_partial d 0 v true) ps w (Sig a (Some sv)) 9 EN EP EW eq_refl ES) as (n & tr & EX & H1 & H2).
    eexists _, _, n, tr, _, w, (Sig a (Some sv)). split; [split; [|exact EX]|split; assumption]. vm_compute. intuition discriminate.
Qed.
(** C82: a second request under the same id (the same base and start time). *)
Definition ex_dup : list (nevent (G := Z)) := ex_begin 0 (Some 10) ++ ex_go (Some 10) ++ [VRequest ex_start [x61] ex_start (Some 11); VGo ex_start 1 0].
Example C82_ex : exists n tr r, ex_history None ex_dup n tr /\ nth_error (n_reqs n) 1 = Some r /\ loc_of (rq_locs r) 0 = Some GAllow /\
  kget (f_allow (n_fw n)) (rq_key r 0) <> None /\ exists n1 o, nstep (ex_ky None) (fun b => b) (fun _ _ => []) ex_su n (VGuest ex_start 1 0 7) = Ok (n1, o).
Proof.
  destruct (ex_run None ex_dup) as [[n tr]| |] eqn:E; [|vm_compute in E; discriminate..]. exists n, tr. vm_compute in E. injection E as <- <-. eexists.
  split; [split; [vm_compute; intuition discriminate|vm_compute; reflexivity]|]. split; [vm_compute; reflexivity|]. split; [reflexivity|]. split; [vm_compute; discriminate|].
  eexists _, _. vm_compute. reflexivity.
Qed.
(** So not every request returns, however long the node runs. *)
Theorem C82_every_request_returns_refuted : exists (ky : kyber Z) keccak pshash su until now0 evs n tr, nhistory ky keccak pshash su until now0 evs n tr /\
  length (n_reqs n) = 2%nat /\ forall evs' n' tr', nhistory ky keccak pshash su until now0 (evs ++ evs') n' tr' ->
    exists r, nth_error (n_reqs n') 1 = Some r /\ rq_phase r <> RDone.
Proof.
  destruct C82_ex as (n & tr & r & HH & H1 & H2 & H3 & n1 & o & HS).
  assert (HC : nclock 0 (ex_dup ++ [VGuest ex_start 1 0 7])) by (vm_compute; intuition discriminate).
  exists (ex_ky None), (fun b => b), (fun _ _ => []), ex_su, 0, 0, (ex_dup ++ [VGuest ex_start 1 0 7]).
  assert (H4 : nhistory (ex_ky None) (fun b => b) (fun _ _ => []) ex_su 0 0 (ex_dup ++ [VGuest ex_start 1 0 7]) n1 (tr ++ o)).
  { split; [exact HC|]. destruct HH as [_ HE]. rewrite nexec_app, HE. cbn [rbind fst snd nexec]. rewrite HS. cbn [rbind fst snd]. rewrite app_nil_r. reflexivity. }
  exists n1, (tr ++ o). split; [exact H4|]. split.
  - clear -HH HS. destruct HH as [_ HE]. vm_compute in HE. injection HE as <- _. vm_compute in HS. injection HS as <- _. reflexivity.
  - intros evs' n' tr' HH'. destruct (C82_duplicate_never_returns _ _ _ _ _ _ _ _ _ _ _ _ _ _ _ _ HH H1 H2 H3 HC HS evs' n' tr' HH') as (r' & X1 & X2 & _).
    exists r'. split; [exact X1|]. rewrite X2. discriminate.
Qed.

Print Assumptions C56_signing_runs_removed. Print Assumptions C56_each_signal_removes. Print Assumptions C56_key_generation_runs_stay. Print Assumptions C56_every_run_removed_refuted.
Print Assumptions C57_incoming. Print Assumptions C57_queues. Print Assumptions C57_removals.
Print Assumptions C75_only_requested_runs. Print Assumptions C75_only_requested_documents.
Print Assumptions C76_not_before_start. Print Assumptions C76_silent_before. Print Assumptions C78_not_recreated.
Print Assumptions C82_duplicate_never_returns. Print Assumptions C82_every_request_returns_refuted. Print Assumptions C83_queues_fifo.
