(** Proofs about several nodes: what a run receives from a member is what that member's run sent to it. *)
From Coq Require Import ZArith List Lia Bool Permutation.
From Verif Require Import Bytes Res Dto Prot ProtSpec ProtProofs TimeSpec TimeProofs DkgProt KMap Firewall FwSpec FwProofs NetSpec Node NodeSpec NodeRun NodeProofs NodeProofs2 NodeProofs3 NodeProofs7
  ObjSpec ObjProofs ObjProofs2 ObjProofs3 ReachSpec ReachProofs ReachProofs2 Cluster ClusterSpec ClusterProofs.
From Verif Require Net NetProofs.
From Verif Require Import PropsNet.
Import ListNotations.
Open Scope Z_scope.

Lemma subseq_filter {A} (f : A -> bool) a b : subseq a b -> subseq (filter f a) (filter f b).
Proof. induction 1 as [b|x a b H IH|x a b H IH]; cbn; [constructor|destruct (f x); [constructor|]; exact IH|destruct (f x); [constructor|]; exact IH]. Qed.
Lemma subseq_drop {A} (a b c : list A) : subseq (a ++ b) c -> subseq a c.
Proof. intros H. eapply NetProofs.subseq_trans; [|exact H]. apply NetProofs.subseq_app_r, NetProofs.subseq_refl. Qed.
Lemma subseq_join {A} (a b c d : list A) : subseq a b -> subseq c d -> subseq (a ++ c) (b ++ d).
Proof.
  induction 1 as [b|x a b H IH|x a b H IH]; cbn; intros HC; [|constructor; auto|constructor; auto].
  induction b; cbn; [exact HC|constructor; assumption].
Qed.
Lemma flat_map_nil {A B} (f : A -> list B) l : (forall x, In x l -> f x = []) -> flat_map f l = [].
Proof. induction l as [|x l IH]; cbn; intros H; [reflexivity|]. rewrite (H x (or_introl eq_refl)). apply IH. intros y Hy. apply H. right. exact Hy. Qed.
Lemma subseq_flat {A B} (f g : A -> list B) l : (forall x, In x l -> subseq (f x) (g x)) -> subseq (flat_map f l) (flat_map g l).
Proof. induction l as [|x l IH]; cbn; intros H; [constructor|]. apply subseq_join; auto. Qed.

(** ** The firewall passes on in order. *)
Section FW.
  Notation message := (message payload).
  Definition ins (k : key) (tr : list (fobs payload)) : list message := flat_map (fun o => match o with FIn _ m => for_run k m | _ => [] end) tr.
  Definition calm_buf (k : key) (f : fw payload) : Prop := kget (f_state f) k = Some fw_forwarding -> kslice (f_buf f) k = [].
  Lemma passed_map_run k now l : passed k (map (FPass now) l) = flat_map (for_run k) l.
  Proof. induction l as [|m l IH]; [reflexivity|]. cbn. rewrite <- IH. unfold for_run. destruct (key_eqb _ _); reflexivity. Qed.
  Lemma fstep_order k (f f' : fw payload) ev o tr : fstep f ev = Ok (f', o) -> calm_buf k f -> (forall k' m, In m (kslice (f_buf f) k') -> key_of m = k') ->
    subseq (passed k tr ++ kslice (f_buf f) k) (ins k tr) ->
    calm_buf k f' /\ (forall k' m, In m (kslice (f_buf f') k') -> key_of m = k') /\ subseq (passed k (tr ++ o) ++ kslice (f_buf f') k) (ins k (tr ++ o)).
  Proof.
    intros HS HC HK HT. unfold ins in *. unfold passed in *. rewrite !flat_map_app.
    assert (SAME : f_state f' = f_state f -> f_buf f' = f_buf f -> o = [] -> calm_buf k f' /\ (forall k' m, In m (kslice (f_buf f') k') -> key_of m = k') /\ subseq ((flat_map (fun o => match o with FPass _ m => if key_eqb (key_of m) k then [m] else [] | _ => [] end) tr ++ flat_map (fun o => match o with FPass _ m => if key_eqb (key_of m) k then [m] else [] | _ => [] end) o) ++ kslice (f_buf f') k) (flat_map (fun o => match o with FIn _ m => for_run k m | _ => [] end) tr ++ flat_map (fun o => match o with FIn _ m => for_run k m | _ => [] end) o)).
    { intros E1 E2 ->. unfold calm_buf. rewrite E1, E2. cbn. rewrite !app_nil_r. auto. }
    assert (QUIET : forall k1 st, f_state f' = kset (f_state f) k1 st -> st <> fw_forwarding -> f_buf f' = f_buf f -> (forall x, In x o -> match x with FPass _ _ | FIn _ _ => False | _ => True end) ->
       calm_buf k f' /\ (forall k' m, In m (kslice (f_buf f') k') -> key_of m = k') /\ subseq ((flat_map (fun o => match o with FPass _ m => if key_eqb (key_of m) k then [m] else [] | _ => [] end) tr ++ flat_map (fun o => match o with FPass _ m => if key_eqb (key_of m) k then [m] else [] | _ => [] end) o) ++ kslice (f_buf f') k) (flat_map (fun o => match o with FIn _ m => for_run k m | _ => [] end) tr ++ flat_map (fun o => match o with FIn _ m => for_run k m | _ => [] end) o)).
    { intros k1 st E1 NE E2 HO. unfold calm_buf. rewrite E1, E2. split; [|split; [exact HK|]].
      - rewrite kget_kset. destruct (key_eqb k1 k); [|exact HC]. intros E. injection E as E. contradiction.
      - rewrite !(flat_map_nil _ o), !app_nil_r; [exact HT|..]; intros x Hx; specialize (HO x Hx); destruct x; reflexivity || contradiction. }
    destruct ev as [now m|now|now k1 a|now k1 c|now k1 c]; cbn [fstep] in HS.
    - injection HS as <- <-. unfold fw_process. change (@fw_key) with (@key_of). cbn [flat_map].
      assert (DROP : calm_buf k f /\ (forall k' m, In m (kslice (f_buf f) k') -> key_of m = k') /\ subseq ((flat_map (fun o => match o with FPass _ m => if key_eqb (key_of m) k then [m] else [] | _ => [] end) tr ++ [] ++ []) ++ kslice (f_buf f) k) (flat_map (fun o => match o with FIn _ m => for_run k m | _ => [] end) tr ++ for_run k m ++ [])).
      { split; [exact HC|]. split; [exact HK|]. cbn. rewrite !app_nil_r. apply NetProofs.subseq_app_r, HT. }
      destruct (_ || _); [exact DROP|]. destruct (kget (f_state f) (key_of m)) as [st|] eqn:ES; [|exact DROP]. destruct (Z.eqb_spec st fw_buffering) as [->|NB].
      + destruct (_ <? _); [|exact DROP]. cbn [fst snd set_buf f_buf f_state flat_map app]. split; [|split].
        * unfold calm_buf. cbn. destruct (key_eqb_spec (key_of m) k) as [EK|NK]; [rewrite <- EK, ES; intros X; discriminate|]. rewrite kslice_kset. destruct (key_eqb_spec (key_of m) k); [contradiction|]. exact HC.
        * intros k' m'. rewrite kslice_kset. destruct (key_eqb_spec (key_of m) k') as [<-|]; [|apply HK]. rewrite in_app_iff. intros [H|[<-|[]]]; [apply HK, H|reflexivity].
        * rewrite kslice_kset. unfold for_run. rewrite !app_nil_r. destruct (key_eqb_spec (key_of m) k) as [->|]; [rewrite app_assoc; apply subseq_join; [exact HT|apply NetProofs.subseq_refl]|rewrite app_nil_r; exact HT].
      + destruct (Z.eqb_spec st fw_forwarding) as [->|NF]; [|exact DROP]. cbn [fst snd flat_map app]. split; [exact HC|]. split; [exact HK|]. rewrite !app_nil_r. unfold for_run.
        destruct (key_eqb_spec (key_of m) k) as [EK|]; [|rewrite !app_nil_r; exact HT]. rewrite EK in ES. rewrite (HC ES) in *. rewrite app_nil_r in *. apply subseq_join; [exact HT|apply NetProofs.subseq_refl].
    - destruct (_ && _); injection HS as <- <-; [|apply SAME; reflexivity]. cbn. rewrite !app_nil_r. auto.
    - unfold fw_set_allowance in HS. destruct (negb _); [discriminate|]. destruct (kget (f_allow f) k1); injection HS as <- <-; [apply SAME; reflexivity|].
      apply (QUIET k1 fw_dropping); try reflexivity; [discriminate|]. intros x [<-|[]]. exact I.
    - unfold fw_state_step in HS. destruct (nth_error _ c) as [s|]; [|injection HS as <- <-; apply SAME; reflexivity].
      destruct (sl_thread s) as [[|a|a|a|]|]; try (injection HS as <- <-; apply SAME; reflexivity); destruct (_ <? _); try (injection HS as <- <-; apply SAME; reflexivity);
        destruct (told _ _); cbn [rbind] in HS; try discriminate; injection HS as <- <-.
      + apply (QUIET k1 fw_buffering); try reflexivity; [discriminate|]. intros x [<-|[<-|[]]]; exact I.
      + cbn [fw_flush fst snd set_state set_buf put_slot set_calls f_state f_buf]. split; [|split].
        * unfold calm_buf. cbn [fw_flush fst snd set_state set_buf put_slot set_calls f_state f_buf]. rewrite kget_kset. rewrite kslice_kdel. destruct (key_eqb k1 k); [reflexivity|exact HC].
        * intros k' m. rewrite kslice_kdel. destruct (key_eqb k1 k'); [contradiction|apply HK].
        * rewrite !flat_map_app. cbn [flat_map app]. rewrite !app_nil_r. rewrite (flat_map_nil (fun o => match o with FIn _ m => for_run k m | _ => [] end) (map (FPass now) _)) by (intros x Hx; apply in_map_iff in Hx; destruct Hx as (? & <- & _); reflexivity). rewrite app_nil_r.
          pose proof (passed_map_run k now (kslice (f_buf f) k1)) as PM. unfold passed in PM. rewrite PM, kslice_kdel. destruct (key_eqb_spec k1 k) as [->|NK].
          -- rewrite app_nil_r. replace (flat_map (for_run k) (kslice (f_buf f) k)) with (kslice (f_buf f) k); [exact HT|]. specialize (HK k). clear - HK. induction (kslice (f_buf f) k) as [|m l IH]; [reflexivity|]. cbn. rewrite <- IH by (intros; apply HK; right; assumption).
             unfold for_run. rewrite (HK m (or_introl eq_refl)), key_eqb_refl. reflexivity.
          -- rewrite (flat_map_nil (for_run k)), app_nil_r; [exact HT|]. intros m Hm. apply HK in Hm. unfold for_run. destruct (key_eqb_spec (key_of m) k); [congruence|reflexivity].
      + cbn [set_state set_allow put_slot set_calls f_state f_buf]. split; [|split; [exact HK|cbn; rewrite !app_nil_r; exact HT]].
        unfold calm_buf. cbn [set_state set_allow put_slot set_calls f_state f_buf]. rewrite key_eqb_refl, !kget_kdel. destruct (key_eqb k1 k); [discriminate|exact HC].
    - injection HS as <- <-. apply SAME; [| |reflexivity]; unfold fw_recv; destruct (nth_error _ c); reflexivity.
  Qed.
  Lemma fexec_order k l : forall (f f' : fw payload) tr o, fexec f l = Ok (f', o) -> calm_buf k f -> (forall k' m, In m (kslice (f_buf f) k') -> key_of m = k') ->
    subseq (passed k tr ++ kslice (f_buf f) k) (ins k tr) -> subseq (passed k (tr ++ o)) (ins k (tr ++ o)).
  Proof.
    induction l as [|ev l IH]; intros f f' tr o; cbn [fexec].
    - intros E _ _ H. injection E as <- <-. rewrite app_nil_r. eapply subseq_drop, H.
    - destruct (fstep f ev) as [[f1 o1]| |] eqn:E1; cbn [rbind fst snd]; try discriminate. destruct (fexec f1 l) as [[f2 o2]| |] eqn:E2; cbn [rbind fst snd]; try discriminate.
      intros E H1 H2 H3. injection E as <- <-. destruct (fstep_order k _ _ _ _ tr E1 H1 H2 H3) as (A & B & C). rewrite app_assoc. eapply IH; eassumption.
  Qed.
End FW.

Section CP.
  Context {G : Type}.
  Variable ky : kyber G.
  Variable keccak : bytes -> bytes.
  Variable pshash : Z -> Z -> bytes.
  Notation message := (message payload). Notation nevent := (nevent (G := G)). Notation node := (node (G := G)).

  Section OneNode.
    Variable su : setup.
    Variables until now0 : Z.
    Notation history := (nhistory ky keccak pshash su until now0).
    Implicit Types (evs : list nevent) (tr : list nobs).

    Definition in_for (k : key) evs : list message := flat_map (fun ev => match ev with VIn _ m => for_run k m | _ => [] end) evs.
    Lemma passed_came k evs n tr : history evs n tr -> subseq (passed k (fw_trace tr)) (in_for k evs).
    Proof.
      intros HH. destruct (node_firewall _ _ _ _ _ _ _ _ _ HH) as (l & _ & E & C). pose proof (proj2 (exec_sets k _ _ _ _ E)) as F. rewrite C in F.
      replace (in_for k evs) with (ins k (fw_trace tr)).
      - apply (fexec_order k l _ _ [] _ E); [discriminate|intros ? ? []|constructor].
      - transitivity (flat_map (fun x : Z * message => for_run k (snd x)) (came evs)).
        + rewrite <- F. unfold ins. clear. induction (fw_trace tr) as [|o t IH]; [reflexivity|]. destruct o; cbn; rewrite IH; reflexivity.
        + unfold in_for, came. clear. induction evs as [|e t IH]; [reflexivity|]. destruct e; cbn; rewrite IH; reflexivity.
    Qed.

    (** A message that a run sends names its guest, protocol and id; and the run was asked for. *)
    Lemma sent_fields evs n tr : history evs n tr -> forall k m, In (NRun k (OSent m)) tr ->
      m_sender m = k_guest k /\ m_pc m = k_pc k /\ m_run m = k_run k /\ In (k_guest k) (su_guests su).
    Proof.
      intros HH. assert (X : forall k m, In (NRun k (OSent m)) tr -> m_sender m = k_guest k /\ m_pc m = k_pc k /\ m_run m = k_run k).
      { revert HH. intros HH. refine (proj2 (proj2 (history_ind ky keccak pshash su until now0 (fun _ tr _ => forall k m, In (NRun k (OSent m)) tr -> m_sender m = k_guest k /\ m_pc m = k_pc k /\ m_run m = k_run k) _ _ evs n tr HH))); [|intros ? ? []].
        clear. intros evs tr n T ev n' o HI _ _ IH HS k m H. apply in_app_or in H. destruct H as [H|H]; [apply IH, H|].
        destruct (heap_kinds _ _ _ _ _ _ _ _ HS) as [[_ F]|[(k1 & gen & t & a & _ & _ & F & EO)|(k1 & j1 & r1 & pev & x & E1 & ES & _ & EO)]].
        - exfalso. rewrite Forall_forall in F. exact (F _ H).
        - exfalso. rewrite EO in H. apply in_app_or in H. destruct H as [H|[H|[]]]; [|discriminate]. rewrite Forall_forall in F. exact (F _ H).
        - rewrite EO in H. apply in_map_iff in H. destruct H as (y & E & H). injection E as -> ->. destruct HI as [_ R].
          destruct (r_heap _ _ _ _ _ _ _ _ R _ _ _ E1) as (_ & _ & gen & pevs & rtr & EX & _). destruct x as [r2 t2]. pose proof (exec_snoc _ _ _ _ _ _ _ _ _ EX ES) as EX2.
          pose proof (run_inv _ _ _ _ _ _ EX2) as IV.
          assert (HC : In m (created (rtr ++ t2))).
          { pose proof (iv_snd _ _ _ _ _ IV (m_op m)) as X. assert (Y : In m (for_op (m_op m) (created (rtr ++ t2)))).
            - rewrite X. apply in_or_app. left. unfold for_op. apply filter_In. split; [|apply Z.eqb_refl]. unfold sent at 1; rewrite flat_map_app. apply in_or_app. right. unfold sent. apply in_flat_map. exists (OSent m). split; [exact H|left; reflexivity].
            - apply filter_In in Y. apply Y. }
          unfold created in HC. apply in_flat_map in HC. destruct HC as (ob & HO & HM). destruct ob; try contradiction. destruct HM as [->|[]]. apply in_split in HO. destruct HO as (a & b & EAB).
          exact (iv_alw _ _ _ _ _ IV _ _ _ EAB). }
      intros k m H. destruct (X k m H) as (A & B & C). repeat (split; [assumption|]).
      destruct (history_inv _ _ _ _ _ _ _ _ _ HH) as (T & _ & R). apply in_split in H. destruct H as (a & b & ET).
      destruct (proj1 (r_tr _ _ _ _ _ _ _ _ R _ _ _ ET)) as (t & HC). apply in_split in HC. destruct HC as (a1 & a2 & ->). rewrite <- app_assoc in ET.
      destruct (r_tr _ _ _ _ _ _ _ _ R _ _ _ ET) as (start & doc & t' & (base & _ & _ & _ & HG) & _). exact HG.
    Qed.
    (** What the runs of guest [a] sent to [b] under the id [id] is what the run of this id sent to [b]. *)
    Lemma sent_by_run evs n tr pc a b id : history evs n tr ->
      filter (fun m => bytes_eqb (m_run m) id) (sent_to pc a b tr) = filter (fun m => m_rcpt m =? b) (sent (run_trace (mkKey pc a id) tr)).
    Proof.
      intros HH. pose proof (sent_fields _ _ _ HH) as SF. clear HH. induction tr as [|o tr IH]; [reflexivity|].
      specialize (IH (fun k m H => SF k m (or_intror H))). unfold sent_to, run_trace, sent in *. cbn [flat_map]. rewrite flat_map_app, !filter_app, IH. f_equal.
      destruct o as [| | | | | |k x| |]; try reflexivity. destruct x; try (destruct (key_eqb k (mkKey pc a id)); reflexivity).
      destruct (SF k m (or_introl eq_refl)) as (A & B & C & _).
      destruct (key_eqb_spec k (mkKey pc a id)) as [->|NK].
      - cbn [k_pc k_guest k_run] in *. rewrite !Z.eqb_refl. cbn [andb flat_map app filter]. destruct (m_rcpt m =? b); cbn; [|reflexivity]. rewrite C. destruct (bytes_eqb_spec id id); [reflexivity|contradiction].
      - cbn [flat_map filter]. destruct (Z.eqb_spec (k_pc k) pc) as [<-|]; [|reflexivity]. destruct (Z.eqb_spec (k_guest k) a) as [<-|]; [|reflexivity]. destruct (m_rcpt m =? b); [|reflexivity]. cbn. rewrite C.
        destruct (bytes_eqb_spec (k_run k) id) as [<-|]; [|reflexivity]. destruct NK. destruct k; reflexivity.
    Qed.

    Lemma queued_offered k tr : subseq (queued_for k tr) (offered_for k tr).
    Proof. unfold queued_for, offered_for. apply subseq_flat. intros [] _; try constructor; apply NetProofs.subseq_refl. Qed.
    (** What a run that is asked for once at most receives came in for it, in this order. *)
    Lemma received_came evs n tr j k k0 h P : history evs n tr -> NoDup (su_guests su) -> (requests_for k evs <= 1)%nat -> 0 <= k_pc k -> unsignalled k P ->
      lives ky keccak pshash su (start_node su until now0) evs j k k0 h -> subseq (filter P (received (untimed h))) (filter P (in_for k evs)).
    Proof.
      intros HH ND HR KP US HL. pose proof HL as (EH & _). pose proof HH as [_ HE]. destruct (lives_object _ _ _ _ _ _ _ _ _ _ _ _ _ HE HL) as (r & os & EN & _).
      destruct (reach ky keccak pshash su until now0 k KP ND evs n tr HH HR) as [_ RE].
      assert (Q : queued_for k tr = received (untimed h) ++ held_for k n ++ waiting_for k n) by (rewrite (fifo_run _ _ _ _ _ _ _ _ _ _ KP HH), (RE _ _ EN), <- EH, <- app_assoc; reflexivity).
      eapply NetProofs.subseq_trans; [apply subseq_filter; apply (subseq_drop _ (held_for k n ++ waiting_for k n)); rewrite <- Q; apply queued_offered|].
      rewrite (offers_from _ _ _ _ _ _ _ _ _ HH k P US). apply subseq_filter. eapply passed_came, HH.
    Qed.
  End OneNode.

  Variable places : list place.
  Variable home : Z -> option nat.
  Notation cobs := (cobs (G := G)). Notation cluster := (cluster (G := G)).
  Lemma in_for_flat j k (tr : list cobs) : in_for k (events_at j tr) = flat_map (fun o => match o with XNode i _ (VIn _ m) _ => if Nat.eqb i j then for_run k m else [] | _ => [] end) tr.
  Proof.
    unfold in_for, events_at. induction tr as [|o tr IH]; [reflexivity|]. cbn [flat_map]. rewrite flat_map_app, IH. f_equal. destruct o as [i org ev os| |]; try reflexivity.
    destruct (Nat.eqb i j); [|destruct ev; reflexivity]. destruct ev; cbn; rewrite ?app_nil_r; reflexivity.
  Qed.
  Lemma no_place i evs : nth_error places i = None -> forall c1 (c : cluster) tr, cexec ky keccak pshash places home c1 evs = Some (c, tr) -> trace_at i tr = [].
  Proof.
      intros E. induction evs as [|ev l IH]; intros c1 c tr; cbn [cexec]; [intros X; injection X as <- <-; reflexivity|].
      destruct (cstep ky keccak pshash places home c1 ev) as [[c2 o2]|] eqn:ES; [|discriminate]. cbn [fst snd]. destruct (cexec ky keccak pshash places home c2 l) as [[c3 o3]|] eqn:EX; [|discriminate].
      intros X. injection X as <- <-. unfold trace_at. rewrite flat_map_app. fold (trace_at i o3). rewrite (IH _ _ _ EX), app_nil_r. clear IH EX.
      assert (SA : forall ls c now, trace_at (G := G) i (snd (send_all c now ls)) = []).
      { induction ls as [|[l1 m] ls IHl]; intros c' now; [reflexivity|]. cbn. apply IHl. }
      assert (SN : forall c j org ev c' o, step_node ky keccak pshash places c j org ev = Some (c', o) -> trace_at i o = []).
      { intros c' j org e c4 o. unfold step_node. destruct (nth_error places j) as [p|] eqn:EP; [|discriminate]. destruct (nth_error (c_nodes c') j) as [[n|]|]; try discriminate. destruct (_ <? _); [discriminate|].
        assert (NE : Nat.eqb j i = false) by (apply Nat.eqb_neq; intros ->; congruence).
        destruct (nstep _ _ _ _ _ _) as [x| |]; [|discriminate|].
        - intros Y. injection Y as _ <-. cbn. rewrite NE. apply SA.
        - destruct org; intros Y; try discriminate; injection Y as _ <-; reflexivity. }
      fold (trace_at i o2). destruct ev as [j e|now l0 ok|now l0 ok|now s]; cbn [cstep] in ES.
      - eapply SN, ES.
      - destruct (alive _ _); [|discriminate]. injection ES as _ <-. reflexivity.
      - destruct (alive _ _); [|discriminate]. destruct (call_in _) as [[m []]|].
        + destruct (home _) as [j|]; [|discriminate]. destruct (step_node _ _ _ _ _ _ _ _) as [[c4 o4]|] eqn:EN; [|discriminate]. injection ES as _ <-. cbn. eapply SN, EN.
        + injection ES as _ <-. reflexivity.
        + injection ES as _ <-. reflexivity.
      - destruct (nth_error _ s) as [[l0 m]|]; [|discriminate]. destruct (home _) as [j|]; [|discriminate]. eapply SN, ES.
  Qed.

  Lemma accepted_put (evs : list (Net.nevent message)) : forall s, subseq (accepted (snd (Net.nexec s evs))) (put_in evs).
  Proof.
    induction evs as [|ev l IH]; intros s; cbn [Net.nexec snd]; [constructor|]. unfold accepted. rewrite flat_map_app. change (ev :: l) with ([ev] ++ l). rewrite put_in_app. apply subseq_join; [|apply IH].
    destruct ev as [m|ok|ok]; cbn [Net.nstep].
    - unfold Net.nsend. destruct (_ <? _); cbn; repeat constructor.
    - constructor.
    - unfold Net.ngo. destruct (Net.n_loc s) as [| | | | | |[]]; try (constructor); try (destruct (Net.n_conn s); constructor).
      + destruct (Net.n_conn s); cbn; unfold Net.held; try destruct (Net.n_msg s); constructor.
      + unfold Net.held; destruct (Net.n_msg s); constructor.
      + destruct (Net.n_q s); constructor.
  Qed.
  Lemma with_called ok (t : list (Net.nobs message)) : subseq (called_with ok t) (called t).
  Proof. unfold called_with, called. apply subseq_flat. intros [] _; try apply NetProofs.subseq_refl. destruct (Bool.eqb ok0 ok); [apply NetProofs.subseq_refl|constructor]. Qed.
  Lemma filter_flat {A B} (P : B -> bool) (f : A -> list B) l : filter P (flat_map f l) = flat_map (fun x => filter P (f x)) l.
  Proof. induction l as [|x l IH]; [reflexivity|]. cbn. rewrite filter_app, IH. reflexivity. Qed.
  Section Hist.
    Variables (t0 : Z) (evs : list (cevent (G := G))) (c : cluster) (tr : list cobs).
    Hypothesis HC : chistory ky keccak pshash places home t0 evs c tr.

    Lemma cluster_node i p : nth_error places i = Some p -> exists n, nhistory ky keccak pshash (pl_su p) (pl_until p) (pl_begin p) (events_at i tr) n (trace_at i tr) /\
      (nth_error (c_nodes c) i = Some None \/ nth_error (c_nodes c) i = Some (Some n)).
    Proof. destruct (history_ci _ _ _ _ _ _ _ _ _ HC) as (T & CI1). intros E. destruct (ci_node _ _ _ _ _ _ _ _ _ _ CI1 i p E) as (n & A & B & _ & D). exists n. split; [split; assumption|exact D]. Qed.
    Lemma calls_sent l : subseq (called (lane_trace l tr)) (sent_to (l_pc l) (l_from l) (l_to l) (trace_at (l_at l) tr)).
    Proof.
      destruct (history_ci _ _ _ _ _ _ _ _ _ HC) as (T & CI1). rewrite <- (ci_sends _ _ _ _ _ _ _ _ _ _ CI1 l). pose proof (ci_lane _ _ _ _ _ _ _ _ _ _ CI1 l) as EL.
      replace (lane_trace l tr) with (snd (Net.nexec Net.nq0 (lane_events l tr))) by (rewrite EL; reflexivity).
      eapply NetProofs.subseq_trans; [apply C67_calls_in_order_at_most_once|apply accepted_put].
    Qed.
    Lemma by_sent l : among (came_by l tr) (sent_to (l_pc l) (l_from l) (l_to l) (trace_at (l_at l) tr)).
    Proof.
      eapply among_trans; [|apply among_subseq, calls_sent]. destruct (history_ci _ _ _ _ _ _ _ _ _ HC) as (T & CI1).
      pose proof (ci_via _ _ _ _ _ _ _ _ _ _ CI1 l) as EV. pose proof (ci_late _ _ _ _ _ _ _ _ _ _ CI1 l) as EL. cbn [sel flat_map] in EV, EL. rewrite ?app_nil_r in *.
      eapply among_perm; [apply by_perm|]. rewrite EV. eapply among_trans; [apply among_app; [apply among_refl|eapply among_trans; [apply among_left|exact EL]]|].
      exists []. rewrite app_nil_r. symmetry. eapply Permutation_trans; [apply called_perm|apply Permutation_app_comm].
    Qed.
    Lemma via_order l : called_with false (lane_trace l tr) = [] -> subseq (came_by l tr) (sent_to (l_pc l) (l_from l) (l_to l) (trace_at (l_at l) tr)).
    Proof.
      intros E. destruct (history_ci _ _ _ _ _ _ _ _ _ HC) as (T & CI1).
      pose proof (ci_via _ _ _ _ _ _ _ _ _ _ CI1 l) as EV. pose proof (ci_late _ _ _ _ _ _ _ _ _ _ CI1 l) as EL. cbn [sel flat_map] in EV, EL. rewrite ?app_nil_r in *. rewrite E in EL.
      assert (LN : came_late l tr = []) by (destruct EL as (rest & P); apply Permutation_sym, Permutation_nil in P; apply app_eq_nil in P; destruct P as [P _]; apply app_eq_nil in P; apply P).
      assert (EB : came_by l tr = came_via l tr).
      { clear - LN. unfold came_by, came_via, came_late in *. induction tr as [|o t IH]; [reflexivity|]. cbn [flat_map] in *. apply app_eq_nil in LN. destruct LN as [L1 L2]. rewrite (IH L2). f_equal.
        destruct o as [i [|l'|l'] ev os| |]; try reflexivity. destruct ev; try reflexivity. exact L1. }
      rewrite EB, EV. eapply NetProofs.subseq_trans; [apply with_called|apply calls_sent].
    Qed.

    (** From a run to a run. *)
    Lemma arrivals_from i j a b pc id : (forall i' p', nth_error places i' = Some p' -> In a (su_guests (pl_su p')) -> i' = i) ->
      (forall m, In m (from_outside j tr) -> key_of m = mkKey pc b id -> m_sender m <> a) ->
      subseq (filter (fun m => m_sender m =? a) (in_for (mkKey pc b id) (events_at j tr))) (filter (fun m => bytes_eqb (m_run m) id) (came_by (mkLane i pc a b) tr)).
    Proof.
      intros ON OUT. rewrite in_for_flat. unfold came_by at 1. rewrite !filter_flat. apply subseq_flat. intros o HO. destruct o as [i' org ev os| |]; try constructor.
      destruct ev as [| | | |now m| | | | |]; try (destruct org; constructor). destruct (Nat.eqb_spec i' j) as [->|]; [|constructor]. unfold for_run. destruct (key_eqb_spec (key_of m) (mkKey pc b id)) as [EK|]; [|constructor].
      cbn [filter]. destruct (Z.eqb_spec (m_sender m) a) as [EA|]; [|constructor].
      assert (LANE : forall l, org = Via l \/ org = Late l -> l = mkLane i pc a b).
      { intros l OR. assert (HB : In m (came_by l tr)).
        { unfold came_by. apply in_flat_map. exists (XNode j org (VIn now m) os). split; [exact HO|]. destruct OR as [-> | ->]; rewrite lane_eqb_refl; left; reflexivity. }
        apply (among_in _ _ _ (by_sent l)) in HB. unfold sent_to in HB. apply in_flat_map in HB. destruct HB as (o & HI & HM). destruct o as [| | | | | |k x| |]; try contradiction. destruct x; try contradiction.
        destruct (_ && _) eqn:EB; [|contradiction]. destruct HM as [->|[]]. apply andb_prop in EB. destruct EB as [EB E3]. apply andb_prop in EB. destruct EB as [E1 E2]. apply Z.eqb_eq in E1, E2, E3.
        destruct (nth_error places (l_at l)) as [p|] eqn:EP; [|destruct HC as [_ HE]; rewrite (no_place _ _ EP _ _ _ HE) in HI; contradiction].
        destruct (cluster_node _ _ EP) as (n & HN & _). destruct (sent_fields _ _ _ _ _ _ HN _ _ HI) as (F1 & F2 & F3 & F4).
        rewrite E2 in F1, F4. rewrite F1 in EA. rewrite EA in F4. pose proof (ON _ _ EP F4) as EI. unfold key_of in EK. injection EK as K1 K2 K3. destruct l as [li lp lf lt]. cbn in *. subst. rewrite F2. reflexivity. }
      unfold key_of in EK. injection EK as K1 K2 K3. destruct org as [|l|l].
      - destruct (OUT m); [|unfold key_of; congruence|exact EA]. unfold from_outside. apply in_flat_map. exists (XNode j Own (VIn now m) os). split; [exact HO|]. rewrite Nat.eqb_refl. left. reflexivity.
      - rewrite (LANE l (or_introl eq_refl)), lane_eqb_refl. cbn [filter]. rewrite K3. destruct (bytes_eqb_spec id id); [|contradiction]. apply NetProofs.subseq_refl.
      - rewrite (LANE l (or_intror eq_refl)), lane_eqb_refl. cbn [filter]. rewrite K3. destruct (bytes_eqb_spec id id); [|contradiction]. apply NetProofs.subseq_refl.
    Qed.
  End Hist.
End CP.
