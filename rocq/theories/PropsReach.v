(** Statements about the way of a message through a node: from the network, through the firewall and the queue, to the run. *)
From Coq Require Import ZArith List Lia Bool Permutation Sorted.
From Coq Require Import Init.Byte.
From Verif Require Import Params Bytes Res Secp Dto Dss Prot ProtSpec ProtProofs TimeSpec TimeProofs DkgProt DkgProofs KMap Firewall FwSpec FwProofs FwProofs2 FwProofs3 FwProofs4 NetSpec
  Outputs Node NodeSpec NodeRun NodeProofs NodeProofs2 NodeProofs3 NodeProofs4 NodeProofs5 NodeProofs6 NodeProofs7 ObjSpec ObjProofs ObjProofs2 ObjProofs3 PropsFw PropsNode PropsObj ReachSpec ReachProofs ReachProofs2.
Import ListNotations.
Open Scope Z_scope.

Section Statements.
  Context {G : Type}.
  Variable ky : kyber G.
  Variable keccak : bytes -> bytes.
  Variable pshash : Z -> Z -> bytes.
  Notation message := (message payload).
  Notation nevent := (nevent (G := G)). Notation node := (node (G := G)).
  Implicit Types (evs : list nevent) (n : node) (tr : list nobs).
  Notation history := (nhistory ky keccak pshash).
  Notation lives := (lives ky keccak pshash).

  (** ** C96.  The firewall of a node goes through a history of a firewall, and what comes in to it is what comes in to the node:
      all that is proved of a firewall (C61 to C66) holds in a node. *)
  Theorem C96_node_has_firewall su until now0 evs n tr : history su until now0 evs n tr ->
    exists l, PropsFw.history nprots (su_guests su) until now0 l (n_fw n) (fw_trace tr) /\
      fw_came l = came evs /\ flat_map (fun o => match o with FIn t m => [(t, m)] | _ => [] end) (fw_trace tr) = came evs.
  Proof.
    intros HH. destruct (node_firewall _ _ _ _ _ _ _ _ _ HH) as (l & A & B & C). exists l. split; [split; [exact A|exact B]|]. split; [exact C|].
    rewrite <- C. exact (proj2 (exec_sets (mkKey 0 0 []) _ _ _ _ B)).
  Qed.

  (** A run object of a run that is asked for once at most receives what entered the queue for it, in this order and each
      once, but for what its consumer holds and what waits in the queue. *)
  Theorem C96_in_order_once su until now0 evs n tr j k k0 h : history su until now0 evs n tr -> NoDup (su_guests su) -> (requests_for k evs <= 1)%nat -> 0 <= k_pc k ->
    lives su (start_node su until now0) evs j k k0 h ->
    queued_for k tr = received (untimed h) ++ held_for k n ++ waiting_for k n /\ (length (held_for k n) <= 1)%nat.
  Proof.
    intros HH ND HR KP HL. pose proof HL as (EH & _). pose proof HH as [_ HE]. destruct (lives_object _ _ _ _ _ _ _ _ _ _ _ _ _ HE HL) as (r & os & EN & _).
    destruct (reach ky keccak pshash su until now0 k KP ND evs n tr HH HR) as [_ RE]. split.
    - rewrite (fifo_run _ _ _ _ _ _ _ _ _ _ KP HH), (RE _ _ EN), <- EH, <- app_assoc. reflexivity.
    - unfold held_for, for_run. destruct (kget _ _) as [[j' m]|]; [|cbn; lia]. destruct (key_eqb _ _); cbn; lia.
  Qed.

  (** What the firewall passes for a signing run is what is offered to its queue, and the queue refuses only messages that
      do not name a stage, or that find 10000 others in it. *)
  Theorem C96_firewall_to_queue su until now0 evs n tr k : history su until now0 evs n tr -> k_pc k = pc_dss ->
    offered_for k tr = passed k (fw_trace tr) /\ subseq (queued_for k tr) (offered_for k tr) /\
    forall a m b, tr = a ++ NRefused m :: b -> key_of m = k ->
      ~ 0 <= m_op m < Z.of_nat (length (p_stages (dss_prot ky keccak pshash))) \/
      10000 <= Z.of_nat (length (queued_to pc_dss (k_guest k) a)) - Z.of_nat (length (taken_from pc_dss (k_guest k) a)).
  Proof.
    intros HH KP. pose proof (offers _ _ _ _ _ _ _ _ _ HH k ltac:(rewrite KP; reflexivity)) as OF. split; [exact OF|]. split.
    { clear. assert (SA : forall (x : list message) a b, subseq a b -> subseq (x ++ a) (x ++ b)) by (induction x; intros; cbn; [assumption|constructor; auto]).
      assert (SK : forall (x : list message) a b, subseq a b -> subseq a (x ++ b)) by (induction x; intros; cbn; [assumption|constructor; auto]).
      induction tr as [|o tr IH]; [constructor|]. destruct o; cbn; try exact IH; [apply SA, IH|apply SK, IH]. }
    intros a m b ET EK. destruct (refusals _ _ _ _ _ _ _ _ _ HH a m b ET) as [W|[W|W]].
    - left. unfold bad_op in W. replace (m_pc m) with pc_dss in W by (rewrite <- KP, <- EK; reflexivity). exact W.
    - exfalso. apply W. assert (HI : In m (passed k (fw_trace tr))).
      { rewrite <- OF, ET, offered_app. apply in_or_app. right. cbn. apply in_or_app. left. unfold for_run. rewrite EK, key_eqb_refl. left. reflexivity. }
      unfold passed in HI. apply in_flat_map in HI. destruct HI as (x & HX & HM). destruct x as [| | | | |t m']; try contradiction. destruct (key_eqb _ _); [|contradiction]. destruct HM as [<-|[]].
      destruct (history_inv _ _ _ _ _ _ _ _ _ HH) as (T & FW & _). exact (proj1 (proj2 (w_pass _ _ _ _ _ _ _ _ _ _ FW _ _ HX))).
    - right. unfold pending in W. replace (Z.abs (m_pc m)) with pc_dss in W by (rewrite <- EK in KP; cbn in KP; rewrite KP; reflexivity). rewrite <- EK. exact W.
  Qed.

  (** So, if the queue never holds 10000 messages and all messages for the run name a stage, the run receives, in this order and
      each once, the first 2048 messages for it that came in while the firewall buffered and all that came in while it
      forwarded; but for what is still on the way. *)
  Theorem C96_arrivals_reach_run su until now0 evs n tr j k k0 h : history su until now0 evs n tr -> NoDup (su_guests su) -> (requests_for k evs <= 1)%nat -> k_pc k = pc_dss ->
    lives su (start_node su until now0) evs j k k0 h ->
    (forall m, In m (passed k (fw_trace tr)) -> 0 <= m_op m < Z.of_nat (length (p_stages (dss_prot ky keccak pshash)))) ->
    (forall a b, tr = a ++ b -> Z.of_nat (length (queued_to pc_dss (k_guest k) a)) - Z.of_nat (length (taken_from pc_dss (k_guest k) a)) < 10000) ->
    (existsb (is_set k) (fw_trace tr) = false /\ received (untimed h) ++ held_for k n ++ waiting_for k n = []) \/
    exists a t al b, fw_trace tr = a ++ FSet t k al :: b /\ existsb (is_set k) a = false /\ existsb (is_set k) b = false /\
      let a1 := a ++ [FSet t k al] in let drops := now0 <? until in
      received (untimed h) ++ held_for k n ++ waiting_for k n =
      (if existsb (is_phase k 2) b then firstn 2048 (arrivals drops k 1 a1 b) else []) ++ arrivals drops k 2 a1 b.
  Proof.
    intros HH ND HR KP HL OK ROOM. destruct (C96_in_order_once _ _ _ _ _ _ _ _ _ _ HH ND HR ltac:(rewrite KP; discriminate) HL) as [<- _].
    destruct (C96_firewall_to_queue _ _ _ _ _ _ _ HH KP) as (OF & _ & RF).
    assert (EQ : queued_for k tr = passed k (fw_trace tr)).
    { rewrite <- OF. assert (NR : forall m, In (NRefused m) tr -> key_of m <> k).
      { intros m HI EK. apply in_split in HI. destruct HI as (a & b & ET). destruct (RF _ _ _ ET EK) as [W|W].
        - apply W, OK. rewrite <- OF, ET, offered_app. apply in_or_app. right. cbn. apply in_or_app. left. unfold for_run. rewrite EK, key_eqb_refl. left. reflexivity.
        - pose proof (ROOM _ _ ET). lia. }
      clear - NR. induction tr as [|o tr IH]; [reflexivity|]. assert (IH' := IH (fun m H => NR m (or_intror H))). destruct o; cbn; try exact IH'; [f_equal; exact IH'|].
      assert (FR : for_run k m = []) by (unfold for_run; destruct (key_eqb_spec (key_of m) k) as [E|]; [destruct (NR m (or_introl eq_refl) E)|reflexivity]). rewrite FR. exact IH'. }
    rewrite EQ. destruct (C96_node_has_firewall _ _ _ _ _ _ HH) as (l & FH & _). destruct (C62_order_and_multiplicity _ _ _ _ _ _ _ FH k) as [F1 F2].
    pose proof (one_allowance _ _ _ _ _ _ k _ _ _ ND HH HR) as ON. unfold sets in ON.
    destruct (existsb (is_set k) (fw_trace tr)) eqn:EX; [right|left; split; [reflexivity|apply (F1 _ []); [rewrite app_nil_r; reflexivity|exact EX]]].
    apply existsb_exists in EX. destruct EX as (x & HX & HS). destruct x as [| |t k' al| | |]; try discriminate. cbn in HS. destruct (key_eqb_spec k' k) as [->|]; [|discriminate].
    apply in_split in HX. destruct HX as (a & b & EF). rewrite EF, filter_app, app_length in ON. cbn [filter is_set] in ON. rewrite key_eqb_refl in ON. cbn [length] in ON.
    assert (NONE : forall c : list (fobs payload), length (filter (is_set k) c) = 0%nat -> existsb (is_set k) c = false).
    { intros c E. destruct (existsb (is_set k) c) eqn:EE; [|reflexivity]. apply existsb_exists in EE. destruct EE as (x & Hx & Hs). assert (Y : In x (filter (is_set k) c)) by (apply filter_In; auto). destruct (filter (is_set k) c); [destruct Y|discriminate]. }
    exists a, t, al, b. split; [exact EF|]. assert (NA := NONE a ltac:(lia)). assert (NB := NONE b ltac:(lia)). split; [exact NA|]. split; [exact NB|]. cbv zeta.
    assert (EF' : fw_trace tr = a ++ FSet t k al :: b ++ []) by (rewrite app_nil_r; exact EF).
    pose proof (F2 _ _ _ _ _ EF' NB (or_introl eq_refl)) as Y. cbv zeta in Y. rewrite <- Y, EF, passed_app.
    rewrite (F1 a (FSet t k al :: b) EF NA). reflexivity.
  Qed.
End Statements.

(** All assumptions of C96: a signing run that is asked for once; one message for it comes in while the firewall buffers, three while it
    forwards, of which the last two are on the way at the end: one is held by the consumer, one is in the queue. *)
Definition ex_way : list (nevent (G := Z)) :=
  let m i := mkMsg i pc_dss 0 (k_run (ex_key pc_dss)) 2 (PWire WOther) in let t := 21 * ms in
  ex_begin 0 (Some 10) ++ ex_go (Some 10) ++ [VIn t (m 1); VTake t pc_dss 0 7; VIn t (m 2); VDeliver t pc_dss 0 5 (fun _ l => l); VTake t pc_dss 0 7; VIn t (m 3)].
Example C96_ex : exists n tr k0 h m0 m1 m2 m3, let k := ex_key pc_dss in ex_history None ex_way n tr /\ NoDup (su_guests ex_su) /\ requests_for k ex_way = 1%nat /\
  lives (ex_ky None) (fun b => b) (fun _ _ => []) ex_su (start_node ex_su 0 0) ex_way 0 k k0 h /\ received (untimed h) = [m0; m1] /\ held_for k n = [m2] /\ waiting_for k n = [m3] /\
  passed k (fw_trace tr) = [m0; m1; m2; m3] /\
  (forall m, In m (passed k (fw_trace tr)) -> 0 <= m_op m < Z.of_nat (length (p_stages (dss_prot (ex_ky None) (fun b => b) (fun _ _ => []))))) /\
  (forall a b, tr = a ++ b -> Z.of_nat (length (queued_to pc_dss (k_guest k) a)) - Z.of_nat (length (taken_from pc_dss (k_guest k) a)) < 10000).
Proof.
  destruct (ex_run None ex_way) as [[n tr]| |] eqn:E; [|vm_compute in E; discriminate..]. exists n, tr. vm_compute in E. injection E as <- <-.
  eexists (new_kd ex_su (ex_key pc_dss) 7), (run_history (ex_ky None) (fun b => b) (fun _ _ => []) ex_su (start_node ex_su 0 0) ex_way 0). cbv zeta.
  eexists _, _, _, _. split; [split; [vm_compute; intuition discriminate|vm_compute; reflexivity]|]. split; [repeat constructor; intuition discriminate|]. split; [vm_compute; reflexivity|].
  split; [split; [reflexivity|]|].
  { exists (firstn 8 ex_way), (nth 8 ex_way (VUndrop 0)), (skipn 9 ex_way). eexists _, _, _, _. split; [reflexivity|]. split; [vm_compute; reflexivity|]. split; [vm_compute; reflexivity|]. split; reflexivity. }
  split; [vm_compute; reflexivity|]. split; [vm_compute; reflexivity|]. split; [vm_compute; reflexivity|]. split; [vm_compute; reflexivity|]. split.
  - intros m HI. vm_compute in HI. repeat (destruct HI as [<-|HI]; [split; vm_compute; [discriminate|reflexivity]|]). destruct HI.
  - match goal with |- forall a b, ?t = _ -> _ => intros a b E; assert (LEN : (length (a ++ b) < 100)%nat) by (rewrite <- E; apply Nat.ltb_lt; vm_compute; reflexivity) end. clear E. rewrite app_length in LEN.
    assert (LQ : (length (queued_to pc_dss 0 a) <= length a)%nat) by (clear; induction a as [|x a IH]; [cbn; lia|]; unfold queued_to in *; cbn [flat_map length]; rewrite app_length; destruct x; cbn [length]; try lia; destruct (for_queue _ _ _); cbn [length]; lia).
    cbn [ex_key k_guest]. lia.
Qed.

Print Assumptions C96_node_has_firewall. Print Assumptions C96_in_order_once. Print Assumptions C96_firewall_to_queue. Print Assumptions C96_arrivals_reach_run.
