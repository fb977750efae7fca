(** C67-C69: outgoing queues. *)
From Coq Require Import ZArith List Lia Bool Permutation.
From Verif Require Import Bytes Res Net NetSpec NetProofs.
Import ListNotations.
Open Scope Z_scope.

Section C67.
  Context {M : Type}.

  (** The remote calls are made in the order in which the messages were accepted, none twice. *)
  Theorem C67_calls_in_order_at_most_once : forall evs : list (nevent M),
    let tr := snd (nexec nq0 evs) in
    subseq (called tr) (accepted tr).
  Proof.
    intros evs tr. eapply subseq_trans; [apply called_subseq|].
    unfold tr. rewrite whereabouts. apply subseq_app_r, subseq_refl.
  Qed.

  (** Every accepted message has been called once, dropped once, is the one the
      consumer holds, or is in the queue: in this order, with nothing else. *)
  Theorem C67_every_message_accounted_for : forall evs : list (nevent M),
    let s := fst (nexec nq0 evs) in let tr := snd (nexec nq0 evs) in
    exists h, (length h <= 1)%nat /\ accepted tr = settled tr ++ h ++ n_q s.
  Proof. intros evs s tr. exists (pend s). split; [apply pend_length|apply whereabouts]. Qed.

  (** Calls are made over a working connection only, and messages are dropped only without one. *)
  Theorem C67_calls_connected_drops_disconnected : forall (evs : list (nevent M)) a o b,
    snd (nexec nq0 evs) = a ++ o :: b ->
    match o with
    | NCall _ _ => linked a = true
    | NDropped _ => linked a = false
    | _ => True
    end.
  Proof. intros evs a o b E. exact (nexec_obs evs nq0 a o b wf0 E). Qed.

  (** While the connection works nothing is dropped, and the calls are exactly the
      accepted messages, up to the last one, which may be on its way, and the queue. *)
  Theorem C67_reliable_while_connected : forall (evs : list (nevent M)),
    let s := fst (nexec nq0 evs) in let tr := snd (nexec nq0 evs) in
    dropped_msgs tr = [] ->
    exists h, (length h <= 1)%nat /\ accepted tr = called tr ++ h ++ n_q s.
  Proof.
    intros evs s tr D. exists (pend s). split; [apply pend_length|].
    unfold tr at 1. rewrite whereabouts. f_equal. fold tr. clear - D.
    induction tr as [|o tr IH]; [reflexivity|].
    destruct o; cbn in *; try apply IH; try assumption; [discriminate|f_equal; apply IH; assumption].
  Qed.
End C67.

Section C68.
  Context {M : Type}.
  Lemma called_perm (tr : list (nobs M)) : Permutation (called tr) (called_with false tr ++ called_with true tr).
  Proof.
    induction tr as [|o tr IH]; [constructor|].
    destruct o as [m|m|m|m [|]| |]; cbn; try exact IH.
    - apply Permutation_cons_app, IH.
    - constructor. exact IH.
  Qed.

  (** A message whose call failed is never called again, whatever comes after (here
      the messages are told apart, so that the same message sent again does not count). *)
  Theorem C68_failed_call_never_repeated : forall (evs : list (nevent M)) m,
    let tr := snd (nexec nq0 evs) in
    NoDup (accepted tr) -> In m (called_with false tr) ->
    ~ In m (called_with true tr) /\ exists a b, called tr = a ++ m :: b /\ ~ In m (a ++ b).
  Proof.
    intros evs m tr D I.
    assert (D2: NoDup (called tr)).
    { eapply subseq_NoDup; [|exact D]. apply C67_calls_in_order_at_most_once. }
    split.
    - pose proof (Permutation_NoDup (called_perm tr) D2) as D3.
      intros I2. clear - D3 I I2. induction (called_with false tr) as [|x l IH]; [destruct I|].
      cbn in D3. inversion D3; subst. destruct I as [->|I]; [|apply IH; assumption].
      apply H1. apply in_or_app. right. exact I2.
    - assert (I2: In m (called tr)).
      { apply (Permutation_in _ (Permutation_sym (called_perm tr))). apply in_or_app. left. exact I. }
      destruct (in_split _ _ I2) as (a&b&E). exists a, b. split; [exact E|].
      rewrite E in D2. apply (NoDup_remove_2 _ _ _ D2).
  Qed.

  Lemma after_failure evs : forall (s : nq M) a m, wf s -> n_loc s = LTop -> n_pushed s = false ->
    snd (nexec s evs) = a ++ [NCall m false] ->
    n_loc (fst (nexec s evs)) = LPost false \/ n_loc (fst (nexec s evs)) = LTop /\ n_pushed (fst (nexec s evs)) = true.
  Proof.
    induction evs as [|ev l IH] using rev_ind; intros s a m W L P; [destruct a; discriminate|].
    rewrite nexec_app. cbn [fst snd nexec]. rewrite app_nil_r.
    set (s1 := fst (nexec s l)). intros E.
    assert (W1: wf s1) by (apply nexec_inv; exact W).
    destruct (snd (nstep s1 ev)) as [|o os] eqn:O.
    - rewrite app_nil_r in E. destruct (IH s a m W L P E) as [X|[X Y]]; fold s1 in X; try (fold s1 in Y); clear IH.
      + destruct ev as [mm|ok|ok]; cbn in *.
        * unfold nsend in O. destruct (_ <? _); discriminate.
        * left. unfold ndial. destruct (n_conn s1); exact X.
        * unfold ngo in *. rewrite X in *. destruct (n_q s1); cbn in *; auto.
      + destruct ev as [mm|ok|ok]; cbn in *.
        * unfold nsend in O. destruct (_ <? _); discriminate.
        * right. unfold ndial. destruct (n_conn s1); auto.
        * unfold ngo in O. rewrite X in O. discriminate.
    - assert (I: In (NCall m false) (o :: os)).
      { destruct (rev (o :: os)) as [|y r] eqn:R.
        - apply (f_equal (@length _)) in R. rewrite rev_length in R. discriminate.
        - apply (f_equal (@rev _)) in R. rewrite rev_involutive in R. cbn [rev] in R. rewrite R in *.
          rewrite app_assoc in E. apply app_inj_tail in E. destruct E as [_ ->]. apply in_or_app. right. left. reflexivity. }
      rewrite <- O in I. left. destruct ev as [mm|ok|ok]; cbn in *.
      + unfold nsend in I. destruct (_ <? _); destruct I as [I|[]]; discriminate.
      + destruct I.
      + unfold ngo in *. destruct (n_loc s1) as [| | | | | |b]; cbn in *.
        * destruct I as [I|[]]; discriminate.
        * destruct (n_conn s1); cbn in I; intuition discriminate.
        * destruct I.
        * destruct (n_conn s1); unfold held in I; try destruct (n_msg s1); cbn in I; intuition discriminate.
        * destruct I.
        * unfold held in I. destruct (n_msg s1); cbn in I; [|destruct I]. destruct I as [I|[]]. injection I as _ ->. reflexivity.
        * destruct b, (n_q s1); cbn in I; destruct I.
  Qed.

  (** When a call has failed and no message is outstanding, nothing happens, no new
      connection attempt in particular, until another message is sent. *)
  Theorem C68_failure_noticed_only_by_next_message : forall (evs more : list (nevent M)) m a,
    let tr := snd (nexec nq0 evs) in
    tr = a ++ [NCall m false] -> accepted tr = settled tr ->
    forallb (fun ev => negb (is_send ev)) more = true ->
    snd (nexec nq0 (evs ++ more)) = tr.
  Proof.
    intros evs more m a tr E A NS. rewrite nexec_app. cbn [snd]. fold tr.
    enough (H: snd (nexec (fst (nexec nq0 evs)) more) = []) by (rewrite H; apply app_nil_r).
    pose proof (whereabouts evs) as WH. fold tr in WH. rewrite A in WH.
    rewrite <- (app_nil_r (settled tr)) in WH at 1. apply app_inv_head in WH.
    symmetry in WH. apply app_eq_nil in WH. destruct WH as [PE Q].
    pose proof (nexec_inv evs nq0 wf0) as [[W1 _] _].
    assert (L: n_loc (fst (nexec nq0 evs)) = LPost false).
    { destruct (after_failure evs nq0 a m wf0 eq_refl eq_refl E) as [X|[X Y]]; [exact X|].
      exfalso. specialize (W1 Y). unfold pend, held in PE. rewrite X, Y in PE.
      destruct (n_msg (fst (nexec nq0 evs))); [discriminate|auto]. }
    clear - L Q NS. revert L Q. generalize (fst (nexec nq0 evs)) as s.
    induction more as [|ev l IH]; intros s L Q; [reflexivity|].
    cbn [forallb] in NS. apply andb_prop in NS. destruct NS as [N1 N2]. cbn [nexec snd].
    destruct ev as [mm|ok|ok]; [discriminate| |]; cbn [nstep fst snd app].
    - apply IH; [assumption| |]; unfold ndial; destruct (n_conn s); assumption.
    - unfold ngo. rewrite L, Q. cbn [fst snd app]. apply IH; assumption.
  Qed.
End C68.

(** Message 1 is called, the call fails, message 2 comes, a new connection is made:
    2 is called and 1 is lost, although it was accepted and never refused or dropped. *)
Definition lost_history : list (nevent Z) :=
  [EvSend 1; EvGo true; EvDial true; EvGo true; EvGo true; EvGo false; EvSend 2; EvGo true; EvGo true; EvDial true; EvGo true; EvGo true; EvGo true].
Example lost_trace : snd (nexec nq0 lost_history) =
  [NAccept 1; NDial; NConnected; NCall 1 false; NAccept 2; NDial; NConnected; NCall 2 true].
Proof. reflexivity. Qed.

Theorem C68_refuted : exists (evs : list (nevent Z)) m,
  In m (called_with false (snd (nexec nq0 evs))) /\ linked (snd (nexec nq0 evs)) = true /\
  forall more, let tr := snd (nexec nq0 (evs ++ more)) in
    NoDup (accepted tr) -> ~ In m (called_with true tr).
Proof.
  exists lost_history, 1. split; [cbn; auto|]. split; [reflexivity|].
  intros more tr D. refine (proj1 (C68_failed_call_never_repeated (lost_history ++ more) 1 D _)).
  rewrite nexec_app. cbn [snd]. rewrite called_with_app. apply in_or_app. left. cbn. auto.
Qed.

(** The hypotheses of C68_failure_noticed_only_by_next_message hold after the first failure. *)
Example lost_prefix : let tr := snd (nexec nq0 (firstn 6 lost_history)) in
  tr = [NAccept 1; NDial; NConnected] ++ [NCall 1 false] /\ accepted tr = settled tr.
Proof. split; reflexivity. Qed.

(** A history with a disconnected phase: 1 is dropped, 2 is held when the connection comes, and is called. *)
Definition drop_history : list (nevent Z) :=
  [EvSend 1; EvGo true; EvDial false; EvGo true; EvGo true; EvGo true; EvDial false; EvSend 2; EvGo true; EvDial true; EvGo true; EvGo true; EvSend 3].
Example drop_trace : snd (nexec nq0 drop_history) =
  [NAccept 1; NDial; NDropped 1; NAccept 2; NConnected; NCall 2 true; NAccept 3].
Proof. reflexivity. Qed.

Section C69.
  Context {M : Type}.
  (** try_send returns at once, whatever the consumer and the connector are doing: a
      message offered to a queue with room joins its end, one offered to a full queue
      is dropped, and nothing else changes. *)
  Theorem C69_send_never_waits : forall (s : nq M) m,
    (Z.of_nat (length (n_q s)) < 1000 ->
       nstep s (EvSend m) = (mkNq (n_q s ++ [m]) (n_loc s) (n_msg s) (n_pushed s) (n_conn s), [NAccept m])) /\
    (1000 <= Z.of_nat (length (n_q s)) -> nstep s (EvSend m) = (s, [NRefuse m])).
  Proof.
    intros s m. cbn [nstep]. unfold nsend, msg_max. split; intros H.
    - destruct (Z.ltb_spec (Z.of_nat (length (n_q s))) 1000); [reflexivity|lia].
    - destruct (Z.ltb_spec (Z.of_nat (length (n_q s))) 1000); [lia|reflexivity].
  Qed.

  Theorem C69_queue_bounded : forall evs : list (nevent M),
    Z.of_nat (length (n_q (fst (nexec nq0 evs)))) <= 1000.
  Proof.
    intros evs. enough (G: forall s : nq M, Z.of_nat (length (n_q s)) <= msg_max -> Z.of_nat (length (n_q (fst (nexec s evs)))) <= msg_max).
    { apply G. cbn. unfold msg_max. lia. }
    induction evs as [|ev l IH]; intros s H; cbn [nexec fst]; [exact H|]. apply IH, nstep_room, H.
  Qed.

  (** A refused message changes nothing later either: the run goes on as if it had not been offered. *)
  Theorem C69_refused_leaves_no_trace : forall (evs more : list (nevent M)) m,
    1000 <= Z.of_nat (length (n_q (fst (nexec nq0 evs)))) ->
    fst (nexec nq0 (evs ++ EvSend m :: more)) = fst (nexec nq0 (evs ++ more)) /\
    settled (snd (nexec nq0 (evs ++ EvSend m :: more))) = settled (snd (nexec nq0 (evs ++ more))).
  Proof.
    intros evs more m H. rewrite !nexec_app. cbn [nexec fst snd].
    rewrite (proj2 (C69_send_never_waits _ m) H). cbn [fst snd]. split; [reflexivity|].
    rewrite !settled_app. reflexivity.
  Qed.
End C69.

(** A queue can be full: 1000 messages sent before the consumer takes any. *)
Example full_queue : Z.of_nat (length (n_q (fst (nexec nq0 (repeat (EvSend 7) 1000))))) = 1000.
Proof. vm_compute. reflexivity. Qed.

Print Assumptions C67_calls_in_order_at_most_once.
Print Assumptions C67_every_message_accounted_for.
Print Assumptions C67_calls_connected_drops_disconnected.
Print Assumptions C67_reliable_while_connected.
Print Assumptions C68_failed_call_never_repeated.
Print Assumptions C68_failure_noticed_only_by_next_message.
Print Assumptions C68_refuted.
Print Assumptions C69_send_never_waits.
Print Assumptions C69_queue_bounded.
Print Assumptions C69_refused_leaves_no_trace.
