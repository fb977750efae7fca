(** Where every accepted message is. *)
From Coq Require Import ZArith List Lia Bool.
From Verif Require Import Bytes Res Net NetSpec.
Import ListNotations.
Open Scope Z_scope.

Section Proofs.
  Context {M : Type}.
  Implicit Types (s : nq M) (tr : list (nobs M)) (m : M).

  Lemma accepted_app tr tr' : accepted (tr ++ tr') = accepted tr ++ accepted tr'.
  Proof. apply flat_map_app. Qed.
  Lemma settled_app tr tr' : settled (tr ++ tr') = settled tr ++ settled tr'.
  Proof. apply flat_map_app. Qed.
  Lemma called_app tr tr' : called (tr ++ tr') = called tr ++ called tr'.
  Proof. apply flat_map_app. Qed.
  Lemma dropped_app tr tr' : dropped_msgs (tr ++ tr') = dropped_msgs tr ++ dropped_msgs tr'.
  Proof. apply flat_map_app. Qed.
  Lemma called_with_app b tr tr' : called_with b (tr ++ tr') = called_with b tr ++ called_with b tr'.
  Proof. apply flat_map_app. Qed.

  Lemma nexec_app s e1 e2 :
    nexec s (e1 ++ e2) = (fst (nexec (fst (nexec s e1)) e2), snd (nexec s e1) ++ snd (nexec (fst (nexec s e1)) e2)).
  Proof.
    revert s. induction e1 as [|e l IH]; intros s; cbn.
    - destruct (nexec s e2); reflexivity.
    - rewrite IH. cbn. rewrite app_assoc. reflexivity.
  Qed.

  (** The message taken from the queue and not yet settled. *)
  Definition pend s : list M :=
    match n_loc s with
    | LSel | LCall => held s
    | _ => if n_pushed s then held s else []
    end.
  Definition wf s : Prop :=
    (n_pushed s = true -> n_msg s <> None) /\
    match n_loc s with
    | LSel | LCall => n_msg s <> None /\ n_pushed s = false
    | LPost _ => n_pushed s = false
    | _ => True
    end.

  Lemma pend_length s : (length (pend s) <= 1)%nat.
  Proof. unfold pend, held. destruct (n_loc s), (n_pushed s), (n_msg s); cbn; lia. Qed.

  Lemma nstep_inv s ev : wf s ->
    wf (fst (nstep s ev)) /\
    accepted (snd (nstep s ev)) = [] /\ pend s ++ n_q s = settled (snd (nstep s ev)) ++ pend (fst (nstep s ev)) ++ n_q (fst (nstep s ev))
    \/ exists m, ev = EvSend m /\ wf (fst (nstep s ev)) /\ snd (nstep s ev) = [NAccept m] /\
         pend (fst (nstep s ev)) = pend s /\ n_q (fst (nstep s ev)) = n_q s ++ [m].
  Proof.
    intros [W1 W2]. destruct ev as [m|ok|ok].
    - cbn. unfold nsend. destruct (Z.of_nat (length (n_q s)) <? msg_max).
      + right. exists m. unfold pend, held, wf. cbn. auto.
      + left. cbn. unfold wf. auto.
    - left. cbn. unfold ndial, wf, pend, held. destruct s as [q l mm pb c]. cbn in *.
      destruct c as [fb| | |]; cbn; auto.
    - left. destruct s as [q l mm pb c]. unfold pend, held, wf in *. cbn in *.
      unfold ngo, nget, nrecv, held. cbn.
      destruct l as [| | | | | |b]; cbn in *.
      + auto.
      + destruct c as [fb| | |]; cbn; auto.
      + destruct pb; [cbn; auto|]. destruct q as [|m q]; cbn; [auto|].
        repeat split; congruence.
      + destruct W2 as [W2 ->]. destruct mm as [m|]; [|congruence].
        destruct c as [fb| | |]; cbn; repeat split; congruence.
      + destruct pb; [cbn; auto|]. destruct q as [|m q]; cbn; [auto|].
        repeat split; congruence.
      + destruct W2 as [W2 ->]. destruct mm as [m|]; [|congruence]. cbn. repeat split; congruence.
      + subst pb. destruct b; destruct q as [|m q]; cbn; repeat split; congruence.
  Qed.

  Lemma nexec_inv evs : forall s, wf s ->
    wf (fst (nexec s evs)) /\
    pend s ++ n_q s ++ accepted (snd (nexec s evs)) =
      settled (snd (nexec s evs)) ++ pend (fst (nexec s evs)) ++ n_q (fst (nexec s evs)).
  Proof.
    induction evs as [|ev l IH]; intros s W; cbn [nexec fst snd].
    - cbn. rewrite app_nil_r. auto.
    - rewrite accepted_app, settled_app.
      destruct (nstep_inv s ev W) as [(W'&A&E)|(m&_&W'&O&P&Q)].
      + destruct (IH _ W') as [W2 E2]. split; [exact W2|].
        rewrite A. cbn [app]. rewrite <- (app_assoc (settled _)), <- E2.
        rewrite (app_assoc (pend s)), E, <- !app_assoc. reflexivity.
      + destruct (IH _ W') as [W2 E2]. split; [exact W2|].
        rewrite O in *. cbn. rewrite <- E2, P, Q, <- !app_assoc. reflexivity.
  Qed.

  Lemma wf0 : wf nq0.
  Proof. split; cbn; [congruence|exact I]. Qed.

  Lemma whereabouts evs :
    accepted (snd (nexec nq0 evs)) = settled (snd (nexec nq0 evs)) ++ pend (fst (nexec nq0 evs)) ++ n_q (fst (nexec nq0 evs)).
  Proof. exact (proj2 (nexec_inv evs _ wf0)). Qed.

  Lemma subseq_refl {A} (l : list A) : subseq l l.
  Proof. induction l; constructor; assumption. Qed.
  Lemma subseq_app_r {A} (a b c : list A) : subseq a b -> subseq a (b ++ c).
  Proof. induction 1; cbn; constructor; assumption. Qed.
  Lemma subseq_trans {A} (a b c : list A) : subseq a b -> subseq b c -> subseq a c.
  Proof.
    intros H1 H2. revert a H1. induction H2; intros a' H1.
    - inversion H1; subst. constructor.
    - inversion H1; subst; constructor; auto.
    - constructor. auto.
  Qed.
  Lemma called_subseq tr : subseq (called tr) (settled tr).
  Proof. induction tr as [|o tr IH]; cbn; [constructor|]. destruct o; cbn; try assumption; constructor; assumption. Qed.
  Lemma subseq_NoDup {A} (a b : list A) : subseq a b -> NoDup b -> NoDup a.
  Proof.
    induction 1; intros D; [constructor| |].
    - inversion D; subst. constructor; [|auto]. intros I. apply H2. clear - H I.
      revert I. induction H; cbn; intros I; [destruct I| |]; intuition.
    - inversion D; auto.
  Qed.

  Lemma nstep_room s ev : Z.of_nat (length (n_q s)) <= msg_max -> Z.of_nat (length (n_q (fst (nstep s ev)))) <= msg_max.
  Proof.
    intros H. destruct ev as [m|ok|ok]; cbn.
    - unfold nsend. destruct (Z.ltb_spec (Z.of_nat (length (n_q s))) msg_max); cbn; [|lia].
      rewrite app_length. cbn. lia.
    - unfold ndial. destruct (n_conn s); cbn; lia.
    - unfold ngo, nget, nrecv. destruct (n_loc s) as [| | | | | |b]; try (cbn; lia).
      + destruct (n_conn s); cbn; lia.
      + destruct (n_pushed s); [cbn; lia|]. destruct (n_q s) eqn:Q; cbn [fst n_q length] in *; rewrite ?Q; cbn [length]; lia.
      + destruct (n_conn s); cbn; lia.
      + destruct (n_pushed s); [cbn; lia|]. destruct (n_q s) eqn:Q; cbn [fst n_q length] in *; rewrite ?Q; cbn [length]; lia.
      + destruct b; destruct (n_q s) eqn:Q; cbn [fst n_q length] in *; rewrite ?Q; cbn [length]; lia.
  Qed.

  (** The connection, as the trace tells it and as the location tells it. *)
  Definition up_at s : bool := match n_loc s with LGet | LCall | LPost true => true | _ => false end.
  Definition down_at s : bool := match n_loc s with LTop | LWait | LDrop | LSel | LPost false => true | _ => false end.
  Lemma up_down s : down_at s = negb (up_at s).
  Proof. unfold up_at, down_at. destruct (n_loc s) as [| | | | | |[|]]; reflexivity. Qed.

  Lemma link_app tr tr' : forall b, link b (tr ++ tr') = link (link b tr) tr'.
  Proof. induction tr as [|o tr IH]; intros b; cbn; [reflexivity|]. destruct o as [m|m|m|m [|]| |]; apply IH. Qed.

  Lemma nstep_link s ev : wf s -> link (up_at s) (snd (nstep s ev)) = up_at (fst (nstep s ev)).
  Proof.
    intros [W1 W2]. destruct s as [q l mm pb c]. cbn in W1, W2.
    destruct ev as [m|ok|ok]; cbn [nstep fst snd].
    - unfold nsend. cbn [n_q]. destruct (_ <? _); reflexivity.
    - unfold ndial. cbn [n_conn]. destruct c; reflexivity.
    - unfold ngo, nget, nrecv, held, up_at. cbn.
      destruct l as [| | | | | |b]; cbn.
      + reflexivity.
      + destruct c; reflexivity.
      + destruct pb; [reflexivity|]. destruct q; reflexivity.
      + destruct mm; [|destruct W2; congruence]. destruct c; reflexivity.
      + destruct pb; [reflexivity|]. destruct q; reflexivity.
      + destruct mm; [|destruct W2; congruence]. destruct ok; reflexivity.
      + destruct b, q; reflexivity.
  Qed.

  (** What one step shows, with the link before it. *)
  Lemma nstep_obs s ev o : In o (snd (nstep s ev)) ->
    match o with
    | NCall _ _ => snd (nstep s ev) = [o] /\ up_at s = true
    | NDropped _ => snd (nstep s ev) = [o] /\ up_at s = false
    | _ => True
    end.
  Proof.
    destruct s as [q l mm pb c].
    destruct ev as [m|ok|ok]; cbn [nstep fst snd].
    - unfold nsend. cbn [n_q]. destruct (_ <? _); cbn; intros [<-|[]]; exact I.
    - intros [].
    - unfold ngo, nget, nrecv, held, up_at. cbn.
      destruct l as [| | | | | |b]; cbn.
      + intros [<-|[]]; exact I.
      + destruct c; cbn; intros I; repeat destruct I as [<-|I]; try destruct I; exact Logic.I.
      + intros [].
      + destruct c, mm; cbn; intros I; repeat destruct I as [<-|I]; try destruct I; auto.
      + intros [].
      + destruct mm; cbn; intros I; repeat destruct I as [<-|I]; try destruct I; auto.
      + destruct b, q; cbn; intros [].
  Qed.

  Lemma nexec_obs evs : forall s a o b, wf s -> snd (nexec s evs) = a ++ o :: b ->
    match o with
    | NCall _ _ => link (up_at s) a = true
    | NDropped _ => link (up_at s) a = false
    | _ => True
    end.
  Proof.
    induction evs as [|ev l IH]; intros s a o b W; cbn [nexec fst snd]; intros E.
    - destruct a; discriminate.
    - assert (W': wf (fst (nstep s ev))) by (destruct (nstep_inv s ev W) as [(X&_)|(m&_&X&_)]; exact X).
      destruct (app_eq_app _ _ _ _ E) as (l0&[[E1 E2]|[E1 E2]]).
      + destruct l0 as [|o' l0].
        * rewrite app_nil_r in E1. cbn in E2.
          specialize (IH (fst (nstep s ev)) [] o b W' (eq_sym E2)). cbn in IH.
          rewrite <- (nstep_link s ev W) in IH. rewrite <- E1. exact IH.
        * cbn in E2. injection E2 as <- E2.
          assert (I: In o (snd (nstep s ev))) by (rewrite E1; apply in_elt).
          pose proof (nstep_obs s ev o I) as H.
          destruct o; try exact Logic.I; destruct H as [H1 H2]; rewrite H1 in E1;
            (destruct a as [|x a]; [exact H2|destruct a; discriminate]).
      + specialize (IH (fst (nstep s ev)) l0 o b W' E2).
        rewrite <- (nstep_link s ev W) in IH. rewrite <- link_app, <- E1 in IH. exact IH.
  Qed.
End Proofs.
