(** Proofs about several nodes: each goes through a history of a node, each lane through one of an outgoing queue, and what
    comes in is what calls carry. *)
From Coq Require Import ZArith List Lia Bool Permutation.
From Verif Require Import Bytes Res Dto Prot DkgProt KMap Firewall Node NodeSpec Cluster NetSpec ClusterSpec.
From Verif Require Net.
Import ListNotations.
Open Scope Z_scope.

Lemma lane_eqb_spec a b : reflect (a = b) (lane_eqb a b).
Proof.
  destruct a as [a1 a2 a3 a4], b as [b1 b2 b3 b4]. unfold lane_eqb. cbn. destruct (Nat.eqb_spec a1 b1) as [->|N]; cbn; [|constructor; congruence].
  destruct (Z.eqb_spec a2 b2) as [->|N]; cbn; [|constructor; congruence]. destruct (Z.eqb_spec a3 b3) as [->|N]; cbn; [|constructor; congruence].
  destruct (Z.eqb_spec a4 b4) as [->|N]; constructor; congruence.
Qed.
Lemma lane_eqb_refl a : lane_eqb a a = true. Proof. destruct (lane_eqb_spec a a); congruence. Qed.

Lemma put_same {A} (l : list A) i x : (i < length l)%nat -> nth_error (put l i x) i = Some x.
Proof. revert i. induction l as [|y l IH]; intros [|i] H; cbn in *; try lia; [reflexivity|apply IH; lia]. Qed.
Lemma put_other {A} (l : list A) i j x : i <> j -> nth_error (put l i x) j = nth_error l j.
Proof. revert i j. induction l as [|y l IH]; intros [|i] [|j] H; cbn; try reflexivity; try congruence. apply IH. congruence. Qed.
Lemma put_len {A} (l : list A) i x : length (put l i x) = length l.
Proof. revert i. induction l as [|y l IH]; intros [|i]; cbn; auto. Qed.

Lemma among_refl {A} (a : list A) : among a a. Proof. exists []. rewrite app_nil_r. reflexivity. Qed.
Lemma among_trans {A} (a b c : list A) : among a b -> among b c -> among a c.
Proof. intros [r P] [s Q]. exists (r ++ s). rewrite app_assoc. rewrite P. exact Q. Qed.
Lemma among_perm {A} (a b c : list A) : Permutation a b -> among b c -> among a c.
Proof. intros P [s Q]. exists s. rewrite P. exact Q. Qed.
Lemma among_app {A} (a b c d : list A) : among a b -> among c d -> among (a ++ c) (b ++ d).
Proof. intros [r P] [s Q]. exists (r ++ s). rewrite <- P, <- Q. rewrite <- !app_assoc. apply Permutation_app_head. rewrite !app_assoc. apply Permutation_app_tail, Permutation_app_comm. Qed.
Lemma among_left {A} (a b : list A) : among a (a ++ b). Proof. exists b. reflexivity. Qed.
Lemma among_right {A} (a b : list A) : among b (a ++ b). Proof. exists a. apply Permutation_app_comm. Qed.
Lemma among_subseq {A} (a b : list A) : subseq a b -> among a b.
Proof.
  induction 1 as [b|x a b H [r P]|x a b H [r P]]; [exists b; reflexivity|exists r; cbn; constructor; exact P|].
  exists (x :: r). rewrite <- P. symmetry. apply Permutation_middle.
Qed.
Lemma among_in {A} (a b : list A) x : among a b -> In x a -> In x b.
Proof. intros [r P] H. apply (Permutation_in _ P). apply in_or_app. auto. Qed.
Lemma among_filter {A} (f : A -> bool) (a b : list A) : among a b -> among (filter f a) (filter f b).
Proof.
  intros [r P]. exists (filter f r). rewrite <- filter_app. clear - P. induction P; cbn.
  - constructor.
  - destruct (f x); [constructor|]; assumption.
  - destruct (f x), (f y); try constructor; reflexivity.
  - etransitivity; eassumption.
Qed.

Section CP.
  Context {G : Type}.
  Variable ky : kyber G.
  Variable keccak : bytes -> bytes.
  Variable pshash : Z -> Z -> bytes.
  Variable places : list place.
  Variable home : Z -> option nat.
  Notation message := (message payload). Notation nevent := (nevent (G := G)). Notation node := (node (G := G)).
  Notation cobs := (cobs (G := G)). Notation cluster := (cluster (G := G)).
  Notation step_node := (step_node ky keccak pshash places).
  Notation cstep := (cstep ky keccak pshash places home).
  Notation cexec := (cexec ky keccak pshash places home).
  Implicit Types (tr : list cobs) (c : cluster).

  (** Messages of lane [l] in a list. *)
  Definition sel (l : lane) (s : list (lane * message)) : list message := flat_map (fun x => if lane_eqb (fst x) l then [snd x] else []) s.
  Definition came_late (l : lane) (tr : list cobs) : list message :=
    flat_map (fun o => match o with XNode _ (Late l') (VIn _ m) _ => if lane_eqb l' l then [m] else [] | _ => [] end) tr.
  Lemma sel_app l a b : sel l (a ++ b) = sel l a ++ sel l b. Proof. apply flat_map_app. Qed.
  Lemma by_perm l tr : Permutation (came_by l tr) (came_via l tr ++ came_late l tr).
  Proof.
    induction tr as [|o tr IH]; [constructor|].
    change (Permutation ((match o with XNode _ (Via l' | Late l') (VIn _ m) _ => if lane_eqb l' l then [m] else [] | _ => [] end) ++ came_by l tr)
      (((match o with XNode _ (Via l') (VIn _ m) _ => if lane_eqb l' l then [m] else [] | _ => [] end) ++ came_via l tr) ++ (match o with XNode _ (Late l') (VIn _ m) _ => if lane_eqb l' l then [m] else [] | _ => [] end) ++ came_late l tr)).
    rewrite IH. destruct o as [i [|l'|l'] ev os| |]; try reflexivity; destruct ev; try reflexivity; destruct (lane_eqb l' l); try reflexivity.
    cbn [app]. apply Permutation_middle.
  Qed.

  Lemma nexec_snoc su evs : forall (n : node) n1 o1 ev n2 o2, nexec ky keccak pshash su n evs = Ok (n1, o1) -> nstep ky keccak pshash su n1 ev = Ok (n2, o2) ->
    nexec ky keccak pshash su n (evs ++ [ev]) = Ok (n2, o1 ++ o2).
  Proof.
    induction evs as [|e evs IH]; intros n n1 o1 ev n2 o2; cbn [nexec app].
    - intros E H. injection E as <- <-. rewrite H. cbn. rewrite app_nil_r. reflexivity.
    - destruct (nstep ky keccak pshash su n e) as [[n3 o3]| |]; cbn [rbind fst snd]; try discriminate.
      destruct (nexec ky keccak pshash su n3 evs) as [[n4 o4]| |] eqn:E4; cbn [rbind fst snd]; try discriminate. intros E H. injection E as <- <-.
      rewrite (IH _ _ _ _ _ _ E4 H). cbn. rewrite app_assoc. reflexivity.
  Qed.
  Lemma nclock_snoc (evs : list nevent) : forall t0 ev, nclock t0 evs -> t0 <= ntime ev -> Forall (fun e => ntime e <= ntime ev) evs -> nclock t0 (evs ++ [ev]).
  Proof.
    induction evs as [|e evs IH]; intros t0 ev; cbn; [intros; auto|]. intros [A B] C F. inversion F; subst. split; [exact A|]. apply IH; auto.
  Qed.
  Lemma net_app (evs : list (Net.nevent message)) : forall s evs', Net.nexec s (evs ++ evs') = (fst (Net.nexec (fst (Net.nexec s evs)) evs'), snd (Net.nexec s evs) ++ snd (Net.nexec (fst (Net.nexec s evs)) evs')).
  Proof.
    induction evs as [|e evs IH]; intros s evs'; cbn [Net.nexec app fst snd]; [destruct (Net.nexec s evs'); reflexivity|]. rewrite IH. cbn [fst snd]. rewrite app_assoc. reflexivity.
  Qed.

  (** What holds after [tr] up to time [T]; [P], [Q]: messages of a call that succeeded, of one that failed, which are just coming in. *)
  Record CI (P Q : list (lane * message)) (T : Z) (tr : list cobs) (c : cluster) : Prop := mkCI {
    ci_len : length (c_nodes c) = length places;
    ci_node : forall i p, nth_error places i = Some p -> exists n,
      nclock (pl_begin p) (events_at i tr) /\ nexec ky keccak pshash (pl_su p) (start_node (pl_su p) (pl_until p) (pl_begin p)) (events_at i tr) = Ok (n, trace_at i tr) /\
      Forall (fun ev => ntime ev <= T + pl_skew p) (events_at i tr) /\ (nth_error (c_nodes c) i = Some None \/ nth_error (c_nodes c) i = Some (Some n));
    ci_lane : forall l, Net.nexec Net.nq0 (lane_events l tr) = (c_lanes c l, lane_trace l tr);
    ci_sends : forall l, put_in (lane_events l tr) = sent_to (l_pc l) (l_from l) (l_to l) (trace_at (l_at l) tr);
    ci_via : forall l, came_via l tr ++ sel l P = called_with true (lane_trace l tr);
    ci_late : forall l, among (came_late l tr ++ sel l (c_stray c) ++ sel l Q) (called_with false (lane_trace l tr));
    ci_home : forall j org ev os, In (XNode j org ev os) tr -> match org with Own => True | Via l | Late l => home (l_to l) = Some j /\ exists t m, ev = VIn t m end }.

  Lemma events_app i a b : events_at i (a ++ b) = events_at (G := G) i a ++ events_at i b. Proof. apply flat_map_app. Qed.
  Lemma trace_app i a b : trace_at i (a ++ b) = trace_at (G := G) i a ++ trace_at i b. Proof. apply flat_map_app. Qed.
  Lemma levents_app i a b : lane_events i (a ++ b) = lane_events (G := G) i a ++ lane_events i b. Proof. apply flat_map_app. Qed.
  Lemma ltrace_app i a b : lane_trace i (a ++ b) = lane_trace (G := G) i a ++ lane_trace i b. Proof. apply flat_map_app. Qed.
  Lemma via_app i a b : came_via i (a ++ b) = came_via (G := G) i a ++ came_via i b. Proof. apply flat_map_app. Qed.
  Lemma late_app i a b : came_late i (a ++ b) = came_late i a ++ came_late i b. Proof. apply flat_map_app. Qed.
  Lemma put_in_app a b : put_in (a ++ b) = put_in a ++ put_in b. Proof. apply flat_map_app. Qed.
  Lemma sent_app pc x y a b : sent_to pc x y (a ++ b) = sent_to pc x y a ++ sent_to pc x y b. Proof. apply flat_map_app. Qed.
  Lemma called_app ok (a b : list (Net.nobs message)) : called_with ok (a ++ b) = called_with ok a ++ called_with ok b. Proof. apply flat_map_app. Qed.

  Lemma step_lane_eff c now l ev c' o : step_lane c now l ev = (c', o) ->
    c_nodes c' = c_nodes c /\ c_stray c' = c_stray c /\ o = [XLane now l ev (snd (Net.nstep (c_lanes c l) ev))] /\
    forall l', Net.nexec (c_lanes c l') (lane_events l' o) = (c_lanes c' l', lane_trace l' o).
  Proof.
    intros E. injection E as <- <-. cbn [c_nodes c_stray c_lanes]. repeat split. intros l'. cbn [lane_events lane_trace flat_map].
    destruct (lane_eqb_spec l l') as [<-|N].
    - rewrite lane_eqb_refl. cbn [Net.nexec app fst snd]. rewrite !app_nil_r. reflexivity.
    - destruct (lane_eqb_spec l' l); [congruence|]. reflexivity.
  Qed.
  Lemma send_all_eff ls : forall c now c' o, send_all c now ls = (c', o) ->
    c_nodes c' = c_nodes c /\ c_stray c' = c_stray c /\ (forall i, events_at i o = [] /\ trace_at i o = []) /\ (forall l, came_via l o = [] /\ came_late l o = []) /\
    (forall j org ev os, ~ In (XNode j org ev os) o) /\
    forall l, Net.nexec (c_lanes c l) (lane_events l o) = (c_lanes c' l, lane_trace l o) /\ put_in (lane_events l o) = sel l ls /\ forall ok, called_with ok (lane_trace l o) = [].
  Proof.
    induction ls as [|[l1 m] ls IH]; intros c now c' o; cbn [send_all].
    - intros E. injection E as <- <-. repeat split. intros j org ev os [].
    - destruct (step_lane c now l1 (Net.EvSend m)) as [c1 o1] eqn:E1. apply step_lane_eff in E1. destruct E1 as (A1 & A2 & A3 & A4). cbn [fst snd].
      destruct (send_all c1 now ls) as [c2 o2] eqn:E2. destruct (IH _ _ _ _ E2) as (B1 & B2 & B3 & B4 & B5 & B6). cbn [fst snd]. intros E. injection E as <- <-.
      split; [congruence|]. split; [congruence|]. split; [|split; [|split]].
      + intros i. rewrite events_app, trace_app, A3. destruct (B3 i) as [-> ->]. split; reflexivity.
      + intros l. rewrite via_app, late_app, A3. destruct (B4 l) as [-> ->]. split; reflexivity.
      + intros j org ev os H. apply in_app_or in H. destruct H as [H|H]; [|exact (B5 _ _ _ _ H)]. rewrite A3 in H. destruct H as [H|[]]. discriminate.
      + intros l. rewrite levents_app, ltrace_app, net_app, A4. cbn [fst snd]. destruct (B6 l) as (-> & C2 & C3). cbn [fst snd]. split; [reflexivity|]. split.
        * rewrite put_in_app, C2. rewrite A3. cbn [lane_events flat_map sel fst snd]. destruct (lane_eqb l1 l); reflexivity.
        * intros ok. rewrite called_app, C3, app_nil_r, A3. cbn [lane_trace flat_map]. destruct (lane_eqb l1 l); [|reflexivity].
          cbn [Net.nstep]. unfold Net.nsend. destruct (_ <? _); reflexivity.
  Qed.
  Lemma sel_sends l i os : sel l (sends_of i os) = if Nat.eqb i (l_at l) then sent_to (l_pc l) (l_from l) (l_to l) os else [].
  Proof.
    induction os as [|o os IH]; [destruct (Nat.eqb i (l_at l)); reflexivity|].
    change (sends_of i (o :: os)) with ((match o with NRun k (OSent m) => [(mkLane i (k_pc k) (k_guest k) (m_rcpt m), m)] | _ => [] end) ++ sends_of i os).
    change (sent_to (l_pc l) (l_from l) (l_to l) (o :: os)) with ((match o with NRun k (OSent m) => if (k_pc k =? l_pc l) && (k_guest k =? l_from l) && (m_rcpt m =? l_to l) then [m] else [] | _ => [] end) ++ sent_to (l_pc l) (l_from l) (l_to l) os).
    rewrite sel_app, IH. destruct o as [ | | | | | |k o| | ]; try reflexivity; try (destruct (Nat.eqb i (l_at l)); reflexivity). destruct o; try (destruct (Nat.eqb i (l_at l)); reflexivity).
    unfold sel. cbn [flat_map fst snd]. unfold lane_eqb. cbn [l_at l_pc l_from l_to]. destruct (Nat.eqb i (l_at l)); cbn [andb]; [|reflexivity].
    destruct (_ && _); reflexivity.
  Qed.

  (** What is coming in with a step. *)
  Definition vp (org : origin) (ev : nevent) : list (lane * message) := match org, ev with Via l, VIn _ m => [(l, m)] | _, _ => [] end.
  Definition lp (org : origin) (ev : nevent) : list (lane * message) := match org, ev with Late l, VIn _ m => [(l, m)] | _, _ => [] end.
  Definition lands (i : nat) (org : origin) (ev : nevent) : Prop := match org with Own => True | Via l | Late l => home (l_to l) = Some i /\ exists t m, ev = VIn t m end.

  Lemma node_ci T tr c i org ev c' o : CI (vp org ev) (lp org ev) T tr c -> lands i org ev -> T <= ntime ev - skew_of places i ->
    step_node c i org ev = Some (c', o) -> CI [] [] (ntime ev - skew_of places i) (tr ++ o) c'.
  Proof.
    intros [I1 I2 I3 I4 I5 I6 I7] HL HT. unfold step_node, skew_of in *. destruct (nth_error places i) as [p|] eqn:EP; [|discriminate].
    destruct (nth_error (c_nodes c) i) as [[n|]|] eqn:EN; try discriminate. destruct (Z.ltb_spec (ntime ev) (pl_begin p)) as [|HB]; [discriminate|].
    assert (LEN : (i < length (c_nodes c))%nat) by (apply nth_error_Some; congruence).
    destruct (nstep ky keccak pshash (pl_su p) n ev) as [[n1 o1]| |] eqn:ES; cbn [fst snd]; try discriminate.
    - destruct (send_all _ _ _) as [c2 o2] eqn:E2. cbn [fst snd]. intros E. injection E as <- <-.
      destruct (send_all_eff _ _ _ _ _ E2) as (B1 & B2 & B3 & B4 & B5 & B6). cbn [set_node c_nodes c_stray c_lanes] in *.
      change (tr ++ XNode i org ev o1 :: o2) with (tr ++ [XNode i org ev o1] ++ o2).
      constructor.
      + rewrite B1, put_len. exact I1.
      + intros i' p' EP'. destruct (I2 i' p' EP') as (n' & N1 & N2 & N3 & N4).
        rewrite !events_app, !trace_app. destruct (B3 i') as [-> ->]. rewrite !app_nil_r. cbn [events_at trace_at flat_map]. rewrite B1.
        destruct (Nat.eqb_spec i i') as [<-|NE].
        * rewrite EP in EP'. injection EP' as <-. rewrite EN in N4. destruct N4 as [N4|N4]; [discriminate|]. injection N4 as <-. rewrite !app_nil_r.
          exists n1. split; [apply nclock_snoc; [exact N1|lia|]; revert N3; apply Forall_impl; intros; lia|].
          split; [eapply nexec_snoc; eassumption|]. split; [|right; apply put_same, LEN].
          apply Forall_app. split; [revert N3; apply Forall_impl; intros; lia|constructor; [lia|constructor]].
        * rewrite !app_nil_r. exists n'. split; [exact N1|]. split; [exact N2|]. split; [revert N3; apply Forall_impl; intros; lia|]. rewrite put_other by exact NE. exact N4.
      + intros l. rewrite !levents_app, !ltrace_app. change (lane_events l [XNode i org ev o1]) with (@nil (Net.nevent message)). change (lane_trace l [XNode i org ev o1]) with (@nil (Net.nobs message)). cbn [app].
        rewrite net_app, I3. cbn [fst snd]. destruct (B6 l) as (-> & _). reflexivity.
      + intros l. rewrite !levents_app, !trace_app, !put_in_app, !sent_app. destruct (B3 (l_at l)) as [_ ->]. destruct (B6 l) as (_ & C2 & _).
        change (put_in (lane_events l tr) ++ put_in (lane_events l o2) = sent_to (l_pc l) (l_from l) (l_to l) (trace_at (l_at l) tr) ++ sent_to (l_pc l) (l_from l) (l_to l) (trace_at (l_at l) [XNode i org ev o1]) ++ []).
        rewrite I4, C2, sel_sends, app_nil_r. cbn [trace_at flat_map]. destruct (Nat.eqb i (l_at l)); rewrite ?app_nil_r; reflexivity.
      + intros l. rewrite !via_app, !ltrace_app, !called_app. destruct (B4 l) as [-> _]. destruct (B6 l) as (_ & _ & ->). rewrite !app_nil_r. rewrite <- I5.
        cbn [lane_trace flat_map called_with sel]. rewrite ?app_nil_r. f_equal. destruct org as [|l1|l1]; cbn; try reflexivity. destruct ev; reflexivity.
      + intros l. rewrite !late_app, !ltrace_app, !called_app. destruct (B4 l) as [_ ->]. destruct (B6 l) as (_ & _ & ->). rewrite !app_nil_r. rewrite B2. specialize (I6 l). cbn [lane_trace flat_map called_with sel].
        rewrite ?app_nil_r. eapply among_perm; [|exact I6]. rewrite <- app_assoc. apply Permutation_app_head. rewrite Permutation_app_comm. apply Permutation_app_head.
        destruct org as [|l1|l1]; cbn; try reflexivity. destruct ev; reflexivity.
      + intros j org' ev' os' H. apply in_app_or in H. destruct H as [H|H]; [eapply I7, H|]. destruct H as [H|H]; [|destruct (B5 _ _ _ _ H)]. injection H as <- <- <- <-. exact HL.
    - (* the process ends *)
      intros E. assert (E' : (set_node c i None, [XDown i org ev]) = (c', o)) by (destruct org; [injection E as <- <-; reflexivity|discriminate|injection E as <- <-; reflexivity]).
      assert (NV : vp org ev = []) by (destruct org; [reflexivity|discriminate|reflexivity]). rewrite NV in I5. clear E NV. injection E' as <- <-.
      constructor; cbn [set_node c_nodes c_stray c_lanes].
      + rewrite put_len. exact I1.
      + intros i' p' EP'. destruct (I2 i' p' EP') as (n' & N1 & N2 & N3 & N4). rewrite !events_app, !trace_app. cbn [events_at trace_at flat_map]. rewrite !app_nil_r.
        exists n'. split; [exact N1|]. split; [exact N2|]. split.
        { revert N3. apply Forall_impl. intros. lia. }
        destruct (Nat.eq_dec i i') as [<-|NE]; [left; apply put_same, LEN|rewrite put_other by exact NE; exact N4].
      + intros l. rewrite !levents_app, !ltrace_app. cbn [lane_events lane_trace flat_map]. rewrite !app_nil_r. apply I3.
      + intros l. rewrite !levents_app, !trace_app. cbn [lane_events trace_at flat_map]. rewrite !app_nil_r. apply I4.
      + intros l. rewrite via_app, ltrace_app. cbn [came_via lane_trace flat_map]. rewrite !app_nil_r. rewrite <- I5. cbn. rewrite app_nil_r. reflexivity.
      + intros l. rewrite late_app, ltrace_app. cbn [came_late lane_trace flat_map sel]. rewrite !app_nil_r. eapply among_trans; [|exact (I6 l)]. rewrite app_assoc. apply among_left.
      + intros j org' ev' os' H. apply in_app_or in H. destruct H as [H|[H|[]]]; [eapply I7, H|discriminate].
  Qed.

  (** A step of a lane; [os]: what happens. *)
  Lemma lane_ci T tr c now l ev c' o : CI [] [] T tr c -> T <= now -> put_in [ev] = [] -> step_lane c now l ev = (c', o) ->
    CI (match call_in (snd (Net.nstep (c_lanes c l) ev)) with Some (m, true) => [(l, m)] | _ => [] end)
       (match call_in (snd (Net.nstep (c_lanes c l) ev)) with Some (m, false) => [(l, m)] | _ => [] end) now (tr ++ o) c'.
  Proof.
    intros [I1 I2 I3 I4 I5 I6 I7] HT NP E. apply step_lane_eff in E. destruct E as (A1 & A2 & A3 & A4).
    assert (CL : forall ok, called_with ok (snd (Net.nstep (c_lanes c l) ev)) = match call_in (snd (Net.nstep (c_lanes c l) ev)) with Some (m, ok') => if Bool.eqb ok' ok then [m] else [] | None => [] end).
    { intros ok. destruct ev as [m|b|b]; [discriminate NP|reflexivity|]. cbn [Net.nstep]. unfold Net.ngo.
      destruct (Net.n_loc (c_lanes c l)) as [| | | | | |[]]; try reflexivity.
      - destruct (Net.n_conn (c_lanes c l)); reflexivity.
      - destruct (Net.n_conn (c_lanes c l)); try reflexivity; unfold Net.held; destruct (Net.n_msg (c_lanes c l)); reflexivity.
      - unfold Net.held. destruct (Net.n_msg (c_lanes c l)) as [m|]; cbn; [destruct (Bool.eqb b ok); reflexivity|reflexivity].
      - destruct (Net.n_q (c_lanes c l)); reflexivity. }
    constructor.
    - rewrite A1. exact I1.
    - intros i p EP. destruct (I2 i p EP) as (n & N1 & N2 & N3 & N4). rewrite events_app, trace_app, A3. cbn [events_at trace_at flat_map]. rewrite !app_nil_r, A1. exists n. repeat (split; [assumption|]).
      split; [|exact N4]. revert N3. apply Forall_impl. intros. lia.
    - intros l'. rewrite levents_app, ltrace_app, net_app, I3. cbn [fst snd]. rewrite A4. reflexivity.
    - intros l'. rewrite levents_app, trace_app, put_in_app, I4, A3. cbn [trace_at lane_events flat_map]. rewrite app_nil_r. destruct (lane_eqb l l'); cbn [app]; rewrite ?NP, ?app_nil_r; [|cbn]; rewrite ?app_nil_r; reflexivity.
    - intros l'. rewrite via_app, ltrace_app, called_app, <- I5, A3. cbn [came_via lane_trace flat_map sel]. rewrite !app_nil_r. f_equal.
      destruct (lane_eqb l l') eqn:EL; rewrite ?CL; destruct (call_in (snd (Net.nstep (c_lanes c l) ev))) as [[m []]|]; cbn; rewrite ?EL; reflexivity.
    - intros l'. rewrite late_app, ltrace_app, called_app, A2, A3. cbn [came_late lane_trace flat_map]. rewrite !app_nil_r. rewrite app_assoc. apply among_app; [specialize (I6 l'); cbn [sel flat_map] in I6; rewrite app_nil_r in I6; exact I6|].
      destruct (lane_eqb l l') eqn:EL; rewrite ?CL; destruct (call_in (snd (Net.nstep (c_lanes c l) ev))) as [[m []]|]; cbn; rewrite ?EL; apply among_refl.
    - intros j org' ev' os' H. apply in_app_or in H. destruct H as [H|H]; [eapply I7, H|]. rewrite A3 in H. destruct H as [H|[]]. discriminate.
  Qed.

  Lemma sel_remove l s : forall i l1 m, nth_error s i = Some (l1, m) -> Permutation (sel l (remove_nth s i) ++ sel l [(l1, m)]) (sel l s).
  Proof.
    induction s as [|x s IH]; intros [|i] l1 m; cbn [nth_error remove_nth]; try discriminate.
    - intros E. injection E as ->. change ((l1, m) :: s) with ([(l1, m)] ++ s). rewrite sel_app. apply Permutation_app_comm.
    - intros E. change (x :: s) with ([x] ++ s). change (x :: remove_nth s i) with ([x] ++ remove_nth s i). rewrite !sel_app, <- app_assoc, (IH _ _ _ E). reflexivity.
  Qed.

  Lemma cstep_ci T tr c ev c' o : CI [] [] T tr c -> T <= ctime places ev -> cstep c ev = Some (c', o) -> CI [] [] (ctime places ev) (tr ++ o) c'.
  Proof.
    intros HI HT. destruct ev as [i ev|now l ok|now l ok|now s]; cbn [Cluster.cstep ctime] in *.
    - intros E. apply (node_ci T tr c i Own ev c' o); [exact HI|exact I|exact HT|exact E].
    - destruct (alive _ _); [|discriminate]. destruct (step_lane c now l (Net.EvDial ok)) as [c1 o1] eqn:E1. intros E. injection E as <- <-. exact (lane_ci T tr c now l (Net.EvDial ok) c1 o1 HI HT eq_refl E1).
    - destruct (alive _ _); [|discriminate]. destruct (step_lane c now l (Net.EvGo ok)) as [c1 o1] eqn:E1. cbn [fst snd].
      pose proof (lane_ci T tr c now l (Net.EvGo ok) c1 o1 HI HT eq_refl E1) as X. cbn [Net.nstep] in X.
      destruct (call_in (snd (Net.ngo (c_lanes c l) ok))) as [[m []]|].
      + destruct (home (l_to l)) as [j|] eqn:EH; [|discriminate]. destruct (step_node c1 j (Via l) _) as [[c2 o2]|] eqn:E2; [|discriminate]. cbn [fst snd]. intros E. injection E as <- <-.
        rewrite app_assoc. apply (node_ci now (tr ++ o1) c1 j (Via l) _ c2 o2) in E2; [|exact X|split; [exact EH|eauto]|cbn; lia]. cbn [ntime] in E2. replace (now + skew_of places j - skew_of places j) with now in E2 by lia. exact E2.
      + intros E. injection E as <- <-. destruct X as [I1 I2 I3 I4 I5 I6 I7]. constructor; cbn [set_stray c_nodes c_lanes c_stray]; auto.
        assert (ES : c_stray c1 = c_stray c) by (apply step_lane_eff in E1; apply E1). rewrite ES in I6.
        intros l'. specialize (I6 l'). rewrite sel_app. cbn [sel flat_map] in *. rewrite !app_nil_r in *. exact I6.
      + intros E. injection E as <- <-. exact X.
    - destruct (nth_error (c_stray c) s) as [[l m]|] eqn:ES; [|discriminate]. destruct (home (l_to l)) as [j|] eqn:EH; [|discriminate]. intros E.
      assert (X : CI (vp (Late l) (VIn (now + skew_of places j) m)) (lp (Late l) (VIn (now + skew_of places j) m)) T tr (set_stray c (remove_nth (c_stray c) s))).
      { destruct HI as [I1 I2 I3 I4 I5 I6 I7]. constructor; cbn [set_stray c_nodes c_lanes c_stray vp lp]; auto. intros l'. specialize (I6 l'). eapply among_perm; [apply Permutation_app_head, (sel_remove _ _ _ _ _ ES)|]. cbn [sel flat_map] in I6. rewrite app_nil_r in I6. exact I6. }
      apply (node_ci T tr _ j (Late l) _ c' o) in E; [|exact X|split; [exact EH|eauto]|cbn; lia]. cbn [ntime] in E. replace (now + skew_of places j - skew_of places j) with now in E by lia. exact E.
  Qed.
  Lemma cexec_ci evs : forall T tr c c' o, CI [] [] T tr c -> cclock places T evs -> cexec c evs = Some (c', o) -> exists T', CI [] [] T' (tr ++ o) c'.
  Proof.
    induction evs as [|ev evs IH]; intros T tr c c' o HI HC; cbn [Cluster.cexec cclock] in *.
    - intros E. injection E as <- <-. rewrite app_nil_r. eauto.
    - destruct HC as [H1 H2]. destruct (cstep c ev) as [[c1 o1]|] eqn:E1; [|discriminate]. cbn [fst snd]. destruct (cexec c1 evs) as [[c2 o2]|] eqn:E2; [|discriminate]. cbn [fst snd]. intros E. injection E as <- <-.
      rewrite app_assoc. eapply IH; [|exact H2|exact E2]. eapply cstep_ci; eassumption.
  Qed.
  Lemma start_ci T : CI [] [] T [] (start_cluster places).
  Proof.
    constructor; cbn; try reflexivity.
    - apply map_length.
    - intros i p EP. exists (start_node (pl_su p) (pl_until p) (pl_begin p)). repeat split; [constructor|]. right. rewrite nth_error_map, EP. reflexivity.
    - intros l. apply among_refl.
    - intros j org ev os [].
  Qed.
  Lemma history_ci t0 evs c tr : chistory ky keccak pshash places home t0 evs c tr -> exists T, CI [] [] T tr c.
  Proof. intros [HC HE]. exact (cexec_ci evs t0 [] _ _ _ (start_ci t0) HC HE). Qed.
End CP.
