(** Property theorems C113-C115 (connecting to a peer). *)
From Coq Require Import ZArith List Lia Bool.
From Verif Require Import Prot Net NetSpec NetProofs PropsNet Connect ConnectSpec.
Import ListNotations.
Open Scope Z_scope.

(** * One call of _try_connect *)
Lemma retry_delay_range : forall x, 0 <= x < 900 -> 100 * millisecond <= retry_delay x < second.
Proof. unfold retry_delay, ms, second, millisecond. lia. Qed.

(** With [delay] between attempts; [h] is what it sleeps first. *)
Definition head_sleep (delay : Z) (first : bool) : Z := if first then conn_start_grace else delay.
Lemma attempts_S : forall w delay first n t, attempts w delay first (S n) t =
  if dial_ok w (t + head_sleep delay first)
  then ([t + head_sleep delay first], t + head_sleep delay first + dial_takes w (t + head_sleep delay first), true)
  else let '(l, t3, ok) := attempts w delay false n (t + head_sleep delay first + dial_takes w (t + head_sleep delay first)) in
       (t + head_sleep delay first :: l, t3, ok).
Proof. reflexivity. Qed.

(** Facts of the dials of one call: begun after the sleep, spaced, over before the
    end, the last one decisive. *)
Lemma attempts_facts : forall w D delay, dials_within w D -> 100 * millisecond <= delay < second ->
  forall n first t, let '(l, e, ok) := attempts w delay first n t in
    spaced (100 * millisecond) l /\ Forall (fun u => t + head_sleep delay first <= u <= e) l /\ t <= e /\
    (ok = false -> length l = n /\ Forall (fun u => dial_ok w u = false) l) /\
    (ok = true -> exists u, In u l /\ dial_ok w u = true /\ e = u + dial_takes w u /\
                 forall u', In u' l -> u' = u \/ dial_ok w u' = false).
Proof.
  intros w D delay HD Hd. induction n as [|n IH]; intros first t.
  - cbn. repeat split; try constructor; try lia; discriminate.
  - rewrite attempts_S. set (u := t + head_sleep delay first).
    assert (Hh : 100 * millisecond <= head_sleep delay first)
      by (destruct first; unfold head_sleep, conn_start_grace, ms, millisecond in *; lia).
    pose proof (HD u) as Hu.
    destruct (dial_ok w u) eqn:E.
    + split; [exact I|]. split; [constructor; [lia|constructor]|]. unfold millisecond in Hh. split; [lia|].
      split; [discriminate|]. intros _. exists u. split; [left; reflexivity|]. split; [exact E|]. split; [reflexivity|].
      intros u' [->|[]]. left. reflexivity.
    + specialize (IH false (u + dial_takes w u)). destruct (attempts w delay false n (u + dial_takes w u)) as [[l e] ok].
      destruct IH as (S & F & L & Fa & Tr). cbn [head_sleep] in F.
      unfold millisecond in *.
      split; [|split; [|split; [lia|split]]].
      * destruct l as [|v l]; [exact I|]. split; [|exact S]. inversion F; subst. lia.
      * constructor; [lia|]. eapply Forall_impl; [|exact F]. cbn. intros. lia.
      * intros ->. destruct (Fa eq_refl) as [Ln Ff]. split; [cbn; rewrite Ln; reflexivity|constructor; assumption].
      * intros ->. destruct (Tr eq_refl) as (v & Iv & Ev & -> & U). exists v. split; [right; exact Iv|].
        split; [exact Ev|]. split; [reflexivity|]. intros u' [<-|I']; [right; exact E|apply U, I'].
Qed.
(** If the peer answers from [T] on: a call that succeeds does so soon after, one
    that fails is over by then. *)
Lemma attempts_reach : forall w D delay T, dials_within w D -> 100 * millisecond <= delay < second ->
  reachable_from w T -> forall n first t,
  let '(l, e, ok) := attempts w delay first n t in
    (ok = true -> e <= Z.max (t + head_sleep delay first) (T + delay + D) + D) /\
    (ok = false -> n <> O -> e < T + D).
Proof.
  intros w D delay T HD Hd R. induction n as [|n IH]; intros first t.
  - cbn. split; [discriminate|congruence].
  - rewrite attempts_S. set (u := t + head_sleep delay first).
    pose proof (HD u) as Hu. unfold second, millisecond in *.
    destruct (dial_ok w u) eqn:E.
    + split; [|discriminate]. intros _. lia.
    + assert (LT : u < T). { destruct (Z_lt_le_dec u T) as [L|G]; [exact L|]. rewrite (R u G) in E. discriminate. }
      specialize (IH false (u + dial_takes w u)). destruct n as [|n].
      * cbn. split; [discriminate|]. intros _ _. lia.
      * destruct (attempts w delay false (S n) (u + dial_takes w u)) as [[l e] ok].
        destruct IH as [A B]. cbn [head_sleep] in A. split.
        -- intros O. specialize (A O). lia.
        -- intros O _. apply (B O). discriminate.
Qed.
Lemma attempts_up : forall w delay T n first t, reachable_from w T -> T <= t + head_sleep delay first ->
  snd (attempts w delay first (S n) t) = true.
Proof. intros w delay T n first t R H. rewrite attempts_S, (R _ H). reflexivity. Qed.
(** If the peer answers when the last attempt is made, or before, the call succeeds. *)
Lemma attempts_last : forall w D delay T, dials_within w D -> reachable_from w T -> forall n first t,
  T <= t + head_sleep delay first + Z.of_nat n * delay -> 0 <= delay ->
  snd (attempts w delay first (S n) t) = true.
Proof.
  intros w D delay T HD R. induction n as [|n IH]; intros first t H Hd.
  - apply (attempts_up w delay T); [exact R|lia].
  - rewrite attempts_S. set (u := t + head_sleep delay first). destruct (dial_ok w u); [reflexivity|].
    assert (X : snd (attempts w delay false (S n) (u + dial_takes w u)) = true).
    { apply IH; [|exact Hd]. cbn [head_sleep]. pose proof (HD u). lia. }
    destruct (attempts w delay false (S n) (u + dial_takes w u)) as [[l e] ok]. exact X.
Qed.

(** * Rounds *)
Lemma min_dur_le : forall x y, min_dur x y <= y /\ min_dur x y <= x /\ (min_dur x y = x \/ min_dur x y = y).
Proof. intros x y. unfold min_dur. destruct (Z.ltb_spec x y); lia. Qed.
Lemma minute5 : max_backoff = 5 * minute.
Proof. reflexivity. Qed.
Definition good_state (c : cstate) : Prop := 400 * millisecond <= c_delay c <= 5 * minute.
Lemma connector0_good : forall x t, 0 <= x < 900 -> good_state (connector0 x t).
Proof. intros x t H. apply retry_delay_range in H. unfold good_state, connector0, minute, second, millisecond in *. cbn [c_delay]. lia. Qed.

Lemma round_facts : forall w D x c, dials_within w D -> 0 <= x < 900 -> good_state c ->
  let '(o, l, ps) := round w x c in
  spaced (100 * millisecond) l /\
  match o with
  | None => exists t, ps = [PConn t] /\ Forall (fun u => c_now c + 2 * second <= u <= t) l /\
      exists u, In u l /\ dial_ok w u = true /\ t = u + dial_takes w u
  | Some c' => good_state c' /\ c_failed c' = true /\ length l = 5%nat /\ Forall (fun u => dial_ok w u = false) l /\
      Forall (fun u => c_now c + 2 * second <= u /\ u + 400 * millisecond <= c_now c') l /\
      c_now c + 400 * millisecond <= c_now c' /\
      exists t, (ps = if c_failed c then [] else [PNil t]) /\ Forall (fun u => u <= t) l /\ t <= c_now c'
  end.
Proof.
  intros w D x c HD Hx G. pose proof (retry_delay_range x Hx) as Hd. unfold round, try_connect.
  pose proof (attempts_facts w D (retry_delay x) HD Hd grace_conn_attempts true (c_now c)) as F.
  destruct (attempts w (retry_delay x) true grace_conn_attempts (c_now c)) as [[l e] ok].
  destruct F as (S & B & L & Fa & Tr). cbn [head_sleep] in B.
  replace conn_start_grace with (2 * second) in B by reflexivity.
  destruct ok.
  - split; [exact S|]. exists e. split; [reflexivity|]. split; [exact B|].
    destruct (Tr eq_refl) as (u & I & E & He & _). exists u. auto.
  - destruct (Fa eq_refl) as [Ln Ff]. split; [exact S|]. cbn [c_now c_delay c_failed].
    unfold good_state in *. cbn [c_delay].
    split.
    { rewrite minute5. destruct (min_dur_le (2 * c_delay c) (5 * minute)) as (A & B' & [E|E]); rewrite E in *; unfold minute, second, millisecond in *; lia. }
    split; [reflexivity|]. split; [exact Ln|]. split; [exact Ff|].
    split; [eapply Forall_impl; [|exact B]; cbn beta; intros; lia|]. split; [unfold millisecond in *; lia|].
    exists e. split; [reflexivity|]. split; [eapply Forall_impl; [|exact B]; cbn beta; intros; lia|].
    unfold millisecond in *; lia.
Qed.
Lemma round_failed : forall w x c c' l ps, round w x c = (Some c', l, ps) -> c_failed c = true -> ps = [].
Proof.
  intros w x c c' l ps H F. unfold round in H. destruct (try_connect _ _ _ _) as [[l1 t] ok].
  destruct ok; [discriminate|]. injection H as _ _ H. rewrite F in H. symmetry. exact H.
Qed.

Lemma rounds_S : forall w rnd n c, rounds w rnd (S n) c =
  match round w (rnd O) c with
  | (None, dials, ps) => (None, dials, ps)
  | (Some c', dials, ps) =>
      let '(o, dials', ps') := rounds w (fun k => rnd (S k)) n c' in (o, dials ++ dials', ps ++ ps')
  end.
Proof. reflexivity. Qed.

Lemma spaced_app : forall g l1 l2 m, spaced g l1 -> spaced g l2 ->
  Forall (fun u => u + g <= m) l1 -> Forall (fun u => m <= u) l2 -> spaced g (l1 ++ l2).
Proof.
  intros g l1 l2 m S1 S2 F1 F2. induction l1 as [|a [|b l1] IH]; [exact S2| |].
  - destruct l2 as [|b l2]; [exact I|]. split; [|exact S2]. inversion F1; inversion F2; subst. lia.
  - inversion F1; subst. cbn [app]. split; [apply S1|]. apply IH; [apply S1|assumption].
Qed.

Lemma rounds_spaced : forall w D n rnd c, dials_within w D -> draws rnd -> good_state c ->
  spaced (100 * millisecond) (dials_of (rounds w rnd n c)) /\
  Forall (fun u => c_now c + 2 * second <= u) (dials_of (rounds w rnd n c)).
Proof.
  intros w D. induction n as [|n IH]; intros rnd c HD Hr G; [split; constructor|].
  rewrite rounds_S. pose proof (round_facts w D (rnd O) c HD (Hr O) G) as F.
  destruct (round w (rnd O) c) as [[[c'|] l] ps].
  - destruct F as (S & G' & _ & _ & _ & Fb & L & _).
    specialize (IH (fun k => rnd (Datatypes.S k)) c' HD (fun k => Hr (Datatypes.S k)) G').
    destruct (rounds w (fun k => rnd (Datatypes.S k)) n c') as [[o l'] ps']. unfold dials_of in *. cbn [fst snd] in *.
    destruct IH as [S' F']. split.
    + apply (spaced_app _ _ _ (c_now c')); [exact S|exact S'| |].
      * eapply Forall_impl; [|exact Fb]. cbn. unfold millisecond. intros. lia.
      * eapply Forall_impl; [|exact F']. cbn. unfold second, millisecond. intros. lia.
    + apply Forall_app. split.
      * eapply Forall_impl; [|exact Fb]. cbn. intros. lia.
      * eapply Forall_impl; [|exact F']. cbn. unfold millisecond in *. intros. lia.
  - destruct F as (S & t & _ & Fb & _). split; [exact S|]. unfold dials_of; cbn [fst snd].
    eapply Forall_impl; [|exact Fb]. cbn. intros. lia.
Qed.

(** What has been sent: nothing, nil, a connection, or nil and a connection. *)
Lemma rounds_pubs : forall w D n rnd c, dials_within w D -> draws rnd -> good_state c ->
  let r := rounds w rnd n c in
  match fst (fst r) with
  | None => exists u, In u (dials_of r) /\ dial_ok w u = true /\
      (pubs_of r = [PConn (u + dial_takes w u)] \/
       (c_failed c = false /\ exists t, pubs_of r = [PNil t; PConn (u + dial_takes w u)] /\ t <= u))
  | Some _ => Forall (fun u => dial_ok w u = false) (dials_of r) /\ length (dials_of r) = (5 * n)%nat /\
      pubs_of r = [] /\ (n = O \/ c_failed c = true) \/
      Forall (fun u => dial_ok w u = false) (dials_of r) /\ length (dials_of r) = (5 * n)%nat /\
      c_failed c = false /\ n <> O /\ exists t, pubs_of r = [PNil t]
  end.
Proof.
  intros w D. induction n as [|n IH]; intros rnd c HD Hr G.
  - cbn. left. repeat split; auto; constructor.
  - rewrite rounds_S. pose proof (round_facts w D (rnd O) c HD (Hr O) G) as F.
    destruct (round w (rnd O) c) as [[[c'|] l] ps].
    + destruct F as (S & G' & Fc & Ln & Fl & Fb & L & t & Ps & Ft & Tc).
      pose proof (rounds_spaced w D n (fun k => rnd (Datatypes.S k)) c' HD (fun k => Hr (Datatypes.S k)) G') as [_ Fl2].
      specialize (IH (fun k => rnd (Datatypes.S k)) c' HD (fun k => Hr (Datatypes.S k)) G').
      destruct (rounds w (fun k => rnd (Datatypes.S k)) n c') as [[o l'] ps']. unfold dials_of, pubs_of in *. cbn [fst snd] in *.
      rewrite Fc in IH. destruct o as [c''|].
      * destruct IH as [(Fl' & Ln' & -> & _)|(_ & _ & X & _)]; [|discriminate].
        rewrite app_nil_r, app_length, Ln, Ln'. rewrite Ps. destruct (c_failed c).
        -- left. split; [apply Forall_app; split; assumption|]. split; [lia|]. split; [reflexivity|right; reflexivity].
        -- right. split; [apply Forall_app; split; assumption|]. split; [lia|]. split; [reflexivity|].
           split; [discriminate|exists t; reflexivity].
      * destruct IH as (u & Iu & Eu & [-> | [X _]]); [|discriminate].
        exists u. split; [apply in_or_app; right; exact Iu|]. split; [exact Eu|].
        rewrite Ps. destruct (c_failed c); [left; reflexivity|]. right. split; [reflexivity|].
        exists t. split; [reflexivity|]. rewrite Forall_forall in Fl2. specialize (Fl2 u Iu). unfold second, millisecond in *. lia.
    + destruct F as (S & t & -> & Fb & u & Iu & Eu & ->). unfold dials_of, pubs_of; cbn [fst snd].
      exists u. split; [exact Iu|]. split; [exact Eu|left; reflexivity].
Qed.

(** ** C113 *)
(** Once dialling succeeds, a connection is there within five minutes and two seconds,
    and the duration of two dials. *)
Lemma rounds_connect : forall w D T m, dials_within w D -> reachable_from w T -> forall k rnd c,
  draws rnd -> good_state c -> T <= c_now c + Z.of_nat k * (400 * millisecond) ->
  c_now c <= Z.max m (T + D + 5 * minute) -> 0 <= D ->
  exists n ps e, pubs_of (rounds w rnd n c) = ps ++ [PConn e] /\ e <= Z.max m (T + D + 5 * minute) + 2 * second + D.
Proof.
  intros w D T m HD R. induction k as [|k IH]; intros rnd c Hr G HT Hm HD0.
  - exists 1%nat. unfold rounds at 1, round, try_connect.
    pose proof (attempts_reach w D _ T HD (retry_delay_range _ (Hr O)) R grace_conn_attempts true (c_now c)) as X.
    pose proof (attempts_up w (retry_delay (rnd O)) T 4 true (c_now c) R) as U.
    unfold grace_conn_attempts. unfold grace_conn_attempts in X.
    destruct (attempts w (retry_delay (rnd O)) true 5 (c_now c)) as [[l e] ok].
    cbn [snd head_sleep] in U, X. replace conn_start_grace with (2 * second) in * by reflexivity.
    unfold minute, second, millisecond in *. rewrite U by lia. exists [], e. split; [reflexivity|].
    destruct X as [X _]. specialize (X (U ltac:(lia))). pose proof (retry_delay_range _ (Hr O)) as Y.
    unfold second, millisecond in *. lia.
  - pose proof (round_facts w D (rnd O) c HD (Hr O) G) as F.
    pose proof (attempts_reach w D _ T HD (retry_delay_range _ (Hr O)) R grace_conn_attempts true (c_now c)) as X.
    destruct (round w (rnd O) c) as [[[c'|] l] ps] eqn:E.
    + destruct F as (_ & G' & _ & _ & _ & _ & L & _).
      destruct (IH (fun k => rnd (S k)) c' (fun k => Hr (S k)) G') as (n & ps' & e & Ep & He).
      * lia.
      * unfold round, try_connect in E. destruct (attempts w (retry_delay (rnd O)) true grace_conn_attempts (c_now c)) as [[l1 e1] ok].
        destruct ok; [discriminate|]. injection E as <- _ _. cbn [c_now].
        destruct X as [_ X]. specialize (X eq_refl ltac:(discriminate)). destruct G as [_ G]. lia.
      * exact HD0.
      * exists (S n), (ps ++ ps'), e. split; [|exact He]. rewrite rounds_S, E.
        destruct (rounds w (fun k => rnd (S k)) n c') as [[o l'] ps'']. unfold pubs_of in *. cbn [snd] in *.
        rewrite Ep, app_assoc. reflexivity.
    + destruct F as (_ & t & -> & _ & _). exists 1%nat, [], t.
      assert (Y : rounds w rnd 1 c = (None, l, [PConn t])) by (rewrite rounds_S, E; reflexivity).
      rewrite Y. split; [reflexivity|].
      unfold round, try_connect in E. destruct (attempts w (retry_delay (rnd O)) true grace_conn_attempts (c_now c)) as [[l1 e1] ok].
      destruct ok; [|discriminate]. injection E as _ <-.
      destruct X as [X _]. specialize (X eq_refl). pose proof (retry_delay_range _ (Hr O)) as Z0.
      cbn [head_sleep] in X. replace conn_start_grace with (2 * second) in * by reflexivity.
      unfold minute, second, millisecond in *. lia.
Qed.
Theorem C113_reconnects : forall w rnd D T t0, draws rnd -> dials_within w D -> reachable_from w T ->
  exists n ps e, pubs_of (run_connector w rnd n t0) = ps ++ [PConn e] /\
    e <= Z.max t0 T + 5 * minute + 2 * second + 2 * D.
Proof.
  intros w rnd D T t0 Hr HD R. assert (D0 : 0 <= D) by (pose proof (HD 0); lia).
  destruct (rounds_connect w D T t0 HD R (Z.to_nat (T - t0)) (fun k => rnd (S k)) (connector0 (rnd O) t0)) as (n & ps & e & E & L).
  - intros k. apply Hr.
  - apply connector0_good, Hr.
  - cbn [c_now connector0]. unfold millisecond. lia.
  - cbn [c_now connector0]. lia.
  - exact D0.
  - exists n, ps, e. split; [exact E|]. unfold minute, second, millisecond in *. lia.
Qed.
(** A connection is only announced after a dial that succeeded; before it, at most one
    nil, and that only after five dials that failed.  As long as every dial fails,
    it goes on, five dials a round. *)
Theorem C113_announcements : forall w rnd D n t0, draws rnd -> dials_within w D ->
  let r := run_connector w rnd n t0 in
  (exists u, In u (dials_of r) /\ dial_ok w u = true /\
     (pubs_of r = [PConn (u + dial_takes w u)] \/
      exists t, pubs_of r = [PNil t; PConn (u + dial_takes w u)] /\ t <= u)) \/
  (Forall (fun u => dial_ok w u = false) (dials_of r) /\ length (dials_of r) = (5 * n)%nat /\
   ((n = O /\ pubs_of r = []) \/ (n <> O /\ exists t, pubs_of r = [PNil t]))).
Proof.
  intros w rnd D n t0 Hr HD r. unfold r, run_connector.
  pose proof (rounds_pubs w D n (fun k => rnd (S k)) (connector0 (rnd O) t0) HD (fun k => Hr (S k)) (connector0_good _ t0 (Hr O))) as F.
  cbv zeta in F. destruct (rounds w (fun k => rnd (S k)) n (connector0 (rnd O) t0)) as [[[c|] l] ps];
    unfold dials_of, pubs_of in *; cbn [fst snd] in *.
  - right. destruct F as [(A & B & C & [E|E])|(A & B & _ & C & E)]; [|discriminate|].
    + split; [exact A|]. split; [exact B|]. left. auto.
    + split; [exact A|]. split; [exact B|]. right. auto.
  - left. destruct F as (u & I & E & [P|(_ & P)]); exists u; auto.
Qed.
(** Dials are at least a tenth of a second apart, the first one two seconds after the
    start. *)
Theorem C113_not_busy : forall w rnd D n t0, draws rnd -> dials_within w D ->
  spaced (100 * millisecond) (dials_of (run_connector w rnd n t0)) /\
  Forall (fun u => t0 + 2 * second <= u) (dials_of (run_connector w rnd n t0)).
Proof.
  intros w rnd D n t0 Hr HD.
  exact (rounds_spaced w D n (fun k => rnd (S k)) (connector0 (rnd O) t0) HD (fun k => Hr (S k)) (connector0_good _ t0 (Hr O))).
Qed.

(** ** C114 *)
(** A peer that answers 2.4 s after the start, or earlier: the first thing announced is
    a connection, so that nothing is dropped. *)
Theorem C114_prompt_peer : forall w rnd D T t0 n, draws rnd -> dials_within w D -> reachable_from w T ->
  T <= t0 + 2 * second + 400 * millisecond -> n <> O ->
  exists e, pubs_of (run_connector w rnd n t0) = [PConn e] /\
    t0 + 2 * second <= e <= Z.max (t0 + 2 * second) (T + second + D) + D.
Proof.
  intros w rnd D T t0 n Hr HD R HT Hn. destruct n as [|n]; [congruence|].
  pose proof (retry_delay_range _ (Hr 1%nat)) as Hd.
  pose proof (attempts_last w D (retry_delay (rnd 1%nat)) T HD R 4 true t0) as X.
  pose proof (attempts_reach w D _ T HD Hd R 5 true t0) as Y.
  pose proof (attempts_facts w D _ HD Hd 5 true t0) as F.
  unfold run_connector. rewrite rounds_S. unfold round, try_connect, grace_conn_attempts.
  cbn [c_now connector0]. destruct (attempts w (retry_delay (rnd 1%nat)) true 5 t0) as [[l e] ok].
  cbn [snd head_sleep] in X, Y, F. replace conn_start_grace with (2 * second) in * by reflexivity.
  rewrite X by (unfold second, millisecond in *; lia). exists e. split; [reflexivity|].
  destruct F as (_ & B & _ & _ & Tr). rewrite X in Tr, Y by (unfold second, millisecond in *; lia).
  destruct (Tr eq_refl) as (u & I & _ & -> & _). rewrite Forall_forall in B. specialize (B u I).
  destruct Y as [Y _]. specialize (Y eq_refl). pose proof (HD u). unfold second, millisecond in *. lia.
Qed.
(** The bound is sharp: a peer that answers later may be met with a nil. *)
Theorem C114_sharp : forall T, 2 * second + 400 * millisecond < T ->
  exists w rnd, draws rnd /\ dials_within w 0 /\ reachable_from w T /\
    forall n, n <> O -> exists ps, pubs_of (run_connector w rnd n 0) = PNil (2 * second + 400 * millisecond) :: ps.
Proof.
  intros T HT. exists (mkNetwork (fun _ => 0) (fun t => T <=? t)), (fun _ => 0).
  split; [intros k; lia|]. split; [intros t; cbn; lia|].
  split; [intros t H; apply Z.leb_le, H|].
  intros [|n] Hn; [congruence|]. unfold run_connector. rewrite rounds_S. unfold round, try_connect, grace_conn_attempts.
  assert (N : forall t, t <= 2 * second + 400 * millisecond -> (T <=? t) = false) by (intros t H; apply Z.leb_gt; lia).
  rewrite !attempts_S. cbn [dial_ok dial_takes head_sleep c_now connector0].
  rewrite !N by (unfold conn_start_grace, retry_delay, ms, second, millisecond; lia).
  cbn [attempts c_failed connector0 fst snd].
  match goal with |- context [rounds ?a ?b ?c ?d] => destruct (rounds a b c d) as [[o l] ps] end.
  exists ps. reflexivity.
Qed.

(** ** C115: the goroutine with its delays is the one of Net.v *)
Lemma round_is_dial : forall {M} w x c (s : nq M), n_conn s = KTry (c_failed c) ->
  let '(o, _, ps) := round w x c in
  let s' := ndial s (match o with None => true | Some _ => false end) in
  n_q s' = n_q s /\ n_loc s' = n_loc s /\ n_msg s' = n_msg s /\ n_pushed s' = n_pushed s /\
  n_conn s' = match ps with [] => KTry true | PNil _ :: _ => KNil | PConn _ :: _ => KUp end.
Proof.
  intros M w x c s H. unfold round. destruct (try_connect _ _ _ _) as [[l t] ok]. unfold ndial. rewrite H.
  destruct ok; [repeat split; reflexivity|]. destruct (c_failed c); repeat split; reflexivity.
Qed.


Definition no_nil {M} (t0 : Z) (s : nq M) (k : option cstate) : Prop :=
  n_loc s <> LDrop /\ n_loc s <> LSel /\
  match n_conn s with
  | KTry fb => fb = false /\ exists c, k = Some c /\ c_failed c = false /\ t0 <= c_now c
  | KNil => False
  | KUp => k = None
  | KIdle => k = None
  end.
Lemma no_nil_go : forall {M} t0 t' x (s : nq M) k ok, t0 <= t' -> no_nil t0 s k ->
  let r := nstep s (EvGo ok) in
  no_nil t0 (fst r) (if existsb is_dial (snd r) then Some (connector0 x t') else k) /\
  dropped_msgs (snd r) = [].
Proof.
  intros M t0 t' x s k ok L (A & B & C). destruct s as [q loc msg pb cn]. unfold no_nil. cbn [n_loc n_conn] in *.
  cbn [nstep]. unfold ngo. cbn [n_loc n_conn n_q n_msg n_pushed].
  destruct loc as [| | | | | |[|]]; try congruence.
  - cbn. repeat split; try discriminate. exists (connector0 x t'). auto.
  - destruct cn; cbn; try contradiction; repeat split; try discriminate; try exact C; apply C.
  - unfold nget, nrecv. cbn [n_q n_pushed]. destruct pb; [|destruct q]; cbn; repeat split; try discriminate; exact C.
  - unfold held. destruct msg; cbn; repeat split; try discriminate; exact C.
  - unfold nrecv. cbn [n_q]. destruct q; cbn; repeat split; try discriminate; exact C.
  - destruct q; cbn; repeat split; try discriminate; exact C.
Qed.
Lemma timed_no_drops : forall {M} w D T t0, dials_within w D -> reachable_from w T -> T <= t0 + 2 * second + 400 * millisecond ->
  forall t (s : nq M) k evs, timed w t s k evs -> t0 <= t -> no_nil t0 s k -> dropped_msgs (snd (nexec s evs)) = [].
Proof.
  intros M w D T t0 HD R HT t s k evs H. induction H as [t s k|t t' s k m l L H IH|t t' x s k ok l L Hx H IH|t t' x c s o dials e ok ps l Hx Ht Hr L Le H IH];
    intros L0 I; [reflexivity| | |]; cbn [nexec snd].
  - rewrite dropped_app. rewrite IH; [|lia|].
    + cbn [nstep]. unfold nsend. destruct (_ <? _); reflexivity.
    + cbn [nstep]. unfold nsend. destruct (_ <? _); exact I.
  - destruct (no_nil_go t0 t' x s k ok ltac:(lia) I) as [I' Dr]. rewrite dropped_app, Dr. apply IH; [lia|exact I'].
  - cbn [nstep fst snd app] in *. destruct I as (A & B & C). apply IH; [lia|].
    destruct (n_conn s) as [fb| | |] eqn:En; try contradiction; try discriminate.
    destruct C as (-> & c' & E & F & G). injection E as <-.
    assert (O : ok = true).
    { pose proof (attempts_last w D (retry_delay x) T HD R 4 true (c_now c)) as X.
      unfold try_connect, grace_conn_attempts in Ht. rewrite Ht in X. apply X.
      - cbn [head_sleep]. pose proof (retry_delay_range x Hx). unfold conn_start_grace, ms, second, millisecond in *. lia.
      - pose proof (retry_delay_range x Hx). unfold millisecond in *. lia. }
    subst ok. unfold round in Hr. rewrite Ht in Hr. injection Hr as <- _.
    unfold no_nil, ndial. rewrite En. cbn [n_loc n_conn]. auto.
Qed.
(** If the peer answers within 2.4 s of the start and from then on, then whatever calls
    fail and however often the connection is lost, no accepted message is dropped: it has
    been called, is about to be, or is in the queue. *)
Theorem C115_prompt_peer_no_drops : forall {M} w D T t0 (evs : list (nevent M)),
  dials_within w D -> reachable_from w T -> T <= t0 + 2 * second + 400 * millisecond ->
  timed w t0 nq0 None evs ->
  let s := fst (nexec nq0 evs) in let tr := snd (nexec nq0 evs) in
  dropped_msgs tr = [] /\ exists h, (length h <= 1)%nat /\ accepted tr = called tr ++ h ++ n_q s.
Proof.
  intros M w D T t0 evs HD R HT H s tr.
  assert (E : dropped_msgs tr = []).
  { apply (timed_no_drops w D T t0 HD R HT t0 nq0 None evs H); [lia|].
    unfold no_nil. cbn. repeat split; discriminate. }
  split; [exact E|]. exact (C67_reliable_while_connected evs E).
Qed.
(** The announcements of Connect.v are those that the consumer of Net.v waits for. *)
Theorem C115_same_announcements : forall {M} w x c (s : nq M), n_conn s = KTry (c_failed c) ->
  let '(o, _, ps) := round w x c in
  n_conn (fst (nstep s (EvDial (match o with None => true | Some _ => false end)))) =
    match ps with [] => KTry true | PNil _ :: _ => KNil | PConn _ :: _ => KUp end.
Proof.
  intros M w x c s H. pose proof (round_is_dial w x c s H) as X. destruct (round w x c) as [[o l] ps].
  cbn [nstep fst]. apply X.
Qed.

Definition demo_draws : nat -> Z := fun k => match k with O => 899 | S O => 0 | _ => 500 end.
Lemma demo_draws_ok : draws demo_draws.
Proof. intros [|[|k]]; cbn; lia. Qed.
(** A peer that is down for five seconds; a dial takes a millisecond. *)
Definition demo_network := mkNetwork (fun _ => millisecond) (fun t => 5 * second <=? t).
Example C113_ex : draws demo_draws /\ dials_within demo_network millisecond /\ reachable_from demo_network (5 * second) /\
  map (fun t => t / millisecond) (dials_of (run_connector demo_network demo_draws 2 0)) = [2000; 2101; 2202; 2303; 2404; 8401] /\
  pubs_of (run_connector demo_network demo_draws 2 0) = [PNil (2405 * millisecond); PConn (8402 * millisecond)].
Proof.
  split; [exact demo_draws_ok|]. split; [intros t; unfold demo_network, millisecond; cbn [dial_takes]; lia|].
  split; [intros t H; apply Z.leb_le, H|]. split; vm_compute; reflexivity.
Qed.
Example C114_ex : reachable_from (mkNetwork (fun _ => millisecond) (fun t => 2300 * millisecond <=? t)) (2300 * millisecond) /\
  pubs_of (run_connector (mkNetwork (fun _ => millisecond) (fun t => 2300 * millisecond <=? t)) demo_draws 1 0) = [PConn (2304 * millisecond)].
Proof. split; [intros t H; apply Z.leb_le, H|]. vm_compute. reflexivity. Qed.
Print Assumptions C113_reconnects. Print Assumptions C113_announcements. Print Assumptions C113_not_busy.
Print Assumptions C114_prompt_peer. Print Assumptions C114_sharp.

(** The peer of C114_ex; the first call fails, the second connector succeeds. *)
Definition c115_net := mkNetwork (fun _ => millisecond) (fun t => 2300 * millisecond <=? t).
Definition c115_evs : list (nevent Z) :=
  [EvSend 7; EvGo true; EvSend 8; EvDial true; EvGo true; EvGo true; EvGo false; EvGo true; EvGo true;
   EvDial true; EvGo true; EvGo true; EvGo true].
Lemma dial_step : forall {M} w t t' x c (s : nq M) l dials e,
  0 <= x < 900 -> try_connect w x grace_conn_attempts (c_now c) = (dials, e, true) -> t <= t' -> e <= t' ->
  timed w t' (fst (nstep s (EvDial true))) None l -> timed w t s (Some c) (EvDial true :: l).
Proof.
  intros M w t t' x c s l dials e Hx E L L' H.
  refine (timed_dial w t t' x c s None dials e true [PConn e] l Hx E _ L L' H).
  unfold round. rewrite E. reflexivity.
Qed.
Example C115_ex : timed c115_net 0 nq0 None c115_evs /\
  called_with false (snd (nexec nq0 c115_evs)) = [7] /\ called_with true (snd (nexec nq0 c115_evs)) = [8].
Proof.
  split; [|split; reflexivity]. unfold c115_evs.
  apply (timed_send _ 0 0); [lia|]. apply (timed_go _ 0 0 0); [lia|lia|]. apply (timed_send _ 0 0); [lia|].
  eapply (dial_step _ 0 (2503 * millisecond) 150); [lia|vm_compute; reflexivity|unfold millisecond; lia|vm_compute; discriminate|].
  do 5 (eapply (timed_go _ (2503 * millisecond) (2503 * millisecond) 0); [lia|lia|]).
  eapply (dial_step _ (2503 * millisecond) (5000 * millisecond) 150); [lia|vm_compute; reflexivity|unfold millisecond; lia|vm_compute; discriminate|].
  do 3 (eapply (timed_go _ (5000 * millisecond) (5000 * millisecond) 0); [lia|lia|]).
  apply timed_nil.
Qed.
Print Assumptions C115_prompt_peer_no_drops. Print Assumptions C115_same_announcements.
