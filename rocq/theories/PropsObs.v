(** C58: termination observers. *)
From Coq Require Import ZArith List Lia Bool.
From Verif Require Import Bytes Res KMap Observers ObsSpec ObsProofs.
Import ListNotations.
Open Scope nat_scope.

(** Under every interleaving nothing panics: no send on a closed channel, no second close. *)
Theorem C58_no_send_or_close_on_closed : forall evs, exists s tr, oexec ost0 evs = Ok (s, tr).
Proof. intros evs. destruct (oexec_made evs) as (s&tr&E&_). eauto. Qed.

(** Each channel is sent to at most once and closed at most once, after the send.  (It
    holds for all lists of events, so at every moment of an execution.) *)
Theorem C58_told_at_most_once : forall evs s tr c, oexec ost0 evs = Ok (s, tr) ->
  closes c tr <= sends c tr /\ sends c tr <= 1.
Proof.
  intros evs s tr c E. destruct (oexec_made evs) as (s'&tr'&E'&V). rewrite E in E'. injection E' as <- <-.
  destruct (Nat.lt_ge_cases c (length (os_chans s))) as [L|L].
  - destruct (in_dec Nat.eq_dec c (work s)) as [I|NI]; [destruct (v_work _ _ V c I) as (_&->&->); lia|].
    destruct (in_dec Nat.eq_dec c (closing s)) as [J|NJ]; [destruct (v_closing _ _ V c J) as (_&->&->); lia|].
    destruct (v_done _ _ V c L NI NJ) as (_&->&->). lia.
  - destruct (v_fresh _ _ V c L) as (->&->). lia.
Qed.

(** No thread ever waits: each step of an unfinished thread brings it further. *)
Theorem C58_telling_never_waits : forall evs s tr i t, oexec ost0 evs = Ok (s, tr) ->
  nth_error (os_thrs s) i = Some t -> t <> TDone ->
  exists s' o, ostep s (OvGo i) = Ok (s', o) /\ nth_error (os_thrs s') i <> Some t.
Proof.
  intros evs s tr i t E N D. destruct (oexec_made evs) as (s'&tr'&E'&V). rewrite E in E'. injection E' as <- <-.
  destruct (ostep_inv s tr (OvGo i) V) as (s1&o&E1&_&M). exists s1, o. split; [exact E1|]. exact (M i t eq_refl N D).
Qed.

Lemma done_facts s tr c : finished s -> oinv s tr -> closing s = [] /\ (In c (work s) -> exists k, In (k, c) (os_obs s)).
Proof.
  intros F V. split.
  - unfold closing. clear V. unfold finished in F. induction (os_thrs s) as [|t l IH]; [reflexivity|].
    cbn. rewrite (F t) by (left; reflexivity). cbn. apply IH. intros u I. apply F. right. exact I.
  - unfold work. intros I. apply in_app_or in I. destruct I as [I|I].
    + apply in_map_iff in I. destruct I as ([k x]&<-&I). exists k. exact I.
    + apply in_flat_map in I. destruct I as (t&I&J). rewrite (F t I) in J. destruct J.
Qed.

(** Once all threads have finished, every observer of a run that has terminated and
    is still in the table has been told, once, and its channel closed. *)
Theorem C58_observers_of_listed_runs_told : forall evs s tr c k, oexec ost0 evs = Ok (s, tr) ->
  finished s -> In (ORegister c k) tr -> listed_terminated s k ->
  sends c tr = 1 /\ closes c tr = 1.
Proof.
  intros evs s tr c k E F R (r&o&G&O&T). destruct (oexec_made evs) as (s'&tr'&E'&V). rewrite E in E'. injection E' as <- <-.
  destruct (done_facts s tr c F V) as [CL WK].
  assert (NW: ~ In c (work s)).
  { intros I. destruct (WK I) as (k'&J). assert (k' = k) by (eapply (v_reg_fun _ _ V); [exact (v_obs _ _ V c k' J)|exact R]). subst k'.
    destruct (v_table _ _ V k r G) as (o'&O'&K). assert (o' = o) by congruence. subst o'.
    assert (OO: nth_error (os_objs s) r = Some (mkObj k true)) by (rewrite O; destruct o as [ok ot]; cbn in *; congruence).
    destruct (v_listed _ _ V c k r J G OO) as (t&TI&[X|[X|(q&X&_)]]); rewrite (F t TI) in X; discriminate. }
  apply (v_done _ _ V c); [exact (v_reg _ _ V c k R)|exact NW|rewrite CL; intros []].
Qed.

(** An observer registered before the run terminates is told in the end, even if the
    run is deleted from the table meanwhile. *)
Theorem C58_observers_registered_in_time_told : forall evs s a b c k, oexec ost0 evs = Ok (s, a ++ ORegister c k :: b) ->
  finished s -> In (OTerminate k) b ->
  sends c (a ++ ORegister c k :: b) = 1 /\ closes c (a ++ ORegister c k :: b) = 1.
Proof.
  intros evs s a b c k E F T. set (tr := a ++ ORegister c k :: b) in *.
  destruct (oexec_made evs) as (s'&tr'&E'&V). rewrite E in E'. injection E' as <- <-.
  assert (R: In (ORegister c k) tr) by apply in_elt.
  destruct (done_facts s tr c F V) as [CL WK].
  assert (NW: ~ In c (work s)).
  { intros I. destruct (WK I) as (k'&J). assert (k' = k) by (eapply (v_reg_fun _ _ V); [exact (v_obs _ _ V c k' J)|exact R]). subst k'.
    pose proof (F _ (v_later _ _ V c k a b J eq_refl T)). discriminate. }
  apply (v_done _ _ V c); [exact (v_reg _ _ V c k R)|exact NW|rewrite CL; intros []].
Qed.

(** Nobody is told before a run with the observed id has terminated. *)
Theorem C58_told_only_after_termination : forall evs s tr c k, oexec ost0 evs = Ok (s, tr) ->
  In (ORegister c k) tr -> sends c tr <> 0 -> In (OTerminate k) tr.
Proof.
  enough (G: forall evs s tr s' o, oinv s tr ->
    (forall c k, In (ORegister c k) tr -> sends c tr <> 0 -> In (OTerminate k) tr) -> oexec s evs = Ok (s', o) ->
    forall c k, In (ORegister c k) (tr ++ o) -> sends c (tr ++ o) <> 0 -> In (OTerminate k) (tr ++ o)).
  { intros evs s tr c k E R S. apply (G evs ost0 [] s tr oinv0 (fun _ _ (X : In _ []) => match X with end) E c k R S). }
  induction evs as [|ev l IH]; intros s tr s' o V P E.
  - cbn in E. injection E as <- <-. rewrite app_nil_r. exact P.
  - cbn [oexec] in E. destruct (ostep_inv s tr ev V) as (s1&o1&E1&V1&_). rewrite E1 in E. cbn [rbind fst snd] in E.
    destruct (oexec s1 l) as [[s2 o2]| |] eqn:E2; try discriminate. cbn in E. injection E as <- <-.
    rewrite app_assoc. apply (IH s1 (tr ++ o1) s2 o2 V1); [|exact E2].
    intros c k R S. rewrite sends_app in S.
    destruct (Nat.eq_dec (sends c o1) 0) as [Z|NZ].
    + (* sent before *)
      apply in_or_app. left. apply in_app_or in R. destruct R as [R|R]; [apply (P c k R); lia|].
      exfalso. assert (c = length (os_chans s)).
      { destruct ev as [k0|k0|k0|c0|i]; cbn in E1.
        - injection E1 as <- <-. destruct R as [R|[]]. congruence.
        - destruct (kget _ _); injection E1 as <- <-; [destruct R|destruct R as [R|[]]; discriminate].
        - injection E1 as <- <-. destruct R.
        - injection E1 as _ <-. destruct R.
        - destruct (nth_error (os_thrs s) i) as [t|]; [|injection E1 as _ <-; destruct R].
          destruct t as [k1|r|r|k1|[|c1 cs]|c1 cs|]; cbn in E1; try (injection E1 as _ <-; destruct R).
          + destruct (nth_error (os_objs s) r); injection E1 as _ <-; [destruct R as [R|[]]; discriminate|destruct R].
          + destruct (nth_error (os_chans s) c1) as [ch|]; [|discriminate]. destruct (ch_closed ch); [discriminate|].
            destruct (Nat.eqb (ch_buf ch) 0); injection E1 as _ <-; [destruct R as [R|[]]; discriminate|destruct R].
          + destruct (nth_error (os_chans s) c1) as [ch|]; [|discriminate]. destruct (ch_closed ch); [discriminate|].
            injection E1 as _ <-. destruct R as [R|[]]; discriminate. }
      subst c. destruct (v_fresh _ _ V (length (os_chans s)) (le_n _)) as (Y&_). lia.
    + (* sent now *)
      destruct ev as [k0|k0|k0|c0|i]; cbn in E1.
      * injection E1 as <- <-. cbn in NZ. congruence.
      * destruct (kget _ _); injection E1 as <- <-; cbn in NZ; congruence.
      * injection E1 as <- <-. cbn in NZ. congruence.
      * injection E1 as _ <-. cbn in NZ. congruence.
      * destruct (nth_error (os_thrs s) i) as [t|] eqn:N; [|injection E1 as _ <-; cbn in NZ; congruence].
        destruct t as [k1|r|r|k1|[|c1 cs]|c1 cs|]; cbn in E1; try (injection E1 as _ <-; cbn in NZ; congruence).
        -- destruct (nth_error (os_objs s) r); injection E1 as _ <-; cbn in NZ; congruence.
        -- destruct (nth_error (os_chans s) c1) as [ch|]; [|discriminate]. destruct (ch_closed ch); [discriminate|].
           destruct (Nat.eqb (ch_buf ch) 0); injection E1 as _ <-; [|cbn in NZ; congruence].
           unfold sends in NZ. cbn in NZ. destruct (Nat.eqb_spec c c1) as [->|]; [|cbn in NZ; congruence].
           destruct (v_pend _ _ V c1 _ (nth_error_In _ _ N)) as (k'&R'&T'); [left; reflexivity|].
           apply in_app_or in R. destruct R as [R|[R|[]]]; [|discriminate].
           rewrite (v_reg_fun _ _ V c1 k k' R R'). apply in_or_app. auto.
        -- destruct (nth_error (os_chans s) c1) as [ch|]; [|discriminate]. destruct (ch_closed ch); [discriminate|].
           injection E1 as _ <-. cbn in NZ. congruence.
Qed.

(** An execution in which one observer is registered in time and one too late: the
    run terminates and tells the first; the second finds it terminated and tells
    itself, while the first is still being closed. *)
Definition ob_k : key := mkKey 1 2 [].
Definition ob_history : list oevent :=
  [OvObserve ob_k; OvGo 0; OvEnsure ob_k; OvGo 1; OvGo 1; OvGo 1; OvObserve ob_k; OvGo 2; OvGo 2; OvGo 2; OvGo 2; OvGo 1; OvRead 1; OvGo 2; OvGo 2; OvGo 1].
Example ob_demo : match oexec ost0 ob_history with
  | Ok (s, tr) => tr = [ORegister 0 ob_k; OCreate ob_k; OTerminate ob_k; OSend 0; ORegister 1 ob_k; OSend 1; OClose 0; OClose 1] /\
                  finished s /\ listed_terminated s ob_k
  | _ => False
  end.
Proof.
  vm_compute oexec. split; [reflexivity|]. split.
  - intros t [<-|[<-|[<-|[]]]]; reflexivity.
  - exists 0, (mkObj ob_k true). auto.
Qed.

(** Without the hypotheses the claim fails, as the comment of obs_term warns: an
    observer that registers after the run has terminated and been deleted waits for ever. *)
Definition late_history : list oevent :=
  [OvEnsure ob_k; OvGo 0; OvGo 0; OvGo 0; OvDelete ob_k; OvObserve ob_k; OvGo 1].
Example late_demo : match oexec ost0 late_history with
  | Ok (s, tr) => finished s /\ In (ORegister 0 ob_k) tr /\ sends 0 tr = 0
  | _ => False
  end.
Proof. vm_compute oexec. split; [intros t [<-|[<-|[]]]; reflexivity|]. split; [cbn; auto|reflexivity]. Qed.

Print Assumptions C58_no_send_or_close_on_closed.
Print Assumptions C58_told_at_most_once.
Print Assumptions C58_telling_never_waits.
Print Assumptions C58_observers_of_listed_runs_told.
Print Assumptions C58_observers_registered_in_time_told.
Print Assumptions C58_told_only_after_termination.
