(** Property theorem C90: messages between punctual members are not dropped. *)
From Coq Require Import ZArith List Lia Bool Sorted.
From Coq Require Import Init.Byte.
From Verif Require Import Params Bytes Res Secp PublicKey Schnorr Dss Dto DtoProofs Prot ProtSpec ProtProofs ProtProofs2 PropsProt
  DkgProt DkgSpec DkgProofs PropsDkg TimeSpec TimeProofs TimeProofs2.
Import ListNotations.
Open Scope Z_scope.

(** ** C90 *)
(** For every protocol: what is dropped arrives when the time of its stage is over. *)
Theorem C90_deadline : forall {D A K E V} (p : protocol D A K E V) c k h t m,
  clocked h -> timely p c (new_run k) (untimed h) -> 0 <= m_op m -> happens p c k h t (ODrop m) ->
  exists s, happens p c k h s (OStart s) /\ s + elapsed p (m_op m + 1) <= t.
Proof.
  intros D A K E V p c k h t m HC HT HO HD. destruct (dropped_after p c k h t m HC HT HD HO) as (s & H1 & H2 & _). eauto.
Qed.
(** If no message of a stage arrives so late, none of them is dropped, and all are taken up once the stage is reached. *)
Theorem C90_none_late : forall {D A K E V} (p : protocol D A K E V) c k h r tr op,
  clocked h -> timely p c (new_run k) (untimed h) -> exec p c (new_run k) (untimed h) = Ok (r, tr) -> 0 <= op ->
  (forall s t m, happens p c k h s (OStart s) -> arrives h t m -> m_op m = op -> t < s + elapsed p (op + 1)) ->
  for_op op (dropped tr) = [] /\
  (op <= fst (stage_now tr) -> for_op op (handled tr) = for_op op (received (untimed h))).
Proof.
  intros D A K E V p c k h r tr op HC HT EX HO HL.
  assert (DR : for_op op (dropped tr) = []).
  { destruct (for_op op (dropped tr)) as [|m l] eqn:EQ; [reflexivity|]. exfalso.
    assert (IN : In m (for_op op (dropped tr))) by (rewrite EQ; left; reflexivity).
    apply in_for_op in IN. destruct IN as [EO IN]. unfold dropped in IN. apply in_flat_map in IN. destruct IN as (o & I1 & I2).
    destruct o; cbn in I2; try contradiction. destruct I2 as [->|[]].
    destruct (in_happens p c k h [] r tr _ EX I1) as [t HD]. rewrite app_nil_r in HD.
    destruct (dropped_after p c k h t m HC HT HD ltac:(lia)) as (s & H1 & H2 & _).
    assert (AR : arrives h t m).
    { destruct HD as (a & ev & b & r1 & t1 & r2 & os & -> & X1 & X2 & X3). destruct ev as [e now|e m'].
      - exfalso. pose proof (run_inv p c _ _ _ _ X1) as HI. cbn [step] in X2.
        destruct (tick_cases p c _ _ _ _ _ _ _ HI X2) as [(Y1 & -> & ->)|[(Y1 & Y2 & Y3 & Y4)|[(Y1 & Y2 & -> & ->)|[(Y1 & Y2 & -> & ->)|(Y1 & -> & ->)]]]].
        + destruct X3 as [X|[]]. discriminate X.
        + destruct (enter_obs p c _ _ _ _ _ _ (iv_link _ _ _ _ _ HI) Y4) as (t3 & -> & O3). destruct X3 as [X|X]; [discriminate X|]. destruct (O3 _ X).
        + destruct X3 as [X|[]]. discriminate X.
        + destruct X3 as [X|[]]. discriminate X.
        + destruct X3.
      - exists e. apply in_or_app. right. left. f_equal. cbn [step] in X2. unfold deliver in X2.
        destruct ((m_op m' <? r_state r1) || ((m_op m' =? r_state r1) && r_paused r1)).
        + injection X2 as <- <-. destruct X3 as [X|[]]. congruence.
        + exfalso. destruct (r_state r1 <? m_op m'); [injection X2 as <- <-; destruct X3|].
          destruct (proc_obs p c _ _ _ _ _ _ (iv_link _ _ _ _ _ (run_inv p c _ _ _ _ X1)) X2) as [_ O1]. destruct (O1 _ X3). }
    specialize (HL s t m H1 AR EO). rewrite EO in H2. lia. }
  split; [exact DR|]. intros LE. destruct (C44_messages_conserved p c k _ _ _ EX) as (C1 & C2 & _).
  rewrite (C1 op), DR, (C2 op LE). cbn. rewrite app_nil_r. reflexivity.
Qed.

Section Props.
Context {G : Type}.
Variable ky : kyber G.
Variable keccak : bytes -> bytes.
Variable pshash : Z -> Z -> bytes.

(** A member whose sleeps overrun by at most [d] sends the messages of a stage within the pause and 2 [d]
    after the time of the previous stage is over. *)
Theorem C90_sent_early : forall p c k h d s t m, p = dkg_prot ky \/ p = dss_prot ky keccak pshash -> 0 <= d ->
  clocked h -> timely p c (new_run k) (untimed h) -> punctual p c d (new_run k) (untimed h) ->
  happens p c k h s (OStart s) -> happens p c k h t (OSent m) ->
  s + elapsed p (m_op m) <= t <= s + elapsed p (m_op m) + pause + 2 * d /\ elapsed p (m_op m + 1) = elapsed p (m_op m) + 75 * ms.
Proof.
  intros p c k h d s t m HP HD HC HT HU HS HM.
  destruct (sent_by p c k h d t m s s (both_prompt _ _ _ _ HP) HC HT HU HD HS HM) as [TK X].
  destruct (takes_timeout p _ TK) as [_ Y]. split; [|exact Y]. assert (0 <= pause) by (unfold pause, ms; lia). destruct (m_op m =? 0); lia.
Qed.
(** Two members that start within a window: a message dropped by one of them was under way for more than [lat]. *)
Theorem C90_in_time : forall p cS kS hS cR kR hR d lat s m t t', p = dkg_prot ky \/ p = dss_prot ky keccak pshash -> 0 <= d ->
  clocked hS -> timely p cS (new_run kS) (untimed hS) -> punctual p cS d (new_run kS) (untimed hS) ->
  clocked hR -> timely p cR (new_run kR) (untimed hR) ->
  happens p cS kS hS s (OStart s) ->
  (forall s', happens p cR kR hR s' (OStart s') -> s - s' + 2 * d + lat < 70 * ms) ->
  happens p cS kS hS t (OSent m) -> happens p cR kR hR t' (ODrop m) -> t + lat < t'.
Proof.
  intros p cS kS hS cR kR hR d lat s m t t' HP HD CS TS PS CR TR SS SR HM HX.
  destruct (sent_by p cS kS hS d t m s s (both_prompt _ _ _ _ HP) CS TS PS HD SS HM) as [TK [_ X]].
  destruct (takes_timeout p _ TK) as [GE Y].
  destruct (dropped_after p cR kR hR t' m CR TR HX GE) as (s' & S1 & S2 & _). specialize (SR s' S1).
  unfold pause in X. lia.
Qed.
End Props.
Print Assumptions C90_deadline. Print Assumptions C90_none_late. Print Assumptions C90_sent_early. Print Assumptions C90_in_time.

(** Members 0 and 1, both started at 0 and exactly on time.  Member 0 sends its commitments to member 1 at 280 ms;
    under way for less than 70 ms they are taken up, under way for 70 ms they may be dropped. *)
Definition pair_ky : kyber Z := mkKyber Z (fun g => (g, Some [])) (fun g d => (g, Some None)) (fun g r => (g, None))
  (fun g j => g) (fun g => g) (fun g => true) (fun g => [0; 1]) (fun g => (g, Some (mkCommits 0 [] [] [])))
  (fun g c => (g + 1, Some None)) (fun g c => (g, Some None)) (fun g r => g) (fun g => false) (fun g => None).
Definition no_env : env := mkEnv None None 0 (fun _ l => l).
Definition wake (t : Z) : Z * event payload env := (t * ms, ETick no_env (t * ms)).
Definition first_wakes : list (Z * event payload env) := map wake [0; 0; 25; 30; 100; 105; 175; 180; 250; 255; 275; 280].
Definition pair_msg : message payload :=
  match exec (dkg_prot pair_ky) (mkInfo 0 [] 0 2 2) (new_run toy_k0) (untimed first_wakes) with
  | Ok x => match sent (snd x) with m :: _ => m | [] => mkMsg 9 9 9 [] 9 (PResp (mkResp 0 None)) end
  | _ => mkMsg 9 9 9 [] 9 (PResp (mkResp 0 None))
  end.
Definition hist1 : list (Z * event payload env) := first_wakes ++ [(350 * ms - 1, EMsg no_env pair_msg); wake 350].
Definition hist2 : list (Z * event payload env) := first_wakes ++ [wake 350; (350 * ms, EMsg no_env pair_msg)].
(** What happens at the n-th event. *)
Definition obs_at {D A K E V} (p : protocol D A K E V) c k h (n : nat) : option (Z * list (obs D A V)) :=
  match nth_error h n with
  | Some (t, ev) =>
      match exec p c (new_run k) (untimed (firstn n h)) with
      | Ok (r, _) => match step p c r ev with Ok (_, os) => Some (t, os) | _ => None end
      | _ => None
      end
  | None => None
  end.
Lemma obs_at_happens {D A K E V} (p : protocol D A K E V) c k h n t os o : obs_at p c k h n = Some (t, os) -> In o os -> happens p c k h t o.
Proof.
  unfold obs_at. destruct (nth_error h n) as [[t' ev]|] eqn:EN; [|discriminate].
  destruct (exec p c (new_run k) (untimed (firstn n h))) as [[r tr]| |] eqn:EX; try discriminate.
  destruct (step p c r ev) as [[r' os']| |] eqn:ES; try discriminate. intros H IN. injection H as -> ->.
  apply nth_error_split in EN. destruct EN as (a & b & -> & L).
  assert (Q : firstn n (a ++ (t, ev) :: b) = a) by (rewrite <- L, firstn_app, firstn_all, Nat.sub_diag; cbn; apply app_nil_r).
  rewrite Q in EX. exists a, ev, b, r, tr, r', os. auto.
Qed.
Ltac sorted := repeat (apply SSorted_nil || apply SSorted_cons || apply Forall_nil || apply Forall_cons); apply Z.leb_le; vm_compute; reflexivity.
Ltac clk := split; [sorted|intros t e now H; cbn [In app first_wakes hist1 hist2 map wake] in H; repeat (destruct H as [H|H]; [unfold wake in H; congruence|]); destruct H].
Definition pair_p := dkg_prot pair_ky.
Definition pair_c (i : Z) : info := mkInfo 0 [] i 2 2.
Definition obs_in (o : option (Z * list (obs payload arg output))) : list (obs payload arg output) := match o with Some (_, l) => l | None => [] end.
Lemma pair_start : happens pair_p (pair_c 0) toy_k0 first_wakes 0 (OStart 0).
Proof.
  apply (obs_at_happens pair_p (pair_c 0) toy_k0 first_wakes 0%nat 0 (obs_in (obs_at pair_p (pair_c 0) toy_k0 first_wakes 0%nat))).
  - vm_compute. reflexivity.
  - vm_compute. left. reflexivity.
Qed.
Lemma pair_sent : happens pair_p (pair_c 0) toy_k0 first_wakes (280 * ms) (OSent pair_msg).
Proof.
  apply (obs_at_happens pair_p (pair_c 0) toy_k0 first_wakes 11%nat (280 * ms) (obs_in (obs_at pair_p (pair_c 0) toy_k0 first_wakes 11%nat))).
  - vm_compute. reflexivity.
  - vm_compute. right. right. right. left. reflexivity.
Qed.
Lemma pair_handled : happens pair_p (pair_c 1) toy_k0 hist1 (350 * ms - 1) (OHandle pair_msg).
Proof.
  apply (obs_at_happens pair_p (pair_c 1) toy_k0 hist1 12%nat (350 * ms - 1) (obs_in (obs_at pair_p (pair_c 1) toy_k0 hist1 12%nat))).
  - vm_compute. reflexivity.
  - vm_compute. left. reflexivity.
Qed.
Lemma pair_dropped : happens pair_p (pair_c 1) toy_k0 hist2 (350 * ms) (ODrop pair_msg).
Proof.
  apply (obs_at_happens pair_p (pair_c 1) toy_k0 hist2 13%nat (350 * ms) (obs_in (obs_at pair_p (pair_c 1) toy_k0 hist2 13%nat))).
  - vm_compute. reflexivity.
  - vm_compute. left. reflexivity.
Qed.
Example C90_ex :
  clocked first_wakes /\ timely pair_p (pair_c 0) (new_run toy_k0) (untimed first_wakes) /\ punctual pair_p (pair_c 0) 0 (new_run toy_k0) (untimed first_wakes) /\
  happens pair_p (pair_c 0) toy_k0 first_wakes 0 (OStart 0) /\ happens pair_p (pair_c 0) toy_k0 first_wakes (280 * ms) (OSent pair_msg) /\
  m_op pair_msg = 5 /\ m_rcpt pair_msg = 1 /\
  clocked hist1 /\ timely pair_p (pair_c 1) (new_run toy_k0) (untimed hist1) /\ happens pair_p (pair_c 1) toy_k0 hist1 (350 * ms - 1) (OHandle pair_msg) /\
  clocked hist2 /\ timely pair_p (pair_c 1) (new_run toy_k0) (untimed hist2) /\ happens pair_p (pair_c 1) toy_k0 hist2 (350 * ms) (ODrop pair_msg).
Proof.
  split; [clk|]. split; [vm_compute; intuition discriminate|]. split; [vm_compute; intuition discriminate|].
  split; [exact pair_start|]. split; [exact pair_sent|]. split; [vm_compute; reflexivity|]. split; [vm_compute; reflexivity|].
  split; [clk|]. split; [vm_compute; intuition discriminate|]. split; [exact pair_handled|].
  split; [clk|]. split; [vm_compute; intuition discriminate|]. exact pair_dropped.
Qed.
