(** After a request has returned: its runs are silent and its documents forgotten. *)
From Coq Require Import ZArith List Lia Bool.
From Coq Require Import Init.Byte.
From Verif Require Import Params Bytes Res Secp Dto Dss Prot ProtSpec ProtProofs ProtProofs3 ProtProofs6 DkgProt DkgProofs KMap Firewall FwSpec FwProofs FwProofs2 FwProofs3 FwProofs4
  Outputs Node NodeSpec NodeRun NodeProofs NodeProofs2 NodeProofs3 NodeProofs4 NodeProofs5 NodeProofs6.
Import ListNotations.
Open Scope Z_scope.

(** A terminated run stays so and only hears messages. *)
Definition silent {D A V} (o : obs D A V) : Prop := match o with OHandle _ | ODrop _ => True | _ => False end.
Lemma term_step {D A K E V} (p : protocol D A K E V) c k0 evs r tr ev r' t' : no_last_proc p -> exec p c (new_run k0) evs = Ok (r, tr) -> r_term r = true ->
  step p c r ev = Ok (r', t') -> r_term r' = true /\ Forall silent t'.
Proof.
  intros HN EX HT ES. pose proof (run_inv _ _ _ _ _ _ EX) as HI. pose proof (exec_snoc _ _ _ _ _ _ _ _ _ EX ES) as EX2. pose proof (run_inv _ _ _ _ _ _ EX2) as HI2.
  destruct (iv_link _ _ _ _ _ HI) as (_ & _ & L1). destruct (iv_link _ _ _ _ _ HI2) as (_ & _ & L2). rewrite HT in L1. split.
  - rewrite <- L2, terminated_app, L1. reflexivity.
  - assert (E1 : exec p c r [ev] = Ok (r', t')) by (cbn; rewrite ES; cbn; rewrite app_nil_r; reflexivity).
    destruct (idle_exec p c [ev] HN _ _ _ _ _ HI E1) as [X _]. apply Forall_forall. intros o Ho. apply in_split in Ho. destruct Ho as (a & b & ->).
    specialize (X a o b eq_refl). unfold ProtProofs3.idle in X. rewrite terminated_app, L1 in X. specialize (X eq_refl). destruct o; try contradiction; exact I.
Qed.

Section NP.
  Context {G : Type}.
  Variable ky : kyber G.
  Variable keccak : bytes -> bytes.
  Variable pshash : Z -> Z -> bytes.
  Variable su : setup.
  Variables until now0 : Z.
  Notation message := (message payload).
  Notation nevent := (nevent (G := G)). Notation node := (node (G := G)).
  Implicit Types (evs : list nevent) (n : node) (tr : list nobs).
  Notation INV := (INV ky keccak pshash su until now0).
  Notation nstep := (nstep ky keccak pshash su).
  Notation GI := (GI su).
  Notation prot_of := (the_prot ky keccak pshash).

  (** ** What a step does to the run objects *)
  Definition plain (o : nobs) : Prop := match o with NRun _ _ | NCreate _ _ => False | _ => True end.
  Definition makes (n n' : node) (k : key) (o : list nobs) : Prop :=
    exists gen t a, kget (n_table n) k = None /\ n_heap n' = n_heap n ++ [(k, new_run (new_kd su k gen))] /\ Forall plain a /\ o = a ++ [NCreate t k].
  Definition moves (n n' : node) (k : key) (o : list nobs) : Prop :=
    exists j r pev x, nth_error (n_heap n) j = Some (k, r) /\ step (prot_of (k_pc k)) (run_info su k) r pev = Ok x /\
      n_heap n' = put (n_heap n) j (k, fst x) /\ o = map (NRun k) (snd x).
  Lemma calm_receive n m n' o : receive ky keccak pshash su n m = Ok (n', o) -> Forall plain o.
  Proof. intros E. destruct (receive_eff _ _ _ _ _ _ _ _ E) as (_ & _ & _ & _ & [-> |[-> _]]); repeat constructor. Qed.
  Lemma calm_receive_all l : forall n n' o, receive_all ky keccak pshash su n l = Ok (n', o) -> Forall plain o.
  Proof.
    induction l as [|x l IH]; intros n n' o; cbn [receive_all]; [intros E; injection E as _ <-; constructor|].
    destruct (match x with FPass _ m => receive ky keccak pshash su n m | _ => Ok (n, []) end) as [[n1 o1]| |] eqn:E1; cbn [rbind fst snd]; try discriminate.
    destruct (receive_all ky keccak pshash su n1 l) as [[n2 o2]| |] eqn:E2; cbn [rbind fst snd]; try discriminate. intros E. injection E as _ <-.
    constructor; [exact I|]. apply Forall_app. split; [|apply (IH _ _ _ E2)]. destruct x; try (injection E1 as _ <-; constructor). eapply calm_receive; exact E1.
  Qed.
  Lemma fw_plain n fev n' o : firewall ky keccak pshash su n fev = Ok (n', o) -> n_heap n' = n_heap n /\ n_docs n' = n_docs n /\ n_reqs n' = n_reqs n /\ Forall plain o /\ Forall no_pop o.
  Proof.
    intros EF. pose proof (firewall_eff _ _ _ _ _ _ _ _ EF) as (_ & _ & (_ & _ & X & Y & W) & _). repeat (split; [assumption|]).
    unfold firewall in EF. destruct (fstep (n_fw n) fev) as [[f1 l]| |]; cbn [rbind fst snd] in EF; try discriminate. split; [eapply calm_receive_all; exact EF|].
    exact (proj2 (receive_all_outs _ _ _ _ _ _ _ _ EF)).
  Qed.
  Lemma ensure_plain n T k gen n' j o : ensure_run su n T k gen = (n', j, o) -> n_heap n' = n_heap n /\ o = [] \/ makes n n' k o.
  Proof.
    unfold ensure_run. destruct (kget (n_table n) k) eqn:ET; intros E; injection E as <- <- <-; [left; auto|]. right. exists gen, T, []. repeat split; auto.
  Qed.
  Lemma guest_heap n now k start l gen n' l' o : guest_go ky keccak pshash su n now k start l gen = Ok (n', l', o) ->
    (n_heap n' = n_heap n /\ Forall plain o \/ makes n n' k o) /\ n_docs n' = n_docs n /\ Forall no_pop o /\
    (guest_done l' = true -> guest_done l = true \/ terminated_run n k = true).
  Proof.
    intros EG. assert (F : forall fev (y : gloc), (x <- firewall ky keccak pshash su n fev ;; Ok (fst x, y, snd x)) = Ok (n', l', o) ->
       n_heap n' = n_heap n /\ n_docs n' = n_docs n /\ Forall plain o /\ Forall no_pop o /\ l' = y).
    { intros fev y. destruct (firewall _ _ _ _ _ _) as [[n1 o1]| |] eqn:EF; cbn [rbind fst snd]; try discriminate. intros E. injection E as <- <- <-.
      destruct (fw_plain _ _ _ _ EF) as (A & B & _ & C & D). auto. }
    assert (NOP : forall y, Ok (n, y, []) = Ok (n', l', o) -> (guest_done y = true -> guest_done l = true \/ terminated_run n k = true) -> 
      (n_heap n' = n_heap n /\ Forall plain o \/ makes n n' k o) /\ n_docs n' = n_docs n /\ Forall no_pop o /\ (guest_done l' = true -> guest_done l = true \/ terminated_run n k = true)).
    { intros y E H. injection E as <- <- <-. auto. }
    unfold guest_go in EG. cbv zeta in EG. destruct l as [|c|c|c|c|c| |].
    - destruct (F (EvAllow now k (allowance_for ky keccak pshash (k_pc k) start)) (GBuf (length (kslice (f_calls (n_fw n)) k)))) as (A & B & C & D & E); [exact EG|]. subst l'. split; [auto|]. split; [auto|]. split; [auto|]. discriminate.
    - destruct (chan_ready n k c); [|apply (NOP _ EG); discriminate]. destruct (F _ _ EG) as (A & B & C & D & ->). split; [auto|]. split; [auto|]. split; [auto|]. discriminate.
    - destruct (now <? start); [apply (NOP _ EG); discriminate|]. destruct (ensure_run su n now k gen) as [[n1 j] o1] eqn:EE. injection EG as <- <- <-. cbn [fst snd].
      destruct (ensure_eff _ _ _ _ _ _ _ _ EE) as (_ & _ & _ & _ & X & Y). split; [|split; [exact X|split; [|discriminate]]].
      + destruct (ensure_plain _ _ _ _ _ _ _ EE) as [[A ->]|A]; auto.
      + destruct Y as [(-> & _)|(-> & _)]; repeat constructor.
    - destruct (terminated_run n k); apply (NOP _ EG); [auto|discriminate].
    - destruct (chan_ready n k c); [|apply (NOP _ EG); auto]. destruct (F _ _ EG) as (A & B & C & D & ->). auto 10.
    - destruct (chan_ready n k c); [|apply (NOP _ EG); auto]. destruct (F _ _ EG) as (A & B & C & D & ->). auto 10.
    - destruct (receive _ _ _ _ _ _) as [[n1 o1]| |] eqn:ER; [|apply (NOP _ EG); auto|discriminate]. injection EG as <- <- <-. cbn [fst snd].
      destruct (receive_eff _ _ _ _ _ _ _ _ ER) as (_ & _ & (_ & _ & X & _ & W) & _). split; [left; split; [exact X|constructor; [exact I|eapply calm_receive; exact ER]]|]. split; [exact W|].
      split; [constructor; [exact I|exact (proj2 (receive_outs _ _ _ _ _ _ _ _ ER))]|auto].
    - apply (NOP _ EG); auto.
  Qed.
  Lemma heap_kinds n ev n' o : nstep n ev = Ok (n', o) -> n_heap n' = n_heap n /\ Forall plain o \/ (exists k, makes n n' k o) \/ (exists k, moves n n' k o).
  Proof.
    assert (FW : forall fev, firewall ky keccak pshash su n fev = Ok (n', o) -> n_heap n' = n_heap n /\ Forall plain o \/ (exists k, makes n n' k o) \/ (exists k, moves n n' k o)).
    { intros fev EF. left. destruct (fw_plain _ _ _ _ EF) as (A & _ & _ & B & _). auto. }
    destruct ev as [now base start doc|now i g|now i|now i g gen|now m|now|now k c|now pc g gen|now pc g nonce ord|now j nonce ord]; cbn [Node.nstep]; intros HS; try (apply (FW _ HS)).
    - left. injection HS as <- <-. auto.
    - left. unfold request_go in HS. destruct (nth_error (n_reqs n) i) as [r|] eqn:EN; [|injection HS as <- <-; auto].
      destruct (rq_phase r) as [todo| |todo|todo|]; try (injection HS as <- <-; auto; fail); (destruct (existsb (Z.eqb g) todo); [|injection HS as <- <-; auto]); cbv zeta in HS.
      + injection HS as <- <-. cbn. destruct (rq_doc r); auto.
      + injection HS as <- <-. auto.
      + destruct (rq_doc r), (snd (pop_output (n_outs n) (rq_key r g))) as [[]|]; try discriminate; try (injection HS as <- <-; split; [reflexivity|repeat constructor]).
        destruct (_ <? _)%nat; [discriminate|]. injection HS as <- <-; split; [reflexivity|repeat constructor].
    - left. injection HS as <- <-. unfold request_wait. destruct (nth_error (n_reqs n) i) as [r|]; [|auto]. destruct (rq_phase r); auto. destruct (forallb _ _); auto.
    - unfold request_guest in HS. destruct (nth_error (n_reqs n) i) as [r|] eqn:EN; [|injection HS as <- <-; auto].
      destruct (loc_of (rq_locs r) g) as [l|] eqn:EL; [|injection HS as <- <-; auto].
      destruct (guest_go _ _ _ _ _ _ _ _ _ _) as [[[n1 l1] o1]| |] eqn:EG; cbn [rbind fst snd] in HS; try discriminate. injection HS as <- <-.
      destruct (guest_heap _ _ _ _ _ _ _ _ _ EG) as ([A|A] & _); [left; exact A|right; left; exists (rq_key r g); exact A].
    - injection HS as HS. unfold consumer_take in HS; change (@fw_key) with (@key_of) in HS. destruct (kget (n_cons n) (qkey pc g)); [injection HS as <- <-; auto|].
      destruct (kslice (n_qs n) (qkey pc g)) as [|m q]; [injection HS as <- <-; auto|]. cbv zeta in HS.
      destruct (m_pc m <? 0); [left; injection HS as <- <-; split; [reflexivity|repeat constructor]|].
      destruct (ensure_run su _ now (key_of m) gen) as [[n2 j] o2] eqn:EE. injection HS as <- <-. cbn [fst snd].
      destruct (ensure_plain _ _ _ _ _ _ _ EE) as [[A ->]|(gen0 & t & a & A1 & A2 & A3 & ->)]; [left; split; [exact A|repeat constructor]|].
      right; left. exists (key_of m), gen0, t, (NTake m :: a). split; [exact A1|]. split; [exact A2|]. split; [constructor; [exact I|exact A3]|reflexivity].
    - unfold consumer_deliver in HS. destruct (kget (n_cons n) (qkey pc g)) as [[j m]|] eqn:EC; [|injection HS as <- <-; auto].
      destruct (nth_error (n_heap n) j) as [[k r]|] eqn:EN; [|discriminate].
      destruct (deliver _ _ _ _ _) as [x| |] eqn:ED; cbn [rbind] in HS; try discriminate. cbv zeta in HS. injection HS as <- <-.
      right; right. exists k, j, r, (EMsg (env_for su n k nonce ord) m), x. auto.
    - unfold run_tick in HS. destruct (nth_error (n_heap n) j) as [[k r]|] eqn:EN; [|injection HS as <- <-; auto].
      destruct (now <? r_wake r); [injection HS as <- <-; auto|].
      destruct (tick _ _ _ _ _) as [x| |] eqn:ED; cbn [rbind] in HS; try discriminate. injection HS as <- <-.
      right; right. exists k, j, r, (ETick (env_for su n k nonce ord) now), x. auto.
  Qed.

  (** ** What a step does to the requests and documents *)
  Inductive rtrans (n n' : node) (r : request) : request -> list nobs -> Prop :=
  | rt_reg g todo : rq_phase r = RReg todo -> In g todo ->
      n_docs n' = match rq_doc r with Some d => kset (n_docs n) (dkey g (rq_id r)) d | None => n_docs n end ->
      rtrans n n' r (match remove g todo with [] => spawn su r | _ => with_phase r (RReg (remove g todo)) end) []
  | rt_dereg g todo : rq_phase r = RDereg todo -> In g todo -> n_docs n' = kdel (n_docs n) (dkey g (rq_id r)) ->
      rtrans n n' r (with_phase r (match remove g todo with [] => RPop (su_guests su) | _ => RDereg (remove g todo) end)) []
  | rt_pop g todo v : rq_phase r = RPop todo -> In g todo -> n_docs n' = n_docs n ->
      rtrans n n' r (with_phase r (match remove g todo with [] => RDone | _ => RPop (remove g todo) end)) [NPop (rq_key r g) v]
  | rt_wait : rq_phase r = RRun -> forallb (fun x => guest_done (snd x)) (rq_locs r) = true -> n_docs n' = n_docs n ->
      rtrans n n' r (with_phase r (match rq_doc r with Some _ => RDereg (su_guests su) | None => RPop (su_guests su) end)) []
  | rt_guest g l l' o : loc_of (rq_locs r) g = Some l -> (guest_done l' = true -> guest_done l = true \/ terminated_run n (rq_key r g) = true) ->
      n_docs n' = n_docs n -> Forall no_pop o -> rtrans n n' r (with_locs r (set_loc (rq_locs r) g l')) o.
  Lemma in_existsb g l : existsb (Z.eqb g) l = true -> In g l.
  Proof. intros H. apply existsb_exists in H. destruct H as (x & H & E). apply Z.eqb_eq in E. congruence. Qed.
  Lemma map_no_pop k (l : list (obs payload arg output)) : Forall no_pop (map (NRun k) l).
  Proof. induction l; constructor; auto; exact I. Qed.
  Definition still (n n' : node) (o : list nobs) : Prop := n_reqs n' = n_reqs n /\ n_docs n' = n_docs n /\ Forall no_pop o.
  Lemma req_kinds n ev n' o : nstep n ev = Ok (n', o) ->
    still n n' o \/
    (exists base start doc, n_reqs n' = n_reqs n ++ [new_request su base start doc] /\ n_docs n' = n_docs n /\ o = []) \/
    (exists i r r', nth_error (n_reqs n) i = Some r /\ n_reqs n' = put (n_reqs n) i r' /\ rtrans n n' r r' o).
  Proof.
    assert (FW : forall fev, firewall ky keccak pshash su n fev = Ok (n', o) -> still n n' o).
    { intros fev EF. destruct (fw_plain _ _ _ _ EF) as (_ & A & B & _ & C). split; auto. }
    assert (ID : still n n []) by (split; auto).
    destruct ev as [now base start doc|now i g|now i|now i g gen|now m|now|now k c|now pc g gen|now pc g nonce ord|now j nonce ord]; cbn [Node.nstep]; intros HS; try (left; apply (FW _ HS)).
    - right; left. injection HS as <- <-. exists base, start, doc. auto.
    - unfold request_go in HS. destruct (nth_error (n_reqs n) i) as [r|] eqn:EN; [|injection HS as <- <-; auto].
      destruct (rq_phase r) as [todo| |todo|todo|] eqn:EP; try (injection HS as <- <-; auto; fail); (destruct (existsb (Z.eqb g) todo) eqn:EI; [|injection HS as <- <-; auto]); cbv zeta in HS; apply in_existsb in EI; right; right.
      + injection HS as <- <-. exists i, r. eexists. split; [exact EN|]. split; [|apply (rt_reg _ _ _ g todo EP EI)]; destruct (rq_doc r); reflexivity.
      + injection HS as <- <-. exists i, r. eexists. split; [exact EN|]. split; [|apply (rt_dereg _ _ _ g todo EP EI)]; reflexivity.
      + exists i, r, (with_phase r (match remove g todo with [] => RDone | _ => RPop (remove g todo) end)).
        destruct (rq_doc r), (snd (pop_output (n_outs n) (rq_key r g))) as [[]|]; try discriminate;
          try (injection HS as <- <-; split; [exact EN|]; split; [reflexivity|]; apply (rt_pop _ _ _ g todo _ EP EI); reflexivity).
        destruct (_ <? _)%nat; [discriminate|]. injection HS as <- <-; split; [exact EN|]; split; [reflexivity|]; apply (rt_pop _ _ _ g todo _ EP EI); reflexivity.
    - injection HS as <- <-. unfold request_wait. destruct (nth_error (n_reqs n) i) as [r|] eqn:EN; [|auto]. destruct (rq_phase r) eqn:EP; auto. destruct (forallb _ _) eqn:EF; auto.
      right; right. exists i, r. eexists. split; [exact EN|]. split; [|apply (rt_wait _ _ _ EP EF)]; reflexivity.
    - unfold request_guest in HS. destruct (nth_error (n_reqs n) i) as [r|] eqn:EN; [|injection HS as <- <-; auto].
      destruct (loc_of (rq_locs r) g) as [l|] eqn:EL; [|injection HS as <- <-; auto].
      destruct (guest_go _ _ _ _ _ _ _ _ _ _) as [[[n1 l1] o1]| |] eqn:EG; cbn [rbind fst snd] in HS; try discriminate. injection HS as <- <-.
      destruct (guest_heap _ _ _ _ _ _ _ _ _ EG) as (_ & A & B & C). right; right. exists i, r. eexists. split; [exact EN|]. split; [cbn; rewrite (guest_reqs _ _ _ _ _ _ _ _ _ _ _ _ _ EG); reflexivity|].
      apply (rt_guest _ _ _ g l); auto.
    - left. injection HS as HS. unfold consumer_take in HS; change (@fw_key) with (@key_of) in HS. destruct (kget (n_cons n) (qkey pc g)); [injection HS as <- <-; auto|].
      destruct (kslice (n_qs n) (qkey pc g)) as [|m q]; [injection HS as <- <-; auto|]. cbv zeta in HS.
      destruct (m_pc m <? 0); [injection HS as <- <-; split; [reflexivity|split; [reflexivity|repeat constructor]]|].
      destruct (ensure_run su _ now (key_of m) gen) as [[n2 j] o2] eqn:EE. injection HS as <- <-. cbn [fst snd].
      destruct (ensure_eff _ _ _ _ _ _ _ _ EE) as (_ & _ & _ & Y1 & Y2 & Y). split; [exact Y1|]. split; [exact Y2|]. constructor; [exact I|]. destruct Y as [(-> & _)|(-> & _)]; repeat constructor.
    - left. unfold consumer_deliver in HS. destruct (kget (n_cons n) (qkey pc g)) as [[j m]|] eqn:EC; [|injection HS as <- <-; auto].
      destruct (nth_error (n_heap n) j) as [[k r]|] eqn:EN; [|discriminate].
      destruct (deliver _ _ _ _ _) as [x| |] eqn:ED; cbn [rbind] in HS; try discriminate. cbv zeta in HS. injection HS as <- <-.
      split; [reflexivity|split; [reflexivity|]]. apply map_no_pop.
    - left. unfold run_tick in HS. destruct (nth_error (n_heap n) j) as [[k r]|] eqn:EN; [|injection HS as <- <-; auto].
      destruct (now <? r_wake r); [injection HS as <- <-; auto|].
      destruct (tick _ _ _ _ _) as [x| |] eqn:ED; cbn [rbind] in HS; try discriminate. injection HS as <- <-.
      split; [reflexivity|split; [reflexivity|]]. apply map_no_pop.
  Qed.

  (** ** Request objects *)
  Lemma new_phase base start doc : rq_phase (new_request su base start doc) = RReg (su_guests su) \/
    rq_phase (new_request su base start doc) = RRun /\ rq_locs (new_request su base start doc) = map (fun g => (g, GAllow)) (su_guests su).
  Proof. unfold new_request. destruct doc; [destruct (su_guests su) eqn:E; [right|left]|right]; cbn; rewrite ?E; auto. Qed.
  Lemma new_locs base start doc g l : In (g, l) (rq_locs (new_request su base start doc)) -> l = GAllow.
  Proof.
    assert (X : forall r, In (g, l) (rq_locs (spawn su r)) -> l = GAllow) by (intros r H; apply in_map_iff in H; destruct H as (x & E & _); congruence).
    unfold new_request. destruct doc; [destruct (su_guests su); [apply X|contradiction]|apply X].
  Qed.
  (** Every guest of a request that has spawned its goroutines has one. *)
  Definition LP (n : node) : Prop := forall i r, nth_error (n_reqs n) i = Some r ->
    match rq_phase r with RReg _ => True | _ => map fst (rq_locs r) = su_guests su end.
  Lemma spawn_fst : map fst (map (fun g : Z => (g, GAllow)) (su_guests su)) = su_guests su.
  Proof. rewrite map_map. apply map_id. Qed.
  Lemma lp_step n ev n' o : LP n -> nstep n ev = Ok (n', o) -> LP n'.
  Proof.
    intros HP HS. destruct (req_kinds _ _ _ _ HS) as [(E & _)|[(base & start & doc & E & _)|(i & r & r' & EN & E & RT)]]; intros j q Hq; rewrite E in Hq.
    - exact (HP _ _ Hq).
    - apply nth_snoc in Hq. destruct Hq as [[_ ->]|Hq]; [|exact (HP _ _ Hq)]. destruct (new_phase base start doc) as [->|[-> ->]]; [exact I|apply spawn_fst].
    - apply nth_put in Hq. destruct Hq as [[-> ->]|Hq]; [|exact (HP _ _ Hq)]. pose proof (HP _ _ EN) as X.
      destruct RT as [g todo E1|g todo E1|g todo v E1|E1|g l l' o]; try rewrite E1 in X.
      + destruct (remove g todo); cbn; [apply spawn_fst|exact I].
      + cbn. destruct (remove g todo); exact X.
      + cbn. destruct (remove g todo); exact X.
      + cbn. destruct (rq_doc r); exact X.
      + cbn. rewrite set_loc_fst. exact X.
  Qed.

  (** ** Termination *)
  Lemma prot_last pc : no_last_proc (prot_of pc).
  Proof. unfold the_prot. destruct (pc =? pc_dkg); [apply dkg_last|apply dss_last]. Qed.
  Lemma terminated_in_heap n k : terminated_run n k = true <-> exists j r, nth_error (n_heap n) j = Some (k, r) /\ r_term r = true.
  Proof.
    unfold terminated_run. rewrite existsb_exists. split.
    - intros ([k' r] & HI & E). apply andb_true_iff in E. destruct E as [E1 E2]. cbn in *. destruct (key_eqb_spec k' k) as [->|]; [|discriminate]. apply In_nth_error in HI. destruct HI as [j HI]. eauto.
    - intros (j & r & E & T). exists (k, r). split; [eapply nth_error_In; exact E|]. cbn. rewrite key_eqb_refl. exact T.
  Qed.
  Lemma moves_term evs tr n T n' k o : INV evs tr n T -> moves n n' k o -> forall k', terminated_run n k' = true -> terminated_run n' k' = true.
  Proof.
    intros [_ R] (j & r & pev & [r1 t1] & EN & ES & EH & _) k' HT. apply terminated_in_heap in HT. apply terminated_in_heap. destruct HT as (j0 & r0 & E0 & T0). rewrite EH. cbn [fst].
    destruct (Nat.eq_dec j0 j) as [->|N]; [|exists j0, r0; rewrite put_diff by exact N; auto].
    rewrite EN in E0. injection E0 as <- <-. exists j, r1. split; [eapply put_same; exact EN|].
    destruct (r_heap _ _ _ _ _ _ _ _ R _ _ _ EN) as (_ & _ & gen & pevs & rtr & EX & _). exact (proj1 (term_step _ _ _ _ _ _ _ _ _ (prot_last _) EX T0 ES)).
  Qed.
  Lemma term_stays evs tr n T ev n' o k : INV evs tr n T -> nstep n ev = Ok (n', o) -> terminated_run n k = true -> terminated_run n' k = true.
  Proof.
    intros HI HS HT. destruct (heap_kinds _ _ _ _ HS) as [[E _]|[(k0 & gen & t & a & _ & E & _)|(k0 & M)]].
    - unfold terminated_run. rewrite E. exact HT.
    - unfold terminated_run. rewrite E, existsb_app. unfold terminated_run in HT. rewrite HT. reflexivity.
    - eapply moves_term; eassumption.
  Qed.
  Definition TD (n : node) : Prop := forall i r g l, nth_error (n_reqs n) i = Some r -> In (g, l) (rq_locs r) -> guest_done l = true -> terminated_run n (rq_key r g) = true.
  Lemma td_step evs tr n T ev n' o : INV evs tr n T -> TD n -> nstep n ev = Ok (n', o) -> TD n'.
  Proof.
    intros HI HP HS i0 q g0 l0 Hq HL HD.
    destruct (req_kinds _ _ _ _ HS) as [(E & _)|[(base & start & doc & E & _)|(i & r & r' & EN & E & RT)]]; rewrite E in Hq.
    - eapply term_stays; [exact HI|exact HS|]. eapply HP; eassumption.
    - apply nth_snoc in Hq. destruct Hq as [[_ ->]|Hq]; [|eapply term_stays; [exact HI|exact HS|]; eapply HP; eassumption]. apply new_locs in HL. subst l0. discriminate.
    - apply nth_put in Hq. destruct Hq as [[-> ->]|Hq]; [|eapply term_stays; [exact HI|exact HS|]; eapply HP; eassumption].
      assert (SAME : rq_locs r' = rq_locs r -> rq_key r' g0 = rq_key r g0 -> terminated_run n' (rq_key r' g0) = true).
      { intros E1 E2. rewrite E2. eapply term_stays; [exact HI|exact HS|]. eapply HP; [exact EN| |exact HD]. rewrite <- E1. exact HL. }
      destruct RT as [g todo E1|g todo E1|g todo v E1|E1|g l l' o].
      + destruct (remove g todo); [|apply SAME; reflexivity]. cbn in HL. apply in_map_iff in HL. destruct HL as (x & EX & _). injection EX as _ <-. discriminate.
      + apply SAME; reflexivity.
      + apply SAME; reflexivity.
      + apply SAME; reflexivity.
      + cbn in HL. apply set_loc_in in HL. destruct HL as [[EX _]|HL].
        * injection EX as -> ->. change (rq_key (with_locs r (set_loc (rq_locs r) g l')) g) with (rq_key r g). eapply term_stays; [exact HI|exact HS|].
          destruct (H0 HD) as [X|X]; [|exact X]. eapply HP; [exact EN|apply loc_in, H|exact X].
        * change (rq_key (with_locs r (set_loc (rq_locs r) g l')) g0) with (rq_key r g0). eapply term_stays; [exact HI|exact HS|]. eapply HP; eassumption.
  Qed.

  (** ** Popped outputs *)
  Definition popping (r : request) : Prop := match rq_phase r with RPop _ | RDone => True | _ => False end.
  Definition PI (tr : list nobs) (n : node) : Prop := forall k v, In (NPop k v) tr -> exists i r, nth_error (n_reqs n) i = Some r /\ matches k r = true /\ popping r.
  Lemma pi_step tr n ev n' o : PI tr n -> nstep n ev = Ok (n', o) -> PI (tr ++ o) n'.
  Proof.
    intros HP HS k v HI.
    assert (NP : forall o, Forall no_pop o -> In (NPop k v) (tr ++ o) -> In (NPop k v) tr).
    { intros o0 F H. apply in_app_or in H. destruct H as [H|H]; [exact H|]. rewrite Forall_forall in F. destruct (F _ H). }
    destruct (req_kinds _ _ _ _ HS) as [(E & _ & F)|[(base & start & doc & E & _ & ->)|(i & r & r' & EN & E & RT)]]; rewrite E.
    - apply (HP _ _ (NP _ F HI)).
    - rewrite app_nil_r in HI. destruct (HP _ _ HI) as (i & r & A & B). exists i, r. rewrite nth_error_app1 by (apply nth_error_Some; congruence). auto.
    - assert (OLD : In (NPop k v) tr -> (popping r -> matches k r = true -> matches k r' = true /\ popping r') -> exists i0 r0, nth_error (put (n_reqs n) i r') i0 = Some r0 /\ matches k r0 = true /\ popping r0).
      { intros H X. destruct (HP _ _ H) as (i0 & r0 & A & B & C). destruct (Nat.eq_dec i0 i) as [->|N]; [|exists i0, r0; rewrite put_diff by exact N; auto].
        rewrite EN in A. injection A as <-. exists i, r'. split; [eapply put_same; exact EN|auto]. }
      destruct RT as [g todo E1|g todo E1|g todo v0 E1|E1|g l l' o]; unfold popping in OLD; rewrite ?E1 in OLD.
      + rewrite app_nil_r in HI. apply (OLD HI). contradiction.
      + rewrite app_nil_r in HI. apply (OLD HI). contradiction.
      + apply in_app_or in HI. destruct HI as [HI|[HI|[]]].
        * apply (OLD HI). intros _ M. split; [exact M|]. cbn. destruct (remove g todo); exact I.
        * injection HI as <- _. exists i. eexists. split; [eapply put_same; exact EN|]. split; [exact (matches_self r g)|]. unfold popping. cbn. destruct (remove g todo); exact I.
      + rewrite app_nil_r in HI. apply (OLD HI). contradiction.
      + apply (OLD (NP _ H2 HI)). intros P M. split; [exact M|exact P].
  Qed.

  (** ** Documents *)
  Definition holds (g : Z) (r : request) : Prop := match rq_phase r with RReg _ | RRun => True | RDereg todo => In g todo | _ => False end.
  Definition DI (n : node) : Prop := forall g id d, kget (n_docs n) (dkey g id) = Some d -> exists i r, nth_error (n_reqs n) i = Some r /\ rq_id r = id /\ rq_doc r <> None /\ holds g r.
  Lemma remove_other g h l : In h l -> h <> g -> In h (remove g l).
  Proof. intros H N. apply filter_In. split; [exact H|]. destruct (Z.eqb_spec h g); [contradiction|reflexivity]. Qed.
  Lemma di_step evs tr n T ev n' o : INV evs tr n T -> DI n -> nstep n ev = Ok (n', o) -> DI n'.
  Proof.
    intros [_ R] HP HS g0 id d HD.
    destruct (req_kinds _ _ _ _ HS) as [(E & ED & F)|[(base & start & doc & E & ED & _)|(i & r & r' & EN & E & RT)]]; rewrite E.
    - rewrite ED in HD. exact (HP _ _ _ HD).
    - rewrite ED in HD. destruct (HP _ _ _ HD) as (i & r & A & B). exists i, r. rewrite nth_error_app1 by (apply nth_error_Some; congruence). auto.
    - assert (OLD : kget (n_docs n) (dkey g0 id) = Some d -> (rq_id r = id -> rq_doc r <> None -> holds g0 r -> rq_id r' = id /\ rq_doc r' <> None /\ holds g0 r') ->
        exists i0 r0, nth_error (put (n_reqs n) i r') i0 = Some r0 /\ rq_id r0 = id /\ rq_doc r0 <> None /\ holds g0 r0).
      { intros H X. destruct (HP _ _ _ H) as (i0 & r0 & A & B & C & Y). destruct (Nat.eq_dec i0 i) as [->|N]; [|exists i0, r0; rewrite put_diff by exact N; auto].
        rewrite EN in A. injection A as <-. exists i, r'. split; [eapply put_same; exact EN|auto]. }
      destruct RT as [g todo E1 IT ED|g todo E1 IT ED|g todo v0 E1 IT ED|E1 _ ED|g l l' o _ _ ED _]; rewrite ED in HD.
      + assert (KEEP : kget (n_docs n) (dkey g0 id) = Some d -> exists i0 r0, nth_error (put (n_reqs n) i match remove g todo with [] => spawn su r | _ => with_phase r (RReg (remove g todo)) end) i0 = Some r0 /\ rq_id r0 = id /\ rq_doc r0 <> None /\ holds g0 r0).
        { intros H. apply (OLD H). intros A B C. destruct (remove g todo); cbn; auto. }
        destruct (rq_doc r) as [d1|] eqn:EDoc; [|exact (KEEP HD)]. rewrite kget_kset in HD. destruct (key_eqb_spec (dkey g (rq_id r)) (dkey g0 id)) as [EK|]; [|exact (KEEP HD)].
        injection EK as -> EI. exists i. eexists. split; [eapply put_same; exact EN|]. destruct (remove g0 todo); cbn; rewrite EDoc; repeat split; auto; discriminate.
      + rewrite kget_kdel in HD. destruct (key_eqb_spec (dkey g (rq_id r)) (dkey g0 id)) as [EK|NK]; [discriminate|]. apply (OLD HD). intros A B C. split; [exact A|]. split; [exact B|].
        unfold holds in C. rewrite E1 in C. assert (N : g0 <> g) by (intros ->; apply NK; rewrite A; reflexivity). pose proof (remove_other g g0 todo C N) as X. unfold holds. cbn.
        destruct (remove g todo); [destruct X|exact X].
      + apply (OLD HD). intros A B C. unfold holds in C. rewrite E1 in C. contradiction.
      + apply (OLD HD). intros A B _. split; [exact A|]. split; [exact B|]. unfold holds. cbn. destruct (rq_doc r); [|congruence].
        destruct (r_docs _ _ _ _ _ _ _ _ R _ _ _ HD) as (start & t & bb & _ & _ & _ & X). exact X.
      + apply (OLD HD). auto.
  Qed.

  (** ** A run requested once is made once *)
  Definition objs (k : key) (h : list (key * rst payload (kd G))) := filter (fun x => key_eqb (fst x) k) h.
  Lemma objs_app k a b : objs k (a ++ b) = objs k a ++ objs k b. Proof. apply filter_app. Qed.
  Lemma objs_put k h j k0 r0 r1 : nth_error h j = Some (k0, r0) -> length (objs k (put h j (k0, r1))) = length (objs k h).
  Proof.
    intros E. destruct (put_split h j _ E) as (a & b & E1 & E2). rewrite E2, E1, !objs_app, !app_length. cbn. destruct (key_eqb k0 k); reflexivity.
  Qed.
  Lemma objs_two k h i j r1 r2 : nth_error h i = Some (k, r1) -> nth_error h j = Some (k, r2) -> (length (objs k h) <= 1)%nat -> i = j.
  Proof.
    revert i j. induction h as [|[k0 r0] h IH]; intros [|i] [|j]; cbn; try discriminate; auto.
    - intros E1 E2. injection E1 as -> ->. rewrite key_eqb_refl. cbn. assert (X : In (k, r2) (objs k h)) by (apply filter_In; split; [eapply nth_error_In; exact E2|apply key_eqb_refl]).
      unfold objs in X. destruct (filter _ h); [contradiction|cbn; lia].
    - intros E1 E2. injection E2 as -> ->. rewrite key_eqb_refl. cbn. assert (X : In (k, r1) (objs k h)) by (apply filter_In; split; [eapply nth_error_In; exact E1|apply key_eqb_refl]).
      unfold objs in X. destruct (filter _ h); [contradiction|cbn; lia].
    - intros E1 E2 L. f_equal. apply IH; auto. destruct (key_eqb k0 k); cbn in L; [unfold objs; lia|exact L].
  Qed.
  Lemma delete_in k tr : (1 <= deletes k tr)%nat -> In (NDelete k) tr.
  Proof.
    unfold deletes. intros H. destruct (filter _ tr) as [|x l] eqn:E; [cbn in H; lia|]. assert (X : In x (x :: l)) by (left; reflexivity). rewrite <- E in X. apply filter_In in X.
    destruct X as [X Y]. destruct x; try discriminate. destruct (key_eqb_spec k0 k) as [->|]; [exact X|discriminate].
  Qed.
  Lemma table_or_deleted k o : forall tr, in_table k tr = true -> in_table k (tr ++ o) = true \/ (1 <= deletes k o)%nat.
  Proof.
    induction o as [|x o IH]; intros tr H; [rewrite app_nil_r; auto|]. change (x :: o) with ([x] ++ o). rewrite app_assoc, deletes_app.
    destruct (in_table k (tr ++ [x])) eqn:E; [destruct (IH _ E) as [X|X]; [auto|right; lia]|].
    right. rewrite live_app, H in E. cbn in E. destruct x; try discriminate; unfold deletes at 1; cbn; destruct (key_eqb k0 k); try discriminate; cbn; lia.
  Qed.
  Definition ONE (k : key) evs tr n : Prop := (requests_for k evs <= 1)%nat ->
    (length (objs k (n_heap n)) <= 1)%nat /\ (objs k (n_heap n) <> [] -> in_table k tr = true \/ (1 <= deletes k tr)%nat).
  Lemma one_step k evs tr n T ev n' o : INV evs tr n T -> T <= ntime ev -> GI tr n -> ONE k evs tr n -> (k_pc k = pc_dss -> U k (evs ++ [ev]) (tr ++ o) n') ->
    nstep n ev = Ok (n', o) -> ONE k (evs ++ [ev]) (tr ++ o) n'.
  Proof.
    intros HI HT HG HO HU HS HR. assert (HR0 : (requests_for k evs <= 1)%nat) by (pose proof (requests_snoc k evs ev); lia). destruct (HO HR0) as [O1 O2].
    pose proof (gi_step _ _ _ _ _ _ _ _ _ _ _ _ _ HI HT HG HS) as HG'.
    assert (OLD : objs k (n_heap n) <> [] -> in_table k (tr ++ o) = true \/ (1 <= deletes k (tr ++ o))%nat).
    { intros H. rewrite deletes_app. destruct (O2 H) as [X|X]; [destruct (table_or_deleted k o tr X); [auto|right; lia]|right; lia]. }
    destruct (heap_kinds _ _ _ _ HS) as [[E _]|[(k0 & gen & t & a & ET & E & _ & EO)|(k0 & j & r & pev & x & EN & _ & E & _)]].
    - rewrite E. auto.
    - destruct (key_eqb_spec k0 k) as [->|NK].
      + assert (IT : in_table k (tr ++ o) = true) by (rewrite EO, app_assoc, live_app; cbn; rewrite key_eqb_refl; reflexivity).
        assert (EMP : objs k (n_heap n) = []).
        { destruct (objs k (n_heap n)) eqn:EB; [reflexivity|exfalso]. destruct O2 as [X|X]; [discriminate| |].
          - rewrite <- (g_tab _ _ _ HG), ET in X. discriminate.
          - pose proof (delete_in _ _ X) as D. apply in_split in D. destruct D as (y & z & D). pose proof (r_tr _ _ _ _ _ _ _ _ (proj2 HI) _ _ _ D) as [_ KP].
            destruct (HU KP) as [_ HU2]. destruct (HU2 HR) as (_ & _ & HU3 & _). destruct HU3 as (_ & _ & HU4); [rewrite deletes_app; lia|].
            rewrite <- (g_tab _ _ _ HG'), HU4 in IT. discriminate. }
        rewrite E, objs_app, EMP. cbn. rewrite key_eqb_refl. cbn. split; [lia|auto].
      + rewrite E, objs_app. cbn. destruct (key_eqb_spec k0 k); [contradiction|]. rewrite app_nil_r. auto.
    - rewrite E. pose proof (objs_put k _ _ _ _ (fst x) EN) as L. split; [rewrite L; exact O1|]. intros H. apply OLD. intros Z0. rewrite Z0 in L. cbn in L. destruct (objs k (put _ _ _)); [congruence|discriminate].
  Qed.

  (** ** Silence *)
  Definition sibling (k k' : key) : Prop := k_pc k' = k_pc k /\ k_run k' = k_run k /\ In (k_guest k') (su_guests su).
  Lemma sibling_requests k k' evs : k_pc k' = k_pc k -> k_run k' = k_run k -> requests_for k' evs = requests_for k evs.
  Proof. intros A B. unfold requests_for. f_equal. apply filter_ext. intros ev. unfold is_request. rewrite A, B. reflexivity. Qed.
  Lemma popped_terminated tr n k v k' : PH n -> LP n -> TD n -> PI tr n -> In (NPop k v) tr -> sibling k k' -> terminated_run n k' = true.
  Proof.
    intros H1 H2 H3 H4 HI (S1 & S2 & S3). destruct (H4 _ _ HI) as (i & r & EN & EM & PP). pose proof (H1 _ _ EN) as A. pose proof (H2 _ _ EN) as B. unfold popping in PP.
    assert (X : forallb (fun x => guest_done (snd x)) (rq_locs r) = true /\ map fst (rq_locs r) = su_guests su) by (destruct (rq_phase r); try contradiction; auto).
    destruct X as [X Y]. rewrite <- Y in S3. apply in_map_iff in S3. destruct S3 as ([g l] & E & HL). cbn in E. rewrite forallb_forall in X. specialize (X _ HL).
    assert (EK : rq_key r g = k') by (apply matches_key; [unfold matches in *; rewrite S1, S2; exact EM|exact E]).
    rewrite <- EK. eapply H3; eassumption.
  Qed.
  Definition SIL (k k' : key) evs tr : Prop := (requests_for k evs <= 1)%nat -> forall a v b, tr = a ++ NPop k v :: b ->
    (forall t, ~ In (NCreate t k') b) /\ (forall o, In (NRun k' o) b -> silent o).
  Lemma sil_step k k' evs tr n T ev n' o : sibling k k' -> INV evs tr n T -> PH n -> LP n -> TD n -> PI tr n -> ONE k' evs tr n -> ONE k' (evs ++ [ev]) (tr ++ o) n' ->
    SIL k k' evs tr -> nstep n ev = Ok (n', o) -> SIL k k' (evs ++ [ev]) (tr ++ o).
  Proof.
    intros SB HI H1 H2 H3 H4 ON ON' HSL HS HR a v b E. assert (HR0 : (requests_for k evs <= 1)%nat) by (pose proof (requests_snoc k evs ev); lia).
    assert (HRk : forall l, requests_for k' l = requests_for k l) by (intros l; apply sibling_requests; apply SB).
    apply app_eq_app in E. destruct E as (l & [[-> E]|[-> E]]).
    - destruct l as [|y l]; cbn in E.
      + (* the pop is the first of the new observations *)
        destruct (req_kinds _ _ _ _ HS) as [(_ & _ & F)|[(base & start & doc & _ & _ & ->)|(i & r & r' & EN & _ & RT)]].
        * subst o. inversion F as [|? ? X _]. destruct X.
        * discriminate.
        * destruct RT as [| |g todo v0|E1|g l l' o _ _ _ F]; try discriminate.
          -- injection E as _ _ ->. split; [auto|contradiction].
          -- subst o. inversion F as [|? ? X _]. destruct X.
      + injection E as <- ->. destruct (HSL HR0 a v l eq_refl) as [S1 S2].
        assert (TM : terminated_run n k' = true) by (eapply popped_terminated; eauto; apply in_elt).
        pose proof TM as TM2. apply terminated_in_heap in TM2. destruct TM2 as (j0 & r0 & E0 & T0).
        destruct (heap_kinds _ _ _ _ HS) as [[_ F]|[(k0 & gen & t & a0 & _ & EH & F & EO)|(k0 & j & r & pev & [r1 t1] & EN & ES & _ & EO)]].
        * rewrite Forall_forall in F. split.
          -- intros t H. apply in_app_or in H. destruct H as [H|H]; [exact (S1 _ H)|exact (F _ H)].
          -- intros x H. apply in_app_or in H. destruct H as [H|H]; [exact (S2 _ H)|destruct (F _ H)].
        * rewrite Forall_forall in F. assert (NK : k0 <> k').
          { intros ->. destruct ON' as [X _]; [rewrite HRk; exact HR|]. rewrite EH, objs_app, app_length in X. cbn in X. rewrite key_eqb_refl in X. cbn in X.
            assert (Y : In (k', r0) (objs k' (n_heap n))) by (apply filter_In; split; [eapply nth_error_In; exact E0|apply key_eqb_refl]).
            destruct (objs k' (n_heap n)); [contradiction|cbn in X; lia]. }
          subst o. split.
          -- intros t1 H. apply in_app_or in H. destruct H as [H|H]; [exact (S1 _ H)|]. apply in_app_or in H. destruct H as [H|[H|[]]]; [exact (F _ H)|congruence].
          -- intros x H. apply in_app_or in H. destruct H as [H|H]; [exact (S2 _ H)|]. apply in_app_or in H. destruct H as [H|[H|[]]]; [destruct (F _ H)|discriminate].
        * subst o. cbn [snd]. split.
          -- intros t H. apply in_app_or in H. destruct H as [H|H]; [exact (S1 _ H)|]. apply in_map_iff in H. destruct H as (? & H & _). discriminate.
          -- intros x H. apply in_app_or in H. destruct H as [H|H]; [exact (S2 _ H)|]. apply in_map_iff in H. destruct H as (y & H & HY). injection H as -> ->.
             destruct ON as [X _]; [rewrite HRk; exact HR0|]. pose proof (objs_two _ _ _ _ _ _ EN E0 X) as <-. rewrite EN in E0. injection E0 as <-.
             destruct (r_heap _ _ _ _ _ _ _ _ (proj2 HI) _ _ _ EN) as (_ & _ & gen & pevs & rtr & EX & _). pose proof (proj2 (term_step _ _ _ _ _ _ _ _ _ (prot_last _) EX T0 ES)) as Q.
             rewrite Forall_forall in Q. exact (Q _ HY).
    - destruct (req_kinds _ _ _ _ HS) as [(_ & _ & F)|[(base & start & doc & _ & _ & ->)|(i & r & r' & EN & _ & RT)]].
      + subst o. apply Forall_app in F. destruct F as [_ F]. inversion F as [|? ? X _]. destruct X.
      + destruct l; discriminate.
      + destruct RT as [| |g todo v0|E1|g ll l' o _ _ _ F]; try (destruct l; discriminate).
        * destruct l as [|y l]; cbn in E; [injection E as _ _ <-|injection E as _ E; destruct l; discriminate]. split; [auto|contradiction].
        * subst o. apply Forall_app in F. destruct F as [_ F]. inversion F as [|? ? X _]. destruct X.
  Qed.

  Lemma history_silent evs n tr k k' : NoDup (su_guests su) -> nhistory ky keccak pshash su until now0 evs n tr -> sibling k k' ->
    SIL k k' evs tr /\ PI tr n /\ DI n /\ TD n /\ LP n.
  Proof.
    intros ND HH SB.
    destruct (history_ind ky keccak pshash su until now0 (fun evs tr n => (k_pc k' = pc_dss -> U k' evs tr n) /\ PH n /\ LP n /\ TD n /\ PI tr n /\ DI n /\ ONE k' evs tr n /\ SIL k k' evs tr)) with (3 := HH)
      as (_ & _ & _ & _ & A & B & C & D & _ & E); [| |auto].
    - intros evs0 tr0 n0 T ev n' o HI HG HT (I1 & I2 & I3 & I4 & I5 & I6 & I7 & I8) HS.
      assert (HU : k_pc k' = pc_dss -> U k' (evs0 ++ [ev]) (tr0 ++ o) n') by (intros KP; eapply u_step; eauto).
      assert (HO : ONE k' (evs0 ++ [ev]) (tr0 ++ o) n') by (eapply one_step; eauto).
      split; [exact HU|]. split; [eapply ph_step; eauto|]. split; [eapply lp_step; eauto|]. split; [eapply td_step; eauto|]. split; [eapply pi_step; eauto|]. split; [eapply di_step; eauto|].
      split; [exact HO|]. eapply sil_step; eauto.
    - split; [intros KP; destruct (history_u ky keccak pshash su until now0 k' [] (start_node su until now0) [] ND KP) as [_ X]; [split; [exact I|reflexivity]|exact X]|].
      split; [intros [|i] r H; discriminate|]. split; [intros [|i] r H; discriminate|]. split; [intros [|i] r g l H; discriminate|]. split; [intros ? ? []|]. split; [intros ? ? ? H; discriminate|].
      split; [intros _; cbn; split; [lia|congruence]|]. intros _ [|] v b H; discriminate.
  Qed.

  (** Two requests for the same run are two requests. *)
  Lemma two_matches k (rs : list request) i j r1 r2 : nth_error rs i = Some r1 -> nth_error rs j = Some r2 -> matches k r1 = true -> matches k r2 = true -> (length (filter (matches k) rs) <= 1)%nat -> i = j.
  Proof.
    revert i j. induction rs as [|r0 rs IH]; intros [|i] [|j]; cbn; try discriminate; auto.
    - intros E1 E2 M1 M2. injection E1 as ->. rewrite M1. cbn. assert (X : In r2 (filter (matches k) rs)) by (apply filter_In; split; [eapply nth_error_In; exact E2|exact M2]).
      destruct (filter _ rs); [contradiction|cbn; lia].
    - intros E1 E2 M1 M2. injection E2 as ->. rewrite M2. cbn. assert (X : In r1 (filter (matches k) rs)) by (apply filter_In; split; [eapply nth_error_In; exact E1|exact M1]).
      destruct (filter _ rs); [contradiction|cbn; lia].
    - intros E1 E2 M1 M2 L. f_equal. eapply IH; eauto. destruct (matches k r0); cbn in L; lia.
  Qed.
  Lemma history_sigs evs n tr : nhistory ky keccak pshash su until now0 evs n tr -> SIGS evs n.
  Proof.
    intros HH. destruct (history_ind ky keccak pshash su until now0 (fun evs _ n => SIGS evs n)) with (3 := HH) as (_ & _ & X); [| |exact X].
    - intros evs0 tr0 n0 T ev n' o _ _ _ H HS. unfold SIGS in *. rewrite (step_sigs _ _ _ _ _ _ _ _ HS), H, flat_map_app. cbn. rewrite app_nil_r. reflexivity.
    - reflexivity.
  Qed.
  Lemma document_forgotten evs n tr k v g : NoDup (su_guests su) -> In (k_guest k) (su_guests su) -> nhistory ky keccak pshash su until now0 evs n tr -> k_pc k = pc_dss -> (requests_for k evs <= 1)%nat ->
    In (NPop k v) tr -> kget (n_docs n) (dkey g (k_run k)) = None.
  Proof.
    intros ND KG HH KP HR HI. destruct (history_silent evs n tr k k ND HH) as (_ & HP & HD & _); [split; auto|]. pose proof (history_sigs _ _ _ HH) as SG.
    destruct (kget _ _) as [d|] eqn:E; [exfalso|reflexivity]. destruct (HD _ _ _ E) as (i & r & EN & EI & EDo & HO). destruct (HP _ _ HI) as (i2 & r2 & EN2 & M2 & P2).
    assert (M1 : matches k r = true).
    { unfold matches. rewrite EI, KP. unfold rq_pc. destruct (rq_doc r); [|congruence]. rewrite Z.eqb_refl. destruct (bytes_eqb_spec (k_run k) (k_run k)); [reflexivity|contradiction]. }
    assert (L : (length (filter (matches k) (n_reqs n)) <= 1)%nat) by (rewrite matches_count, SG, <- requests_count; exact HR).
    pose proof (two_matches _ _ _ _ _ _ EN EN2 M1 M2 L) as <-. rewrite EN in EN2. injection EN2 as <-. unfold holds in HO. unfold popping in P2. destruct (rq_phase r) as [| |todo|todo|]; try contradiction.
  Qed.
End NP.
