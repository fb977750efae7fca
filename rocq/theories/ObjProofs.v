(** Each run object of a node lives through an execution of its protocol. *)
From Coq Require Import ZArith List Lia Bool Sorted.
From Coq Require Import Init.Byte.
From Verif Require Import Params Bytes Res Secp Dto Dss Prot ProtSpec ProtProofs TimeSpec TimeProofs DkgProt DkgProofs KMap Firewall FwSpec FwProofs FwProofs2 FwProofs3 FwProofs4
  Outputs Node NodeSpec NodeRun NodeProofs NodeProofs2 NodeProofs3 NodeProofs4 NodeProofs5 NodeProofs6 NodeProofs7 ObjSpec.
Import ListNotations.
Open Scope Z_scope.

Section NP.
  Context {G : Type}.
  Variable ky : kyber G.
  Variable keccak : bytes -> bytes.
  Variable pshash : Z -> Z -> bytes.
  Variable su : setup.
  Variables until now0 : Z.
  Notation message := (message payload).
  Notation nevent := (nevent (G := G)). Notation node := (node (G := G)).
  Implicit Types (evs : list nevent) (n : node) (tr : list nobs).
  Notation nstep := (nstep ky keccak pshash su).
  Notation prot_of := (the_prot ky keccak pshash).
  Notation hist := (run_history ky keccak pshash su).
  Notation history := (nhistory ky keccak pshash su until now0).
  Notation st0 := (start_node (G := G) su until now0).

  Lemma hist_snoc evs : forall n n' tr ev j, nexec ky keccak pshash su n evs = Ok (n', tr) -> hist n (evs ++ [ev]) j = hist n evs j ++ event_of_run su n' j ev.
  Proof.
    induction evs as [|e evs IH]; intros n n' tr ev j; cbn [nexec app run_history].
    - intros E. injection E as <- _. cbn [app]. destruct (nstep n ev) as [x| |]; cbn [run_history]; rewrite ?app_nil_r; reflexivity.
    - destruct (nstep n e) as [[n1 o1]| |]; cbn [rbind fst snd]; try discriminate. destruct (nexec ky keccak pshash su n1 evs) as [[n2 o2]| |] eqn:E2; cbn [rbind fst snd]; try discriminate.
      intros E. injection E as <- _. rewrite (IH _ _ _ ev j E2), app_assoc. reflexivity.
  Qed.
  Lemma event_time n j ev : Forall (fun x => fst x = ntime ev /\ (forall e now, snd x = ETick e now -> now = fst x)) (event_of_run su n j ev).
  Proof.
    destruct ev; cbn [event_of_run]; try constructor; destruct (nth_error (n_heap n) j) as [[k r]|]; try constructor.
    - destruct (kget (n_cons n) (mkKey pc g [])) as [[j' m]|]; [|constructor]. destruct (Nat.eqb _ _); repeat constructor. discriminate.
    - destruct (_ && _); repeat constructor. cbn. intros e t E. injection E as _ <-. reflexivity.
  Qed.
  Lemma event_le1 n j ev : (length (event_of_run su n j ev) <= 1)%nat.
  Proof.
    destruct ev; cbn [event_of_run]; cbn; try lia; destruct (nth_error (n_heap n) _) as [[k r]|]; cbn; try lia.
    - destruct (kget (n_cons n) (mkKey pc g [])) as [[j' m]|]; cbn; [|lia]. destruct (Nat.eqb _ _); cbn; lia.
    - destruct (_ && _); cbn; lia.
  Qed.
  Lemma hist_clocked evs j : forall t0 n, nclock t0 evs -> clocked (hist n evs j) /\ Forall (fun x => t0 <= fst x) (hist n evs j).
  Proof.
    induction evs as [|ev evs IH]; intros t0 n H; cbn [run_history].
    - split; [split; [constructor|intros t e now []]|constructor].
    - cbn [nclock] in H. destruct H as [H1 H2]. pose proof (event_time n j ev) as ET. rewrite Forall_forall in ET. pose proof (event_le1 n j ev) as L1.
      assert (X : clocked (match nstep n ev with Ok x => hist (fst x) evs j | _ => [] end) /\ Forall (fun x => ntime ev <= fst x) (match nstep n ev with Ok x => hist (fst x) evs j | _ => [] end)).
      { destruct (nstep n ev) as [x| |]; [apply IH, H2| |]; (split; [split; [constructor|intros t e now []]|constructor]). }
      destruct X as [[X1 X2] X3]. set (rest := match nstep n ev with Ok x => hist (fst x) evs j | _ => [] end) in *. clearbody rest.
      destruct (event_of_run su n j ev) as [|x [|y l]]; [| |cbn in L1; lia]; cbn [app].
      + split; [split; assumption|]. eapply Forall_impl; [|exact X3]. cbn. intros; lia.
      + destruct (ET x) as [E1 E2]; [left; reflexivity|]. split; [split|].
        * constructor; [exact X1|]. eapply Forall_impl; [|exact X3]. cbn. intros; lia.
        * intros t e now [E|E]; [subst x; apply (E2 e now); reflexivity|apply (X2 _ _ _ E)].
        * constructor; [lia|]. eapply Forall_impl; [|exact X3]. cbn. intros; lia.
  Qed.

  Lemma run_trace_app k a b : run_trace k (a ++ b) = run_trace k a ++ run_trace k b.
  Proof. apply flat_map_app. Qed.
  Lemma run_trace_plain k o : Forall plain o -> run_trace k o = [].
  Proof. induction 1 as [|x l H _ IH]; [reflexivity|]. cbn. destruct x; cbn in H; try contradiction; exact IH. Qed.
  Lemma run_trace_map k k0 l : run_trace k (map (NRun k0) l) = if key_eqb k0 k then l else [].
  Proof. unfold run_trace. induction l as [|x l IH]; cbn; [destruct (key_eqb k0 k); reflexivity|]. rewrite IH. destruct (key_eqb k0 k); reflexivity. Qed.

  Lemma heap_calm n ev n' o : match ev with VDeliver _ _ _ _ _ | VTick _ _ _ _ => False | _ => True end -> nstep n ev = Ok (n', o) ->
    n_heap n' = n_heap n /\ Forall plain o \/ (exists k, makes su n n' k o).
  Proof.
    assert (FW : forall fev, firewall ky keccak pshash su n fev = Ok (n', o) -> n_heap n' = n_heap n /\ Forall plain o \/ (exists k, makes su n n' k o)).
    { intros fev EF. left. destruct (fw_plain _ _ _ _ _ _ _ _ EF) as (A & _ & _ & B & _). auto. }
    destruct ev as [now base start doc|now i g|now i|now i g gen|now m|now|now k c|now pc g gen|now pc g nonce ord|now j nonce ord]; cbn [Node.nstep]; intros NM HS; try contradiction; try (apply (FW _ HS)).
    - left. injection HS as <- <-. auto.
    - left. unfold request_go in HS. destruct (nth_error (n_reqs n) i) as [r|] eqn:EN; [|injection HS as <- <-; auto].
      destruct (rq_phase r) as [todo| |todo|todo|]; try (injection HS as <- <-; auto; fail); (destruct (existsb (Z.eqb g) todo); [|injection HS as <- <-; auto]); cbv zeta in HS.
      + injection HS as <- <-. cbn. destruct (rq_doc r); auto.
      + injection HS as <- <-. auto.
      + destruct (rq_doc r), (snd (pop_output (n_outs n) (rq_key r g))) as [[]|]; try discriminate; try (injection HS as <- <-; split; [reflexivity|repeat constructor]).
        destruct (_ <? _)%nat; [discriminate|]. injection HS as <- <-; split; [reflexivity|repeat constructor].
    - left. injection HS as <- <-. unfold request_wait. destruct (nth_error (n_reqs n) i) as [r|]; [|auto]. destruct (rq_phase r); auto. destruct (forallb _ _); auto.
    - unfold request_guest in HS. destruct (nth_error (n_reqs n) i) as [r|] eqn:EN; [|injection HS as <- <-; auto].
      destruct (loc_of (rq_locs r) g) as [l|] eqn:EL; [|injection HS as <- <-; auto].
      destruct (guest_go _ _ _ _ _ _ _ _ _ _) as [[[n1 l1] o1]| |] eqn:EG; cbn [rbind fst snd] in HS; try discriminate. injection HS as <- <-.
      destruct (guest_heap _ _ _ _ _ _ _ _ _ _ _ _ _ EG) as ([A|A] & _); [left; exact A|right; exists (rq_key r g); exact A].
    - injection HS as HS. unfold consumer_take in HS; change (@fw_key) with (@key_of) in HS. destruct (kget (n_cons n) (qkey pc g)); [injection HS as <- <-; auto|].
      destruct (kslice (n_qs n) (qkey pc g)) as [|m q]; [injection HS as <- <-; auto|]. cbv zeta in HS.
      destruct (m_pc m <? 0); [left; injection HS as <- <-; split; [reflexivity|repeat constructor]|].
      destruct (ensure_run su _ now (key_of m) gen) as [[n2 j] o2] eqn:EE. injection HS as <- <-. cbn [fst snd].
      destruct (ensure_plain _ _ _ _ _ _ _ _ EE) as [[A ->]|(gen0 & t & a & A1 & A2 & A3 & ->)]; [left; split; [exact A|repeat constructor]|].
      right. exists (key_of m), gen0, t, (NTake m :: a). split; [exact A1|]. split; [exact A2|]. split; [constructor; [exact I|exact A3]|reflexivity].
  Qed.

  Lemma objs_nil k (h : list (key * rst payload (kd G))) : objs k h = [] -> forall j r, nth_error h j <> Some (k, r).
  Proof. intros E j r H. assert (X : In (k, r) (objs k h)) by (apply filter_In; split; [eapply nth_error_In; exact H|apply key_eqb_refl]). rewrite E in X. destruct X. Qed.
  Lemma objs_same k (h : list (key * rst payload (kd G))) j k1 r1 r2 i r : nth_error h j = Some (k1, r1) -> nth_error h i = Some (k, r) -> i <> j ->
    (length (objs k (put h j (k1, r2))) <= 1)%nat -> k1 <> k.
  Proof.
    intros E1 E2 NE L ->. rewrite (objs_put k h j k r1 r2 E1) in L. apply NE. eapply objs_two; eassumption.
  Qed.

  (** What a step does to object [j]. *)
  Lemma obj_step n ev n' o j k r : nstep n ev = Ok (n', o) -> nth_error (n_heap n) j = Some (k, r) ->
    exists r' os, nth_error (n_heap n') j = Some (k, r') /\ exec (prot_of (k_pc k)) (run_info su k) r (untimed (event_of_run su n j ev)) = Ok (r', os) /\
      timely (prot_of (k_pc k)) (run_info su k) r (untimed (event_of_run su n j ev)) /\
      ((length (objs k (n_heap n')) <= 1)%nat -> run_trace k o = os).
  Proof.
    intros HS EN.
    assert (OLD : event_of_run su n j ev = [] -> (nth_error (n_heap n') j = Some (k, r)) -> ((length (objs k (n_heap n')) <= 1)%nat -> run_trace k o = []) ->
      exists r' os, nth_error (n_heap n') j = Some (k, r') /\ exec (prot_of (k_pc k)) (run_info su k) r (untimed (event_of_run su n j ev)) = Ok (r', os) /\
      timely (prot_of (k_pc k)) (run_info su k) r (untimed (event_of_run su n j ev)) /\ ((length (objs k (n_heap n')) <= 1)%nat -> run_trace k o = os)).
    { intros -> E H. exists r, []. split; [exact E|]. split; [reflexivity|]. split; [exact I|exact H]. }
    assert (LE : (j < length (n_heap n))%nat) by (apply nth_error_Some; congruence).
    assert (KIND : (n_heap n' = n_heap n /\ Forall plain o \/ (exists k, makes su n n' k o)) -> event_of_run su n j ev = [] ->
       exists r' os, nth_error (n_heap n') j = Some (k, r') /\ exec (prot_of (k_pc k)) (run_info su k) r (untimed (event_of_run su n j ev)) = Ok (r', os) /\
      timely (prot_of (k_pc k)) (run_info su k) r (untimed (event_of_run su n j ev)) /\ ((length (objs k (n_heap n')) <= 1)%nat -> run_trace k o = os)).
    { intros [[E F]|(k1 & gen & t & a & _ & E & F & ->)] EE; apply (OLD EE).
      - rewrite E; exact EN.
      - intros _. apply run_trace_plain, F.
      - rewrite E, nth_error_app1; assumption.
      - intros _. rewrite run_trace_app, (run_trace_plain k a F). reflexivity. }
    assert (MOVE : forall j1 k1 r1 x ev1, nth_error (n_heap n) j1 = Some (k1, r1) -> n_heap n' = put (n_heap n) j1 (k1, fst x) -> o = map (NRun k1) (snd x) ->
       step (prot_of (k_pc k1)) (run_info su k1) r1 ev1 = Ok x -> untimed (event_of_run su n j ev) = (if Nat.eqb j1 j then [ev1] else []) ->
       (match ev1 with ETick _ now => r_wake r1 <= now | EMsg _ _ => True end) ->
       exists r' os, nth_error (n_heap n') j = Some (k, r') /\ exec (prot_of (k_pc k)) (run_info su k) r (untimed (event_of_run su n j ev)) = Ok (r', os) /\
      timely (prot_of (k_pc k)) (run_info su k) r (untimed (event_of_run su n j ev)) /\ ((length (objs k (n_heap n')) <= 1)%nat -> run_trace k o = os)).
    { intros j1 k1 r1 [r2 os] ev1 EN1 EH EO ES EE TM. rewrite EE, EH, put_nth, EO. cbn [fst snd] in *. destruct (Nat.eqb_spec j1 j) as [->|NE].
      - rewrite Nat.eqb_refl, (proj2 (Nat.ltb_lt _ _) LE). rewrite EN in EN1. injection EN1 as -> ->. exists r2, os. split; [reflexivity|]. split; [cbn; rewrite ES; cbn; rewrite app_nil_r; reflexivity|].
        split; [split; [exact TM|rewrite ES; exact I]|]. intros _. rewrite run_trace_map, key_eqb_refl. reflexivity.
      - destruct (Nat.eqb_spec j j1) as [->|]; [congruence|]. exists r, []. split; [exact EN|]. split; [reflexivity|]. split; [exact I|]. intros L.
        rewrite run_trace_map. destruct (key_eqb_spec k1 k) as [->|]; [|reflexivity]. exfalso. eapply (objs_same k (n_heap n) j1 k r1 r2 j r); eauto. }
    destruct ev as [now base start doc|now i g|now i|now i g gen|now m|now|now k1 c|now pc g gen|now pc g nonce ord|now j1 nonce ord];
      try (apply KIND; [refine (heap_calm _ _ _ _ _ HS); exact I|reflexivity]).
    - cbn [Node.nstep] in HS. unfold consumer_deliver in HS. clear KIND.
      assert (EE : event_of_run su n j (VDeliver now pc g nonce ord) = match kget (n_cons n) (qkey pc g) with Some (j', m) => if Nat.eqb j' j then [(now, EMsg (env_for su n k nonce ord) m)] else [] | None => [] end) by (cbn [event_of_run]; rewrite EN; reflexivity).
      rewrite EE in OLD, MOVE |- *. clear EE.
      destruct (kget (n_cons n) (qkey pc g)) as [[j1 m]|] eqn:EC; [|injection HS as <- <-; apply OLD; auto].
      destruct (nth_error (n_heap n) j1) as [[k1 r1]|] eqn:EN1; [|discriminate].
      destruct (deliver _ _ _ _ _) as [x| |] eqn:ED; cbn [rbind] in HS; try discriminate. cbv zeta in HS. injection HS as <- <-.
      eapply (MOVE j1 k1 r1 x (EMsg (env_for su n k1 nonce ord) m)); auto.
      destruct (Nat.eqb_spec j1 j) as [->|]; [|reflexivity]. rewrite EN in EN1. injection EN1 as -> ->. reflexivity.
    - cbn [Node.nstep] in HS. unfold run_tick in HS. clear KIND.
      assert (EE : event_of_run su n j (VTick now j1 nonce ord) = if Nat.eqb j1 j && (r_wake r <=? now) then [(now, ETick (env_for su n k nonce ord) now)] else []) by (cbn [event_of_run]; rewrite EN; reflexivity).
      rewrite EE in OLD, MOVE |- *. clear EE.
      destruct (nth_error (n_heap n) j1) as [[k1 r1]|] eqn:EN1.
      2:{ injection HS as <- <-. apply OLD; auto. destruct (Nat.eqb_spec j1 j) as [->|]; [congruence|reflexivity]. }
      destruct (now <? r_wake r1) eqn:EW.
      { injection HS as <- <-. apply OLD; auto. destruct (Nat.eqb_spec j1 j) as [->|]; [|reflexivity]. rewrite EN in EN1. injection EN1 as -> ->.
        apply Z.ltb_lt in EW. destruct (Z.leb_spec (r_wake r1) now); [lia|reflexivity]. }
      destruct (tick _ _ _ _ _) as [x| |] eqn:ED; cbn [rbind] in HS; try discriminate. injection HS as <- <-. apply Z.ltb_ge in EW.
      eapply (MOVE j1 k1 r1 x (ETick (env_for su n k1 nonce ord) now)); auto.
      destruct (Nat.eqb_spec j1 j) as [->|]; [|reflexivity]. rewrite EN in EN1. injection EN1 as -> ->. rewrite (proj2 (Z.leb_le _ _) EW). reflexivity.
  Qed.



  Lemma obj_new n ev n' o j k r : nstep n ev = Ok (n', o) -> nth_error (n_heap n) j = None -> nth_error (n_heap n') j = Some (k, r) ->
    event_of_run su n j ev = [] /\ run_trace k o = [] /\ objs k (n_heap n') = objs k (n_heap n) ++ [(k, r)] /\ (exists t, In (NCreate t k) o) /\
    exists gen, r = new_run (new_kd su k gen).
  Proof.
    intros HS EN EN'. apply nth_error_None in EN.
    assert (L : (j < length (n_heap n'))%nat) by (apply nth_error_Some; congruence).
    destruct (heap_kinds _ _ _ _ _ _ _ _ HS) as [[E _]|[(k1 & gen & t & a & E0 & E & F & EO)|(k1 & j1 & r1 & pev & x & E1 & ES & E & EO)]].
    - rewrite E in L. lia.
    - rewrite E in EN'. rewrite nth_error_app2 in EN' by exact EN. destruct (j - length (n_heap n))%nat as [|[|?]]; try discriminate. injection EN' as -> <-.
      split; [|split; [|split; [|split; [exists t; rewrite EO; apply in_elt|eauto]]]].
      + destruct ev; try reflexivity; cbn [event_of_run]; rewrite (proj2 (nth_error_None _ _) EN); reflexivity.
      + rewrite EO, run_trace_app, (run_trace_plain k a F). reflexivity.
      + rewrite E, objs_app. cbn. rewrite key_eqb_refl. reflexivity.
    - rewrite E, put_length in L. lia.
  Qed.
  Lemma objs_grow n ev n' o k : nstep n ev = Ok (n', o) -> (length (objs k (n_heap n)) <= length (objs k (n_heap n')))%nat.
  Proof.
    intros HS. destruct (heap_kinds _ _ _ _ _ _ _ _ HS) as [[E _]|[(k1 & gen & t & a & E0 & E & F & EO)|(k1 & j1 & r1 & pev & x & E1 & ES & E & EO)]]; rewrite E.
    - lia.
    - rewrite objs_app, app_length. lia.
    - rewrite (objs_put k _ _ _ _ _ E1). lia.
  Qed.
  Lemma objs_none n ev n' o k : nstep n ev = Ok (n', o) -> objs k (n_heap n') = [] -> run_trace k o = [].
  Proof.
    intros HS H. destruct (heap_kinds _ _ _ _ _ _ _ _ HS) as [[E F]|[(k1 & gen & t & a & E0 & E & F & EO)|(k1 & j1 & r1 & pev & x & E1 & ES & E & EO)]].
    - apply run_trace_plain, F.
    - rewrite EO, run_trace_app, (run_trace_plain k a F). reflexivity.
    - rewrite EO, run_trace_map. destruct (key_eqb_spec k1 k) as [->|]; [|reflexivity]. exfalso. apply (objs_nil _ _ H j1 (fst x)). rewrite E, put_nth, Nat.eqb_refl.
      rewrite (proj2 (Nat.ltb_lt _ _)); [reflexivity|]. apply nth_error_Some. congruence.
  Qed.

  Lemma timely_join p c (evs1 : list (event payload env)) : forall (r : rst payload (kd G)) r1 t1 (evs2 : list (event payload env)), exec (E := env) (V := output) (A := arg) p c r evs1 = Ok (r1, t1) -> timely p c r evs1 -> timely p c r1 evs2 -> timely p c r (evs1 ++ evs2).
  Proof.
    induction evs1 as [|ev evs1 IH]; intros r r1 t1 evs2; cbn [exec timely app].
    - intros E _ H. injection E as <- _. exact H.
    - destruct (step p c r ev) as [[r2 o2]| |]; cbn [rbind fst snd]; try discriminate. destruct (exec p c r2 evs1) as [[r3 o3]| |] eqn:E3; cbn [rbind fst snd]; try discriminate.
      intros E [H1 H2] H3. injection E as <- _. split; [exact H1|]. eapply IH; eassumption.
  Qed.

  (** The objects after any execution. *)
  Lemma objects evs : forall n tr, nexec ky keccak pshash su st0 evs = Ok (n, tr) ->
    (forall k, objs k (n_heap n) = [] -> run_trace k tr = []) /\
    forall j k r, nth_error (n_heap n) j = Some (k, r) -> exists k0 os, lives ky keccak pshash su st0 evs j k k0 (hist st0 evs j) /\
      (exists gen, k0 = new_kd su k gen) /\
      exec (prot_of (k_pc k)) (run_info su k) (new_run k0) (untimed (hist st0 evs j)) = Ok (r, os) /\
      timely (prot_of (k_pc k)) (run_info su k) (new_run k0) (untimed (hist st0 evs j)) /\
      ((length (objs k (n_heap n)) <= 1)%nat -> run_trace k tr = os).
  Proof.
    induction evs as [|ev evs IH] using rev_ind; intros n tr.
    - cbn. intros E. injection E as <- <-. split; [reflexivity|]. intros [|j] k r H; discriminate.
    - intros E. rewrite nexec_app in E. destruct (nexec ky keccak pshash su st0 evs) as [[n1 o1]| |] eqn:E1; cbn [rbind fst snd] in E; try discriminate.
      cbn [nexec] in E. destruct (nstep n1 ev) as [[n2 o2]| |] eqn:E2; cbn [rbind fst snd] in E; try discriminate. injection E as <- <-. rewrite app_nil_r.
      destruct (IH _ _ eq_refl) as [A B]. split.
      + intros k H. rewrite run_trace_app, (objs_none _ _ _ _ _ E2 H), app_nil_r. apply A. pose proof (objs_grow _ _ _ _ k E2) as L. rewrite H in L. destruct (objs k (n_heap n1)); [reflexivity|cbn in L; lia].
      + intros j k r EN. rewrite (hist_snoc _ _ _ _ ev j E1). destruct (nth_error (n_heap n1) j) as [[k1 r1]|] eqn:EN1.
        * destruct (obj_step _ _ _ _ _ _ _ E2 EN1) as (r' & os' & X1 & X2 & X3 & X4). rewrite EN in X1. injection X1 as <- <-.
          destruct (B _ _ _ EN1) as (k0 & os & (Y0 & a & e & b & na & ta & nb & oa & Y1 & Y2 & Y3 & Y4 & Y5) & Y6 & Y7 & Y8 & Y9). exists k0, (os ++ os'). split; [|split; [exact Y6|split; [|split]]].
          -- split; [rewrite (hist_snoc _ _ _ _ ev j E1); reflexivity|]. exists a, e, (b ++ [ev]), na, ta, nb, oa. split; [rewrite Y1, <- app_assoc; reflexivity|auto].
          -- unfold untimed. rewrite map_app. eapply exec_app; eassumption.
          -- unfold untimed. rewrite map_app. eapply timely_join; eassumption.
          -- intros L. rewrite run_trace_app, (X4 L), Y9; [reflexivity|]. pose proof (objs_grow _ _ _ _ k E2). lia.
        * destruct (obj_new _ _ _ _ _ _ _ E2 EN1 EN) as (X1 & X2 & X3 & _ & gen & ->).
          assert (HN : hist st0 evs j = []).
          { assert (Z : forall m evs' n' tr', nexec ky keccak pshash su st0 evs' = Ok (n', tr') -> length evs' = m -> nth_error (n_heap n') j = None -> hist st0 evs' j = []).
            { clear. induction m as [|m IHm]; intros evs n' tr' E L H; [destruct evs; [reflexivity|discriminate]|].
              destruct (rev_case evs) as [->|(a & x & ->)]; [reflexivity|]. rewrite nexec_app in E. destruct (nexec ky keccak pshash su st0 a) as [[n1 o1]| |] eqn:E1; cbn [rbind fst snd] in E; try discriminate.
              cbn [nexec] in E. destruct (nstep n1 x) as [[n2 o2]| |] eqn:E2; cbn [rbind fst snd] in E; try discriminate. injection E as <- <-.
              assert (H1 : nth_error (n_heap n1) j = None).
              { destruct (nth_error (n_heap n1) j) as [[k r]|] eqn:EN; [|reflexivity]. destruct (obj_step _ _ _ _ _ _ _ E2 EN) as (r' & os & X & _). congruence. }
              rewrite (hist_snoc _ _ _ _ x j E1), (IHm _ _ _ E1); [|rewrite app_length in L; cbn in L; lia|exact H1].
              destruct x; try reflexivity; cbn [event_of_run]; rewrite H1; reflexivity. }
            eapply Z; [exact E1|reflexivity|exact EN1]. }
          rewrite X1, HN. exists (new_kd su k gen), []. split; [|split; [eauto|split; [reflexivity|split; [exact I|]]]].
          -- split; [rewrite (hist_snoc _ _ _ _ ev j E1), HN, X1; reflexivity|]. exists evs, ev, [], n1, o1, n2, o2. auto 10.
          -- intros L. rewrite run_trace_app, X2, app_nil_r. apply A. rewrite X3, app_length in L. cbn in L. destruct (objs k (n_heap n1)); [reflexivity|cbn in L; lia].
  Qed.
End NP.
