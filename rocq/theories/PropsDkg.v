(** Property theorems C53-C55 and the instances of C47, C51 and C52 for the two
    protocols of the code base.  kyber's key generator is arbitrary throughout,
    except where [kyber_ok] is assumed. *)
From Coq Require Import ZArith List Lia Bool.
From Coq Require Import Init.Byte.
From Verif Require Import Params NumTh Curve Order Bytes Res Secp Spec SecpProofs SecpProofs2 PublicKey Schnorr Dss DssSpec DssProofs DssProofs2 DssProofs3
  Dto DtoSpec DtoProofs Prot ProtSpec ProtProofs ProtProofs2 ProtProofs3 ProtProofs4 ProtProofs5 PropsProt DkgProt DkgSpec DkgProofs.
Import ListNotations.
Open Scope Z_scope.

Section Props.
Context {G : Type}.
Variable ky : kyber G.
Variable keccak : bytes -> bytes.
Variable pshash : Z -> Z -> bytes.
Notation pobs := (obs payload arg output). Notation pevent := (event payload env).

(** ** C47: the timeouts of DKG and DSS *)
Theorem C47_timeouts :
  protocol_timeout (dkg_prot ky) = 525 * ms /\ protocol_timeout (dss_prot ky keccak pshash) = 650 * ms.
Proof. split; [apply dkg_timeout|apply dss_timeout]. Qed.

(** ** C51 *)
Theorem C51_dkg_dss : forall p c k0 (evs : list pevent) r tr, p = dkg_prot ky \/ p = dss_prot ky keccak pshash ->
  exec p c (new_run k0) evs = Ok (r, tr) ->
  always (fun a (o : pobs) => abandoned_in a = true ->
    match o with OStep _ | OProc _ _ | OCreate _ | OSent _ | OOutput _ _ | OAbandon => False | _ => True end) tr.
Proof.
  intros p c k0 evs r tr HP H. apply (C51_nothing_sent p c k0 evs r tr); [|exact H].
  destruct HP as [->| ->]; [exact (dkg_tidy ky keccak pshash)|apply dss_tidy].
Qed.

(** ** C52 *)
Theorem C52_dkg_dss : forall p c k0 (evs : list pevent) r tr, p = dkg_prot ky \/ p = dss_prot ky keccak pshash ->
  exec p c (new_run k0) evs = Ok (r, tr) ->
  always (fun a (o : pobs) => terminated_in a = true -> match o with OHandle _ | ODrop _ => True | _ => False end) tr.
Proof.
  intros p c k0 evs r tr HP H. apply (C52_nothing_after_termination p c k0 evs r tr); [|exact H].
  destruct HP as [->| ->]; [apply dkg_last|apply dss_last].
Qed.

(** ** C53 *)
(** Whatever is processed is the decoding of the message as the kind of object its
    stage takes, comes from a member and claims to come from this member only. *)
Theorem C53_sender_bound : forall p c k0 (evs : list pevent) r tr, p = dkg_prot ky \/ p = dss_prot ky keccak pshash ->
  i_members c <= 2 ^ 32 -> exec p c (new_run k0) evs = Ok (r, tr) ->
  always (fun _ (o : pobs) => match o with
    | OProc m a => 0 <= m_sender m < i_members c /\ decodes (m_op m) (m_dto m) a /\
                   claimed a <> [] /\ Forall (eq (m_sender m)) (claimed a)
    | _ => True end) tr.
Proof.
  intros p c k0 evs r tr HP HN H. apply run_inv in H. intros x o b E0. pose proof (iv_alw _ _ _ _ _ H x o b E0) as X.
  destruct o; try exact I. cbn in X. destruct X as (_ & _ & (s & ES & NP & ET & EU & HR & EV) & _).
  split; [exact HR|]. eapply (claims ky keccak pshash); [|exact NP|exact EU|exact HR|exact HN|exact EV].
  destruct HP as [->| ->]; [apply (dkg_stage ky keccak pshash) in ES; apply ES|exact ES].
Qed.

(** ** C54 *)
(** A justification is processed only if its dealer is its complainer ... *)
Theorem C54_only_own_complaints : forall p c k0 (evs : list pevent) r tr, p = dkg_prot ky \/ p = dss_prot ky keccak pshash ->
  i_members c <= 2 ^ 32 -> exec p c (new_run k0) evs = Ok (r, tr) ->
  always (fun _ (o : pobs) => match o with OProc m (AObj (OJust j)) => ju_jindex j = ju_index j | _ => True end) tr.
Proof.
  intros p c k0 evs r tr HP HN H a o b E0. pose proof (C53_sender_bound p c k0 evs r tr HP HN H a o b E0) as X.
  destruct o as [| | | | |m [[]|]| | | | | |]; try exact I. destruct X as (_ & _ & _ & F). cbn in F.
  inversion F as [|? ? E1 F1]; inversion F1 as [|? ? E2 F2]; congruence.
Qed.
(** ... whereas the answer of dealer d to the complaint of another member c, sent
    to everyone as soon as kyber produces it, is refused by everyone. *)
Theorem C54_answers_refused : forall j d x, good (OJust j) -> ju_index j = d -> ju_jindex j = x -> x <> d ->
  0 <= d < 2 ^ 32 -> 0 <= x < 2 ^ 32 ->
  exists w, to_wire (OJust j) = Ok w /\ from_wire KJust w = Ok (OJust j) /\
    (forall ci e k rs, i_guest ci = d -> snd (ky_resp ky (kd_gen k) rs) = Some (Some j) ->
       exists k', process_response ky ci e k (AResp rs) = Ok (k', broadcast ci op_justification (PWire w))) /\
    (forall p c e r m, p = dkg_prot ky \/ p = dss_prot ky keccak pshash -> m_op m = op_justification -> m_dto m = PWire w ->
       m_sender m = d -> process_msg p c e r m = Ok (r, [OHandle m])).
Proof.
  intros j d x GJ Ed Ex NE Rd Rx. destruct (wire_rt (OJust j) GJ) as (w & EW & ER). cbn [obj_kind] in ER.
  exists w. split; [exact EW|]. split; [exact ER|]. split.
  - intros ci e k rs _ EK. unfold process_response. rewrite EK. cbn [to_wire] in EW.
    destruct (justification_to_dto j) as [dto| |]; try discriminate EW. injection EW as <-. eexists. reflexivity.
  - intros p c e r m HP EO ED ES. unfold process_msg. destruct (r_abandon r); [reflexivity|].
    rewrite EO. assert (STG : stage_at p op_justification = Some (ps None (process_justification ky) (unm KJust) justification_v (is_kind KJust))).
    { destruct HP as [->| ->]; reflexivity. }
    rewrite STG. cbn [ps sg_proc sg_type sg_unm sg_valid]. rewrite ED. destruct (is_kind KJust (PWire w)); [|reflexivity].
    cbn [negb unm]. rewrite ER. cbn [rbind]. destruct (_ && _); [|reflexivity]. cbn [justification_v].
    rewrite ES, Ed, Ex. unfold u32. rewrite (Z.mod_small d) by exact Rd. destruct (Z.eqb_spec x d); [contradiction|]. rewrite andb_false_r. reflexivity.
Qed.

(** ** C55 *)
(** The two kinds of messages that crash the node. *)
Theorem C55_bare_response_crashes : forall p c e r m, p = dkg_prot ky \/ p = dss_prot ky keccak pshash ->
  bare_response m -> 0 <= m_sender m < i_members c -> r_state r = 2 -> r_paused r = false -> r_abandon r = false ->
  deliver p c e r m = Panic.
Proof.
  intros p c e r m HP (EO & i & ED) HR ES EPa EA. unfold deliver. rewrite EO, ES, EPa. cbn [Z.ltb Z.compare Z.eqb andb orb].
  change (2 <? 2) with false. cbn [orb]. unfold process_msg. rewrite EA, EO.
  assert (STG : stage_at p 2 = Some (ps None (process_response ky) identity_unm response_v is_resp)) by (destruct HP as [->| ->]; reflexivity).
  rewrite STG. cbn [ps sg_proc sg_type sg_unm sg_valid]. rewrite ED. cbn [is_resp negb identity_unm].
  destruct (Z.leb_spec 0 (m_sender m)); [|lia]. destruct (Z.ltb_spec (m_sender m) (i_members c)); [|lia]. reflexivity.
Qed.
Theorem C55_unsigned_partial_crashes : forall c e r m pd d b, unsigned_partial m -> m_dto m = PWire (WPart pd) ->
  length (prd_v (pad_partial pd)) = 32%nat -> prd_i (pad_partial pd) = m_sender m -> pad_sid pd = d_sid d ->
  0 <= m_sender m < i_members c -> i_members c = Z.of_nat (length (d_participants d)) ->
  r_state r = 10 -> r_paused r = false -> r_abandon r = false -> kd_dss (r_k r) = Some (d, b) ->
  deliver (dss_prot ky keccak pshash) c e r m = Panic.
Proof.
  intros c e r m pd d b (EO & pd' & ED' & US) ED LV EI ESd HR HN ES EPa EA EK. rewrite ED in ED'. injection ED' as <-.
  unfold deliver. rewrite EO, ES, EPa. change (10 <? 10) with false. change (10 =? 10) with true. cbn [andb orb].
  unfold process_msg. rewrite EA, EO.
  change (stage_at (dss_prot ky keccak pshash) 10) with (Some (ps (Some (st_partsig (G := G) keccak pshash)) (pr_partsig keccak pshash) (unm KPart) partsig_v (is_kind KPart))).
  cbv iota beta. cbn [ps sg_proc sg_type sg_unm sg_valid]. rewrite ED. cbn [is_kind negb unm from_wire dto_to_partsig].
  unfold dto_to_partsig, dto_to_pri_share, sc_unmarshal. rewrite LV. cbn [Nat.eqb rbind pr_i pr_v].
  destruct (Z.leb_spec 0 (m_sender m)); [|lia]. destruct (Z.ltb_spec (m_sender m) (i_members c)); [|lia]. cbn [andb partsig_v ps_partial].
  rewrite EI, Z.eqb_refl. cbn [rbind]. unfold pr_partsig. rewrite EK.
  match goal with |- context [process keccak pshash d ?q] => assert (X : snd (process keccak pshash d q) = Panic) end.
  { apply process_panic. right. eexists _, _. split; [reflexivity|]. right. cbn [ps_sid ps_sig]. split; [lia|]. split; [exact ESd|].
    destruct US as [US|US]; [right; left; exact US|right; right; left; exact US]. }
  destruct (process _ _ _ _) as [d' o]. cbn [snd] in X. subst o. reflexivity.
Qed.
(** Everything else is handled: no other sequence of messages and wake-ups makes a
    run panic (the op is in range, see C57). *)
Theorem C55_others_handled_dkg : forall c k0 (evs : list pevent), kyber_ok (i_members c) ky -> i_queues c = i_members c -> i_members c < N ->
  Forall (fun ev => match ev with
    | ETick _ _ => True
    | EMsg _ m => ~ bare_response m /\ ~ unsigned_partial m /\ 0 <= m_op m <= 8 end) evs ->
  exists r tr, exec (dkg_prot ky) c (new_run k0) evs = Ok (r, tr).
Proof.
  intros c k0 evs HK HQ HN HF. eapply (dkg_safe ky keccak pshash); eauto. eapply Forall_impl; [|exact HF]. intros [e t|e m]; [auto|]. unfold calm. tauto.
Qed.
Theorem C55_others_handled_dss : forall c k0 a (evs : list pevent), kyber_ok (i_members c) ky -> i_queues c = i_members c -> i_members c < N ->
  kd_args k0 = Some a -> Z.of_nat (length (ka_parts a)) = i_members c -> 1 <= ka_T a ->
  Forall (fun ev => match ev with
    | ETick e _ => env_ok e
    | EMsg e m => env_ok e /\ ~ bare_response m /\ ~ unsigned_partial m /\ 0 <= m_op m <= 11 end) evs ->
  exists r tr, exec (dss_prot ky keccak pshash) c (new_run k0) evs = Ok (r, tr).
Proof.
  intros c k0 a evs HK HQ HN EA LA TA HF. eapply (dss_safe ky keccak pshash); eauto; [exists a; auto|].
  eapply Forall_impl; [|exact HF]. intros [e t|e m]; [auto|]. unfold calm. tauto.
Qed.
End Props.

(** ** Examples *)
(** A key generator that counts what it is given, answers a deal with approval and
    a complaining response with a justification naming the complainer. *)
Definition toy_vss : vss_deal := mkVss [] (mkPri 0 1) (mkPri 0 2) 1 [].
Definition toy_ky : kyber Z := mkKyber Z
  (fun g => (g, Some [])) (fun g d => (g + 1, Some None))
  (fun g r => (g + 10, match rs_inner r with Some v => if vr_status v then Some None else Some (Some (mkJust 0 [] (vr_index v) toy_vss [])) | None => None end))
  (fun g j => g + 100) (fun g => g) (fun g => true) (fun g => [0]) (fun g => (g, Some (mkCommits 0 [] [] [])))
  (fun g c => (g + 1000, Some None)) (fun g c => (g + 1000, Some None)) (fun g r => g + 1000) (fun g => true)
  (fun g => Some (mkDks [of_E (smul 7 eG)] (mkPri 0 (poly [7] (0 + 1))))).
Definition toy_c : info := mkInfo 0 [] 0 3 3.
Definition toy_k0 : kd Z := mkKd 0 None None None.
Definition toy_env : env := mkEnv (Some 10) (Some (mkDks [of_E (smul 5 eG)] (mkPri 0 (poly [5] (0 + 1))))) 9 (fun _ l => l).
Lemma toy_env_ok : env_ok toy_env.
Proof.
  split; [discriminate|]. split; [intros i l; apply Permutation.Permutation_refl|]. eexists _, _, _. split; [reflexivity|]. split; [reflexivity|].
  apply curve_point_on, demo_curve, small_ndiv. split; reflexivity.
Qed.
Lemma toy_ky_ok : kyber_ok 3 toy_ky.
Proof.
  split; [intros g g' ds E; injection E as <- <-; constructor|]. split; [intros g; repeat constructor; lia|].
  intros g s E. injection E as <-. discriminate.
Qed.
Definition tk (n : nat) : list (event payload env) := repeat (ETick toy_env 0) n.
Definition rmsg (s i : Z) (ok : bool) : event payload env := EMsg toy_env (mkMsg s 0 0 [] 2 (PResp (mkResp 0 (Some (mkVresp [] i ok []))))).
Definition toy_run (evs : list (event payload env)) := exec (dkg_prot toy_ky) toy_c (new_run toy_k0) evs.
Definition toy_tr evs := match toy_run evs with Ok x => snd x | _ => [] end.
(** C53: an approval of member 2 is processed, one by member 2 in the name of
    member 1, one from outside and one of the wrong stage are not; member 2's
    complaint is then answered with a justification. *)
Definition ex_evs := tk 6 ++ [rmsg 2 2 true; rmsg 2 1 true; rmsg 7 7 true; rmsg 2 2 false] ++ tk 3.
Definition proc_senders (tr : list (obs payload arg output)) : list (Z * Z) :=
  flat_map (fun o => match o with OProc m _ => [(m_op m, m_sender m)] | _ => [] end) tr.
Example C53_ex : (exists r, toy_run ex_evs = Ok (r, toy_tr ex_evs) /\ kd_gen (r_k r) = 20) /\ i_members toy_c <= 2 ^ 32 /\
  proc_senders (toy_tr ex_evs) = [(2, 2); (2, 2)] /\ length (handled (toy_tr ex_evs)) = 4%nat.
Proof.
  assert (E : proc_senders (toy_tr ex_evs) = [(2, 2); (2, 2)] /\ length (handled (toy_tr ex_evs)) = 4%nat) by (split; vm_compute; reflexivity).
  split; [eexists; split; [vm_compute; reflexivity|vm_compute; reflexivity]|]. split; [vm_compute; discriminate|exact E].
Qed.
(** C54: in the same run, the honest justification is sent to members 1 and 2, and
    they refuse it. *)
Theorem C54_refuted : exists w,
  map (fun m => (m_rcpt m, m_dto m)) (for_op 3 (sent (toy_tr ex_evs))) = [(1, PWire w); (2, PWire w)] /\
  from_wire KJust w = Ok (OJust (mkJust 0 [] 2 toy_vss [])) /\
  forall e r, process_msg (dkg_prot toy_ky) toy_c e r (mkMsg 0 0 1 [] op_justification (PWire w)) =
    Ok (r, [OHandle (mkMsg 0 0 1 [] op_justification (PWire w))]).
Proof.
  assert (GJ : good (OJust (mkJust 0 [] 2 toy_vss []))) by (split; [split; [discriminate|reflexivity]|split; [split; [discriminate|reflexivity]|constructor]]).
  destruct (C54_answers_refused toy_ky (fun b => b) (fun _ _ => []) (mkJust 0 [] 2 toy_vss []) 0 2 GJ eq_refl eq_refl) as (w & EW & ER & _ & EP);
    [discriminate|split; [discriminate|reflexivity]|split; [discriminate|reflexivity]|].
  exists w. split; [|split; [exact ER|]].
  - assert (X : exists w', to_wire (OJust (mkJust 0 [] 2 toy_vss [])) = Ok w' /\
      map (fun m => (m_rcpt m, m_dto m)) (for_op 3 (sent (toy_tr ex_evs))) = [(1, PWire w'); (2, PWire w')]).
    { eexists. split; vm_compute; reflexivity. }
    destruct X as (w' & E' & X). rewrite EW in E'. injection E' as <-. exact X.
  - intros e r. apply EP; [left|..]; reflexivity.
Qed.
(** C55: one message crashes a run; without it nothing does. *)
Definition bad_resp : message payload := mkMsg 1 0 0 [] 2 (PResp (mkResp 0 None)).
Theorem C55_refuted : bare_response bad_resp /\ toy_run (EMsg toy_env bad_resp :: tk 6) = Panic /\
  exists r tr, toy_run (tk 6) = Ok (r, tr).
Proof. split; [split; [reflexivity|eexists; reflexivity]|]. split; [vm_compute; reflexivity|]. eexists _, _. vm_compute. reflexivity. Qed.
Example C55_dss_ex : forall keccak pshash, let k0 := mkKd 0 None (Some (mkArgs 3 (demo_parts ++ demo_parts) 2)) None in
  let c := mkInfo 1 [] 0 4 4 in exists r tr, exec (dss_prot toy_ky keccak pshash) c (new_run k0) (rmsg 2 2 true :: rmsg 2 2 false :: tk 25) = Ok (r, tr).
Proof.
  intros keccak pshash k0 c. eapply (C55_others_handled_dss toy_ky keccak pshash c k0).
  - split; [intros g g' ds E; injection E as <- <-; constructor|]. split; [intros g; constructor; [cbn; lia|constructor]|].
    intros g s E. injection E as <-. discriminate.
  - reflexivity.
  - reflexivity.
  - reflexivity.
  - reflexivity.
  - discriminate.
  - pose proof toy_env_ok as HE.
    constructor; [split; [exact HE|]; split; [intros (_ & i & X); discriminate|]; split; [intros (X & _); discriminate|split; discriminate]|].
    constructor; [split; [exact HE|]; split; [intros (_ & i & X); discriminate|]; split; [intros (X & _); discriminate|split; discriminate]|].
    unfold tk. apply Forall_forall. intros ev Hev. apply repeat_spec in Hev. subst ev. exact HE.
Qed.

Print Assumptions C47_timeouts. Print Assumptions C51_dkg_dss. Print Assumptions C52_dkg_dss. Print Assumptions C53_sender_bound.
Print Assumptions C54_only_own_complaints. Print Assumptions C54_answers_refused. Print Assumptions C54_refuted.
Print Assumptions C55_bare_response_crashes. Print Assumptions C55_unsigned_partial_crashes.
Print Assumptions C55_others_handled_dkg. Print Assumptions C55_others_handled_dss. Print Assumptions C55_refuted.
