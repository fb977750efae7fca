(** The firewall of a node; what the incoming queues refuse. *)
From Coq Require Import ZArith List Lia Bool Sorted.
From Coq Require Import Init.Byte.
From Verif Require Import Params Bytes Res Secp Dto Dss Prot ProtSpec ProtProofs TimeSpec TimeProofs DkgProt DkgProofs KMap Firewall FwSpec FwProofs FwProofs2 FwProofs3 FwProofs4
  Outputs Node NodeSpec NodeRun NodeProofs NodeProofs2 NodeProofs3 NodeProofs4 NodeProofs5 NodeProofs6 NodeProofs7 ObjSpec ObjProofs ObjProofs2 ObjProofs3 ReachSpec ReachProofs.
Import ListNotations.
Open Scope Z_scope.

Section NP.
  Context {G : Type}.
  Variable ky : kyber G.
  Variable keccak : bytes -> bytes.
  Variable pshash : Z -> Z -> bytes.
  Variable su : setup.
  Notation message := (message payload).
  Notation nevent := (nevent (G := G)). Notation node := (node (G := G)).
  Implicit Types (evs : list nevent) (n : node) (tr : list nobs).
  Notation nstep := (nstep ky keccak pshash su).
  Notation receive := (receive ky keccak pshash su).
  Notation receive_all := (receive_all ky keccak pshash su).
  Notation firewall := (firewall ky keccak pshash su).

  Definition bad_op (m : message) : Prop := ~ 0 <= m_op m < Z.of_nat (length (p_stages (the_prot ky keccak pshash (m_pc m)))).
  Definition full (n : node) (pre : list nobs) (m : message) : Prop :=
    rcv_buf_max <= Z.of_nat (length (kslice (n_qs n) (qkey (Z.abs (m_pc m)) (m_rcpt m)) ++ queued_to (Z.abs (m_pc m)) (m_rcpt m) pre)).
  Definition refusal (n : node) (o : list nobs) : Prop := forall a m b, o = a ++ NRefused m :: b -> 0 <= m_pc m /\ (bad_op m \/ ~ In (m_rcpt m) (su_guests su) \/ full n a m).
  Definition unsignalled (k : key) (P : message -> bool) : Prop := 0 < k_pc k \/ forall m, m_sender m = 0 -> m_op m = 0 -> P m = false.
  Definition from_fw (o : list nobs) : Prop := forall k P, unsignalled k P -> filter P (offered_for k o) = filter P (passed k (fw_trace o)).

  Lemma receive_ref n m n' o : receive n m = Ok (n', o) -> refusal n o /\ fw_trace o = [] /\ forall k, offered_for k o = for_run k m.
  Proof.
    unfold Node.receive. destruct (_ <=? _); [discriminate|].
    assert (YES : forall n1, Ok (n1, [NQueued m]) = Ok (n', o) -> refusal n o /\ fw_trace o = [] /\ forall k, offered_for k o = for_run k m).
    { intros n1 E. injection E as _ <-. split; [|split; [reflexivity|intros k; cbn; apply app_nil_r]]. intros [|? [|]] m' b E; discriminate. }
    assert (NO : 0 <= m_pc m -> (bad_op m \/ ~ In (m_rcpt m) (su_guests su) \/ full n [] m) -> Ok (n, [NRefused m]) = Ok (n', o) -> refusal n o /\ fw_trace o = [] /\ forall k, offered_for k o = for_run k m).
    { intros L W E. injection E as _ <-. split; [|split; [reflexivity|intros k; cbn; apply app_nil_r]]. intros [|? [|]] m' b E; try discriminate. injection E as <- _. auto. }
    destruct (Z.ltb_spec (m_pc m) 0) as [L|L].
    { destruct (_ && _); [exact (YES _)|discriminate]. }
    destruct (negb _) eqn:EB.
    { apply NO; [exact L|]. left. unfold bad_op. apply negb_true_iff, andb_false_iff in EB. destruct EB as [EB|EB]; [apply Z.leb_gt in EB|apply Z.ltb_ge in EB]; lia. }
    destruct (is_guest su (m_rcpt m) && _) eqn:ER; [exact (YES _)|]. apply NO; [exact L|]. right. apply andb_false_iff in ER. destruct ER as [ER|ER].
    - left. intros HI. apply not_true_iff_false in ER. apply ER. unfold is_guest. apply existsb_exists. exists (m_rcpt m). split; [exact HI|apply Z.eqb_refl].
    - right. unfold full. cbn [queued_to flat_map]. rewrite app_nil_r. apply Z.ltb_ge in ER. exact ER.
  Qed.

  Lemma app_cut {A} (x y a b : list A) c : x ++ y = a ++ c :: b -> (exists b1, x = a ++ c :: b1) \/ exists a1, a = x ++ a1 /\ y = a1 ++ c :: b.
  Proof.
    revert a. induction x as [|h x IH]; intros a E; [right; exists a; auto|]. destruct a as [|h' a]; cbn in E; injection E as -> E; [left; exists x; reflexivity|].
    destruct (IH _ E) as [(b1 & ->)|(a1 & -> & ->)]; [left; exists b1; reflexivity|right; exists a1; auto].
  Qed.
  Lemma refusal_app n n1 o1 o2 : qstep n n1 o1 -> refusal n o1 -> refusal n1 o2 -> refusal n (o1 ++ o2).
  Proof.
    intros Q A B a m b E. destruct (app_cut _ _ _ _ _ E) as [(b1 & ->)|(a1 & -> & ->)]; [apply (A a m b1 eq_refl)|]. destruct (B a1 m b eq_refl) as (L & [W|[W|W]]); auto.
    split; [exact L|]. right. right. unfold full in *. rewrite (Q (Z.abs (m_pc m)) (m_rcpt m)), <- app_assoc in W. unfold queued_to in *. rewrite flat_map_app. exact W.
  Qed.
  Lemma refusal_none n o : Forall (fun x => match x with NRefused _ => False | _ => True end) o -> refusal n o.
  Proof. intros F a m b ->. apply Forall_app in F. destruct F as [_ F]. inversion_clear F. contradiction. Qed.

  Lemma receive_all_ref l : forall n n' o, receive_all n l = Ok (n', o) -> refusal n o /\ fw_trace o = l /\ from_fw o.
  Proof.
    induction l as [|x l IH]; intros n n' o; cbn [Node.receive_all].
    - intros E. injection E as _ <-. split; [apply refusal_none; constructor|]. split; [reflexivity|]. intros k P _. reflexivity.
    - destruct (match x with FPass _ m => receive n m | _ => Ok (n, []) end) as [[n1 o1]| |] eqn:E1; cbn [rbind fst snd]; try discriminate.
      destruct (receive_all n1 l) as [[n2 o2]| |] eqn:E2; cbn [rbind fst snd]; try discriminate. intros E. injection E as _ <-.
      destruct (IH _ _ _ E2) as (R2 & F2 & O2).
      assert (X : qstep n n1 o1 /\ refusal n o1 /\ fw_trace o1 = [] /\ forall k, offered_for k o1 = match x with FPass _ m => for_run k m | _ => [] end).
      { destruct x as [| | | | |t m]; try (injection E1 as <- <-; split; [intros pc g; cbn; rewrite app_nil_r; reflexivity|]; split; [apply refusal_none; constructor|auto]).
        destruct (receive_eff _ _ _ _ _ _ _ _ E1) as (_ & Q & _). destruct (receive_ref _ _ _ _ E1) as (A & B & C). auto. }
      destruct X as (Q & R1 & F1 & O1). change (NFw x :: o1 ++ o2) with ([NFw x] ++ (o1 ++ o2)).
      split; [|split].
      + apply (refusal_app n n); [intros pc g; cbn; rewrite app_nil_r; reflexivity|apply refusal_none; repeat constructor|]. apply (refusal_app n n1); auto.
      + rewrite !fwt_app, F1, F2. reflexivity.
      + intros k P L. rewrite !offered_app, !fwt_app, !passed_app, !filter_app, F1, O1, (O2 k P L), F2. cbn [app fw_trace flat_map offered_for passed].
        destruct x; cbn; rewrite ?app_nil_r; reflexivity.
  Qed.


  Definition walled (n : node) (ev : nevent) (n' : node) (o : list nobs) : Prop :=
    exists l, Forall (fun e => time_of e = ntime ev) l /\ fexec (n_fw n) l = Ok (n_fw n', fw_trace o) /\ fw_came l = came [ev].

  Lemma firewall_ref n fev n' o : firewall n fev = Ok (n', o) -> refusal n o /\ from_fw o /\ fexec (n_fw n) [fev] = Ok (n_fw n', fw_trace o).
  Proof.
    intros EF. destruct (firewall_eff _ _ _ _ _ _ _ _ EF) as (_ & _ & _ & l & ES & _). unfold Node.firewall in EF. rewrite ES in EF. cbn [rbind fst snd] in EF.
    destruct (receive_all_ref _ _ _ _ EF) as (A & B & C). split; [|split; [exact C|]].
    - intros a m b E. destruct (A a m b E) as (L & W). auto.
    - cbn [fexec]. rewrite ES. cbn. rewrite B, app_nil_r. reflexivity.
  Qed.

  Definition quiet_obs (x : nobs) : Prop := match x with NFw _ | NQueued _ | NRefused _ => False | _ => True end.
  Lemma quiet_all n o : Forall quiet_obs o -> refusal n o /\ from_fw o /\ fw_trace o = [].
  Proof.
    intros F. split; [apply refusal_none; revert F; apply Forall_impl; intros []; cbn; auto|].
    assert (FT : fw_trace o = []) by (induction F as [|x l H _ IH]; [reflexivity|]; destruct x; try contradiction; exact IH). split; [|exact FT].
    intros k P _. rewrite FT. clear FT. induction F as [|x l H _ IH]; [reflexivity|]. destruct x; try contradiction; exact IH.
  Qed.
  Lemma quiet_runs k l : Forall quiet_obs (map (NRun k) l). Proof. induction l; constructor; [exact I|assumption]. Qed.

  Lemma ref_step n ev n' o : nstep n ev = Ok (n', o) -> refusal n o /\ from_fw o /\ walled n ev n' o.
  Proof.
    assert (FW : forall fev n', time_of fev = ntime ev -> fw_came [fev] = came [ev] -> firewall n fev = Ok (n', o) -> refusal n o /\ from_fw o /\ walled n ev n' o).
    { intros fev n1 ET EM EF. destruct (firewall_ref _ _ _ _ EF) as (A & B & C). split; [exact A|]. split; [exact B|]. exists [fev]. split; [constructor; [exact ET|constructor]|]. auto. }
    assert (QU : forall n', came [ev] = [] -> n_fw n' = n_fw n -> Forall quiet_obs o -> refusal n o /\ from_fw o /\ walled n ev n' o).
    { intros n1 EM EF F. destruct (quiet_all n o F) as (A & B & C). split; [exact A|]. split; [exact B|]. exists []. split; [constructor|]. rewrite EF, C. auto. }
    destruct ev as [now base start doc|now i g|now i|now i g gen|now m|now|now k c|now pc g gen|now pc g nonce ord|now j nonce ord]; cbn [Node.nstep]; intros HS; try (refine (FW _ _ _ _ HS); reflexivity).
    - injection HS as <- <-. apply QU; auto.
    - unfold request_go in HS. destruct (nth_error (n_reqs n) i) as [r|] eqn:EN; [|injection HS as <- <-; apply QU; auto].
      destruct (rq_phase r) as [todo| |todo|todo|]; try (injection HS as <- <-; apply QU; auto; fail); (destruct (existsb (Z.eqb g) todo); [|injection HS as <- <-; apply QU; auto]); cbv zeta in HS.
      + injection HS as <- <-. apply QU; auto. destruct (rq_doc r); auto.
      + injection HS as <- <-. apply QU; auto.
      + destruct (rq_doc r), (snd (pop_output (n_outs n) (rq_key r g))) as [[]|]; try discriminate; try (injection HS as <- <-; apply QU; [reflexivity|reflexivity|repeat constructor]).
        destruct (_ <? _)%nat; [discriminate|]. injection HS as <- <-; apply QU; [reflexivity|reflexivity|repeat constructor].
    - injection HS as <- <-. apply QU; [reflexivity| |constructor]. unfold request_wait. destruct (nth_error (n_reqs n) i) as [r|]; [|auto]. destruct (rq_phase r); auto. destruct (forallb _ _); auto.
    - unfold request_guest in HS. destruct (nth_error (n_reqs n) i) as [r|] eqn:EN; [|injection HS as <- <-; apply QU; auto].
      destruct (loc_of (rq_locs r) g) as [l|] eqn:EL; [|injection HS as <- <-; apply QU; auto].
      destruct (guest_go _ _ _ _ _ _ _ _ _ _) as [[[n1 l1] o1]| |] eqn:EG; cbn [rbind fst snd] in HS; try discriminate. injection HS as <- <-.
      assert (PUT : refusal n o1 /\ from_fw o1 /\ walled n (VGuest now i g gen) n1 o1 -> refusal n o1 /\ from_fw o1 /\ walled n (VGuest now i g gen) (put_req n1 i (with_locs r (set_loc (rq_locs r) g l1))) o1).
      { intros (A & B & (l0 & C)). split; [exact A|]. split; [exact B|]. exists l0. exact C. }
      apply PUT. clear PUT.
      assert (RV : forall fev l', time_of fev = now -> fw_came [fev] = [] -> (x <- firewall n fev ;; Ok (fst x, l', snd x)) = Ok (n1, l1, o1) -> refusal n o1 /\ from_fw o1 /\ walled n (VGuest now i g gen) n1 o1).
      { intros fev l' ET EM. destruct (firewall n fev) as [[n2 o2]| |] eqn:EF; cbn [rbind fst snd]; try discriminate. intros E. injection E as <- _ <-. exact (FW fev _ ET EM EF). }
      assert (NO : Ok (n, l, []) = Ok (n1, l1, o1) -> refusal n o1 /\ from_fw o1 /\ walled n (VGuest now i g gen) n1 o1).
      { intros E. injection E as <- _ <-. apply QU; auto. }
      unfold guest_go in EG. destruct l as [|c|c|c|c|c| |].
      + refine (RV _ _ _ _ EG); reflexivity.
      + destruct (chan_ready _ _ _); [refine (RV _ _ _ _ EG); reflexivity|exact (NO EG)].
      + destruct (now <? rq_start r); [exact (NO EG)|]. destruct (ensure_run su n now (rq_key r g) gen) as [[n2 j] o2] eqn:EE. injection EG as <- _ <-. cbn [fst snd].
        destruct (ensure_eff _ _ _ _ _ _ _ _ EE) as (_ & _ & A & _ & _ & B). apply QU; [reflexivity|exact A|]. destruct B as [(-> & _)|(-> & _)]; repeat constructor.
      + destruct (terminated_run _ _); [|exact (NO EG)]. injection EG as <- _ <-; apply QU; auto.
      + destruct (chan_ready _ _ _); [refine (RV _ _ _ _ EG); reflexivity|exact (NO EG)].
      + destruct (chan_ready _ _ _); [refine (RV _ _ _ _ EG); reflexivity|exact (NO EG)].
      + destruct (receive _ _) as [[n2 o2]| |] eqn:ER; [|exact (NO EG)|discriminate]. injection EG as <- _ <-. cbn [fst snd].
        destruct (receive_ref _ _ _ _ ER) as (A & B & C). destruct (receive_eff _ _ _ _ _ _ _ _ ER) as (_ & _ & _ & D & _). split; [|split].
        * change (NCleanup (rq_key r g) :: o2) with ([NCleanup (rq_key r g)] ++ o2). apply (refusal_app n n); [intros pc g0; cbn; rewrite app_nil_r; reflexivity|apply refusal_none; repeat constructor|exact A].
        * intros k P L. change (filter P (offered_for k o2) = filter P (passed k (fw_trace o2))). rewrite C, B. unfold for_run. destruct (key_eqb_spec (key_of (signal nil_dto (rq_key r g))) k) as [<-|]; [|reflexivity].
          destruct L as [L|L]; [|cbn [filter]; rewrite (L (signal nil_dto (rq_key r g)) eq_refl); reflexivity]. exfalso. cbn in L. unfold rq_pc in L. destruct (rq_doc r); cbv in L; discriminate.
        * exists []. split; [constructor|]. cbn [fexec]. change (fw_trace (NCleanup (rq_key r g) :: o2)) with (fw_trace o2). rewrite B, D. auto.
      + exact (NO EG).
    - injection HS as HS. unfold consumer_take in HS. destruct (kget (n_cons n) (qkey pc g)) as [x|] eqn:EC; [injection HS as <- <-; apply QU; auto|].
      destruct (kslice (n_qs n) (qkey pc g)) as [|m q] eqn:EQ; [injection HS as <- <-; apply QU; auto|]. cbv zeta in HS.
      destruct (m_pc m <? 0); [injection HS as <- <-; apply QU; [reflexivity|reflexivity|repeat constructor]|].
      destruct (ensure_run su _ now (fw_key m) gen) as [[n3 j3] o3] eqn:EE. cbn [fst snd] in HS. injection HS as <- <-.
      destruct (ensure_eff _ _ _ _ _ _ _ _ EE) as (_ & _ & A & _ & _ & B). apply QU; [reflexivity|exact A|]. destruct B as [(-> & _)|(-> & _)]; repeat constructor.
    - unfold consumer_deliver in HS. destruct (kget (n_cons n) (qkey pc g)) as [[j m]|]; [|injection HS as <- <-; apply QU; auto].
      destruct (nth_error (n_heap n) j) as [[k r]|]; [|discriminate]. destruct (deliver _ _ _ _ _) as [x| |]; cbn [rbind] in HS; try discriminate. cbv zeta in HS. injection HS as <- <-.
      apply QU; [reflexivity|reflexivity|apply quiet_runs].
    - unfold run_tick in HS. destruct (nth_error (n_heap n) j) as [[k r]|]; [|injection HS as <- <-; apply QU; auto]. destruct (now <? r_wake r); [injection HS as <- <-; apply QU; auto|].
      destruct (tick _ _ _ _ _) as [x| |]; cbn [rbind] in HS; try discriminate. injection HS as <- <-. apply QU; [reflexivity|reflexivity|apply quiet_runs].
  Qed.

  (** *** The firewall of a node goes through a history of its own *)
  Lemma clock_join t l : forall T l2, T <= t -> Forall (fun e : fevent payload => time_of e = t) l -> FwSpec.clock t l2 -> FwSpec.clock T (l ++ l2).
  Proof.
    induction l as [|e l IH]; intros T l2 L F C; cbn [app].
    - destruct l2 as [|e l2]; [exact I|]. cbn in *. destruct C. split; [lia|assumption].
    - inversion_clear F as [|? ? E1 F1]. cbn. split; [lia|]. apply IH; [lia|exact F1|exact C].
  Qed.
  Lemma wall evs : forall n T n' tr, nclock T evs -> nexec ky keccak pshash su n evs = Ok (n', tr) ->
    exists l, FwSpec.clock T l /\ fexec (n_fw n) l = Ok (n_fw n', fw_trace tr) /\ fw_came l = came evs.
  Proof.
    induction evs as [|ev evs IH]; intros n T n' tr C E; cbn [nexec] in E.
    - injection E as <- <-. exists []. cbn. auto.
    - destruct (nstep n ev) as [[n1 o1]| |] eqn:E1; cbn [rbind fst snd] in E; try discriminate. destruct (nexec ky keccak pshash su n1 evs) as [[n2 o2]| |] eqn:E2; cbn [rbind fst snd] in E; try discriminate.
      injection E as <- <-. destruct C as [C1 C2]. destruct (ref_step _ _ _ _ E1) as (_ & _ & l1 & A1 & A2 & A3). destruct (IH _ _ _ _ C2 E2) as (l2 & B1 & B2 & B3).
      exists (l1 ++ l2). split; [apply (clock_join (ntime ev)); assumption|]. split; [rewrite fexec_app, A2; cbn [rbind fst snd]; rewrite B2; cbn [rbind fst snd]; rewrite fwt_app; reflexivity|].
      unfold fw_came in *. rewrite flat_map_app, A3, B3. change (came (ev :: evs)) with (came ([ev] ++ evs)). unfold came. rewrite flat_map_app. reflexivity.
  Qed.
  Variables until now0 : Z.
  Notation history := (nhistory ky keccak pshash su until now0).
  Lemma node_firewall evs n tr : history evs n tr ->
    exists l, FwSpec.clock now0 l /\ fexec (make_fw nprots (su_guests su) until now0) l = Ok (n_fw n, fw_trace tr) /\ fw_came l = came evs.
  Proof. intros [C E]. exact (wall _ _ _ _ _ C E). Qed.

  Lemma offers_from evs n tr : history evs n tr -> from_fw tr.
  Proof.
    revert n tr. induction evs as [|ev evs IH] using rev_ind; intros n tr HH.
    - destruct HH as [_ E]. cbn in E. injection E as <- <-. intros k P _. reflexivity.
    - destruct (history_cut _ _ _ _ _ _ _ _ _ _ HH) as (n1 & tr1 & o & H1 & HS & ->). destruct (ref_step _ _ _ _ HS) as (_ & F & _). intros k P L.
      rewrite offered_app, fwt_app, passed_app, !filter_app, (IH _ _ H1 k P L), (F k P L). reflexivity.
  Qed.
  Lemma offers evs n tr : history evs n tr -> forall k, 0 < k_pc k -> offered_for k tr = passed k (fw_trace tr).
  Proof.
    intros HH k L. assert (FT : forall l : list message, filter (fun _ => true) l = l) by (induction l as [|x l IH]; [reflexivity|cbn; rewrite IH; reflexivity]).
    rewrite <- (FT (offered_for k tr)), <- (FT (passed k (fw_trace tr))). apply (offers_from _ _ _ HH). left. exact L.
  Qed.

  (** Messages in a queue and not yet taken, after a trace *)
  Definition pending (pc g : Z) (tr : list nobs) : Z := Z.of_nat (length (queued_to pc g tr)) - Z.of_nat (length (taken_from pc g tr)).
  Lemma pending_app pc g a b : pending pc g (a ++ b) = pending pc g a + pending pc g b.
  Proof. unfold pending, queued_to, taken_from. rewrite !flat_map_app, !app_length. lia. Qed.
  Lemma refused_take n ev n' o : nstep n ev = Ok (n', o) -> forall a m b, o = a ++ NRefused m :: b -> forall pc g, taken_from pc g a = [].
  Proof.
    intros HS a m b E pc g. assert (NT : Forall no_take o).
    { destruct ev as [now base start doc|now i g0|now i|now i g0 gen|now m0|now|now k c|now pc0 g0 gen|now pc0 g0 nonce ord|now j nonce ord]; try exact (proj2 (cons_calm _ _ _ _ _ _ _ _ HS I)).
      - exfalso. cbn [Node.nstep] in HS. injection HS as HS. unfold consumer_take in HS. assert (HI : In (NRefused m) o) by (rewrite E; apply in_or_app; right; left; reflexivity). clear E.
        destruct (kget (n_cons n) (qkey pc0 g0)) as [x|] eqn:EC; [injection HS as <- <-; destruct HI|].
        destruct (kslice (n_qs n) (qkey pc0 g0)) as [|m0 q] eqn:EQ; [injection HS as <- <-; destruct HI|]. cbv zeta in HS.
        destruct (m_pc m0 <? 0); [injection HS as <- <-; destruct HI as [HI|[HI|[]]]; discriminate|].
        destruct (ensure_run su _ now (fw_key m0) gen) as [[n3 j3] o3] eqn:EE. cbn [fst snd] in HS. injection HS as <- <-. destruct HI as [HI|HI]; [discriminate|].
        destruct (ensure_eff _ _ _ _ _ _ _ _ EE) as (_ & _ & _ & _ & _ & B). destruct B as [(-> & _)|(-> & _)]; [destruct HI|destruct HI as [HI|[]]; discriminate].
      - cbn [Node.nstep] in HS. unfold consumer_deliver in HS. destruct (kget (n_cons n) (qkey pc0 g0)) as [[j m0]|]; [|injection HS as <- <-; constructor].
        destruct (nth_error (n_heap n) j) as [[k r]|]; [|discriminate]. destruct (deliver _ _ _ _ _) as [x| |]; cbn [rbind] in HS; try discriminate. cbv zeta in HS. injection HS as <- <-.
        cbn [run_after snd]. clear. induction (snd x); constructor; [exact I|assumption]. }
    rewrite E in NT. apply Forall_app in NT. destruct NT as [NT _]. clear - NT. induction NT as [|x l H _ IH]; [reflexivity|]. destruct x; try exact IH. destruct H.
  Qed.

  Lemma refusals evs n tr : history evs n tr -> forall a m b, tr = a ++ NRefused m :: b -> bad_op m \/ ~ In (m_rcpt m) (su_guests su) \/ rcv_buf_max <= pending (Z.abs (m_pc m)) (m_rcpt m) a.
  Proof.
    revert n tr. induction evs as [|ev evs IH] using rev_ind; intros n tr HH a m b E.
    - destruct HH as [_ H]. cbn in H. injection H as <- <-. destruct a; discriminate.
    - destruct (history_cut _ _ _ _ _ _ _ _ _ _ HH) as (n1 & tr1 & o & H1 & HS & ->). destruct (app_cut _ _ _ _ _ E) as [(b1 & ->)|(a1 & -> & E2)]; [exact (IH _ _ H1 a m b1 eq_refl)|].
      destruct (ref_step _ _ _ _ HS) as (R & _). destruct (R _ _ _ E2) as (_ & [W|[W|W]]); auto. right. right. unfold full in W. rewrite app_length in W.
      pose proof (history_gi _ _ _ _ _ _ _ _ _ H1) as GIn. pose proof (g_fifo _ _ _ GIn (Z.abs (m_pc m)) (m_rcpt m)) as FF.
      rewrite pending_app. unfold pending at 1. rewrite FF, app_length. unfold pending. rewrite (refused_take _ _ _ _ HS _ _ _ E2). cbn [length]. lia.
  Qed.

  (** *** The queue of a run *)
  Lemma for_queue_run k (m : message) : 0 <= k_pc k -> key_of m = k -> for_queue (k_pc k) (k_guest k) m = true.
  Proof. intros L <-. unfold for_queue. cbn in *. rewrite Z.abs_eq by exact L. rewrite !Z.eqb_refl. reflexivity. Qed.
  Lemma queue_run (f : nobs -> option message) k tr : 0 <= k_pc k ->
    flat_map (for_run k) (flat_map (fun o => match f o with Some m => if for_queue (k_pc k) (k_guest k) m then [m] else [] | None => [] end) tr) =
    flat_map (fun o => match f o with Some m => for_run k m | None => [] end) tr.
  Proof.
    intros L. induction tr as [|o tr IH]; [reflexivity|]. cbn [flat_map]. rewrite flat_map_app, IH. f_equal. destruct (f o) as [m|]; [|reflexivity].
    unfold for_run. destruct (key_eqb_spec (key_of m) k) as [E|E].
    - rewrite (for_queue_run k m L E). cbn. destruct (key_eqb_spec (key_of m) k); [reflexivity|contradiction].
    - destruct (for_queue _ _ _); [|reflexivity]. cbn. destruct (key_eqb_spec (key_of m) k); [contradiction|reflexivity].
  Qed.
  Lemma fifo_run k evs n tr : 0 <= k_pc k -> history evs n tr -> queued_for k tr = taken_for k tr ++ waiting_for k n.
  Proof.
    intros L HH. pose proof (g_fifo _ _ _ (history_gi _ _ _ _ _ _ _ _ _ HH) (k_pc k) (k_guest k)) as FF. apply (f_equal (flat_map (for_run k))) in FF. rewrite flat_map_app in FF.
    pose proof (queue_run (fun o => match o with NQueued m => Some m | _ => None end) k tr L) as A. pose proof (queue_run (fun o => match o with NTake m => Some m | _ => None end) k tr L) as B.
    unfold waiting_for. change (mkKey (k_pc k) (k_guest k) []) with (qkey (k_pc k) (k_guest k)).
    assert (EA : queued_for k tr = flat_map (for_run k) (queued_to (k_pc k) (k_guest k) tr)).
    { etransitivity; [etransitivity; [|symmetry; exact A]|f_equal]; apply flat_map_ext; intros []; reflexivity. }
    assert (EB : taken_for k tr = flat_map (for_run k) (taken_from (k_pc k) (k_guest k) tr)).
    { etransitivity; [etransitivity; [|symmetry; exact B]|f_equal]; apply flat_map_ext; intros []; reflexivity. }
    rewrite EA, EB. exact FF.
  Qed.

  (** *** The allowances of a run *)
  Definition sets (k : key) (l : list (fobs payload)) : nat := length (filter (is_set k) l).
  Lemma sets_app k a b : sets k (a ++ b) = (sets k a + sets k b)%nat. Proof. unfold sets. rewrite filter_app, app_length. reflexivity. Qed.
  Lemma step_sets k (f f' : fw payload) ev o : fstep f ev = Ok (f', o) -> (sets k o <= length (filter (is_call k) [ev]))%nat.
  Proof.
    destruct ev as [now m|now|now k' a|now k' c|now k' c]; cbn [fstep]; intros HS.
    - injection HS as _ <-. unfold fw_process. destruct (_ || _); [cbn; lia|]. destruct (kget _ _) as [st|]; [|cbn; lia]. destruct (st =? _); [destruct (_ <? _); cbn; lia|]. destruct (st =? _); cbn; lia.
    - destruct (_ && _); injection HS as _ <-; cbn; lia.
    - unfold fw_set_allowance in HS. destruct (negb _); [discriminate|]. destruct (kget _ _); injection HS as _ <-; cbn; [lia|]. destruct (key_eqb k' k); cbn; lia.
    - unfold fw_state_step in HS. assert (FL : forall t (l : list message), sets k (map (FPass t) l) = 0%nat) by (intros t l; induction l as [|x l IH]; [reflexivity|exact IH]).
      destruct (nth_error _ c) as [s|]; [|injection HS as _ <-; cbn; lia].
      destruct (sl_thread s) as [[|a|a|a|]|]; try (injection HS as _ <-; cbn; lia); destruct (_ <? _); try (injection HS as _ <-; cbn; lia); cbv zeta in HS;
        destruct (told _ _); try discriminate; injection HS as _ <-; rewrite ?sets_app, ?FL; cbn; lia.
    - injection HS as _ <-. cbn. lia.
  Qed.
  Lemma exec_sets k l : forall (f f' : fw payload) o, fexec f l = Ok (f', o) -> (sets k o <= length (filter (is_call k) l))%nat /\
    flat_map (fun x => match x with FIn t m => [(t, m)] | _ => [] end) o = fw_came l.
  Proof.
    assert (FI : forall (f f' : fw payload) ev o, fstep f ev = Ok (f', o) -> flat_map (fun x => match x with FIn t m => [(t, m)] | _ => [] end) o = fw_came [ev]).
    { intros f f' ev o. destruct ev as [now m|now|now k' a|now k' c|now k' c]; cbn [fstep]; intros HS.
      - injection HS as _ <-. unfold fw_process. destruct (_ || _); [reflexivity|]. destruct (kget _ _) as [st|]; [|reflexivity]. destruct (st =? _); [destruct (_ <? _); reflexivity|]. destruct (st =? _); reflexivity.
      - destruct (_ && _); injection HS as _ <-; reflexivity.
      - unfold fw_set_allowance in HS. destruct (negb _); [discriminate|]. destruct (kget _ _); injection HS as _ <-; reflexivity.
      - unfold fw_state_step in HS.
        assert (FL : forall t (l0 : list message), flat_map (fun x => match x with FIn t m => [(t, m)] | _ => [] end) (map (FPass t) l0) = []) by (intros t l0; induction l0 as [|x l0 IH]; [reflexivity|exact IH]).
        destruct (nth_error _ c) as [s|]; [|injection HS as _ <-; reflexivity].
        destruct (sl_thread s) as [[|a|a|a|]|]; try (injection HS as _ <-; reflexivity); destruct (_ <? _); try (injection HS as _ <-; reflexivity); cbv zeta in HS;
          destruct (told _ _); try discriminate; injection HS as _ <-; rewrite ?flat_map_app, ?FL; reflexivity.
      - injection HS as _ <-. reflexivity. }
    induction l as [|ev l IH]; intros f f' o HE; cbn in HE; [injection HE as <- <-; cbn; split; [lia|reflexivity]|].
    destruct (fstep f ev) as [[f1 o1]| |] eqn:E1; try discriminate. cbn in HE. destruct (fexec f1 l) as [[f2 o2]| |] eqn:E2; try discriminate. cbn in HE. injection HE as <- <-.
    destruct (IH f1 f2 o2 E2) as [A B]. pose proof (step_sets k _ _ _ _ E1) as C. split.
    - rewrite sets_app. cbn [filter] in *. destruct (is_call k ev); cbn [length] in *; lia.
    - rewrite flat_map_app, (FI _ _ _ _ E1), B. unfold fw_came. cbn [flat_map]. rewrite app_nil_r. reflexivity.
  Qed.
  Lemma history_sigs evs n tr : history evs n tr -> SIGS evs n.
  Proof.
    revert n tr. induction evs as [|ev evs IH] using rev_ind; intros n tr HH.
    - destruct HH as [_ E]. cbn in E. injection E as <- <-. reflexivity.
    - destruct (history_cut _ _ _ _ _ _ _ _ _ _ HH) as (n1 & tr1 & o & H1 & HS & ->). unfold SIGS. rewrite (step_sigs _ _ _ _ _ _ _ _ HS), (IH _ _ H1), flat_map_app. cbn. rewrite app_nil_r. reflexivity.
  Qed.
  Lemma one_allowance k evs n tr : NoDup (su_guests su) -> history evs n tr -> (requests_for k evs <= 1)%nat -> (sets k (fw_trace tr) <= 1)%nat.
  Proof.
    intros ND HH HR. destruct (node_firewall _ _ _ HH) as (l & _ & E & _). destruct (exec_sets k _ _ _ _ E) as [A _]. pose proof (exec_calls k _ _ _ _ E) as C.
    pose proof (history_gi _ _ _ _ _ _ _ _ _ HH) as GIn. rewrite (g_calls _ _ _ GIn k) in C. cbn [make_fw f_calls kslice kget length] in C.
    pose proof (history_sigs _ _ _ HH) as SG. assert (OL : (length (klocs k (n_reqs n)) <= 1)%nat) by (eapply one_loc; eassumption).
    assert (LE : (cnt past (klocs k (n_reqs n)) <= length (klocs k (n_reqs n)))%nat) by (clear; unfold cnt; induction (klocs k (n_reqs n)) as [|x y IH]; cbn [filter length]; [lia|]; destruct (past x); cbn [length]; lia). cbn in C. lia.
  Qed.
End NP.
