(** Where runs and messages come from: a run is only made for a request whose guests' goroutines were started, and a
    message it is given came in from the network. *)
From Coq Require Import ZArith List Lia Bool.
From Coq Require Import Init.Byte.
From Verif Require Import Params Bytes Res Secp Dto Dss Prot ProtSpec ProtProofs ProtProofs3 ProtProofs6 DkgProt DkgProofs KMap Firewall FwSpec FwProofs FwProofs2 FwProofs3 FwProofs4
  Outputs Node NodeSpec NodeRun NodeProofs NodeProofs2 NodeProofs3 NodeProofs4 NodeProofs5 NodeProofs6 NodeProofs7.
Import ListNotations.
Open Scope Z_scope.

Section NP.
  Context {G : Type}.
  Variable ky : kyber G.
  Variable keccak : bytes -> bytes.
  Variable pshash : Z -> Z -> bytes.
  Variable su : setup.
  Variables until now0 : Z.
  Notation message := (message payload).
  Notation nevent := (nevent (G := G)). Notation node := (node (G := G)).
  Implicit Types (evs : list nevent) (n : node) (tr : list nobs).
  Notation INV := (INV ky keccak pshash su until now0).
  Notation nstep := (nstep ky keccak pshash su).
  Notation GI := (GI su).
  Notation prot_of := (the_prot ky keccak pshash).

  Definition spawned (n : node) (k : key) : Prop := exists i r, nth_error (n_reqs n) i = Some r /\ matches k r = true /\ rq_locs r <> [].

  Lemma fwt_nil (o : list nobs) : (forall x, ~ In (NFw x) o) -> fw_trace o = [].
  Proof.
    induction o as [|x o IH]; [reflexivity|]. intros H. change (x :: o) with ([x] ++ o). rewrite fwt_app, IH by (intros y Hy; apply (H y); right; exact Hy). destruct x; try reflexivity.
    exfalso. eapply H. left. reflexivity.
  Qed.
  Lemma receive_trace n m n' o : receive ky keccak pshash su n m = Ok (n', o) -> fw_trace o = [].
  Proof.
    unfold receive. destruct (_ <=? _); [discriminate|]. destruct (_ <? 0).
    - destruct (_ && _); [|discriminate]. intros E. injection E as <- <-. reflexivity.
    - destruct (negb _); [intros E; injection E as <- <-; reflexivity|]. destruct (_ && _); intros E; injection E as <- <-; reflexivity.
  Qed.
  Lemma receive_all_trace l : forall n n' o, receive_all ky keccak pshash su n l = Ok (n', o) -> fw_trace o = l.
  Proof.
    induction l as [|x l IH]; intros n n' o; cbn [receive_all]; [intros E; injection E as <- <-; reflexivity|].
    destruct (match x with FPass _ m => receive ky keccak pshash su n m | _ => Ok (n, []) end) as [[n1 o1]| |] eqn:E1; cbn [rbind fst snd]; try discriminate.
    destruct (receive_all ky keccak pshash su n1 l) as [[n2 o2]| |] eqn:E2; cbn [rbind fst snd]; try discriminate. intros E. injection E as <- <-.
    cbn. change (flat_map _ (o1 ++ o2)) with (fw_trace (o1 ++ o2)). rewrite fwt_app, (IH _ _ _ E2).
    replace (fw_trace o1) with (@nil (fobs payload)); [reflexivity|]. destruct x; try (injection E1 as <- <-; reflexivity). symmetry. eapply receive_trace, E1.
  Qed.

  (** What a step does to the firewall; where what it puts into a queue, hands a consumer or makes comes from. *)
  Definition fw_by (n n' : node) (ev : nevent) (o : list nobs) : Prop :=
    (n_fw n' = n_fw n /\ fw_trace o = []) \/
    exists fev, fstep (n_fw n) fev = Ok (n_fw n', fw_trace o) /\ time_of fev = ntime ev /\ (forall t m, fev = EvIn t m -> ev = VIn t m) /\
      (forall t k a, fev = EvAllow t k a -> exists i g gen r, ev = VGuest t i g gen /\ nth_error (n_reqs n) i = Some r /\ loc_of (rq_locs r) g = Some GAllow /\ k = rq_key r g).
  Record facts (n n' : node) (ev : nevent) (o : list nobs) : Prop := mkFacts {
    fa_fw : fw_by n n' ev o;
    fa_q : forall m, In (NQueued m) o -> 0 <= m_pc m -> (exists t, In (FPass t m) (fw_trace o)) \/
      exists i r g, nth_error (n_reqs n) i = Some r /\ loc_of (rq_locs r) g = Some GSignal /\ m = signal nil_dto (rq_key r g);
    fa_c : forall q j m, kget (n_cons n') q = Some (j, m) -> kget (n_cons n) q = Some (j, m) \/ In (NTake m) o;
    fa_m : forall t k, In (NCreate t k) o -> (exists m, In (NTake m) o /\ key_of m = k /\ 0 <= m_pc m) \/
      (exists t i g gen r l, ev = VGuest t i g gen /\ nth_error (n_reqs n) i = Some r /\ loc_of (rq_locs r) g = Some l /\ k = rq_key r g) }.

  Lemma facts_fw n fev n' o ev : firewall ky keccak pshash su n fev = Ok (n', o) ->
    time_of fev = ntime ev -> (forall t m, fev = EvIn t m -> ev = VIn t m) ->
    (forall t k a, fev = EvAllow t k a -> exists i g gen r, ev = VGuest t i g gen /\ nth_error (n_reqs n) i = Some r /\ loc_of (rq_locs r) g = Some GAllow /\ k = rq_key r g) ->
    facts n n' ev o.
  Proof.
    intros EF HT H1 H2. destruct (firewall_eff _ _ _ _ _ _ _ _ EF) as (CA & _ & (_ & EC & _) & l & ES & HQ).
    assert (EL : fw_trace o = l).
    { unfold firewall in EF. rewrite ES in EF. cbn [rbind fst snd] in EF. eapply receive_all_trace, EF. }
    constructor.
    - right. exists fev. rewrite EL. auto.
    - intros m Hm _. left. rewrite EL. auto.
    - intros q j m. rewrite EC. auto.
    - intros t k Hk. rewrite Forall_forall in CA. destruct (CA _ Hk).
  Qed.
  Lemma facts_quiet n n' ev o : n_fw n' = n_fw n -> n_cons n' = n_cons n -> (forall x, In x o -> match x with NFw _ | NQueued _ | NCreate _ _ => False | _ => True end) -> facts n n' ev o.
  Proof.
    intros E1 E2 H. constructor.
    - left. split; [exact E1|]. apply fwt_nil. intros x Hx. exact (H _ Hx).
    - intros m Hm. destruct (H _ Hm).
    - intros q j m. rewrite E2. auto.
    - intros t k Hk. destruct (H _ Hk).
  Qed.
  Lemma facts_same n n' n2 ev o : facts n n' ev o -> n_fw n2 = n_fw n' -> n_cons n2 = n_cons n' -> facts n n2 ev o.
  Proof. intros [A B C D] E1 E2. constructor; auto; unfold fw_by in *; rewrite ?E1; auto. rewrite E2. exact C. Qed.

  Lemma step_facts n ev n' o : nstep n ev = Ok (n', o) -> facts n n' ev o.
  Proof.
    destruct ev as [now base start doc|now i g|now i|now i g gen|now m|now|now k c|now pc g gen|now pc g nonce ord|now j nonce ord]; cbn [Node.nstep]; intros HS;
      try (eapply facts_fw; [exact HS|reflexivity|intros; congruence|intros; congruence]).
    - injection HS as <- <-. apply facts_quiet; [reflexivity|reflexivity|contradiction].
    - unfold request_go in HS. destruct (nth_error (n_reqs n) i) as [r|] eqn:EN; [|injection HS as <- <-; apply facts_quiet; [reflexivity|reflexivity|contradiction]].
      destruct (rq_phase r) as [todo| |todo|todo|]; try (injection HS as <- <-; apply facts_quiet; [reflexivity|reflexivity|contradiction]);
        (destruct (existsb (Z.eqb g) todo); [|injection HS as <- <-; apply facts_quiet; [reflexivity|reflexivity|contradiction]]); cbv zeta in HS.
      + injection HS as <- <-. apply facts_quiet; [destruct (rq_doc r); reflexivity|destruct (rq_doc r); reflexivity|contradiction].
      + injection HS as <- <-. apply facts_quiet; [reflexivity|reflexivity|contradiction].
      + assert (X : forall k v, In v [NPop k (snd (pop_output (n_outs n) (rq_key r g)))] -> match v with NFw _ | NQueued _ | NCreate _ _ => False | _ => True end) by (intros k v [<-|[]]; exact I).
        destruct (rq_doc r), (snd (pop_output (n_outs n) (rq_key r g))) as [[]|]; try discriminate;
          try (injection HS as <- <-; apply facts_quiet; [reflexivity|reflexivity|apply X]).
        destruct (_ <? _)%nat; [discriminate|]. injection HS as <- <-. apply facts_quiet; [reflexivity|reflexivity|apply X].
    - injection HS as <- <-. unfold request_wait. apply facts_quiet; [| |contradiction]; (destruct (nth_error (n_reqs n) i) as [r|]; [|reflexivity]; destruct (rq_phase r); try reflexivity; destruct (forallb _ _); reflexivity).
    - unfold request_guest in HS. destruct (nth_error (n_reqs n) i) as [r|] eqn:EN; [|injection HS as <- <-; apply facts_quiet; [reflexivity|reflexivity|contradiction]].
      destruct (loc_of (rq_locs r) g) as [l|] eqn:EL; [|injection HS as <- <-; apply facts_quiet; [reflexivity|reflexivity|contradiction]].
      destruct (guest_go _ _ _ _ _ _ _ _ _ _) as [[[n1 l1] o1]| |] eqn:EG; cbn [rbind fst snd] in HS; try discriminate. injection HS as <- <-.
      apply facts_same with (n' := n1); [|reflexivity|reflexivity].
      assert (NOP : forall y, Ok (n, y, []) = Ok (n1, l1, o1) -> facts n n1 (VGuest now i g gen) o1) by (intros y E; injection E as <- <- <-; apply facts_quiet; [reflexivity|reflexivity|contradiction]).
      assert (F : forall fev (y : gloc), (x <- firewall ky keccak pshash su n fev ;; Ok (fst x, y, snd x)) = Ok (n1, l1, o1) -> time_of fev = now -> (forall t m, fev <> EvIn t m) ->
        (forall t k a, fev = EvAllow t k a -> t = now /\ l = GAllow /\ k = rq_key r g) -> facts n n1 (VGuest now i g gen) o1).
      { intros fev y. destruct (firewall _ _ _ _ _ _) as [[n2 o2]| |] eqn:EF; cbn [rbind fst snd]; try discriminate. intros E HT H1 H2. injection E as <- <- <-.
        eapply facts_fw; [exact EF|exact HT|intros t m E; destruct (H1 _ _ E)|]. intros t k a E. destruct (H2 _ _ _ E) as (-> & -> & ->). exists i, g, gen, r. auto. }
      unfold guest_go in EG. cbv zeta in EG. destruct l as [|c|c|c|c|c| |].
      + apply (F (EvAllow now (rq_key r g) (allowance_for ky keccak pshash (k_pc (rq_key r g)) (rq_start r))) (GBuf (length (kslice (f_calls (n_fw n)) (rq_key r g))))); [exact EG|reflexivity|discriminate|].
        intros t k a E. injection E as <- <- <-. auto.
      + destruct (chan_ready n _ c); [|apply (NOP _ EG)]. apply (F _ _ EG); [reflexivity|discriminate|discriminate].
      + destruct (now <? _); [apply (NOP _ EG)|]. destruct (ensure_run su n now (rq_key r g) gen) as [[n2 j] o2] eqn:EE. injection EG as <- <- <-. cbn [fst snd].
        destruct (ensure_eff _ _ _ _ _ _ _ _ EE) as (_ & EC & EF & _ & _ & Y). constructor.
        * left. split; [exact EF|]. destruct Y as [(-> & _)|(-> & _)]; reflexivity.
        * intros m Hm. destruct Y as [(-> & _)|(-> & _)]; [destruct Hm|destruct Hm as [Hm|[]]; discriminate].
        * intros q jj m. rewrite EC. auto.
        * intros t k Hk. right. exists now, i, g, gen, r, (GSleep c). repeat (split; [auto; fail|]). destruct Y as [(-> & _)|(-> & _)]; [destruct Hk|destruct Hk as [Hk|[]]; congruence].
      + destruct (terminated_run n _); apply (NOP _ EG).
      + destruct (chan_ready n _ c); [|apply (NOP _ EG)]. apply (F _ _ EG); [reflexivity|discriminate|discriminate].
      + destruct (chan_ready n _ c); [|apply (NOP _ EG)]. apply (F _ _ EG); [reflexivity|discriminate|discriminate].
      + destruct (receive _ _ _ _ _ _) as [[n2 o2]| |] eqn:ER; [|apply (NOP _ EG)|discriminate]. injection EG as <- <- <-. cbn [fst snd].
        destruct (receive_eff _ _ _ _ _ _ _ _ ER) as (CA & _ & (_ & EC & _) & EF & HO). constructor.
        * left. split; [exact EF|]. cbn. eapply receive_trace, ER.
        * intros m [Hm|Hm] LM; [discriminate|]. right. exists i, r, g. split; [exact EN|]. split; [exact EL|]. destruct HO as [->|[-> _]]; destruct Hm as [Hm|[]]; congruence.
        * intros q jj m. rewrite EC. auto.
        * intros t k [Hk|Hk]; [discriminate|]. rewrite Forall_forall in CA. destruct (CA _ Hk).
      + apply (NOP _ EG).
    - injection HS as HS. unfold consumer_take in HS; change (@fw_key) with (@key_of) in HS. destruct (kget (n_cons n) (qkey pc g)) eqn:EC0; [injection HS as <- <-; apply facts_quiet; [reflexivity|reflexivity|contradiction]|].
      destruct (kslice (n_qs n) (qkey pc g)) as [|m q]; [injection HS as <- <-; apply facts_quiet; [reflexivity|reflexivity|contradiction]|]. cbv zeta in HS.
      destruct (Z.ltb_spec (m_pc m) 0) as [L|L]; [injection HS as <- <-; apply facts_quiet; [reflexivity|reflexivity|intros x [<-|[<-|[]]]; exact I]|].
      destruct (ensure_run su _ now (key_of m) gen) as [[n2 j] o2] eqn:EE. injection HS as <- <-. cbn [fst snd].
      destruct (ensure_eff _ _ _ _ _ _ _ _ EE) as (_ & EC & EF & _ & _ & Y). constructor.
      + left. split; [exact EF|]. destruct Y as [(-> & _)|(-> & _)]; reflexivity.
      + intros m0 [Hm|Hm]; [discriminate|]. destruct Y as [(-> & _)|(-> & _)]; [destruct Hm|destruct Hm as [Hm|[]]; discriminate].
      + intros q0 jj m0. cbn [set_cons n_cons]. rewrite kget_kset. destruct (key_eqb _ _); [intros E; injection E as <- <-; right; left; reflexivity|]. cbn in EC. auto.
      + intros t k [Hk|Hk]; [discriminate|]. left. exists m. split; [left; reflexivity|]. split; [|exact L]. destruct Y as [(-> & _)|(-> & _)]; [destruct Hk|destruct Hk as [Hk|[]]; congruence].
    - unfold consumer_deliver in HS. destruct (kget (n_cons n) (qkey pc g)) as [[j m]|] eqn:EC; [|injection HS as <- <-; apply facts_quiet; [reflexivity|reflexivity|contradiction]].
      destruct (nth_error (n_heap n) j) as [[k r]|] eqn:EN; [|discriminate].
      destruct (deliver _ _ _ _ _) as [x| |] eqn:ED; cbn [rbind] in HS; try discriminate. cbv zeta in HS. injection HS as <- <-.
      assert (Q : forall y, In y (map (NRun k) (snd x)) -> match y with NFw _ | NQueued _ | NCreate _ _ => False | _ => True end) by (intros y Hy; apply in_map_iff in Hy; destruct Hy as (? & <- & _); exact I).
      constructor.
      + left. split; [reflexivity|]. apply fwt_nil. intros y Hy. exact (Q _ Hy).
      + intros m0 Hm. destruct (Q _ Hm).
      + intros q jj m0. cbn. rewrite kget_kdel. destruct (key_eqb _ _); [discriminate|auto].
      + intros t k0 Hk. destruct (Q _ Hk).
    - unfold run_tick in HS. destruct (nth_error (n_heap n) j) as [[k r]|] eqn:EN; [|injection HS as <- <-; apply facts_quiet; [reflexivity|reflexivity|contradiction]].
      destruct (now <? r_wake r); [injection HS as <- <-; apply facts_quiet; [reflexivity|reflexivity|contradiction]|].
      destruct (tick _ _ _ _ _) as [x| |] eqn:ED; cbn [rbind] in HS; try discriminate. injection HS as <- <-.
      apply facts_quiet; [reflexivity|reflexivity|]. intros y Hy. apply in_map_iff in Hy. destruct Hy as (? & <- & _). exact I.
  Qed.

  Lemma step_in (f f' : fw payload) fev l t m : fstep f fev = Ok (f', l) -> In (FIn t m) l -> fev = EvIn t m.
  Proof.
    destruct fev as [now mm|now|now k' a|now k' c|now k' c]; cbn [fstep]; intros ES IN.
    - injection ES as _ <-. unfold fw_process in IN; change (@fw_key) with (@key_of) in IN. destruct IN as [IN|IN]; [congruence|]. exfalso. revert IN. destruct (_ || _); [intros []|]. destruct (kget _ _) as [st|]; [|intros []].
      destruct (st =? _); [destruct (_ <? _); intros []|]. destruct (st =? _); [|intros []]. intros [IN|[]]. discriminate.
    - destruct (_ && _); injection ES as _ <-; cbn in IN; intuition discriminate.
    - unfold fw_set_allowance in ES. destruct (negb _); [discriminate|]. destruct (kget _ _); injection ES as _ <-; cbn in IN; intuition discriminate.
    - unfold fw_state_step in ES. destruct (nth_error _ c) as [s|]; [|injection ES as _ <-; contradiction].
      destruct (sl_thread s) as [[|a|a|a|]|]; try (injection ES as _ <-; contradiction); destruct (_ <? _); try (injection ES as _ <-; contradiction);
        destruct (told _ _); try discriminate; injection ES as _ <-; cbn [fst snd fw_flush] in IN; rewrite ?in_app_iff in IN; cbn in IN; try (intuition discriminate).
      destruct IN as [IN|IN]; [apply in_map_iff in IN; destruct IN as (m' & E & _); discriminate|intuition discriminate].
    - injection ES as _ <-. destruct IN.
  Qed.

  Lemma match_trans n n' r r' o k : rtrans su n n' r r' o -> matches k r' = matches k r /\ rq_doc r' = rq_doc r /\ rq_id r' = rq_id r.
  Proof. intros []; try (destruct (remove g todo)); auto. Qed.
  Lemma spawned_locs (r r' : request) n n' o : rtrans su n n' r r' o -> (forall td, rq_phase r = RReg td -> rq_locs r = []) -> rq_locs r <> [] -> rq_locs r' <> [].
  Proof.
    intros RT HL NE. destruct RT as [g todo E1|g todo E1|g todo v E1|E1|g l l' o E1]; cbn; auto.
    - destruct NE. exact (HL _ E1).
    - intros X. apply NE. apply (f_equal (map fst)) in X. rewrite set_loc_fst in X. destruct (rq_locs r); [reflexivity|discriminate].
  Qed.
  Lemma spawned_mono tr n ev n' o k : GI tr n -> nstep n ev = Ok (n', o) -> spawned n k -> spawned n' k.
  Proof.
    intros HG HS (i & r & EN & M & NE). destruct (req_kinds _ _ _ _ _ _ _ _ HS) as [(E & _)|[(base & start & doc & E & _)|(i0 & r0 & r' & EN0 & E & RT)]].
    - exists i, r. rewrite E. auto.
    - exists i, r. rewrite E, nth_error_app1 by (apply nth_error_Some; congruence). auto.
    - destruct (Nat.eq_dec i i0) as [->|N]; [|exists i, r; rewrite E, put_diff by exact N; auto].
      rewrite EN0 in EN. injection EN as ->. exists i0, r'. rewrite E. split; [eapply put_same; exact EN0|]. split; [rewrite (proj1 (match_trans _ _ _ _ _ k RT)); exact M|].
      eapply spawned_locs; [exact RT| |exact NE]. intros td Htd. exact (proj2 (g_locs _ _ _ HG _ _ EN0) td Htd).
  Qed.
  Lemma matches_key (r : request) g : matches (rq_key r g) r = true.
  Proof. unfold matches, rq_key. cbn. rewrite Z.eqb_refl. destruct (bytes_eqb_spec (rq_id r) (rq_id r)); [reflexivity|contradiction]. Qed.
  Lemma loc_spawned n i r g l : nth_error (n_reqs n) i = Some r -> loc_of (rq_locs r) g = Some l -> spawned n (rq_key r g).
  Proof. intros EN EL. exists i, r. split; [exact EN|]. split; [apply matches_key|]. intros X. rewrite X in EL. discriminate. Qed.

  (** ** Where it all comes from *)
  Record NI evs tr n : Prop := mkNI {
    ni_alw : alw until [] (fw_trace tr);
    ni_in : forall t m, In (FIn t m) (fw_trace tr) -> In (VIn t m) evs;
    ni_set : forall t k a, In (FSet t k a) (fw_trace tr) -> spawned n k;
    ni_q : forall m, In (NQueued m) tr -> 0 <= m_pc m -> spawned n (key_of m) /\ ((exists t, In (VIn t m) evs) \/ m_op m = 0);
    ni_c : forall q j m, kget (n_cons n) q = Some (j, m) -> In (NTake m) tr;
    ni_h : forall j k r, nth_error (n_heap n) j = Some (k, r) -> spawned n k }.
  Lemma take_queued tr n m : GI tr n -> In (NTake m) tr -> In (NQueued m) tr.
  Proof.
    intros HG HT. assert (X : In m (queued_to (Z.abs (m_pc m)) (m_rcpt m) tr)).
    { rewrite (g_fifo _ _ _ HG). apply in_or_app. left. apply in_flat_map. exists (NTake m). split; [exact HT|]. unfold for_queue. rewrite !Z.eqb_refl. left. reflexivity. }
    apply in_flat_map in X. destruct X as (x & HX & HI). destruct x; try destruct HI. destruct (for_queue _ _ _); [|destruct HI]. destruct HI as [->|[]]. exact HX.
  Qed.
  Lemma ni_step evs tr n T ev n' o : INV evs tr n T -> GI tr n -> GI (tr ++ o) n' -> T <= ntime ev -> NI evs tr n -> nstep n ev = Ok (n', o) -> NI (evs ++ [ev]) (tr ++ o) n'.
  Proof.
    intros [W R] HG HG' HT HN HS. pose proof (step_facts _ _ _ _ HS) as [FW FQ FC FM].
    assert (SP : forall k, spawned n k -> spawned n' k) by (intros k; eapply spawned_mono; eauto).
    assert (A : alw until [] (fw_trace (tr ++ o)) /\ (forall t m, In (FIn t m) (fw_trace (tr ++ o)) -> In (VIn t m) (evs ++ [ev])) /\ (forall t k a, In (FSet t k a) (fw_trace (tr ++ o)) -> spawned n' k)).
    { rewrite fwt_app. destruct FW as [[EF EO]|(fev & ES & ET & F1 & F2)].
      - rewrite EO, app_nil_r. split; [exact (ni_alw _ _ _ HN)|]. split; [|intros; apply SP; eapply (ni_set _ _ _ HN); eassumption]. intros t m H. apply in_or_app. left. exact (ni_in _ _ _ HN _ _ H).
      - assert (LT : T <= time_of fev) by (rewrite ET; exact HT). destruct (step_sound _ _ _ _ _ _ _ _ _ LT (w_sound _ _ _ _ _ _ _ _ _ _ W) ES) as [S1 S2].
        split; [apply alw_app; [exact (ni_alw _ _ _ HN)|exact S2]|]. split.
        + intros t m H. apply in_app_or in H. apply in_or_app. destruct H as [H|H]; [left; exact (ni_in _ _ _ HN _ _ H)|]. right. left. apply F1. eapply step_in; eassumption.
        + intros t k a H. apply in_app_or in H. destruct H as [H|H]; [apply SP; eapply (ni_set _ _ _ HN); eassumption|]. apply (step_set _ _ _ _ _ _ _ ES) in H.
          destruct (F2 _ _ _ H) as (i & g & gen & r & _ & EN & EL & ->). apply SP. eapply loc_spawned; eassumption. }
    destruct A as (A1 & A2 & A3).
    assert (B : forall m, In (NQueued m) (tr ++ o) -> 0 <= m_pc m -> spawned n' (key_of m) /\ ((exists t, In (VIn t m) (evs ++ [ev])) \/ m_op m = 0)).
    { intros m H L. apply in_app_or in H. destruct H as [H|H].
      - destruct (ni_q _ _ _ HN m H L) as [X [[t Y]|Y]]; split; auto. left. exists t. apply in_or_app. auto.
      - destruct (FQ m H L) as [[t FP]|(i & r & g & EN & EL & ->)].
        + assert (X : In (FPass t m) (fw_trace (tr ++ o))) by (rewrite fwt_app; apply in_or_app; auto). apply in_split in X. destruct X as (x & y & EX).
          pose proof (A1 x _ y EX) as P. cbn in P. destruct P as (t0 & a & a1 & a2 & tm & P1 & _ & _ & P4 & _). split.
          * apply (A3 t0 _ a). rewrite EX, P1. apply in_or_app. left. apply in_elt.
          * left. exists tm. apply A2. rewrite EX, P1. apply in_or_app. left. apply in_or_app. right. right. exact P4.
        + split; [|right; reflexivity]. apply SP. replace (key_of (signal nil_dto (rq_key r g))) with (rq_key r g); [eapply loc_spawned; eassumption|].
          unfold key_of, signal, rq_key in *. cbn in *. f_equal. unfold rq_pc in *. destruct (rq_doc r); [unfold pc_dss in *; lia|reflexivity]. }
    constructor; [exact A1|exact A2|exact A3|exact B| |].
    - intros q j m H. apply in_or_app. destruct (FC _ _ _ H) as [X|X]; [left; exact (ni_c _ _ _ HN _ _ _ X)|right; exact X].
    - intros j k r H. destruct (heap_kinds _ _ _ _ _ _ _ _ HS) as [[E _]|[(k0 & gen & t & a & _ & E & _ & EO)|(k0 & j0 & r0 & pev & x & EN & _ & E & _)]]; rewrite E in H.
      + apply SP. exact (ni_h _ _ _ HN _ _ _ H).
      + apply nth_snoc in H. destruct H as [[_ H]|H]; [|apply SP; exact (ni_h _ _ _ HN _ _ _ H)]. injection H as -> ->.
        destruct (FM t k0) as [(m & HM & <- & L)|(t0 & i & g & gen0 & r & l & _ & EN & EL & ->)].
        * rewrite EO. apply in_or_app. right. left. reflexivity.
        * apply B; [|exact L]. eapply take_queued; [exact HG'|]. apply in_or_app. auto.
        * apply SP. eapply loc_spawned; eassumption.
      + apply nth_put in H. destruct H as [[-> H]|H]; [|apply SP; exact (ni_h _ _ _ HN _ _ _ H)]. injection H as -> ->. apply SP. exact (ni_h _ _ _ HN _ _ _ EN).
  Qed.
  Lemma ni_start : NI [] [] (start_node su until now0).
  Proof.
    constructor.
    - intros [|] c y E; discriminate.
    - intros t m [].
    - intros t k a [].
    - intros m [].
    - intros q j m H. discriminate.
    - intros [|j] k r H; discriminate.
  Qed.
  Lemma history_ni evs n tr : nhistory ky keccak pshash su until now0 evs n tr -> NI evs tr n.
  Proof.
    intros HH. destruct (history_ind ky keccak pshash su until now0 (fun evs tr n => NI evs tr n)) with (3 := HH) as (_ & _ & X); [| |exact X].
    - intros evs0 tr0 n0 T ev n' o HI HG HT HN HS. eapply ni_step; eauto. eapply gi_step; eauto.
    - exact ni_start.
  Qed.
End NP.
