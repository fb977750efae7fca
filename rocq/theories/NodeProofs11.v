(** Requests return: the goroutine of the request. *)
From Coq Require Import ZArith List Lia Bool Arith.
From Coq Require Import Init.Byte.
From Verif Require Import Params Bytes Res Secp Dto Dss Prot ProtSpec DkgProt KMap Firewall
  Outputs Node NodeSpec NodeRun NodeProofs NodeProofs2 NodeProofs3 NodeProofs4 NodeProofs5 NodeProofs6 NodeProofs7 FairSpec NodeProofs10.
Import ListNotations.
Open Scope Z_scope.

Lemma remove_less g l : In g l -> (length (remove g l) < length l)%nat.
Proof.
  unfold remove. induction l as [|x l IH]; [intros []|]. cbn. intros [->|H].
  - rewrite Z.eqb_refl. cbn. assert (X : forall r : list Z, (length (filter (fun x => negb (x =? g)%Z) r) <= length r)%nat) by (induction r as [|y r IHr]; cbn; [lia|]; destruct (negb (y =? g)); cbn; lia). specialize (X l). lia.
  - destruct (negb (x =? g)); cbn; specialize (IH H); lia.
Qed.
Lemma remove_incl g l : incl (remove g l) l.
Proof. intros x H. apply filter_In in H. tauto. Qed.
Lemma remove_other g x l : In x l -> x <> g -> In x (remove g l).
Proof. intros H N. apply filter_In. split; [exact H|]. destruct (Z.eqb_spec x g); [contradiction|reflexivity]. Qed.
Lemma loc_of_nodup (l : list (Z * gloc)) g x : NoDup (map fst l) -> In (g, x) l -> loc_of l g = Some x.
Proof.
  induction l as [|[g' y] l IH]; [intros _ []|]. cbn. intros ND [E|H].
  - injection E as -> ->. rewrite Z.eqb_refl. reflexivity.
  - inversion ND as [|? ? N1 N2]; subst. destruct (Z.eqb_spec g' g) as [->|]; [|auto]. destruct N1. apply (in_map fst) in H. exact H.
Qed.

Section NP.
  Context {G : Type}.
  Variable ky : kyber G.
  Variable keccak : bytes -> bytes.
  Variable pshash : Z -> Z -> bytes.
  Variable su : setup.
  Variables until now0 : Z.
  Notation nevent := (nevent (G := G)). Notation node := (node (G := G)).
  Implicit Types (evs : list nevent) (n : node) (tr : list nobs).
  Notation nstep := (nstep ky keccak pshash su).
  Notation history := (nhistory ky keccak pshash su until now0).

  (** Outputs are collected for all guests. *)
  Definition popped (tr : list nobs) (r : request) (g : Z) : Prop := exists v, In (NPop (rq_key r g) v) tr.
  Definition POPS tr n : Prop := forall i r, nth_error (n_reqs n) i = Some r ->
    match rq_phase r with
    | RPop todo => forall g, In g (su_guests su) -> In g todo \/ popped tr r g
    | RDone => forall g, In g (su_guests su) -> popped tr r g
    | _ => True end.
  Lemma history_pops evs n tr : history evs n tr -> POPS tr n.
  Proof.
    intros HH. destruct (history_ind ky keccak pshash su until now0 (fun _ tr n => POPS tr n)) with (3 := HH) as (_ & _ & X); [| |exact X].
    - clear. intros evs tr n T ev n' o _ _ _ HP HS i r Hq.
      assert (M : forall (r r' : request) g, rq_key r' g = rq_key r g -> popped tr r g -> popped (tr ++ o) r' g).
      { intros r1 r2 g E [v H]. exists v. rewrite E. apply in_or_app. auto. }
      assert (OLD : nth_error (n_reqs n) i = Some r -> match rq_phase r with
        | RPop todo => forall g, In g (su_guests su) -> In g todo \/ popped (tr ++ o) r g | RDone => forall g, In g (su_guests su) -> popped (tr ++ o) r g | _ => True end).
      { intros E. specialize (HP _ _ E). destruct (rq_phase r); auto; intros g HI; [destruct (HP g HI); eauto|eauto]. }
      destruct (req_kinds _ _ _ _ _ _ _ _ HS) as [(E & _)|[(base & start & doc & E & _)|(i0 & r0 & r' & EN & E & RT)]]; rewrite E in Hq; [exact (OLD Hq)| |].
      + apply nth_snoc in Hq. destruct Hq as [[_ ->]|Hq]; [|exact (OLD Hq)]. unfold new_request. cbv zeta. destruct doc; [|exact I]. destruct (su_guests su); exact I.
      + apply nth_put in Hq. destruct Hq as [[-> ->]|Hq]; [|exact (OLD Hq)]. specialize (HP _ _ EN).
        destruct RT as [g todo E1|g todo E1|g todo v E1|E1|g l l' o].
        * destruct (remove g todo); exact I.
        * cbn. destruct (remove g todo); [intros g' HI; auto|exact I].
        * rewrite E1 in HP. cbn. assert (X : forall g', In g' (su_guests su) -> In g' (remove g todo) \/ popped (tr ++ [NPop (rq_key r0 g) v]) r0 g').
          { intros g' HI. destruct (Z.eq_dec g' g) as [->|N]; [right; exists v; apply in_or_app; right; left; reflexivity|]. destruct (HP g' HI) as [Y|Y]; [left; apply remove_other; assumption|right; eauto]. }
          destruct (remove g todo) as [|x rs]; [|exact X]. intros g' HI. destruct (X g' HI) as [[]|Y]. exact Y.
        * cbn. destruct (rq_doc r0); [exact I|intros g HI; auto].
        * cbn. destruct (rq_phase r0); try exact I; intros g' HI; [destruct (HP g' HI); auto; right; eapply M; [|eassumption]; reflexivity|eapply M; [|apply HP; exact HI]; reflexivity].
    - intros i r E. destruct i; discriminate.
  Qed.
  Lemma history_count evs n tr : history evs n tr -> length (n_reqs n) = length (filter (fun ev => match ev with VRequest _ _ _ _ => true | _ => false end) evs).
  Proof.
    intros HH. pose proof (history_sigs _ _ _ _ _ _ _ _ _ HH) as S. unfold SIGS in S. apply (f_equal (@length _)) in S. rewrite map_length in S. rewrite S. clear.
    induction evs as [|ev evs IH]; [reflexivity|]. cbn [flat_map filter]. rewrite app_length, IH. destruct ev; reflexivity.
  Qed.

  Lemma new_is base start doc : su_guests su <> [] ->
    new_request su base start doc = mkReq doc (run_id_for base start) start (RReg (su_guests su)) [] \/
    new_request su base start doc = spawn su (mkReq doc (run_id_for base start) start (RReg (su_guests su)) []).
  Proof. intros NE. unfold new_request. cbv zeta. destruct doc; [|auto]. destruct (su_guests su); [contradiction|auto]. Qed.

  Variable sg : nat -> nevent.
  Notation upto_p := (prefix sg).
  Hypothesis RUN : forall p, exists n tr, history (upto_p p) n tr.
  Notation reach := (reach ky keccak pshash su until now0 sg).

  Section Request.
    Variables (i : nat) (doc : option Z) (id : bytes) (start : Z).
    Hypothesis ND : NoDup (su_guests su).
    Hypothesis NE : su_guests su <> [].
    Hypothesis ONCE : forall g p, (requests_for (mkKey (pc_for doc) g id) (upto_p p) <= 1)%nat.
    Hypothesis FAIR : fair_to sg su i (pc_for doc) id.
    Notation gd g := (gdone i g (mkKey (pc_for doc) g id) start).
    Notation leads := (leads ky keccak pshash su until now0 sg RUN).
    Notation stays := (stays ky keccak pshash su until now0 sg RUN).
    Local Hint Resolve remove_incl : core.

    Definition mine (r : request) : Prop := rq_doc r = doc /\ rq_id r = id /\ rq_start r = start.
    Definition in_phase (ph : rphase -> Prop) n : Prop := exists r, nth_error (n_reqs n) i = Some r /\ mine r /\ ph (rq_phase r).
    Definition todo_ok (todo : list Z) : Prop := todo <> [] /\ incl todo (su_guests su).
    Definition spawned n : Prop := exists r, nth_error (n_reqs n) i = Some r /\ mine r /\ rq_phase r = RRun /\ rq_locs r = map (fun g => (g, GAllow)) (su_guests su).
    Definition later (m : nat) (ph : rphase) : Prop :=
      (exists todo, ph = RDereg todo /\ todo_ok todo /\ m = (length todo + length (su_guests su) + 1)%nat) \/
      (exists todo, ph = RPop todo /\ todo_ok todo /\ m = length todo) \/
      ph = RDone /\ m = 0%nat.

    Lemma registering m : forall p todo, todo_ok todo -> length todo = m -> reach (in_phase (eq (RReg todo))) p -> exists q, (p <= q)%nat /\ reach spawned q.
    Proof.
      induction m as [m IH] using lt_wf_ind. intros p todo HT HL HR. destruct todo as [|g0 todo0] eqn:ETD; [destruct (proj1 HT eq_refl)|]. rewrite <- ETD in *.
      assert (G0 : In g0 (su_guests su)) by (apply (proj2 HT); rewrite ETD; left; reflexivity). destruct FAIR as (_ & FG & _). destruct (FG _ G0) as (FGo & _).
      destruct (leads (in_phase (eq (RReg todo))) (fun n => spawned n \/ exists todo', todo_ok todo' /\ (length todo' < m)%nat /\ in_phase (eq (RReg todo')) n) _ 0 FGo) with (p := p)
        as (q & L & n & tr & HH & [X|(todo' & T1 & T2 & X)]).
      - clear - HT HL ETD. intros p n tr n' o HH (r & EN & MI & EP) HS. destruct (req_step _ _ _ _ _ _ _ _ _ _ HS EN) as (r' & EN' & [[-> NH]|RM]).
        + split; [left; exists r; auto|]. intros [t E] _. destruct NH. rewrite E. cbn. rewrite <- EP, ETD. cbn. auto.
        + destruct RM as [now g' todo' EP'|now g' todo' EP'|now g' todo' v EP'|now EP'|now g' gen l0 l1 n1 EL' EG E1 E2]; try (rewrite EP' in EP; discriminate EP).
          * rewrite EP' in EP. injection EP as ->.
            assert (Q : spawned n' \/ exists todo', todo_ok todo' /\ (length todo' < m)%nat /\ in_phase (eq (RReg todo')) n'); [|auto].
            destruct (remove g' todo') as [|x rs] eqn:ER.
            -- left. eexists. split; [exact EN'|]. split; [exact MI|]. split; reflexivity.
            -- right. exists (x :: rs). split; [split; [discriminate|]; rewrite <- ER; intros y Hy; apply (proj2 HT), (remove_incl g'), Hy|]. split; [rewrite <- ER, <- HL; apply remove_less; assumption|].
               eexists. split; [exact EN'|]. split; [exact MI|reflexivity].
          * split; [|intros [t E]; discriminate E]. left. eexists. split; [exact EN'|]. split; [exact MI|exact EP].
      - exact HR.
      - exists q. split; [exact L|]. exists n, tr. auto.
      - destruct (IH _ T2 q todo' T1 eq_refl) as (q' & L' & Y); [exists n, tr; auto|]. exists q'. split; [lia|exact Y].
    Qed.
    Lemma finishing m : forall p, reach (in_phase (later m)) p -> exists q, (p <= q)%nat /\ reach (in_phase (eq RDone)) q.
    Proof.
      induction m as [m IH] using lt_wf_ind. intros p HR.
      assert (STEP : forall todo ph g0, (ph = RDereg todo /\ m = (length todo + length (su_guests su) + 1)%nat \/ ph = RPop todo /\ m = length todo) -> todo_ok todo -> In g0 todo -> reach (in_phase (eq ph)) p ->
        exists q, (p <= q)%nat /\ reach (in_phase (eq RDone)) q).
      { clear HR. intros todo ph g0 HP HT HG HR. destruct FAIR as (_ & FG & _). destruct (FG _ (proj2 HT _ HG)) as (FGo & _).
        destruct (leads (in_phase (eq ph)) (fun n => exists m', (m' < m)%nat /\ in_phase (later m') n) _ 0 FGo) with (p := p) as (q & L & n & tr & HH & m' & LM & X).
        - clear - HP HT HG NE. intros p n tr n' o HH (r & EN & MI & EP) HS. destruct (req_step _ _ _ _ _ _ _ _ _ _ HS EN) as (r' & EN' & [[-> NH]|RM]).
          + split; [left; exists r; auto|]. intros [t E] _. destruct NH. rewrite E. cbn. split; [reflexivity|]. destruct HP as [[-> _]|[-> _]]; rewrite <- EP; exact HG.
          + assert (GS : incl (su_guests su) (su_guests su)) by (intros x H; exact H).
            assert (LG : (0 < length (su_guests su))%nat) by (destruct (su_guests su); [contradiction|cbn; lia]).
            destruct RM as [now g' todo' EP'|now g' todo' EP'|now g' todo' v EP'|now EP'|now g' gen l0 l1 n1 EL' EG E1 E2];
              try (rewrite EP' in EP; destruct HP as [[-> EM]|[-> EM]]; try discriminate EP; injection EP as <-).
            * pose proof (remove_less _ _ H) as RL. assert (Q : exists m', (m' < m)%nat /\ in_phase (later m') n'); [|auto].
              destruct (remove g' todo) as [|x rs] eqn:ER.
              -- exists (length (su_guests su)). split; [lia|]. eexists. split; [exact EN'|]. split; [exact MI|]. right; left. exists (su_guests su). split; [reflexivity|]. split; [split; assumption|reflexivity].
              -- exists (length (x :: rs) + length (su_guests su) + 1)%nat. split; [lia|]. eexists. split; [exact EN'|]. split; [exact MI|]. left. exists (x :: rs). split; [reflexivity|]. split; [|reflexivity].
                 split; [discriminate|]. rewrite <- ER. intros y Hy; apply (proj2 HT), (remove_incl g'), Hy.
            * pose proof (remove_less _ _ H) as RL. assert (Q : exists m', (m' < m)%nat /\ in_phase (later m') n'); [|auto].
              destruct (remove g' todo) as [|x rs] eqn:ER.
              -- exists 0%nat. split; [lia|]. eexists. split; [exact EN'|]. split; [exact MI|]. right; right. auto.
              -- exists (length (x :: rs)). split; [lia|]. eexists. split; [exact EN'|]. split; [exact MI|]. right; left. exists (x :: rs). split; [reflexivity|]. split; [|reflexivity].
                 split; [discriminate|]. rewrite <- ER. intros y Hy; apply (proj2 HT), (remove_incl g'), Hy.
            * split; [|intros [t E]; discriminate E]. left. eexists. split; [exact EN'|]. split; [exact MI|exact EP].
        - exact HR.
        - destruct (IH _ LM q) as (q' & L' & Y); [exists n, tr; auto|]. exists q'. split; [lia|exact Y]. }
      destruct HR as (n & tr & HH & r & EN & MI & [(todo & EP & HT & EM)|[(todo & EP & HT & EM)|[EP EM]]]).
      - destruct todo as [|g0 todo0] eqn:ETD; [destruct (proj1 HT eq_refl)|]. apply (STEP (g0 :: todo0) (RDereg (g0 :: todo0)) g0); [auto|exact HT|left; reflexivity|]. exists n, tr. split; [exact HH|]. exists r. auto.
      - destruct todo as [|g0 todo0] eqn:ETD; [destruct (proj1 HT eq_refl)|]. apply (STEP (g0 :: todo0) (RPop (g0 :: todo0)) g0); [auto|exact HT|left; reflexivity|]. exists n, tr. split; [exact HH|]. exists r. auto.
      - exists p. split; [lia|]. exists n, tr. split; [exact HH|]. exists r. auto.
    Qed.

    Lemma running_step p n tr n' o : history (upto_p p) n tr -> in_phase (eq RRun) n -> nstep n (sg p) = Ok (n', o) ->
      (in_phase (eq RRun) n' \/ exists m, in_phase (later m) n') /\
      ((forall g, In g (su_guests su) -> gd g n) -> (exists t, sg p = VWait t i) -> exists m, in_phase (later m) n').
    Proof.
      intros HH (r & EN & MI & EP) HS. destruct (req_step _ _ _ _ _ _ _ _ _ _ HS EN) as (r' & EN' & [[-> NH]|RM]).
      - split; [left; exists r; auto|]. intros HD [t E]. destruct NH. rewrite E. cbn. split; [reflexivity|]. split; [congruence|]. apply forallb_forall. intros [g l] HI. cbn.
        pose proof (history_gi _ _ _ _ _ _ _ _ _ HH) as HG. destruct (g_locs _ _ _ HG _ _ EN) as [[X|X] _]; [rewrite X in HI; destruct HI|].
        assert (GI : In g (su_guests su)) by (rewrite <- X; apply (in_map fst) in HI; exact HI). destruct (HD _ GI) as (l' & (r1 & EN1 & EL & _) & D). rewrite EN in EN1. injection EN1 as <-.
        rewrite (loc_of_nodup (rq_locs r) g l) in EL; [injection EL as ->; exact D|rewrite X; exact ND|exact HI].
      - destruct RM as [now g' todo' EP'|now g' todo' EP'|now g' todo' v EP'|now EP'|now g' gen l0 l1 n1 EL' EG E1 E2]; try (rewrite EP' in EP; discriminate EP).
        + assert (Q : exists m, in_phase (later m) n'); [|auto]. assert (T : todo_ok (su_guests su)) by (split; [exact NE|intros x Hx; exact Hx]).
          destruct (rq_doc r) as [d|] eqn:ED; eexists; eexists; (split; [exact EN'|]); (split; [exact MI|]); [left|right; left]; exists (su_guests su); split; try reflexivity; split; try exact T; reflexivity.
        + split; [|intros _ [t E]; discriminate E]. left. eexists. split; [exact EN'|]. split; [exact MI|exact EP].
    Qed.
    Lemma later_step p n tr n' o : history (upto_p p) n tr -> (exists m, in_phase (later m) n) -> nstep n (sg p) = Ok (n', o) -> exists m, in_phase (later m) n'.
    Proof.
      intros HH (m & r & EN & MI & LT) HS. destruct (req_step _ _ _ _ _ _ _ _ _ _ HS EN) as (r' & EN' & [[-> NH]|RM]); [exists m, r; auto|].
      assert (T : todo_ok (su_guests su)) by (split; [exact NE|intros x Hx; exact Hx]).
      destruct RM as [now g' todo EP'|now g' todo EP'|now g' todo v EP'|now EP'|now g' gen l0 l1 n1 EL' EG E1 E2];
        [rewrite EP' in LT; destruct LT as [(x & E & _)|[(x & E & _)|[E _]]]; discriminate E| | |rewrite EP' in LT; destruct LT as [(x & E & _)|[(x & E & _)|[E _]]]; discriminate E|].
      - rewrite EP' in LT. destruct LT as [(x & E & LT & _)|[(x & E & _)|[E _]]]; try discriminate E. injection E as <-.
        destruct (remove g' todo) as [|x rs] eqn:ER; eexists; eexists; (split; [exact EN'|]); (split; [exact MI|]).
        + right; left. exists (su_guests su). split; [reflexivity|]. split; [exact T|reflexivity].
        + left. exists (x :: rs). split; [reflexivity|]. split; [|reflexivity]. split; [discriminate|]. rewrite <- ER. intros y Hy; apply (proj2 LT), (remove_incl g'), Hy.
      - rewrite EP' in LT. destruct LT as [(x & E & _)|[(x & E & LT & _)|[E _]]]; try discriminate E. injection E as <-.
        destruct (remove g' todo) as [|x rs] eqn:ER; eexists; eexists; (split; [exact EN'|]); (split; [exact MI|]).
        + right; right. split; reflexivity.
        + right; left. exists (x :: rs). split; [reflexivity|]. split; [|reflexivity]. split; [discriminate|]. rewrite <- ER. intros y Hy; apply (proj2 LT), (remove_incl g'), Hy.
      - exists m. eexists. split; [exact EN'|]. split; [exact MI|exact LT].
    Qed.

    Lemma running p : reach spawned p -> exists q, (p <= q)%nat /\ reach (in_phase (eq RDone)) q.
    Proof.
      intros HR. destruct FAIR as (FW & FG & FT).
      assert (ONE : forall g, In g (su_guests su) -> exists q, (p <= q)%nat /\ reach (gd g) q).
      { intros g HI. destruct (FG _ HI) as (_ & F1 & F2). apply (guest_returns ky keccak pshash su until now0 sg RUN i g (mkKey (pc_for doc) g id) start ND (ONCE g) F1 F2 FT).
        destruct HR as (n & tr & HH & r & EN & (M1 & M2 & M3) & EP & EL). exists n, tr. split; [exact HH|]. exists r. split; [exact EN|]. rewrite EL. split.
        - apply loc_of_nodup; [rewrite map_map, map_id; exact ND|]. apply in_map_iff. eauto.
        - split; [|exact M3]. unfold rq_key, rq_pc. rewrite M1, M2. reflexivity. }
      assert (STAY : forall g, In g (su_guests su) -> forall a b, (a <= b)%nat -> reach (gd g) a -> reach (gd g) b).
      { intros g HI. apply stays. intros p0 n tr n' o A B C. eapply gdone_step; eassumption. }
      assert (ALL : forall gs, incl gs (su_guests su) -> exists q, (p <= q)%nat /\ forall g, In g gs -> reach (gd g) q).
      { induction gs as [|g gs IH]; intros HI; [exists p; split; [lia|intros g []]|]. destruct IH as (q1 & L1 & X1); [intros x Hx; apply HI; right; exact Hx|].
        assert (GI : In g (su_guests su)) by (apply HI; left; reflexivity). destruct (ONE g GI) as (q2 & L2 & X2). exists (Nat.max q1 q2). split; [lia|]. intros g' [<-|Hg].
        - apply (STAY g GI q2); [lia|exact X2].
        - apply (STAY g' (HI _ (or_intror Hg)) q1); [lia|apply X1, Hg]. }
      destruct (ALL (su_guests su)) as (q & L & X); [intros x Hx; exact Hx|].
      assert (Y : reach (fun n => in_phase (eq RRun) n \/ exists m, in_phase (later m) n) q).
      { apply (stays (fun n => in_phase (eq RRun) n \/ exists m, in_phase (later m) n)) with (p := p); [|exact L|].
        - intros p0 n tr n' o HH [HA|HB] HS; [eapply running_step; eassumption|right; eapply later_step; eassumption].
        - destruct HR as (n & tr & HH & r & EN & MI & EP & EL). exists n, tr. split; [exact HH|]. left. exists r. auto. }
      assert (W : reach (fun n => (in_phase (eq RRun) n \/ exists m, in_phase (later m) n) /\ forall g, In g (su_guests su) -> gd g n) q).
      { destruct Y as (n & tr & [HC HE] & HY). exists n, tr. split; [split; assumption|]. split; [exact HY|]. intros g HI. destruct (X g HI) as (n' & tr' & [HC' HE'] & D). rewrite HE in HE'. injection HE' as <- <-. exact D. }
      destruct W as (n & tr & HH & [HA|[m HB]] & HD); [|destruct (finishing m q) as (q' & L' & Z); [exists n, tr; auto|exists q'; split; [lia|exact Z]]].
      destruct (leads (fun n => in_phase (eq RRun) n /\ forall g, In g (su_guests su) -> gd g n) (fun n => exists m, in_phase (later m) n) _ 0 FW) with (p := q) as (q1 & L1 & n1 & tr1 & HH1 & m & X1).
      - clear - ND NE ONCE FAIR. intros p n tr n' o HH [HA HD] HS. destruct (running_step _ _ _ _ _ HH HA HS) as [A B]. split; [|intros E _; apply B; assumption].
        destruct A as [A|A]; [left|right; exact A]. split; [exact A|]. intros g HI. eapply gdone_step; [exact HH|apply HD, HI|exact HS].
      - exists n, tr. auto.
      - destruct (finishing m q1) as (q' & L' & Z); [exists n1, tr1; auto|exists q'; split; [lia|exact Z]].
    Qed.

    Lemma request_returns p t base : sg p = VRequest t base start doc -> i = requests_before sg p -> id = run_id_for base start ->
      exists q n tr r, (p <= q)%nat /\ history (upto_p q) n tr /\ nth_error (n_reqs n) i = Some r /\ mine r /\ rq_phase r = RDone /\
        forall g, In g (su_guests su) -> exists v, In (NPop (mkKey (pc_for doc) g id) v) tr.
    Proof.
      intros EV EI ED. destruct (RUN p) as (n & tr & HH). destruct (run_step ky keccak pshash su until now0 sg RUN _ _ _ HH) as (n' & o & HS & HH').
      pose proof (history_count _ _ _ HH) as CN. change (length (n_reqs n) = requests_before sg p) in CN. rewrite <- EI in CN.
      rewrite EV in HS. cbn [Node.nstep] in HS. injection HS as <- <-.
      assert (EN : nth_error (n_reqs (set_reqs n (n_reqs n ++ [new_request su base start doc]))) i = Some (new_request su base start doc)).
      { cbn. rewrite nth_error_app2, CN, Nat.sub_diag by lia. reflexivity. }
      assert (FIN : exists q, (p <= q)%nat /\ reach (in_phase (eq RDone)) q).
      { assert (SP : reach spawned (S p) -> exists q, (p <= q)%nat /\ reach (in_phase (eq RDone)) q).
        { intros X. destruct (running _ X) as (q & L & Y). exists q. split; [lia|exact Y]. }
        destruct (new_is base start doc NE) as [X|X]; rewrite <- ED in X.
        - destruct (registering (length (su_guests su)) (S p) (su_guests su)) as (q & L & Y).
          + split; [exact NE|intros x Hx; exact Hx].
          + reflexivity.
          + eexists _, _. split; [exact HH'|]. eexists. split; [exact EN|]. rewrite X. repeat split.
          + destruct (running _ Y) as (q' & L' & Z). exists q'. split; [lia|exact Z].
        - apply SP. eexists _, _. split; [exact HH'|]. eexists. split; [exact EN|]. rewrite X. repeat split. }
      destruct FIN as (q & L & n1 & tr1 & HH1 & r & EN1 & MI & EP). exists q, n1, tr1, r. split; [exact L|]. split; [exact HH1|]. split; [exact EN1|]. split; [exact MI|]. split; [auto|].
      intros g HI. pose proof (history_pops _ _ _ HH1 _ _ EN1) as PO. rewrite <- EP in PO. destruct (PO g HI) as [v Hv]. exists v.
      destruct MI as (M1 & M2 & M3). unfold rq_key, rq_pc in Hv. rewrite M1, M2 in Hv. exact Hv.
    Qed.
  End Request.
End NP.
