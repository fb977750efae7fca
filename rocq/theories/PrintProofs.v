(** Proofs about what is printed. *)
From Coq Require Import ZArith List Lia Bool Permutation.
From Coq Require Import Init.Byte.
From Verif Require Import Params Bytes Res Secp Dto Dss Schnorr Prot ProtSpec ProtProofs ProtProofs3 ProtProofs6 DkgProt KMap Firewall FwSpec Outputs Node NodeSpec NodeRun FwProofs NodeProofs NodeProofs2 NodeProofs3 NodeProofs4 NodeProofs5 NodeProofs6 NodeProofs7 ObjSpec ObjProofs3 ReachSpec ReachProofs
  Requests RequestsProofs Print.
Import ListNotations.
Open Scope Z_scope.

(** ** Lines *)
Definition numeric (c : byte) : bool := (z_of_byte c =? 45) || ((48 <=? z_of_byte c) && (z_of_byte c <=? 57)).
Lemma digits_numeric u : forallb numeric (digits u) = true.
Proof. induction u; cbn [digits forallb]; try rewrite IHu; reflexivity. Qed.
Lemma format_numeric z : forallb numeric (format_int z) = true.
Proof. unfold format_int. destruct (Z.to_int z); cbn [forallb]; rewrite digits_numeric; reflexivity. Qed.
Lemma numeric_out c l : forallb numeric l = true -> numeric c = false -> ~ In c l.
Proof. intros H N I. rewrite forallb_forall in H. rewrite (H _ I) in N. discriminate. Qed.
Lemma format_nonempty z : format_int z <> [].
Proof.
  destruct (Z.lt_trichotomy z 0) as [H|[->|H]]; [destruct (format_neg z H) as (l & E & _); rewrite E; discriminate|discriminate|]. destruct (format_length z H) as [L _]. intros E. rewrite E in L. cbn in L. lia.
Qed.
Lemma cut_at {A} (c : A) a : forall b x y, ~ In c a -> ~ In c b -> a ++ c :: x = b ++ c :: y -> a = b /\ x = y.
Proof.
  induction a as [|z a IH]; intros [|w b] x y NA NB E; cbn [app] in E.
  - injection E as E. auto.
  - injection E as E1 E2. subst. exfalso. apply NB. left. reflexivity.
  - injection E as E1 E2. subst. exfalso. apply NA. left. reflexivity.
  - injection E as E1 E2. subst w. destruct (IH b x y) as [-> ->]; auto; intros H; [apply NA|apply NB]; right; exact H.
Qed.
Lemma spaced_inj a : forall b, Forall (fun x => x <> [] /\ ~ In x20 x) a -> Forall (fun x => x <> [] /\ ~ In x20 x) b -> spaced a = spaced b -> a = b.
Proof.
  induction a as [|x a IH]; intros [|y b] FA FB E; auto.
  - exfalso. inversion FB as [|? ? [N _] _]; subst. cbn [spaced] in E. destruct y as [|c y]; [contradiction|]. destruct b; discriminate E.
  - exfalso. inversion FA as [|? ? [N _] _]; subst. cbn [spaced] in E. destruct x as [|c x]; [contradiction|]. destruct a; discriminate E.
  - inversion FA as [|? ? [NX SX] FA']; subst. inversion FB as [|? ? [NY SY] FB']; subst. cbn [spaced] in E. destruct a as [|x' a], b as [|y' b].
    + subst. reflexivity.
    + exfalso. apply SX. rewrite E. apply in_elt.
    + exfalso. apply SY. rewrite <- E. apply in_elt.
    + destruct (cut_at x20 _ _ _ _ SX SY E) as [-> E2]. f_equal. exact (IH _ FA' FB' E2).
Qed.
Lemma spaced_in c l : In c (spaced l) -> c = x20 \/ exists x, In x l /\ In c x.
Proof.
  induction l as [|x l IH]; [intros []|]. cbn [spaced]. destruct l as [|y l]; [intros H; right; exists x; split; [left; reflexivity|exact H]|]. intros H. apply in_app_or in H. destruct H as [H|[H|H]].
  - right. exists x. split; [left; reflexivity|exact H].
  - left. auto.
  - destruct (IH H) as [E|(z & A & B)]; [auto|]. right. exists z. split; [right; exact A|exact B].
Qed.
Lemma numbers_plain a : Forall (fun x => x <> [] /\ ~ In x20 x) (map (fun b => format_int (z_of_byte b)) a).
Proof. apply Forall_forall. intros x H. apply in_map_iff in H. destruct H as (b & <- & _). split; [apply format_nonempty|]. apply numeric_out; [apply format_numeric|reflexivity]. Qed.
Lemma numbers_inj a b : map (fun b => format_int (z_of_byte b)) a = map (fun b => format_int (z_of_byte b)) b -> a = b.
Proof. revert b. induction a as [|x a IH]; intros [|y b] E; try discriminate; [reflexivity|]. cbn [map] in E. injection E as E1 E2. apply format_int_inj, z_of_byte_inj in E1. rewrite E1, (IH _ E2). reflexivity. Qed.
Lemma print_int_inj a b : print_int a = print_int b -> a = b.
Proof.
  assert (X : forall z, format_int z <> s_nil) by (intros z E; pose proof (format_numeric z) as F; rewrite E in F; discriminate F).
  destruct a as [a|], b as [b|]; cbn [print_int]; intros E; [apply format_int_inj in E; congruence|destruct (X _ E)|destruct (X _ (eq_sym E))|reflexivity].
Qed.
Lemma print_sig_inj s s' : print_sig s = print_sig s' -> s = s'.
Proof.
  destruct s as [|a z], s' as [|a' z']; cbn [print_sig spaced]; try discriminate; [reflexivity|]. intros E. unfold print_bytes in E. cbn [app] in E. injection E as E. rewrite <- !app_assoc in E. cbn [app] in E.
  assert (NB : forall l, ~ In x5d (spaced (map (fun b => format_int (z_of_byte b)) l))).
  { intros l H. apply spaced_in in H. destruct H as [H|(x & A & B)]; [discriminate|]. apply in_map_iff in A. destruct A as (b & <- & _). revert B. apply numeric_out; [apply format_numeric|reflexivity]. }
  destruct (cut_at x5d _ _ _ _ (NB a) (NB a') E) as [E1 E2]. apply spaced_inj, numbers_inj in E1; [|apply numbers_plain|apply numbers_plain]. injection E2 as E2. apply app_inj_tail in E2. destruct E2 as [E2 _].
  apply print_int_inj in E2. congruence.
Qed.

(** ** Requests and what they print *)
Section NP.
  Context {G : Type}.
  Variable ky : kyber G.
  Variable keccak : bytes -> bytes.
  Variable pshash : Z -> Z -> bytes.
  Variable su : setup.
  Variable show_share : dks -> bytes.
  Notation node := (node (G := G)). Notation nevent := (nevent (G := G)).
  Notation nstep := (nstep ky keccak pshash su).
  Notation nexec := (nexec ky keccak pshash su).
  Notation printed := (printed ky keccak pshash su show_share).
  Notation result_line := (result_line show_share).
  Notation step_lines := (step_lines show_share).

  Lemma printed_app a : forall n b n1 o, nexec n a = Ok (n1, o) -> printed n (a ++ b) = printed n a ++ printed n1 b.
  Proof.
    induction a as [|ev a IH]; intros n b n1 o E; [cbn in E; injection E as <- _; reflexivity|]. cbn [Node.nexec] in E. cbn [app Print.printed].
    destruct (nstep n ev) as [[n2 o2]| |]; cbn [rbind fst snd] in E; try discriminate. destruct (nexec n2 a) as [[n3 o3]| |] eqn:E3; cbn [rbind fst snd] in E; try discriminate. injection E as <- _.
    rewrite (IH _ b _ _ E3), app_assoc. reflexivity.
  Qed.
  Lemma lines_app i a b : lines_of i (a ++ b) = lines_of i a ++ lines_of i b.
  Proof. unfold lines_of. rewrite filter_app, map_app. reflexivity. Qed.

  Lemma lines_one i x : lines_of i [(i, x)] = [x].
  Proof. unfold lines_of. cbn [filter fst]. rewrite Nat.eqb_refl. reflexivity. Qed.

  (** Steps but those that print or begin a request. *)
  Definition same (r r' : request) : Prop := rq_doc r' = rq_doc r /\ rq_id r' = rq_id r /\
    (rq_phase r' = rq_phase r \/ rq_phase r = RRun /\ rq_phase r' = match rq_doc r with Some _ => RDereg (su_guests su) | None => RPop (su_guests su) end).
  Definition kept_reqs (n n' : node) : Prop := length (n_reqs n') = length (n_reqs n) /\ forall j r', nth_error (n_reqs n') j = Some r' -> exists r, nth_error (n_reqs n) j = Some r /\ same r r'.
  Lemma kept_eq n n' : n_reqs n' = n_reqs n -> kept_reqs n n'.
  Proof. intros E. split; [rewrite E; reflexivity|]. intros j r' H. rewrite E in H. exists r'. split; [exact H|]. repeat split. left. reflexivity. Qed.
  Lemma kept_put n n' i r r1 : nth_error (n_reqs n) i = Some r -> n_reqs n' = put (n_reqs n) i r1 -> same r r1 -> kept_reqs n n'.
  Proof.
    intros EN E S. split; [rewrite E; apply put_length|]. intros j r' H. rewrite E in H. apply nth_put in H. destruct H as [[-> ->]|H]; [exists r; auto|].
    exists r'. split; [exact H|]. repeat split. left. reflexivity.
  Qed.
  Lemma quiet_step n ev n' o : nstep n ev = Ok (n', o) -> match ev with VGo _ _ _ | VRequest _ _ _ _ => True | _ => kept_reqs n n' end.
  Proof.
    assert (FW : forall fev, firewall ky keccak pshash su n fev = Ok (n', o) -> kept_reqs n n') by (intros fev EF; apply kept_eq; destruct (fw_plain _ _ _ _ _ _ _ _ EF) as (_ & _ & B & _); exact B).
    destruct ev as [now base start doc|now i g|now i|now i g gen|now m|now|now k c|now pc g gen|now pc g nonce ord|now j nonce ord]; cbn [Node.nstep]; intros HS; try exact I; try (apply (FW _ HS)).
    - injection HS as <- _. unfold request_wait. destruct (nth_error (n_reqs n) i) as [r|] eqn:EN; [|apply kept_eq; reflexivity]. destruct (rq_phase r) eqn:EP; try (apply kept_eq; reflexivity). destruct (forallb _ _); [|apply kept_eq; reflexivity].
      eapply kept_put; [exact EN|reflexivity|]. repeat split. right. auto.
    - unfold request_guest in HS. destruct (nth_error (n_reqs n) i) as [r|] eqn:EN; [|injection HS as <- _; apply kept_eq; reflexivity].
      destruct (loc_of (rq_locs r) g) as [l|] eqn:EL; [|injection HS as <- _; apply kept_eq; reflexivity].
      destruct (guest_go _ _ _ _ _ _ _ _ _ _) as [[[n1 l1] o1]| |] eqn:EG; cbn [rbind fst snd] in HS; try discriminate. injection HS as <- _.
      eapply kept_put; [exact EN|cbn; rewrite (guest_reqs _ _ _ _ _ _ _ _ _ _ _ _ _ EG); reflexivity|]. repeat split. left. reflexivity.
    - apply kept_eq. injection HS as HS. unfold consumer_take in HS; change (@fw_key) with (@key_of) in HS. destruct (kget (n_cons n) (qkey pc g)); [injection HS as <- _; auto|].
      destruct (kslice (n_qs n) (qkey pc g)) as [|m q]; [injection HS as <- _; auto|]. cbv zeta in HS.
      destruct (m_pc m <? 0); [injection HS as <- _; reflexivity|].
      destruct (ensure_run su _ now (key_of m) gen) as [[n2 j] o2] eqn:EE. injection HS as <- _. cbn [fst snd].
      destruct (ensure_eff _ _ _ _ _ _ _ _ EE) as (_ & _ & _ & Y1 & _). exact Y1.
    - apply kept_eq. unfold consumer_deliver in HS. destruct (kget (n_cons n) (qkey pc g)) as [[j m]|] eqn:EC; [|injection HS as <- _; auto].
      destruct (nth_error (n_heap n) j) as [[k r]|] eqn:EN; [|discriminate].
      destruct (deliver _ _ _ _ _) as [x| |] eqn:ED; cbn [rbind] in HS; try discriminate. cbv zeta in HS. injection HS as <- _. reflexivity.
    - apply kept_eq. unfold run_tick in HS. destruct (nth_error (n_heap n) j) as [[k r]|] eqn:EN; [|injection HS as <- _; auto].
      destruct (now <? r_wake r); [injection HS as <- _; auto|].
      destruct (tick _ _ _ _ _) as [x| |] eqn:ED; cbn [rbind] in HS; try discriminate. injection HS as <- _. reflexivity.
  Qed.
  (** Steps that print. *)
  Inductive gone (i : nat) (r : request) : request -> list nobs -> Prop :=
  | go_reg g todo : rq_phase r = RReg todo -> gone i r (match remove g todo with [] => spawn su r | _ => with_phase r (RReg (remove g todo)) end) []
  | go_dereg g todo : rq_phase r = RDereg todo -> gone i r (with_phase r (match remove g todo with [] => RPop (su_guests su) | _ => RDereg (remove g todo) end)) []
  | go_pop g todo v : rq_phase r = RPop todo -> In g todo -> gone i r (with_phase r (match remove g todo with [] => RDone | _ => RPop (remove g todo) end)) [NPop (rq_key r g) v].
  Lemma go_step n now i g n' o : nstep n (VGo now i g) = Ok (n', o) -> n' = n /\ o = [] \/ exists r r', nth_error (n_reqs n) i = Some r /\ n_reqs n' = put (n_reqs n) i r' /\ gone i r r' o.
  Proof.
    cbn [Node.nstep]. intros HS. unfold request_go in HS. destruct (nth_error (n_reqs n) i) as [r|] eqn:EN; [|injection HS as <- <-; auto].
    destruct (rq_phase r) as [todo| |todo|todo|] eqn:EP; try (injection HS as <- <-; auto; fail); (destruct (existsb (Z.eqb g) todo) eqn:EI; [|injection HS as <- <-; auto]); cbv zeta in HS; apply in_existsb in EI; right; exists r.
    - injection HS as <- <-. eexists. split; [reflexivity|]. split; [|apply (go_reg _ _ g todo EP)]; destruct (rq_doc r); reflexivity.
    - injection HS as <- <-. eexists. split; [reflexivity|]. split; [|apply (go_dereg _ _ g todo EP)]; reflexivity.
    - exists (with_phase r (match remove g todo with [] => RDone | _ => RPop (remove g todo) end)).
      destruct (rq_doc r), (snd (pop_output (n_outs n) (rq_key r g))) as [[]|]; try discriminate; try (injection HS as <- <-; split; [reflexivity|]; split; [reflexivity|]; apply (go_pop _ _ g todo _ EP EI)).
      destruct (_ <? _)%nat; [discriminate|]. injection HS as <- <-; split; [reflexivity|]; split; [reflexivity|]; apply (go_pop _ _ g todo _ EP EI).
  Qed.

  (** What a request has printed, by its phase. *)
  Definition told_of (tr : list nobs) (r : request) (todo : list Z) (l : list bytes) : Prop :=
    exists vs : list (Z * option output), Permutation (map fst vs ++ todo) (su_guests su) /\
      l = match rq_doc r with Some _ => [completed_line (rq_id r)] | None => [] end ++ map (fun x => result_line (fst x) (rq_id r) (snd x)) vs /\
      forall g v, In (g, v) vs -> In (NPop (rq_key r g) v) tr.
  Definition says (tr : list nobs) (r : request) (l : list bytes) : Prop :=
    match rq_phase r with RPop todo => told_of tr r todo l | RDone => told_of tr r [] l | _ => l = [] end.
  Definition PI (n : node) (tr : list nobs) (L : list (nat * bytes)) : Prop :=
    (forall i r, nth_error (n_reqs n) i = Some r -> says tr r (lines_of i L)) /\ (forall i, (length (n_reqs n) <= i)%nat -> lines_of i L = []).
  Lemma told_more tr o r todo l : told_of tr r todo l -> told_of (tr ++ o) r todo l.
  Proof. intros (vs & A & B & C). exists vs. split; [exact A|]. split; [exact B|]. intros g v H. apply in_or_app. left. exact (C g v H). Qed.
  Lemma says_more tr o r l : says tr r l -> says (tr ++ o) r l.
  Proof. unfold says. destruct (rq_phase r); auto; apply told_more. Qed.
  Lemma told_same tr r r' todo l : rq_doc r' = rq_doc r -> rq_id r' = rq_id r -> told_of tr r todo l -> told_of tr r' todo l.
  Proof. intros E1 E2 (vs & A & B & C). exists vs. unfold rq_key, rq_pc in *. rewrite E1, E2. auto. Qed.
  Lemma says_same tr r r' l : rq_doc r' = rq_doc r -> rq_id r' = rq_id r -> rq_phase r' = rq_phase r -> says tr r l -> says tr r' l.
  Proof. intros E1 E2 E3. unfold says. rewrite E3. destruct (rq_phase r); auto; apply told_same; assumption. Qed.
  Lemma remove_perm g todo : NoDup todo -> In g todo -> Permutation todo (g :: remove g todo).
  Proof.
    unfold remove. induction todo as [|x t IH]; intros ND H; [destruct H|]. inversion ND as [|? ? NI ND']; subst. cbn [filter]. destruct (Z.eqb_spec x g) as [->|NE]; cbn [negb].
    - apply perm_skip. assert (E : filter (fun x => negb (x =? g)) t = t); [|rewrite E; reflexivity].
      clear - NI. induction t as [|y t IH]; [reflexivity|]. cbn [filter]. destruct (Z.eqb_spec y g) as [->|]; [exfalso; apply NI; left; reflexivity|]. cbn [negb]. f_equal. apply IH. intros H. apply NI. right. exact H.
    - destruct H as [->|H]; [contradiction|]. eapply Permutation_trans; [apply perm_skip, IH; assumption|]. apply perm_swap.
  Qed.
  Lemma pi_step n ev n' o tr L : NoDup (su_guests su) -> PI n tr L -> nstep n ev = Ok (n', o) -> PI n' (tr ++ o) (L ++ step_lines n ev n' o).
  Proof.
    intros ND [P1 P2] HS. pose proof (quiet_step _ _ _ _ HS) as QS.
    assert (QT : match ev with VGo _ _ _ | VRequest _ _ _ _ => True | _ => step_lines n ev n' o = [] end) by (destruct ev; exact I || reflexivity).
    assert (QUIET : kept_reqs n n' -> step_lines n ev n' o = [] -> PI n' (tr ++ o) (L ++ step_lines n ev n' o)).
    { clear QS QT. intros [KL KN] ->. rewrite app_nil_r. split; [|intros i H; apply P2; rewrite <- KL; exact H]. intros i r' H. destruct (KN _ _ H) as (r & HR & S1 & S2 & S3). apply says_more. pose proof (P1 _ _ HR) as X.
      destruct S3 as [S3|[S3 S4]]; [eapply says_same; eassumption|]. unfold says in *. rewrite S3 in X. rewrite S4. destruct (rq_doc r) eqn:ED; [exact X|]. exists []. split; [apply Permutation_refl|]. split; [rewrite X, S1; reflexivity|intros ? ? []]. }
    destruct ev as [now base start doc|now i g|now i|now i g gen|now m|now|now k c|now pc g gen|now pc g nonce ord|now j nonce ord]; try (apply QUIET; assumption).
    - clear QUIET QS QT. cbn [Node.nstep] in HS. injection HS as <- <-. cbn [Print.step_lines]. rewrite !app_nil_r. split.
      + intros i r H. cbn [set_reqs n_reqs] in H. apply nth_snoc in H. destruct H as [[-> ->]|H]; [|exact (P1 _ _ H)]. unfold says. destruct (new_phase su base start doc) as [->|[-> _]]; apply P2, Nat.le_refl.
      + intros i H. apply P2. cbn [set_reqs n_reqs] in H. rewrite app_length in H. cbn in H. lia.
    - clear QS QT. destruct (go_step _ _ _ _ _ _ HS) as [[-> ->]|(r & r' & EN & EP & GO)].
      + apply QUIET; [apply kept_eq; reflexivity|]. cbn [Print.step_lines flat_map]. destruct (nth_error (n_reqs n) i) as [r|]; [|reflexivity]. destruct (rq_doc r), (rq_phase r); reflexivity.
      + clear QUIET. assert (EN' : nth_error (n_reqs n') i = Some r') by (rewrite EP; eapply put_same, EN). cbn [Print.step_lines]. rewrite EN, EN'.
        assert (OTHER : forall X, (forall y, In y X -> fst y = i) -> says (tr ++ o) r' (lines_of i (L ++ X)) -> PI n' (tr ++ o) (L ++ X)).
        { intros X HX HI. assert (NO : forall j, j <> i -> lines_of j X = []).
          { intros j NJ. unfold lines_of. assert (E : filter (fun x => Nat.eqb (fst x) j) X = []); [|rewrite E; reflexivity]. clear - HX NJ. induction X as [|y X IH]; [reflexivity|]. cbn [filter]. rewrite (HX y (or_introl eq_refl)).
            destruct (Nat.eqb_spec i j); [congruence|]. apply IH. intros z H. apply HX. right. exact H. }
          split.
          - intros j q H. rewrite EP in H. destruct (Nat.eq_dec j i) as [->|NJ].
            + rewrite (put_same _ _ _ _ EN) in H. injection H as <-. exact HI.
            + rewrite (put_diff _ _ _ _ NJ) in H. rewrite lines_app, (NO _ NJ), app_nil_r. apply says_more, P1, H.
          - intros j H. rewrite EP, put_length in H. rewrite lines_app, (P2 _ H). apply NO. intros ->. assert (i < length (n_reqs n))%nat by (apply nth_error_Some; congruence). lia. }
        apply OTHER.
        { intros y H. apply in_app_or in H. destruct H as [H|H]; [destruct (rq_doc r), (rq_phase r), (rq_phase r'); try destruct H as [<-|[]]; try destruct H; reflexivity|].
          apply in_flat_map in H. destruct H as (z & _ & H). destruct z; try destruct H. subst y. reflexivity. contradiction. }
        pose proof (P1 _ _ EN) as X. rewrite lines_app. unfold says in X. destruct GO as [g0 todo E1|g0 todo E1|g0 todo v E1 IG]; rewrite E1 in *.
        * destruct (remove g0 todo); cbn [spawn with_phase rq_phase flat_map app]; rewrite X; destruct (rq_doc r); reflexivity.
        * destruct (remove g0 todo) eqn:ER; cbn [with_phase rq_phase flat_map app]; rewrite X.
          -- unfold says. cbn [with_phase rq_phase]. exists []. split; [apply Permutation_refl|]. split; [|intros ? ? []]. cbn [with_phase rq_doc rq_id map app]. rewrite app_nil_r. unfold lines_of.
             destruct (rq_doc r); [cbn [filter fst map snd]; rewrite Nat.eqb_refl|]; reflexivity.
          -- destruct (rq_doc r); reflexivity.
        * destruct X as (vs & A & B & C).
          assert (NDT : NoDup todo). { apply (Permutation_NoDup (Permutation_sym A)) in ND. clear - ND. induction (map fst vs) as [|z l IH]; [exact ND|]. inversion ND; subst. auto. }
          assert (TT : told_of (tr ++ [NPop (rq_key r g0) v]) r (remove g0 todo) (lines_of i L ++ [result_line g0 (rq_id r) v])).
          { exists (vs ++ [(g0, v)]). split; [|split].
            - rewrite map_app, <- app_assoc. cbn [map fst app]. eapply Permutation_trans; [|exact A]. apply Permutation_app_head, Permutation_sym, remove_perm; assumption.
            - rewrite B, map_app, <- app_assoc. reflexivity.
            - intros g1 v1 H. apply in_app_or in H. destruct H as [H|[H|[]]]; [apply in_or_app; left; exact (C _ _ H)|]. injection H as <- <-. apply in_or_app. right. left. reflexivity. }
          unfold says. cbn [with_phase rq_phase]. destruct (remove g0 todo); cbn [flat_map app rq_key k_guest k_run]; replace (match rq_doc r with Some _ | _ => @nil (nat * bytes) end) with (@nil (nat * bytes)) by (destruct (rq_doc r); reflexivity); cbn [app]; rewrite lines_one; exact (told_same _ _ _ _ _ eq_refl eq_refl TT).
  Qed.
  Lemma history_pi until now0 evs n tr : NoDup (su_guests su) -> nhistory ky keccak pshash su until now0 evs n tr -> PI n tr (printed (start_node su until now0) evs).
  Proof.
    intros ND. revert n tr. induction evs as [|ev evs IH] using rev_ind; intros n tr HH.
    - destruct HH as [_ HH]. cbn in HH. injection HH as <- <-. split; [intros [|i] r H; discriminate H|reflexivity].
    - destruct (history_cut _ _ _ _ _ _ _ _ _ _ HH) as (n1 & tr1 & o & H1 & S1 & ->). destruct H1 as [C1 H1]. rewrite (printed_app _ _ _ _ _ H1). cbn [Print.printed]. rewrite S1, app_nil_r.
      apply pi_step; [exact ND|apply IH; split; assumption|exact S1].
  Qed.
  (** The requests made, in order. *)
  Lemma history_asked until now0 evs n tr : nhistory ky keccak pshash su until now0 evs n tr ->
    map (fun r => (rq_doc r, rq_id r)) (n_reqs n) = flat_map (fun ev : nevent => match ev with VRequest _ base start doc => [(doc, run_id_for base start)] | _ => [] end) evs.
  Proof.
    revert n tr. induction evs as [|ev evs IH] using rev_ind; intros n tr HH.
    - destruct HH as [_ HH]. cbn in HH. injection HH as <- <-. reflexivity.
    - destruct (history_cut _ _ _ _ _ _ _ _ _ _ HH) as (n1 & tr1 & o & H1 & S1 & ->). rewrite flat_map_app, <- (IH _ _ H1). clear IH HH H1. pose proof (quiet_step _ _ _ _ S1) as QS.
      assert (SAME : kept_reqs n1 n -> map (fun r => (rq_doc r, rq_id r)) (n_reqs n) = map (fun r => (rq_doc r, rq_id r)) (n_reqs n1)).
      { intros [KL KN]. apply nth_ext with (d := (None, [])) (d' := (None, [])); [rewrite !map_length; exact KL|]. intros j Hj. rewrite map_length in Hj.
        destruct (nth_error (n_reqs n) j) as [r'|] eqn:E'; [|apply nth_error_None in E'; lia]. destruct (KN _ _ E') as (r & E & A & B & _).
        rewrite (nth_error_nth _ _ (None, []) (map_nth_error (fun r => (rq_doc r, rq_id r)) _ _ E')), (nth_error_nth _ _ (None, []) (map_nth_error (fun r => (rq_doc r, rq_id r)) _ _ E)), A, B. reflexivity. }
      destruct ev as [now base start doc|now i g|now i|now i g gen|now m|now|now k c|now pc g gen|now pc g nonce ord|now j nonce ord]; cbn [flat_map app]; rewrite ?app_nil_r; try (apply SAME, QS).
      + cbn [Node.nstep] in S1. injection S1 as <- _. cbn [set_reqs n_reqs]. rewrite map_app. cbn [map]. f_equal. f_equal. unfold new_request. destruct doc; [destruct (su_guests su)|]; reflexivity.
      + destruct (go_step _ _ _ _ _ _ S1) as [[-> _]|(r & r' & EN & EP & GO)]; [reflexivity|]. rewrite EP. apply (map_put _ _ _ _ r EN). destruct GO as [g0 todo E1|g0 todo E1|g0 todo v E1 IG]; [destruct (remove g0 todo)| |]; reflexivity.
  Qed.
  (** Every output taken is printed. *)
  Lemma pop_printed n ev n' o k v : nstep n ev = Ok (n', o) -> In (NPop k v) o -> exists i, In (i, result_line (k_guest k) (k_run k) v) (step_lines n ev n' o).
  Proof.
    intros HS IN. destruct (req_kinds _ _ _ _ _ _ _ _ HS) as [(_ & _ & F)|[(? & ? & ? & _ & _ & ->)|(i & r & r' & EN & EP & RT)]].
    - exfalso. rewrite Forall_forall in F. exact (F _ IN).
    - destruct IN.
    - destruct ev as [now base start doc|now i0 g|now i0|now i0 g gen|now m|now|now k0 c|now pc g gen|now pc g nonce ord|now j nonce ord].
      2: { destruct (go_step _ _ _ _ _ _ HS) as [[_ ->]|(q & q' & EN1 & EP1 & GO)]; [destruct IN|]. exists i0. cbn [Print.step_lines]. rewrite EN1, EP1, (put_same _ _ _ _ EN1). apply in_or_app. right. apply in_flat_map. exists (NPop k v). split; [exact IN|left; reflexivity]. }
      all: exfalso.
      all: destruct RT as [g1 todo E1 I1 D1|g1 todo E1 I1 D1|g1 todo v1 E1 I1 D1|E1 F1 D1|g1 l l' o E1 E2 D1 F]; try (destruct IN; fail); try (rewrite Forall_forall in F; exact (F _ IN)).
      all: pose proof (quiet_step _ _ _ _ HS) as QS; cbn beta match in QS.
      1: { cbn [Node.nstep] in HS. injection HS as _ HS. discriminate HS. }
      all: destruct QS as [_ QS]; destruct (QS i _ ltac:(rewrite EP; eapply put_same, EN)) as (q & EQ & _ & _ & [PH|[PH _]]); rewrite EN in EQ; injection EQ as <-; rewrite E1 in PH; cbn [with_phase rq_phase] in PH; [|discriminate PH].
      all: destruct (remove g1 todo) as [|z l] eqn:ER; [discriminate PH|]; injection PH as PH; unfold remove in ER; rewrite <- PH in I1; rewrite <- ER in I1; apply filter_In in I1; destruct I1 as [_ I1]; rewrite Z.eqb_refl in I1; discriminate I1.
  Qed.
  (** A request prints after its runs. *)
  Lemma ended_told until now0 evs n tr : nhistory ky keccak pshash su until now0 evs n tr ->
    forall j k r, nth_error (n_heap n) j = Some (k, r) -> r_term r = true -> exists t, In (NRun k (OTerm t)) tr.
  Proof.
    intros HH. destruct (history_ind ky keccak pshash su until now0 (fun _ tr n => forall j k r, nth_error (n_heap n) j = Some (k, r) -> r_term r = true -> exists t, In (NRun k (OTerm t)) tr)) with (3 := HH) as (_ & _ & X); [| |exact X].
    - clear. intros evs tr n T ev n' o [_ R] _ _ P HS j k r EJ ET.
      assert (OLD : nth_error (n_heap n) j = Some (k, r) -> exists t, In (NRun k (OTerm t)) (tr ++ o)). { intros E. destruct (P _ _ _ E ET) as (t & H). exists t. apply in_or_app. auto. }
      destruct (heap_kinds _ _ _ _ _ _ _ _ HS) as [[E _]|[(k0 & gen & t & a & _ & E & _)|(k0 & j0 & r0 & pev & [r1 t1] & EN & ES & E & EO)]]; rewrite E in EJ.
      + apply OLD, EJ.
      + apply nth_snoc in EJ. destruct EJ as [[_ EJ]|EJ]; [|apply OLD, EJ]. injection EJ as _ EJ. rewrite EJ in ET. discriminate ET.
      + apply nth_put in EJ. destruct EJ as [[-> EJ]|EJ]; [|apply OLD, EJ]. cbn [fst snd] in EJ, EO. injection EJ as -> ->. destruct (r_term r0) eqn:E0.
        * destruct (P _ _ _ EN E0) as (t & H). exists t. apply in_or_app. auto.
        * destruct (r_heap _ _ _ _ _ _ _ _ R _ _ _ EN) as (_ & _ & gen & pevs & rtr & EX & _). pose proof (exec_snoc _ _ _ _ _ _ _ _ _ EX ES) as EX2.
          destruct (iv_link _ _ _ _ _ (run_inv _ _ _ _ _ _ EX)) as (_ & _ & L1). destruct (iv_link _ _ _ _ _ (run_inv _ _ _ _ _ _ EX2)) as (_ & _ & L2). rewrite terminated_app, L1, E0, ET in L2. cbn [orb] in L2.
          unfold terminated_in in L2. apply existsb_exists in L2. destruct L2 as (x & IX & QX). destruct x; try discriminate QX. eexists. apply in_or_app. right. rewrite EO. apply in_map. exact IX.
    - intros [|j] k r E; discriminate E.
  Qed.
  Lemma printed_after until now0 evs n tr i r g : NoDup (su_guests su) -> nhistory ky keccak pshash su until now0 evs n tr -> nth_error (n_reqs n) i = Some r ->
    lines_of i (printed (start_node su until now0) evs) <> [] -> In g (su_guests su) -> exists t, In (NRun (rq_key r g) (OTerm t)) tr.
  Proof.
    intros ND HH EN NE IG. pose proof (proj1 (history_pi _ _ _ _ _ ND HH) _ _ EN) as S. unfold says in S.
    destruct (history_silent ky keccak pshash su until now0 evs n tr (rq_key r g) (rq_key r g) ND HH) as (_ & _ & _ & TDx & LPx); [repeat split; exact IG|].
    pose proof (history_ph _ _ _ _ _ _ _ _ _ HH _ _ EN) as A. pose proof (LPx _ _ EN) as B.
    assert (X : forallb (fun x => guest_done (snd x)) (rq_locs r) = true /\ map fst (rq_locs r) = su_guests su) by (destruct (rq_phase r); try contradiction; auto).
    destruct X as [X Y]. rewrite <- Y in IG. apply in_map_iff in IG. destruct IG as ([g0 l] & E & HL). cbn in E. subst g0. rewrite forallb_forall in X. specialize (X _ HL).
    pose proof (TDx _ _ _ _ EN HL X) as TT. apply terminated_in_heap in TT. destruct TT as (j & q & EH & ET). exact (ended_told _ _ _ _ _ HH _ _ _ EH ET).
  Qed.
End NP.
