(** The outputs that requests return are those the runs gave last. *)
From Coq Require Import ZArith List Lia Bool.
From Coq Require Import Init.Byte.
From Verif Require Import Params Bytes Res Secp Dto Dss Prot ProtSpec ProtProofs DkgProt DkgProofs KMap Firewall FwSpec FwProofs
  Outputs Node NodeSpec NodeRun NodeProofs NodeProofs2 NodeProofs3 NodeProofs4 NodeProofs5 NodeProofs6 NodeProofs7 ObjSpec ObjProofs.
Import ListNotations.
Open Scope Z_scope.

Section NP.
  Context {G : Type}.
  Variable ky : kyber G.
  Variable keccak : bytes -> bytes.
  Variable pshash : Z -> Z -> bytes.
  Variable su : setup.
  Variables until now0 : Z.
  Notation nevent := (nevent (G := G)). Notation node := (node (G := G)).
  Implicit Types (evs : list nevent) (n : node) (tr : list nobs).
  Notation nstep := (nstep ky keccak pshash su).

  Definition calm_out (o : nobs) : Prop := plain o /\ no_pop o.
  Lemma calm_outs o : Forall plain o -> Forall no_pop o -> Forall calm_out o.
  Proof. rewrite !Forall_forall. intros A B x H. split; auto. Qed.
  Definition outs_kind n n' (o : list nobs) : Prop :=
    (n_outs n' = n_outs n /\ Forall (fun x => no_pop x /\ forall k y, x <> NRun k y) o) \/
    (exists k, n_outs n' = kdel (n_outs n) k /\ o = [NPop k (kget (n_outs n) k)]) \/
    (exists k os, n_outs n' = push_all (n_outs n) k os /\ o = map (NRun k) os).
  Lemma outs_kinds n ev n' o : nstep n ev = Ok (n', o) -> outs_kind n n' o.
  Proof.
    intros HS. assert (NOP : Ok (n, []) = Ok (n', o) -> outs_kind n n' o) by (intros E; injection E as <- <-; left; auto).
    assert (Q : forall n' o, n_outs n' = n_outs n -> Forall plain o -> Forall no_pop o -> outs_kind n n' o).
    { intros n1 o1 E A B. left. split; [exact E|]. rewrite Forall_forall in *. intros x H. split; [apply B, H|]. intros k y ->. exact (A _ H). }
    assert (QC : forall n' a t k, n_outs n' = n_outs n -> Forall plain a -> Forall no_pop (a ++ [NCreate t k]) -> outs_kind n n' (a ++ [NCreate t k])).
    { intros n1 a t k E A B. left. split; [exact E|]. rewrite Forall_forall in *. intros x H. split; [apply B, H|]. intros k1 y ->. apply in_app_or in H. destruct H as [H|[H|[]]]; [exact (A _ H)|discriminate]. }
    assert (FW : forall fev, firewall ky keccak pshash su n fev = Ok (n', o) -> outs_kind n n' o).
    { intros fev H. pose proof (firewall_outs _ _ _ _ _ _ _ _ H) as [A B]. destruct (fw_plain _ _ _ _ _ _ _ _ H) as (_ & _ & _ & C & _). apply Q; assumption. }
    destruct ev as [now base start doc|now i g|now i|now i g gen|now m|now|now k c|now pc g gen|now pc g nonce ord|now j nonce ord]; cbn [Node.nstep] in HS.
    - injection HS as <- <-. apply Q; [reflexivity|constructor..].
    - unfold request_go in HS. destruct (nth_error _ i) as [r|]; [|auto]. destruct (rq_phase r) as [todo| |todo|todo|]; try (apply NOP; exact HS).
      + destruct (existsb _ _); [|auto]. cbv zeta in HS. injection HS as <- <-. apply Q; [|constructor..]. destruct (rq_doc r); reflexivity.
      + destruct (existsb _ _); [|auto]. cbv zeta in HS. injection HS as <- <-. apply Q; [reflexivity|constructor..].
      + destruct (existsb _ _); [|auto]. cbv zeta in HS. cbn [pop_output fst snd] in HS. right. left. exists (rq_key r g).
        destruct (rq_doc r), (kget (n_outs n) (rq_key r g)) as [[]|]; try discriminate; try (injection HS as <- <-; split; reflexivity).
        destruct (_ <? _)%nat; [discriminate|]. injection HS as <- <-; split; reflexivity.
    - injection HS as <- <-. apply Q; [|constructor..]. unfold request_wait. destruct (nth_error _ i) as [r|]; [|reflexivity].
      destruct (rq_phase r); try reflexivity. destruct (forallb _ _); reflexivity.
    - unfold request_guest in HS. destruct (nth_error _ i) as [r|]; [|auto]. destruct (loc_of _ g) as [l|]; [|auto].
      destruct (guest_go _ _ _ _ _ _ _ _ _ _) as [[[n1 l1] o1]| |] eqn:EG; cbn [rbind fst snd] in HS; try discriminate. injection HS as <- <-.
      destruct (guest_heap _ _ _ _ _ _ _ _ _ _ _ _ _ EG) as (A & _ & B & _).
      assert (X : n_outs n1 = n_outs n).
      { clear A B. assert (RECV : forall c l2, (if chan_ready n (rq_key r g) c then x <- firewall ky keccak pshash su n (EvRecv now (rq_key r g) c) ;; Ok (fst x, l2, snd x) else Ok (n, l, [])) = Ok (n1, l1, o1) -> n_outs n1 = n_outs n).
        { intros c l2. destruct (chan_ready _ _ _); [|intros E; injection E as <- <- <-; reflexivity].
          destruct (firewall _ _ _ _ _ _) as [[n2 o2]| |] eqn:EF; cbn [rbind fst snd]; try discriminate. intros E. injection E as <- <- <-. eapply firewall_outs, EF. }
        unfold guest_go in EG. cbv zeta in EG. destruct l as [|c|c|c|c|c| |]; try (eapply RECV, EG).
        - destruct (firewall _ _ _ _ _ _) as [[n2 o2]| |] eqn:EF; cbn [rbind fst snd] in EG; try discriminate. injection EG as <- <- <-. eapply firewall_outs, EF.
        - destruct (_ <? _); [injection EG as <- <- <-; reflexivity|]. destruct (ensure_run _ _ _ _ _) as [[n2 j2] o2] eqn:EE. cbn [fst snd] in EG. injection EG as <- <- <-. eapply ensure_outs, EE.
        - destruct (terminated_run _ _); injection EG as <- <- <-; reflexivity.
        - destruct (receive _ _ _ _ _ _) as [[n2 o2]| |] eqn:ER; try discriminate; cbn [fst snd] in EG; injection EG as <- <- <-; [|reflexivity].
          apply (receive_outs _ _ _ _ _ _ _ _ ER).
        - injection EG as <- <- <-; reflexivity. }
      destruct A as [[_ A]|(gen0 & t & a & _ & _ & A & ->)]; [apply Q; assumption|apply QC; assumption].
    - eapply FW, HS.
    - eapply FW, HS.
    - eapply FW, HS.
    - unfold consumer_take in HS. destruct (kget (n_cons n) (qkey pc g)); [auto|]. destruct (kslice (n_qs n) (qkey pc g)) as [|m q]; [auto|]. cbv zeta in HS.
      destruct (_ <? 0); [injection HS as <- <-; apply Q; [reflexivity|repeat constructor..]|].
      destruct (ensure_run _ _ _ _ _) as [[n2 j2] o2] eqn:EE. cbn [fst snd] in HS. injection HS as <- <-. pose proof (ensure_outs _ _ _ _ _ _ _ _ EE) as [A B].
      destruct (ensure_plain _ _ _ _ _ _ _ _ EE) as [[_ ->]|(gen0 & t & a & _ & _ & C & ->)]; [apply Q; [exact A|repeat constructor..]|].
      change (NTake m :: a ++ [NCreate t (fw_key m)]) with ((NTake m :: a) ++ [NCreate t (fw_key m)]). apply QC; [exact A|constructor; [exact I|exact C]|constructor; [exact I|exact B]].
    - unfold consumer_deliver in HS. destruct (kget (n_cons n) (qkey pc g)) as [[j m]|]; [|auto]. destruct (nth_error (n_heap n) j) as [[k r]|]; [|discriminate].
      destruct (deliver _ _ _ _ _) as [x| |]; cbn [rbind] in HS; try discriminate. cbv zeta in HS. injection HS as <- <-.
      right. right. exists k, (snd x). split; reflexivity.
    - unfold run_tick in HS. destruct (nth_error (n_heap n) j) as [[k r]|]; [|auto]. destruct (_ <? _); [auto|].
      destruct (tick _ _ _ _ _) as [x| |]; cbn [rbind] in HS; try discriminate. injection HS as <- <-.
      right. right. exists k, (snd x). split; reflexivity.
  Qed.

  Definition keep1 (k : key) (acc : option output) (o : nobs) : option output :=
    match o with
    | NRun k' (OOutput pc v) => if key_eqb (mkKey pc (k_guest k') (k_run k')) k then Some v else acc
    | NPop k' _ => if key_eqb k' k then None else acc
    | _ => acc end.
  Lemma kept_app k a b : kept k (a ++ b) = fold_left (keep1 k) b (kept k a).
  Proof. unfold kept. rewrite fold_left_app. reflexivity. Qed.
  Lemma keep_push k k1 os : forall m, kget (push_all m k1 os) k = fold_left (keep1 k) (map (NRun k1) os) (kget m k).
  Proof.
    induction os as [|x os IH]; intros m; [reflexivity|]. destruct x; cbn [push_all map fold_left keep1]; try apply IH.
    rewrite IH. unfold push_output. rewrite kget_kset. reflexivity.
  Qed.
  Lemma kept_step tr n ev n' o k : kget (n_outs n) k = kept k tr -> nstep n ev = Ok (n', o) -> kget (n_outs n') k = kept k (tr ++ o) /\
    forall a k' v b, o = a ++ NPop k' v :: b -> a = [] /\ v = kget (n_outs n) k'.
  Proof.
    intros H HS. rewrite kept_app, <- H. destruct (outs_kinds _ _ _ _ HS) as [[E F]|[(k1 & E & ->)|(k1 & os & E & ->)]].
    - split; [|intros a k' v b E1; exfalso; rewrite Forall_forall in F; destruct (F (NPop k' v)) as [X _]; [rewrite E1; apply in_elt|exact X]].
      rewrite E. clear - F. generalize (kget (n_outs n) k). induction F as [|x l [A B] _ IH]; intros v; [reflexivity|]. cbn. rewrite <- IH. destruct x; try reflexivity; [destruct (B k0 o); reflexivity|destruct A].
    - split; [cbn; rewrite E, kget_kdel; reflexivity|]. intros a k' v b E1. destruct a as [|x [|y a]]; cbn in E1; [injection E1 as <- <- _; auto|discriminate..].
    - split; [rewrite E; apply keep_push|]. intros a k' v b E1. exfalso. assert (X : In (NPop k' v) (map (NRun k1) os)) by (rewrite E1; apply in_elt). apply in_map_iff in X. destruct X as (? & X & _). discriminate.
  Qed.
  Lemma history_kept evs n tr : nexec ky keccak pshash su (start_node su until now0) evs = Ok (n, tr) ->
    (forall k, kget (n_outs n) k = kept k tr) /\ (forall a k v b, tr = a ++ NPop k v :: b -> v = kept k a).
  Proof.
    revert n tr. induction evs as [|ev evs IH] using rev_ind; intros n tr.
    - cbn. intros E. injection E as <- <-. split; [reflexivity|]. intros [|? ?] k v b E; discriminate.
    - intros E. rewrite nexec_app in E. destruct (nexec ky keccak pshash su _ evs) as [[n1 o1]| |] eqn:E1; cbn [rbind fst snd] in E; try discriminate.
      cbn [nexec] in E. destruct (nstep n1 ev) as [[n2 o2]| |] eqn:E2; cbn [rbind fst snd] in E; try discriminate. injection E as <- <-. rewrite app_nil_r.
      destruct (IH _ _ eq_refl) as [A B]. split; [intros k; apply (proj1 (kept_step _ _ _ _ _ k (A k) E2))|].
      intros a k v b E. apply app_eq_app in E. destruct E as (l & [[-> E]|[-> E]]).
      + destruct l as [|y l]; cbn in E; [|injection E as <- _; apply (B _ _ _ _ eq_refl)].
        destruct (proj2 (kept_step _ _ _ _ _ k (A k) E2) [] k v b) as [_ ->]; [symmetry; exact E|]. rewrite app_nil_r in A. apply A.
      + destruct (proj2 (kept_step _ _ _ _ _ k (A k) E2) _ _ _ _ E) as [-> ->]. rewrite app_nil_r. apply A.
  Qed.
End NP.
