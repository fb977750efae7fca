(** Statements about infinite schedules: requests return. *)
From Coq Require Import ZArith List Lia Bool Permutation Arith.
From Coq Require Cantor.
From Coq Require Import Init.Byte.
From Verif Require Import Params Bytes Res Secp Spec Dto Dss Prot ProtSpec DkgProt DkgSpec KMap Firewall Outputs Node NodeSpec FairSpec
  NodeProofs11 PropsNode PropsNode4.
Import ListNotations.
Open Scope Z_scope.

Section Statements.
  Context {G : Type}.
  Variable ky : kyber G.
  Variable keccak : bytes -> bytes.
  Variable pshash : Z -> Z -> bytes.
  Variable su : setup.
  Variables until now0 : Z.
  Notation history := (nhistory ky keccak pshash su until now0).
  Notation nevent := (nevent (G := G)).
  Variable sg : nat -> nevent.

  (** Request [i], for the document [doc] (None: key generation) under the id [id], returned having collected an output, or
      the lack of one, for every guest. *)
  Definition returned (i : nat) (doc : option Z) (id : bytes) (n : node (G := G)) (tr : list nobs) : Prop :=
    exists r, nth_error (n_reqs n) i = Some r /\ rq_doc r = doc /\ rq_id r = id /\ rq_phase r = RDone /\
      forall g, In g (su_guests su) -> exists v, In (NPop (mkKey (pc_for doc) g id) v) tr.

  (** ** C89.  A request returns, whatever comes in and whatever the other nodes do, if its id is not used twice, its
      goroutines get their turns and the node does not crash. *)
  Theorem C89_requests_return p t base start doc :
    (forall q, exists n tr, history (prefix sg q) n tr) -> NoDup (su_guests su) -> su_guests su <> [] ->
    sg p = VRequest t base start doc ->
    (forall q g, (requests_for (mkKey (pc_for doc) g (run_id_for base start)) (prefix sg q) <= 1)%nat) ->
    fair_to sg su (requests_before sg p) (pc_for doc) (run_id_for base start) ->
    exists q n tr, history (prefix sg q) n tr /\ returned (requests_before sg p) doc (run_id_for base start) n tr.
  Proof.
    intros RUN ND NE EV ONCE FAIR.
    destruct (request_returns ky keccak pshash su until now0 sg RUN (requests_before sg p) doc (run_id_for base start) start ND NE (fun g q => ONCE q g) FAIR p t base EV eq_refl eq_refl)
      as (q & n & tr & r & _ & HH & EN & (M1 & M2 & _) & EP & X).
    exists q, n, tr. split; [exact HH|]. exists r. auto.
  Qed.
  (** A node that only signs: it does not crash (C88), so every request returns. *)
  Theorem C89_signing_requests_return p t base start doc :
    good_setup ky su -> su_guests su <> [] ->
    (forall q, nclock now0 (prefix sg q) /\ harmless (prefix sg q) /\ signing_ids_differ (prefix sg q)) ->
    (forall q t base start d, sg q = VRequest t base start d -> d <> None) ->
    sg p = VRequest t base start doc ->
    fair_to sg su (requests_before sg p) pc_dss (run_id_for base start) ->
    exists q n tr, history (prefix sg q) n tr /\ returned (requests_before sg p) doc (run_id_for base start) n tr.
  Proof.
    intros GS NE HP HD EV FAIR. assert (PC : pc_for doc = pc_dss) by (destruct doc; [reflexivity|destruct (HD _ _ _ _ _ EV eq_refl)]).
    apply (C89_requests_return p t base start doc); [|apply GS|exact NE|exact EV| |rewrite PC; exact FAIR].
    - intros q. destruct (HP q) as (A & B & C). apply C88_signing_node_survives; auto. intros t0 b0 s0 d0 HI. apply in_map_iff in HI. destruct HI as (m & E & _). exact (HD _ _ _ _ _ E).
    - intros q g. destruct (HP q) as (_ & _ & C). apply C. exact PC.
  Qed.
End Statements.

(** A schedule that is fair to everyone: one request, then every other step at ever later times. *)
Definition ex_step (t : Z) (m : nat) : nevent (G := Z) :=
  let '(x, y) := Cantor.of_nat (fst (Cantor.of_nat m)) in
  match x with
  | 0 => VWait t 0
  | 1 => VGo t 0 0
  | 2 => VGuest t 0 0 7%Z
  | 3 => VFw t (mkKey pc_dss 0 (run_id_for [x61] 100)) y
  | _ => VTick t y 9 (fun _ l => l)
  end%nat.
Definition ex_sg (p : nat) : nevent (G := Z) :=
  match p with O => VRequest 0 [x61] 100 (Some 10) | S m => ex_step (Z.of_nat m) m end.
Lemma ex_step_time t m : ntime (ex_step t m) = t.
Proof. unfold ex_step. destruct (Cantor.of_nat _) as [[|[|[|[|x]]]] y]; reflexivity. Qed.
Lemma ex_again (h : nevent (G := Z) -> Prop) x y : (forall t m, fst (Cantor.of_nat m) = Cantor.to_nat (x, y) -> h (ex_step t m)) -> again ex_sg h.
Proof.
  intros H T p. set (b := (p + Z.to_nat T)%nat). set (m := Cantor.to_nat (Cantor.to_nat (x, y), b)).
  assert (L : (b <= m)%nat) by (pose proof (Cantor.to_nat_non_decreasing (Cantor.to_nat (x, y)) b); unfold m; lia).
  exists (S m). split; [lia|]. cbn [ex_sg]. rewrite ex_step_time. split; [apply H; unfold m; rewrite Cantor.cancel_of_to; reflexivity|lia].
Qed.
Lemma ex_fair : fair_to ex_sg ex_su8 0 pc_dss (run_id_for [x61] 100).
Proof.
  split; [|split].
  - apply (ex_again _ 0%nat 0%nat). intros t m E. unfold ex_step. rewrite E, Cantor.cancel_of_to. eauto.
  - intros g [<-|[]]. split; [|split].
    + apply (ex_again _ 1%nat 0%nat). intros t m E. unfold ex_step. rewrite E, Cantor.cancel_of_to. eauto.
    + apply (ex_again _ 2%nat 0%nat). intros t m E. unfold ex_step. rewrite E, Cantor.cancel_of_to. eauto.
    + intros c. apply (ex_again _ 3%nat c). intros t m E. unfold ex_step. rewrite E, Cantor.cancel_of_to. eauto.
  - intros j. apply (ex_again _ 4%nat j). intros t m E. unfold ex_step. rewrite E, Cantor.cancel_of_to. eauto.
Qed.
Lemma ex_sg_clock q : nclock 0 (prefix ex_sg q).
Proof.
  unfold prefix. destruct q as [|q]; [exact I|]. cbn. split; [lia|].
  assert (X : forall q a t, t <= Z.of_nat a -> nclock t (map ex_sg (seq (S a) q))).
  { clear. induction q as [|q IH]; intros a t H; [exact I|]. cbn. rewrite ex_step_time. split; [exact H|]. apply IH. lia. }
  apply X. lia.
Qed.
Example C89_ex : good_setup ex_ky8 ex_su8 /\ su_guests ex_su8 <> [] /\
  (forall q, nclock 0 (prefix ex_sg q) /\ harmless (prefix ex_sg q) /\ signing_ids_differ (prefix ex_sg q)) /\
  (forall q t base start d, ex_sg q = VRequest t base start d -> d <> None) /\
  ex_sg 0 = VRequest 0 [x61] 100 (Some 10) /\ fair_to ex_sg ex_su8 (requests_before ex_sg 0) pc_dss (run_id_for [x61] 100).
Proof.
  split; [exact ex_good8|]. split; [discriminate|]. split; [|split; [|split; [reflexivity|exact ex_fair]]].
  - intros q. split; [apply ex_sg_clock|]. split.
    + apply Forall_forall. intros ev H. apply in_map_iff in H. destruct H as ([|m] & <- & _); [exact I|]. cbn [ex_sg]. unfold ex_step.
      destruct (Cantor.of_nat _) as [[|[|[|[|x]]]] y]; try exact I. intros i l. apply Permutation_refl.
    + intros k _. unfold requests_for, prefix. destruct q as [|q]; [cbn; lia|]. cbn [seq map].
      assert (X : filter (is_request k) (map ex_sg (seq 1 q)) = []).
      { generalize 0%nat. induction q as [|q IH]; intros a; [reflexivity|]. cbn [seq map filter]. rewrite IH. cbn [ex_sg]. unfold ex_step.
        destruct (Cantor.of_nat _) as [[|[|[|[|x]]]] y]; reflexivity. }
      cbn [filter]. rewrite X. destruct (is_request k _); cbn; lia.
  - intros [|m] t base start d E; [injection E as _ _ _ <-; discriminate|]. cbn [ex_sg] in E. unfold ex_step in E. destruct (Cantor.of_nat _) as [[|[|[|[|x]]]] y]; discriminate.
Qed.

Print Assumptions C89_requests_return. Print Assumptions C89_signing_requests_return. Print Assumptions C89_ex.
