(** Property theorems C59, C60 and C86: the outputs of protocol runs. *)
From Coq Require Import ZArith List Lia Bool.
From Coq Require Import Init.Byte.
From Verif Require Import Params NumTh Curve Order Bytes Res Secp Spec SecpProofs SecpProofs2 PublicKey Schnorr
  Dss DssSpec DssProofs DssProofs2 DssProofs3 Dto DtoSpec DtoProofs Prot ProtSpec ProtProofs ProtProofs3 ProtProofs5
  DkgProt DkgSpec DkgProofs DkgEnd KMap Outputs PropsDkg.
Import ListNotations.
Open Scope Z_scope.

(** ** C59 *)
(** v was pushed for k, and since then nothing was pushed or popped for k. *)
Definition pending {V} (k : key) (v : V) (cs : list (ocall V)) : Prop :=
  exists a b, cs = a ++ Push k v :: b /\ forall c, In c b -> match c with Push k' _ | Pop k' => k' <> k end.

Section C59.
Context {V : Type}.
Lemma orun_app (cs1 : list (ocall V)) : forall m cs2,
  orun m (cs1 ++ cs2) = (fst (orun (fst (orun m cs1)) cs2), snd (orun m cs1) ++ snd (orun (fst (orun m cs1)) cs2)).
Proof.
  induction cs1 as [|[k v|k] cs1 IH]; intros m cs2; cbn [app orun].
  - cbn. destruct (orun m cs2); reflexivity.
  - apply IH.
  - cbn [pop_output fst snd]. rewrite IH. reflexivity.
Qed.
Lemma orun_pending (cs : list (ocall V)) : forall k v, kget (fst (orun [] cs)) k = Some v <-> pending k v cs.
Proof.
  induction cs as [|c cs IH] using rev_ind; intros k v.
  - cbn. split; [discriminate|]. intros ([|] & ? & H & _); discriminate H.
  - rewrite orun_app. cbn [fst].
    assert (L : forall c', c' = c -> match c' with Push k' _ | Pop k' => k' <> k end -> pending k v (cs ++ [c]) <-> pending k v cs).
    { intros c' -> HK. split.
      - intros (a & b & E & F). destruct b as [|z b] using rev_ind.
        + apply app_inj_tail in E. destruct E as [_ ->]. cbn in HK. congruence.
        + rewrite app_comm_cons, app_assoc in E. apply app_inj_tail in E. destruct E as [E _]. exists a, b. split; [exact E|].
          intros c1 H1. apply F. apply in_or_app; auto.
      - intros (a & b & -> & F). exists a, (b ++ [c]). split; [rewrite <- app_assoc; reflexivity|].
        intros c1 H1. apply in_app_or in H1. destruct H1 as [H1|[<-|[]]]; [apply F, H1|exact HK]. }
    assert (LK : forall k' v', c = Push k' v' \/ c = Pop k' -> k' <> k -> pending k v (cs ++ [c]) <-> pending k v cs).
    { intros k' v' [->| ->] NE; eapply L; try reflexivity; exact NE. }
    assert (X : forall (c1 : ocall V), pending k v (cs ++ [c1]) -> match c1 with Push k' v' => k' = k -> v' = v | Pop k' => k' <> k end).
    { intros c1 (a & b & E & F). destruct b as [|z b] using rev_ind.
      - apply app_inj_tail in E. destruct E as [_ ->]. reflexivity.
      - rewrite app_comm_cons, app_assoc in E. apply app_inj_tail in E. destruct E as [_ ->]. specialize (F z (in_elt z b [])).
        destruct z; [intros; contradiction|exact F]. }
    destruct c as [k' v'|k']; cbn [orun fst push_output pop_output].
    + destruct (key_eqb_spec k' k) as [->|NE].
      * rewrite kget_kset_same. split; [intros E; injection E as ->; exists cs, []; split; [reflexivity|intros ? []]|].
        intros H. f_equal. apply (X _ H). reflexivity.
      * rewrite kget_kset_other by exact NE. rewrite IH. symmetry. apply (LK k' v'); auto.
    + destruct (key_eqb_spec k' k) as [->|NE].
      * rewrite kget_kdel_same. split; [discriminate|]. intros H. destruct (X _ H). reflexivity.
      * rewrite kget_kdel_other by exact NE. rewrite IH. symmetry. apply (LK k' v); auto.
Qed.
(** The answer to a pop after any history of calls. *)
Theorem C59_pop_returns_last_push : forall (cs : list (ocall V)) k ans, snd (orun [] (cs ++ [Pop k])) = ans ->
  exists o, ans = snd (orun [] cs) ++ [o] /\ (forall v, o = Some v <-> pending k v cs).
Proof.
  intros cs k ans <-. rewrite orun_app. cbn [snd orun pop_output]. eexists. split; [reflexivity|]. apply orun_pending.
Qed.
Theorem C59_second_pop_empty : forall (cs cs' : list (ocall V)) k ans, (forall v, ~ In (Push k v) cs') ->
  snd (orun [] (cs ++ Pop k :: cs' ++ [Pop k])) = ans -> exists a, ans = a ++ [None].
Proof.
  intros cs cs' k ans NP E. change (cs ++ Pop k :: cs' ++ [Pop k]) with (cs ++ (Pop k :: cs') ++ [Pop k]) in E. rewrite app_assoc in E.
  destruct (C59_pop_returns_last_push _ _ _ E) as (o & EA & HO). destruct o as [v|]; [|eauto]. exfalso.
  destruct (proj1 (HO v) eq_refl) as (a & b & EE & F).
  assert (IP : In (Pop k) b \/ In (Push k v) cs').
  { clear - EE. revert cs EE. induction a as [|x a IH]; intros [|y cs] EE; cbn in EE.
    - discriminate EE.
    - injection EE as _ <-. left. apply in_or_app. cbn. auto.
    - injection EE as _ ->. right. apply in_or_app. cbn. auto.
    - injection EE as _ EE. exact (IH _ EE). }
  destruct IP as [IP|IP]; [exact (F _ IP eq_refl)|exact (NP _ IP)].
Qed.
End C59.
Example C59_ex : let k1 := mkKey 0 1 [x61] in let k2 := mkKey 0 1 [x62] in
  snd (orun (V := Z) [] [Push k1 5; Push k2 7; Push k1 6; Pop k1; Pop k1; Pop k2]) = [Some 6; None; Some 7] /\
  pending k1 6 [Push k1 5; Push k2 7; Push k1 6].
Proof. split; [reflexivity|]. eexists [_; _], []. split; [reflexivity|intros ? []]. Qed.
Print Assumptions C59_pop_returns_last_push. Print Assumptions C59_second_pop_empty.

(** ** C60 *)
(** The calls a run makes on the outputs. *)
Definition pushes (c : info) (l : list (Z * output)) : list (ocall output) :=
  map (fun o => Push (mkKey (fst o) (i_guest c) (i_id c)) (snd o)) l.
(** Every completed signing run leaves its nonce share behind: whoever pops
    signatures only (as the node does, run_sig.go:38), the DKG output of the run
    stays in the table. *)
Theorem C60_nonce_share_stays : forall (G : Type) (ky : kyber G) keccak pshash c k0 (evs : list (event payload env)) r tr sg
    (pops : list (ocall output)),
  exec (dss_prot ky keccak pshash) c (new_run k0) evs = Ok (r, tr) -> In (pc_dss, VSig sg) (outputs_of tr) ->
  (forall o, In o pops -> match o with Pop k => k_pc k = pc_dss | Push _ _ => False end) ->
  forall before, exists s q,
    kget (fst (orun [] (before ++ pushes c (outputs_of tr) ++ pops))) (mkKey pc_dkg (i_guest c) (i_id c)) = Some (VShare s q).
Proof.
  intros G ky keccak pshash c k0 evs r tr sg pops H HI HP before. apply out_run in H. destruct H as (_ & H & HT).
  destruct (H _ HI) as (s & q & HD). clear H HI. rewrite orun_app. cbn [fst]. generalize (fst (orun [] before)). intros m. rewrite orun_app. cbn [fst].
  set (kk := mkKey pc_dkg (i_guest c) (i_id c)).
  assert (X : forall l m, Forall (fun e => (exists s q, e = (pc_dkg, VShare s q)) \/ exists sg, e = (pc_dss, VSig sg)) l ->
    (exists s q, kget m kk = Some (VShare s q)) \/ In (pc_dkg, VShare s q) l -> exists s q, kget (fst (orun m (pushes c l))) kk = Some (VShare s q)).
  { intros l. induction l as [|e l IH]; intros m0 HF HX; [destruct HX as [HX|[]]; exact HX|]. inversion HF as [|? ? He Hl]; subst.
    cbn [pushes map orun]. apply IH; [exact Hl|]. destruct He as [(s0 & q0 & ->)|(sg0 & ->)]; cbn [fst snd push_output].
    - left. exists s0, q0. apply kget_kset_same.
    - destruct HX as [(s1 & q1 & HX)|[HX|HX]]; [left|discriminate HX|right; exact HX]. exists s1, q1. unfold push_output.
      rewrite kget_kset_other; [exact HX|discriminate]. }
  specialize (X _ m HT (or_intror HD)). destruct X as (s1 & q1 & X). exists s1, q1. revert X.
  generalize (fst (orun m (pushes c (outputs_of tr)))). clear - HP. induction pops as [|o pops IH]; intros m0 X; [exact X|].
  pose proof (HP o (or_introl eq_refl)) as P. destruct o as [|k]; [contradiction|]. cbn [orun pop_output fst].
  apply IH; [intros o Ho; apply HP; right; exact Ho|]. rewrite kget_kdel_other; [exact X|]. intros ->. discriminate P.
Qed.

(** A complete signing run of member 0 alone (threshold 1): it ends with a
    signature, and the nonce share stays. *)
Definition sg_c : info := mkInfo pc_dss [x61] 0 2 2.
Lemma exec_cons {D A K E V} (p : protocol D A K E V) c r ev l r1 t1 r2 t2 :
  Prot.step p c r ev = Ok (r1, t1) -> exec p c r1 l = Ok (r2, t2) -> exec p c r (ev :: l) = Ok (r2, t1 ++ t2).
Proof. intros E1 E2. cbn [exec]. rewrite E1. cbn [rbind fst snd]. rewrite E2. reflexivity. Qed.
Lemma enter_plain {D A K E V} (p : protocol D A K E V) c e now (r : rst D K) s f k' acts r' tr :
  r_loc r = LPause -> stage_at p (r_state r + 1) = Some s -> r_abandon r = false -> r_snd r = [] -> sg_step s = Some f ->
  f c e (r_k r) = Ok (k', acts) ->
  do_actions c (set_k (set_snd (set_stage r (r_state r + 1) false) []) k') acts = Ok (r', tr) -> r_rcv r' = [] ->
  Prot.step p c r (ETick e now) =
    Ok (set_clock (set_rcv r' []) LStage (r_t r + stage_timeout s) (r_t r + stage_timeout s), OEnter (r_state r + 1) now :: OStep (r_state r + 1) :: tr).
Proof.
  intros EL ES EA EB EF EK ED ER. cbn [Prot.step]. unfold tick. rewrite EL. unfold enter_stage. rewrite ES. unfold flush_snd_buf.
  cbn [r_snd set_stage r_state]. rewrite EB. cbn [mslice mget try_send_all rbind fst snd mdel]. unfold run_step.
  cbn [r_abandon set_snd set_stage]. rewrite EA, EF. unfold perform. cbn [r_k set_snd set_stage]. rewrite EK. cbn [rbind fst snd]. rewrite ED. cbn [rbind fst snd].
  rewrite ER. cbn [mslice mget process_all rbind fst snd mdel app]. rewrite app_nil_r, ER. reflexivity.
Qed.
Section Sign.
  Variable keccak : bytes -> bytes. Variable pshash : Z -> Z -> bytes.
  Lemma sign_run random long parts d d' sg w s nonce ord : let e := mkEnv (Some 10) (Some long) nonce ord in
    new_dss keccak 3 parts (share_of long) (share_of random) [0] 10 1 = Ok d ->
    partial_sig keccak pshash nonce d = Ok (d', sg, true) -> to_wire (OPart sg) = Ok w ->
    enough d' = true -> signature keccak ord d' = Ok s ->
    let ky := mkKyber Z (fun g => (g, Some [])) (fun g d => (g + 1, Some None)) (fun g r => (g, None)) (fun g j => g) (fun g => g)
      (fun g => true) (fun g => [0]) (fun g => (g, Some (mkCommits 0 [] [] []))) (fun g c => (g, None)) (fun g c => (g, None))
      (fun g r => g) (fun g => true) (fun g => Some random) in
    exists r tr, exec (dss_prot ky keccak pshash) sg_c (new_run (mkKd 0 None (Some (mkArgs 3 parts 1)) None)) (repeat (ETick e 0) 25) = Ok (r, tr) /\
      terminated_in tr = true /\ outputs_of tr = [(pc_dkg, VShare random [0]); (pc_dss, VSig s)].
  Proof.
    intros e E3 E4 E5 E6 E7 ky. eexists _, _. split.
    { lazy beta delta [repeat] iota.
      do 19 (eapply exec_cons; [lazy -[share_of new_dss partial_sig enough signature]; reflexivity|]).
      eapply exec_cons.
      { eapply enter_plain; [reflexivity|reflexivity|reflexivity|reflexivity|reflexivity|
        lazy -[share_of new_dss]; rewrite E3; reflexivity|reflexivity|reflexivity]. }
      eapply exec_cons; [lazy; reflexivity|].
      eapply exec_cons.
      { eapply enter_plain; [reflexivity|reflexivity|reflexivity|reflexivity|reflexivity|
        lazy -[partial_sig to_wire]; rewrite E4; rewrite E5; reflexivity|reflexivity|reflexivity]. }
      eapply exec_cons; [lazy; reflexivity|].
      eapply exec_cons.
      { eapply enter_plain; [reflexivity|reflexivity|reflexivity|reflexivity|reflexivity|
        lazy -[enough signature]; rewrite E6; rewrite E7; reflexivity|reflexivity|reflexivity]. }
      eapply exec_cons; [lazy; reflexivity|].
      reflexivity. }
    split; reflexivity.
  Qed.
End Sign.

(** Such a run exists. *)
Lemma sign_run_ends : forall keccak pshash, exists (ky : kyber Z) k0 evs r tr sg s,
  exec (dss_prot ky keccak pshash) sg_c (new_run k0) evs = Ok (r, tr) /\ terminated_in tr = true /\
  outputs_of tr = [(pc_dkg, VShare s [0]); (pc_dss, VSig sg)] /\ kd_args k0 <> None.
Proof.
  intros keccak pshash. set (dl := mkDks [of_E (smul 5 eG)] (mkPri 0 (poly [5] (0 + 1)))). set (dr := mkDks [of_E (smul 7 eG)] (mkPri 0 (poly [7] (0 + 1)))).
  pose proof (demo_new keccak 0 [5] [7] [0] 10 1 (or_introl eq_refl)) as EN.
  destruct (demo_partial keccak pshash 0 5 [] 7 [] [0] 10 1 9) as (v & ps & EP & EV); [split; reflexivity|auto|].
  set (d := demo_dss keccak 0 [5] [7] [0] 10 1) in *. change (3 + 3 * 0) with 3 in EN.
  assert (W : exists w, to_wire (OPart ps) = Ok w).
  { cbn [to_wire]. unfold partsig_to_dto. rewrite EV. destruct (pri_ok (mkPri 0 v)) as [w ->]. eexists. reflexivity. }
  destruct W as [w EW].
  destruct (sig_total keccak (fun _ l => l) (add_partial d 0 v true)) as [_ [a [sv [ES _]]]].
  - intros i l. apply Permutation.Permutation_refl.
  - pose proof (new_dss_ok keccak pshash _ _ _ _ _ _ _ _ EN) as (I & _). apply (inv_step keccak pshash d (CallPartial 9)) in I.
    cbn [Dss.step] in I. rewrite EP in I. exact I.
  - reflexivity.
  - discriminate.
  - cbn. lia.
  - destruct (sign_run keccak pshash dr dl demo_parts d (add_partial d 0 v true) ps w (Sig a (Some sv)) 9 (fun _ l => l) EN EP EW eq_refl ES) as (r & tr & EX & ET & EO).
    eexists _, _, _, r, tr, (Sig a (Some sv)), dr. split; [exact EX|]. split; [exact ET|]. split; [exact EO|discriminate].
Qed.
Theorem C60_signing_leaves_nothing_refuted : forall keccak pshash, exists (ky : kyber Z) k0 evs r tr sg,
  exec (dss_prot ky keccak pshash) sg_c (new_run k0) evs = Ok (r, tr) /\ terminated_in tr = true /\ In (pc_dss, VSig sg) (outputs_of tr) /\
  let calls := pushes sg_c (outputs_of tr) ++ [Pop (mkKey pc_dss 0 [x61])] in
  snd (orun [] calls) = [Some (VSig sg)] /\ exists s q, kget (fst (orun [] calls)) (mkKey pc_dkg 0 [x61]) = Some (VShare s q).
Proof.
  intros keccak pshash. destruct (sign_run_ends keccak pshash) as (ky & k0 & evs & r & tr & sg & s & EX & ET & EO & _).
  exists ky, k0, evs, r, tr, sg. split; [exact EX|]. split; [exact ET|]. rewrite EO. split; [right; left; reflexivity|].
  split; [reflexivity|]. exists s, [0]. reflexivity.
Qed.

(** ** C86 *)
(** A signing run that has ended holds neither its arguments, with the private key, nor a signing session, whatever
    messages come in after that. *)
Theorem C86_ended_run_forgets : forall (G : Type) (ky : kyber G) keccak pshash c k0 evs r tr t,
  exec (dss_prot ky keccak pshash) c (new_run k0) evs = Ok (r, tr) -> In (OTerm t) tr ->
  kd_args (r_k r) = None /\ kd_dss (r_k r) = None.
Proof.
  intros G ky keccak pshash c k0 evs r tr t H HT. assert (C : clean ky keccak pshash (new_run k0)) by discriminate.
  destruct (exec_clean _ _ _ _ _ _ _ _ C H) as (A & B & _). apply A. eapply B, HT.
Qed.
(** The run of C60 does end: *)
Example C86_ex : forall keccak pshash, exists (ky : kyber Z) k0 evs r tr t,
  exec (dss_prot ky keccak pshash) sg_c (new_run k0) evs = Ok (r, tr) /\ In (OTerm t) tr /\ kd_args k0 <> None.
Proof.
  intros keccak pshash. destruct (sign_run_ends keccak pshash) as (ky & k0 & evs & r & tr & sg & s & H1 & H2 & _ & H3).
  unfold terminated_in in H2. apply existsb_exists in H2. destruct H2 as (o & O1 & O2). destruct o; try discriminate O2. eauto 10.
Qed.
Print Assumptions C86_ended_run_forgets.
Print Assumptions C60_nonce_share_stays. Print Assumptions C60_signing_leaves_nothing_refuted.
