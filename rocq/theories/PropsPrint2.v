(** A printed signature verifies. *)
From Coq Require Import Strings.String.
From Coq Require Import ZArith List Lia Bool Permutation.
From Coq Require Import Init.Byte.
From Verif Require Import Params Bytes Res Secp Spec PublicKey Schnorr Dss DssSpec Dto DtoSpec DtoProofs Prot ProtSpec DkgProt DkgSpec KMap Firewall FwSpec Outputs Node NodeSpec
  PropsOutputs PropsDss DkgProofs DssProofs DssProofs2 DssProofs3 SecpProofs SecpProofs2 Curve Order SignSpec PropsSign PropsNode PropsNode2 PropsNode5 Print PropsPrint.
Import ListNotations.
Open Scope list_scope.
Open Scope Z_scope.

Section Statements.
  Context {G : Type}.
  Variable ky : kyber G.
  Variable keccak : bytes -> bytes.
  Variable pshash : Z -> Z -> bytes.
  Variable su : setup.
  Variables until now0 : Z.
  Variable show_share : dks -> bytes.
  Notation history := (nhistory ky keccak pshash su until now0).

  (** C122.  If the shares of the guests are right (C84) and the id was used once, a line that reads as a signature is a
      signature of the document of the request that printed it, by the key of a guest. *)
  Theorem C122_signature_line_verifies evs n tr i s doc id (P : Z -> point) : history evs n tr -> NoDup (su_guests su) ->
    orders_permute evs -> documents_fit evs -> Z.of_nat (length (su_members su)) < N ->
    (forall g, In g (su_guests su) -> exists j, well_dealt ky su evs g j (P g)) ->
    nth_error (asked evs) i = Some (Some doc, id) -> (forall g, (requests_for (mkKey pc_dss g id) evs <= 1)%nat) ->
    In (i, print_sig s) (stdout ky keccak pshash su until now0 show_share evs) ->
    exists g, In g (su_guests su) /\ verify keccak (KP (P g)) doc s = Ok tt.
  Proof.
    intros HH ND OP DF LN WD EA ONE IP. destruct (C122_signature_line _ _ _ _ _ _ _ _ _ _ _ _ HH ND IP) as (doc' & id' & g & EA' & IG & PO).
    rewrite EA in EA'. injection EA' as <- <-. exists g. split; [exact IG|]. destruct (WD g IG) as (j & WG).
    apply nth_error_In in EA. unfold asked in EA. apply in_flat_map in EA. destruct EA as (ev & IE & EV). destruct ev; try (destruct EV; fail). destruct EV as [EV|[]]. injection EV as -> EI.
    refine (C84_returned_verifies _ _ _ _ _ _ _ _ _ (mkKey pc_dss g id) s j (P g) start doc now HH OP DF LN WG eq_refl PO _ (ONE g)).
    eexists. split; [exact IE|]. split; [symmetry; exact EI|]. split; [reflexivity|exact IG].
  Qed.
End Statements.
Print Assumptions C122_signature_line_verifies.

(** The history of C84_ex, to the return of the request. *)
Definition ex_signed (nonce : Z) := ex_begin 0 (Some 10) ++ ex_go (Some 10) ++ ex_ticks nonce 26 ++ ex_stop 0 (Some 10).
Section Sign.
  Variable keccak : bytes -> bytes. Variable pshash : Z -> Z -> bytes.
  Lemma sign_returns random long P0 P1 d d' sg w s nonce : 
    new_dss keccak 3 [P0; P1] (share_of long) (share_of random) [0; 1] 10 1 = Ok d ->
    partial_sig keccak pshash nonce d = Ok (d', sg, true) -> to_wire (OPart sg) = Ok w ->
    enough d' = true -> signature keccak (fun _ l => l) d' = Ok s ->
    let ky := mkKyber Z (fun g => (g, Some [])) (fun g d => (g + 1, Some None)) (fun g r => (g, None)) (fun g j => g) (fun g => g)
      (fun g => true) (fun g => [0; 1]) (fun g => (g, Some (mkCommits 0 [] [] []))) (fun g c => (g, None)) (fun g c => (g, None))
      (fun g r => g) (fun g => true) (fun g => Some random) in
    let su := mkSetup [0] [P0; P1] 1 2 (fun _ => 3) (fun _ => Some long) in
    exists n tr, nexec ky keccak pshash su (start_node su 0 0) (ex_signed nonce) = Ok (n, tr) /\
      In (NPop (ex_key pc_dss) (Some (VSig s))) tr /\ returned su 0 (Some 10) (run_id_for [x61] ex_start) n tr /\ forall k v, In (NPop k v) tr -> v = Some (VSig s).
  Proof.
    intros E3 E4 E5 E6 E7 ky su. lazy -[share_of new_dss] in E3. eexists _, _. split.
    { lazy beta delta [ex_signed ex_begin ex_go ex_ticks ex_stop app seq map] iota.
      do 11 (eapply nexec_cons; [lazy -[share_of new_dss partial_sig enough signature]; reflexivity|]).
      do 19 (eapply nexec_cons; [lazy -[share_of new_dss partial_sig enough signature]; reflexivity|]).
      eapply nexec_cons.
      { eapply tick_node; [reflexivity|reflexivity|]. eapply enter_plain; [reflexivity|reflexivity|reflexivity|reflexivity|reflexivity|
        lazy -[share_of new_dss]; rewrite E3; reflexivity|reflexivity|reflexivity]. }
      eapply nexec_cons; [lazy; reflexivity|].
      eapply nexec_cons.
      { eapply tick_node; [reflexivity|reflexivity|]. eapply enter_plain; [reflexivity|reflexivity|reflexivity|reflexivity|reflexivity|
        lazy -[partial_sig to_wire]; rewrite E4; rewrite E5; reflexivity|reflexivity|reflexivity]. }
      eapply nexec_cons; [lazy; reflexivity|].
      eapply nexec_cons.
      { eapply tick_node; [reflexivity|reflexivity|]. eapply enter_plain; [reflexivity|reflexivity|reflexivity|reflexivity|reflexivity|
        lazy -[enough signature]; rewrite E6; rewrite E7; reflexivity|reflexivity|reflexivity]. }
      do 12 (eapply nexec_cons; [lazy; reflexivity|]).
      reflexivity. }
    split; [repeat first [left; reflexivity | right]|].
    split; [eexists; split; [reflexivity|]; split; [reflexivity|]; split; [reflexivity|]; split; [reflexivity|]; intros g [<-|[]]; eexists; repeat first [left; reflexivity | right]|].
    intros k v H. repeat (destruct H as [H|H]; [first [discriminate H | injection H as _ <-; reflexivity]|]). destruct H.
  Qed.
End Sign.

Lemma signed_fine nonce : Forall fine (ex_signed nonce).
Proof.
  unfold ex_signed. repeat (apply Forall_app; split); try (repeat (apply Forall_cons; [first [exact I | reflexivity]|]); apply Forall_nil).
Qed.
(** The member of C84_ex asks once, signs, prints two lines, and the second is a signature of its document. *)
Example C122_ex_verifies : forall keccak pshash sh, exists (ky : kyber Z) su n tr evs s id (P : Z -> point), nhistory ky keccak pshash su 0 0 evs n tr /\ NoDup (su_guests su) /\
  orders_permute evs /\ documents_fit evs /\ Z.of_nat (length (su_members su)) < N /\ (forall g, In g (su_guests su) -> exists j, well_dealt ky su evs g j (P g)) /\
  nth_error (asked evs) 0 = Some (Some 10, id) /\ (forall g, (requests_for (mkKey pc_dss g id) evs <= 1)%nat) /\
  lines_of 0 (stdout ky keccak pshash su 0 0 sh evs) = [text "DSS completed run ID a20"; print_sig s] /\ verify keccak (KP (P 0)) 10 s = Ok tt.
Proof.
  intros keccak pshash sh. set (dl := mkDks [of_E (smul 5 eG)] (mkPri 0 (poly [5] (0 + 1)))). set (dr := mkDks [of_E (smul 7 eG)] (mkPri 0 (poly [7] (0 + 1)))).
  pose proof (demo_new keccak 0 [5] [7] [0; 1] 10 1 (or_introl eq_refl)) as EN.
  destruct (demo_partial keccak pshash 0 5 [] 7 [] [0; 1] 10 1 9) as (v & ps & EP & EV); [split; reflexivity|auto|].
  set (d := demo_dss keccak 0 [5] [7] [0; 1] 10 1) in *. change (3 + 3 * 0) with 3 in EN.
  assert (W : exists w, to_wire (OPart ps) = Ok w).
  { cbn [to_wire]. unfold partsig_to_dto. rewrite EV. destruct (pri_ok (mkPri 0 v)) as [w ->]. eexists. reflexivity. }
  destruct W as [w EW].
  destruct (sig_total keccak (fun _ l => l) (add_partial d 0 v true)) as [_ [a [sv [ES _]]]].
  - intros i l. apply Permutation_refl.
  - pose proof (new_dss_ok keccak pshash _ _ _ _ _ _ _ _ EN) as (I & _). apply (inv_step keccak pshash d (CallPartial 9)) in I.
    cbn [Dss.step] in I. rewrite EP in I. exact I.
  - reflexivity.
  - discriminate.
  - cbn. lia.
  - destruct (sign_returns keccak pshash dr dl _ _ d (add_partial d 0 v true) ps w (Sig a (Some sv)) 9 EN EP EW eq_refl ES) as (n & tr & EX & PO & RET & ALL).
    set (su := mkSetup [0] [of_E (smul 3 eG); of_E (smul 6 eG)] 1 2 (fun _ => 3) (fun _ => Some dl)).
    set (evs := ex_signed 9) in *.
    assert (FA : Forall fine evs) by apply signed_fine.
    rewrite Forall_forall in FA.
    assert (OP : orders_permute evs).
    { intros ord [(t & pc & g & nonce & H)|(t & j & nonce & H)] i l; rewrite (FA _ H); apply Permutation_refl. }
    assert (DF : documents_fit evs).
    { intros t base start doc H. pose proof (FA _ H) as X. cbn [fine] in X. injection X as ->. split; [discriminate|reflexivity]. }
    assert (RS : forall c, right_share 0 1 (mkDks [of_E (smul c eG)] (mkPri 0 (poly [c] (0 + 1))))).
    { intros c. exists [c]. split; [discriminate|]. split; [discriminate|]. split; [|reflexivity]. apply (demo_commits [c]). }
    match type of EX with nexec ?K _ _ _ _ _ = _ => set (kk := K) in * end.
    assert (HH : nhistory kk keccak pshash su 0 0 evs n tr) by (split; [|exact EX]; vm_compute; intuition discriminate).
    assert (WD : well_dealt kk su evs 0 0 (of_E (smul 5 eG))).
    { split; [|split].
      + intros j Q P EM. cbn [su_secret su] in EM. rewrite pt_mul_base in EM by auto. 
        exact (two_members (of_E (smul 3 eG)) (of_E (smul 6 eG)) ne_63 j Q P EM).
      + intros l EL. rewrite <- (some_inj _ _ EL). split; [apply RS|exists []; reflexivity].
      + intros st s _ EQ. rewrite <- (some_inj _ _ EQ). apply RS. }
    assert (ND : NoDup (su_guests su)) by (repeat constructor; intuition discriminate).
    assert (ONE : forall g, (requests_for (mkKey pc_dss g (run_id_for [x61] ex_start)) evs <= 1)%nat) by (intros g; vm_compute; lia).
    assert (LI : lines_of 0 (stdout kk keccak pshash su 0 0 sh evs) = [text "DSS completed run ID a20"; print_sig (Sig a (Some sv))]).
    { destruct (C122_returned_printed _ _ _ _ _ _ sh _ _ _ _ _ _ HH ND RET) as (vs & PE & EL & PV). cbn [su_guests su] in PE. apply Permutation_sym, Permutation_length_1_inv in PE.
      destruct vs as [|[g0 v0] [|? ?]]; try discriminate PE. injection PE as ->. specialize (PV 0 v0 (or_introl eq_refl)). rewrite EL.
      assert (V0 : v0 = Some (VSig (Sig a (Some sv)))).
      { exact (ALL _ _ PV). }
      rewrite V0. reflexivity. }
    exists kk, su, n, tr, evs, (Sig a (Some sv)), (run_id_for [x61] ex_start), (fun _ => of_E (smul 5 eG)).
    split; [exact HH|]. split; [exact ND|]. split; [exact OP|]. split; [exact DF|]. split; [reflexivity|]. split; [intros g [<-|[]]; exists 0; exact WD|]. split; [reflexivity|]. split; [exact ONE|]. split; [exact LI|].
    exact (C84_returned_verifies _ _ _ _ _ _ _ _ _ (ex_key pc_dss) _ 0 _ ex_start 10 0 HH OP DF eq_refl WD eq_refl PO ltac:(exists [x61]; split; [left; reflexivity|]; split; [reflexivity|]; split; [reflexivity|left; reflexivity]) (ONE 0)).
Qed.
