(** Statements about what a process prints. *)
From Coq Require Import Strings.String.
From Coq Require Import ZArith List Lia Bool Permutation.
From Coq Require Import Init.Byte.
From Verif Require Import Params Bytes Res Secp Spec Dto Dss Schnorr Prot ProtSpec DkgProt DkgSpec KMap Firewall FwSpec Outputs Node NodeSpec NodeProofs NodeProofs2 NodeProofs7 ObjSpec
  PropsNode PropsNode2 PropsNode4 PropsNode5 ReachProofs SignSpec PropsSign PropsObj Cluster ClusterSpec ClusterProofs ClusterProofs2 HonestSpec HonestProofs PropsHonest HonestDemo ClusterDemo PropsCluster3 Print PrintProofs.
Import ListNotations.
Open Scope string_scope.
Open Scope list_scope.
Open Scope Z_scope.

(** The bytes of a text; texts with a separator between. *)
Definition text : string -> bytes := list_byte_of_string.
Definition join (sep : bytes) (l : list bytes) : bytes :=
  match l with [] => [] | x :: r => x ++ flat_map (fun y => sep ++ y) r end.

Section Statements.
  Context {G : Type}.
  Variable ky : kyber G.
  Variable keccak : bytes -> bytes.
  Variable pshash : Z -> Z -> bytes.
  Variable su : setup.
  Variables until now0 : Z.
  (** How a key share is printed; not in this repository. *)
  Variable show_share : dks -> bytes.
  Notation history := (nhistory ky keccak pshash su until now0).
  Notation nevent := (nevent (G := G)).
  (** All that has been printed, each line with the number of the request that printed it. *)
  Definition stdout (evs : list nevent) : list (nat * bytes) := printed ky keccak pshash su show_share (start_node su until now0) evs.
  (** The requests made, in order: the document (None: key generation) and the id. *)
  Definition asked (evs : list nevent) : list (option Z * bytes) :=
    flat_map (fun ev : nevent => match ev with VRequest _ base start doc => [(doc, run_id_for base start)] | _ => [] end) evs.
  (** The line for the output [v] of guest [g], and the line that tells that the run is over. *)
  Definition line_for (g : Z) (id : bytes) (v : option output) : bytes :=
    match v with
    | None => text "no signature produced " ++ id ++ text " " ++ format_int g
    | Some (VSig s) => print_sig s
    | Some (VShare s _) => text "success for guest index " ++ format_int g ++ text " " ++ show_share s
    end.
  Definition over_line (id : bytes) : bytes := text "DSS completed run ID " ++ id.
  (** The lines [l] tell the outputs [vs] of guests for a request: first, for a signature, that the run is over. *)
  Definition tells (doc : option Z) (id : bytes) (tr : list nobs) (vs : list (Z * option output)) (l : list bytes) : Prop :=
    l = match doc with Some _ => [over_line id] | None => [] end ++ map (fun x => line_for (fst x) id (snd x)) vs /\
    forall g v, In (g, v) vs -> In (NPop (mkKey (pc_for doc) g id) v) tr.

  Lemma lines_agree g id v : result_line show_share g id v = line_for g id v.
  Proof. destruct v as [[|]|]; reflexivity. Qed.
  Lemma asked_req evs n tr i doc id : history evs n tr -> nth_error (asked evs) i = Some (doc, id) -> exists r, nth_error (n_reqs n) i = Some r /\ rq_doc r = doc /\ rq_id r = id.
  Proof.
    intros HH E. unfold asked in E. rewrite <- (history_asked _ _ _ _ _ _ _ _ _ HH), nth_error_map in E. destruct (nth_error (n_reqs n) i) as [r|]; [|discriminate].
    exists r. injection E as E1 E2. auto.
  Qed.
  Lemma told_tells tr r todo l : told_of su show_share tr r todo l -> exists vs, Permutation (map fst vs ++ todo) (su_guests su) /\ tells (rq_doc r) (rq_id r) tr vs l.
  Proof. intros (vs & A & B & C). exists vs. split; [exact A|]. split; [rewrite B; f_equal; apply map_ext; intros [g v]; apply lines_agree|]. intros g v H. specialize (C g v H). unfold rq_key, rq_pc in C. unfold pc_for. exact C. Qed.

  (** ** C122.  What a request prints. *)
  (** A request that has returned printed one line for each guest, of the output it took for the guest; a request to
      sign, before these, that the run is over. *)
  Theorem C122_returned_printed evs n tr i doc id : history evs n tr -> NoDup (su_guests su) -> returned su i doc id n tr ->
    exists vs, Permutation (map fst vs) (su_guests su) /\ tells doc id tr vs (lines_of i (stdout evs)).
  Proof.
    intros HH ND (r & E & <- & <- & EP & _). pose proof (proj1 (history_pi _ _ _ _ show_share _ _ _ _ _ ND HH) _ _ E) as X. unfold says in X. rewrite EP in X.
    destruct (told_tells _ _ _ _ X) as (vs & A & B). rewrite app_nil_r in A. exists vs. split; [exact A|exact B].
  Qed.
  (** At any time a request has printed nothing, or that the run is over (when it signs) and lines for some guests,
      at most one for each. *)
  Theorem C122_printed_in_order evs n tr i doc id : history evs n tr -> NoDup (su_guests su) -> nth_error (asked evs) i = Some (doc, id) ->
    lines_of i (stdout evs) = [] \/ exists vs, NoDup (map fst vs) /\ incl (map fst vs) (su_guests su) /\ tells doc id tr vs (lines_of i (stdout evs)).
  Proof.
    intros HH ND EA. destruct (asked_req _ _ _ _ _ _ HH EA) as (r & E & <- & <-). pose proof (proj1 (history_pi _ _ _ _ show_share _ _ _ _ _ ND HH) _ _ E) as X. unfold says in X.
    assert (T : forall todo, told_of su show_share tr r todo (lines_of i (stdout evs)) -> exists vs, NoDup (map fst vs) /\ incl (map fst vs) (su_guests su) /\ tells (rq_doc r) (rq_id r) tr vs (lines_of i (stdout evs))).
    { intros todo Y. destruct (told_tells _ _ _ _ Y) as (vs & A & B). exists vs. split; [|split; [|exact B]].
      - pose proof (Permutation_NoDup (Permutation_sym A) ND) as Z. clear - Z. induction (map fst vs) as [|x l IH]; [constructor|]. inversion Z as [|? ? NI Z']; subst. constructor; [|apply IH, Z']. intros H. apply NI, in_or_app. left. exact H.
      - intros x H. eapply Permutation_in; [exact A|]. apply in_or_app. left. exact H. }
    destruct (rq_phase r); [left; exact X|left; exact X|left; exact X|right; exact (T _ X)|right; exact (T _ X)].
  Qed.
  (** Nothing is printed before the runs of all guests are over. *)
  Theorem C122_printed_after_the_runs evs n tr i doc id g : history evs n tr -> NoDup (su_guests su) -> nth_error (asked evs) i = Some (doc, id) ->
    lines_of i (stdout evs) <> [] -> In g (su_guests su) -> exists t, In (NRun (mkKey (pc_for doc) g id) (OTerm t)) tr.
  Proof.
    intros HH ND EA NE IG. destruct (asked_req _ _ _ _ _ _ HH EA) as (r & E & <- & <-). exact (printed_after _ _ _ _ _ _ _ _ _ _ _ _ _ ND HH E NE IG).
  Qed.
  (** Only requests print. *)
  Theorem C122_only_requests_print evs n tr i l : history evs n tr -> NoDup (su_guests su) -> In (i, l) (stdout evs) -> exists doc id, nth_error (asked evs) i = Some (doc, id).
  Proof.
    intros HH ND H. destruct (nth_error (asked evs) i) as [[doc id]|] eqn:E; [eauto|]. exfalso. unfold asked in E. rewrite <- (history_asked _ _ _ _ _ _ _ _ _ HH) in E. apply nth_error_None in E. rewrite map_length in E.
    pose proof (proj2 (history_pi _ _ _ _ show_share _ _ _ _ _ ND HH) _ E) as X. assert (Y : In l (lines_of i (stdout evs))); [|fold (stdout evs) in X; rewrite X in Y; destruct Y].
    unfold lines_of. apply in_map_iff. exists (i, l). split; [reflexivity|]. apply filter_In. split; [exact H|]. cbn [fst]. apply Nat.eqb_refl.
  Qed.
  (** Every output that a request takes is printed. *)
  Theorem C122_outputs_printed evs n tr g pc id v : history evs n tr -> In (NPop (mkKey pc g id) v) tr -> exists i, In (i, line_for g id v) (stdout evs).
  Proof.
    revert n tr. induction evs as [|ev evs IH] using rev_ind; intros n tr HH IN.
    - destruct HH as [_ HH]. cbn in HH. injection HH as <- <-. destruct IN.
    - destruct (history_cut _ _ _ _ _ _ _ _ _ _ HH) as (n1 & tr1 & o & H1 & S1 & ->). unfold stdout. rewrite (printed_app _ _ _ _ _ _ _ _ _ _ (proj2 H1)).
      apply in_app_or in IN. destruct IN as [IN|IN].
      + destruct (IH _ _ H1 IN) as (i & X). exists i. apply in_or_app. left. exact X.
      + destruct (pop_printed _ _ _ _ show_share _ _ _ _ _ _ S1 IN) as (i & X). rewrite lines_agree in X. exists i. apply in_or_app. right. cbn [printed]. rewrite S1. apply in_or_app. left. exact X.
  Qed.
  (** The form of a signature: the address byte by byte and the integer, in decimal. *)
  Theorem C122_signature_form a z :
    print_sig (Sig a (Some z)) = text "&{[" ++ join (text " ") (map (fun b => format_int (z_of_byte b)) a) ++ text "] " ++ format_int z ++ text "}".
  Proof.
    assert (J : forall l, spaced l = join (text " ") l).
    { induction l as [|x [|y l] IH]; [reflexivity|cbn; rewrite app_nil_r; reflexivity|]. change (spaced (x :: y :: l)) with (x ++ x20 :: spaced (y :: l)). rewrite IH. reflexivity. }
    unfold print_sig. change (spaced [print_bytes a; print_int (Some z)]) with (print_bytes a ++ x20 :: format_int z). unfold print_bytes. rewrite J. cbn. rewrite <- !app_assoc. reflexivity.
  Qed.
  (** The printed form of a signature tells the signature. *)
  Theorem C122_signature_readable s s' : print_sig s = print_sig s' -> s = s'.
  Proof. apply print_sig_inj. Qed.
  (** A line that reads as a signature is printed by a request to sign, which took that signature for a guest. *)
  Theorem C122_signature_line evs n tr i s : history evs n tr -> NoDup (su_guests su) -> In (i, print_sig s) (stdout evs) ->
    exists doc id g, nth_error (asked evs) i = Some (Some doc, id) /\ In g (su_guests su) /\ In (NPop (mkKey pc_dss g id) (Some (VSig s))) tr.
  Proof.
    intros HH ND H. destruct (C122_only_requests_print _ _ _ _ _ HH ND H) as (doc & id & EA).
    assert (Y : In (print_sig s) (lines_of i (stdout evs))).
    { unfold lines_of. apply in_map_iff. exists (i, print_sig s). split; [reflexivity|]. apply filter_In. split; [exact H|]. cbn [fst]. apply Nat.eqb_refl. }
    destruct (C122_printed_in_order _ _ _ _ _ _ HH ND EA) as [X|(vs & _ & IN & X & PO)]; [rewrite X in Y; destruct Y|]. rewrite X in Y. apply in_app_or in Y. destruct Y as [Y|Y].
    - exfalso. destruct doc; [|destruct Y]. destruct Y as [Y|[]]. destruct s; discriminate Y.
    - apply in_map_iff in Y. destruct Y as ([g v] & Y & IV). cbn [fst snd] in Y. specialize (PO _ _ IV). assert (IG : In g (su_guests su)) by (apply IN, in_map_iff; exists (g, v); auto).
      destruct v as [[s0 q|s0]|]; cbn [line_for] in Y; [| |].
      all: try (exfalso; destruct s; discriminate Y).
      apply print_sig_inj in Y. subst s0. destruct doc as [doc|]; [exists doc, id, g; auto|]. exfalso.
      destruct (C79_node_returns_complete _ _ _ _ _ _ _ _ _ _ _ HH PO eq_refl) as (x & y & Q & _). discriminate Q.
  Qed.
End Statements.

(** C122: the request to sign of C56_ex and the request for key generation of C56_every_run_removed_refuted. *)
Example C122_ex_sign : exists n tr, ex_history None (ex_all (Some 10)) n tr /\ NoDup (su_guests ex_su) /\ returned ex_su 0 (Some 10) (run_id_for [x61] ex_start) n tr /\
  forall sh, stdout (ex_ky None) (fun b => b) (fun _ _ => []) ex_su 0 0 sh (ex_all (Some 10)) =
    [(0%nat, text "DSS completed run ID a20"); (0%nat, text "no signature produced a20 0")].
Proof.
  destruct (ex_run None (ex_all (Some 10))) as [[n tr]| |] eqn:E; [|vm_compute in E; discriminate..]. exists n, tr. vm_compute in E. injection E as <- <-.
  split; [split; [apply ex_all_clock|vm_compute; reflexivity]|]. split; [repeat constructor; intuition discriminate|]. split; [|intros sh; vm_compute; reflexivity].
  eexists. split; [reflexivity|]. split; [reflexivity|]. split; [vm_compute; reflexivity|]. split; [reflexivity|]. intros g [<-|[]]. exists None.
  repeat first [left; reflexivity | right].
Qed.
Example C122_ex_generate : exists n tr, ex_history (Some []) (ex_all None) n tr /\ returned ex_su 0 None (run_id_for [x61] ex_start) n tr /\
  stdout (ex_ky (Some [])) (fun b => b) (fun _ _ => []) ex_su 0 0 (fun _ => [x53]) (ex_all None) = [(0%nat, text "success for guest index 0 S")].
Proof.
  destruct (ex_run (Some []) (ex_all None)) as [[n tr]| |] eqn:E; [|vm_compute in E; discriminate..]. exists n, tr. vm_compute in E. injection E as <- <-.
  split; [split; [apply ex_all_clock|vm_compute; reflexivity]|]. split; [|vm_compute; reflexivity].
  eexists. split; [reflexivity|]. split; [reflexivity|]. split; [vm_compute; reflexivity|]. split; [reflexivity|]. intros g [<-|[]]. eexists.
  repeat first [left; reflexivity | right].
Qed.
(** The two members of C103 each print the signature they made. *)
Example C122_ex_signature : forall keccak pshash sh, (forall b, length (keccak b) = 32%nat) -> forall i, i = 0 \/ i = 1 -> exists (ky : kyber acct) su until now0 evs n tr sg r,
  nhistory ky keccak pshash su until now0 evs n tr /\ NoDup (su_guests su) /\ In (NPop (mkKey pc_dss i duo_id) (Some (VSig sg))) tr /\
  In (r, print_sig sg) (stdout ky keccak pshash su until now0 sh evs).
Proof.
  intros keccak pshash sh LK i Hi. destruct (c103_demo2 keccak pshash LK) as (ky & evs & c & tr & g & D & R & C & k0 & h & X). cbv zeta in X. change (Z.of_nat (length (se_parts demo_session))) with 2 in X.
  destruct X as (X1 & _ & _ & _ & _ & _ & _ & X8 & _). assert (IE : In i (everyone 2)) by (destruct Hi as [->| ->]; [left|right; left]; reflexivity).
  destruct (X8 i IE) as (_ & EP & ND & _ & _ & _ & _ & _ & _ & _ & _ & (sg & PO) & _).
  destruct (cluster_node _ _ _ _ _ _ _ _ _ X1 _ _ EP) as (n & HN & _). destruct (C122_outputs_printed _ _ _ _ _ _ sh _ _ _ _ _ _ _ HN PO) as (r & PR).
  eexists ky, _, _, _, _, n, _, sg, r. split; [exact HN|]. split; [exact ND|]. split; [exact PO|exact PR].
Qed.
(** The form of a signature. *)
Example C122_ex_form : print_sig (Sig [x00; xff; x0a] (Some 1234)) = text "&{[0 255 10] 1234}" /\ print_sig SigNil = text "<nil>".
Proof. split; vm_compute; reflexivity. Qed.

Print Assumptions C122_returned_printed.
Print Assumptions C122_printed_in_order.
Print Assumptions C122_printed_after_the_runs.
Print Assumptions C122_only_requests_print.
Print Assumptions C122_outputs_printed.
Print Assumptions C122_signature_form.
Print Assumptions C122_signature_readable.
Print Assumptions C122_signature_line.
