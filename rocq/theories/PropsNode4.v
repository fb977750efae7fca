(** Statements about when a node goes on running. *)
From Coq Require Import ZArith List Lia Bool Permutation.
From Coq Require Import Init.Byte.
From Verif Require Import Params NumTh Curve Order Bytes Res Secp Spec SecpProofs SecpProofs2 PublicKey Schnorr Dto DtoProofs
  Dss DssProofs DssProofs2 DssProofs3 Prot ProtSpec DkgProt DkgSpec KMap Firewall Outputs Node NodeSpec
  DkgProofs NodeRun NodeProofs NodeProofs2 NodeProofs5 NodeProofs8 NodeProofs9 PropsDss PropsDkg PropsOutputs PropsNode.
Import ListNotations.
Open Scope Z_scope.

Section Statements.
  Context {G : Type}.
  Variable ky : kyber G.
  Variable keccak : bytes -> bytes.
  Variable pshash : Z -> Z -> bytes.
  Variable su : setup.
  Variables until now0 : Z.
  Notation history := (nhistory ky keccak pshash su until now0).
  Notation nevent := (nevent (G := G)).

  (** A queue for every member; every guest has its long-term key, whose public key is a point of the curve; what the key
      generator names are members (see [kyber_ok]). *)
  Definition good_setup : Prop :=
    kyber_ok (Z.of_nat (length (su_members su))) ky /\ su_queues su = Z.of_nat (length (su_members su)) /\ Z.of_nat (length (su_members su)) < N /\
    1 <= su_T su /\ NoDup (su_guests su) /\
    forall g, In g (su_guests su) -> exists l P Ps, su_long su g = Some l /\ dk_commits l = P :: Ps /\ on_curve (fst P) (snd P).
  (** No message that came in is one of the two kinds of C55; maps are iterated in some order. *)
  Definition harmless (evs : list nevent) : Prop :=
    Forall (fun ev => match ev with
      | VIn _ m => ~ bare_response m /\ ~ unsigned_partial m
      | VDeliver _ _ _ _ ord | VTick _ _ _ ord => forall i l, Permutation (ord i l) l
      | _ => True end) evs.
  (** No id is used for two signing requests. *)
  Definition signing_ids_differ (evs : list nevent) : Prop := forall k, k_pc k = pc_dss -> (requests_for k evs <= 1)%nat.

  (** ** C88.  Whatever comes in and however the goroutines are scheduled, the node goes on; except when a request for a
      key generation collects the share of a guest and there is none, or not every member qualified. *)
  Theorem C88_node_survives evs : good_setup -> nclock now0 evs -> harmless evs -> signing_ids_differ evs ->
    (exists n tr, history evs n tr) \/
    exists a t i g b n tr r todo, evs = a ++ VGo t i g :: b /\ history a n tr /\ nth_error (n_reqs n) i = Some r /\ rq_doc r = None /\ rq_phase r = RPop todo /\ In g todo /\
      forall s q, kget (n_outs n) (mkKey pc_dkg g (rq_id r)) = Some (VShare s q) -> (length q < length (su_members su))%nat.
  Proof.
    intros (H1 & H2 & H3 & H4 & H5 & H6) HC HF HS. destruct (node_survives ky keccak pshash su until now0 H2 H3 H1 H4 H6 H5 evs HC HS HF) as [X|(a & t & i & g & b & n & tr & E & HH & r & todo & B1 & B2 & B3 & B4 & B5)]; [left; exact X|right].
    exists a, t, i, g, b, n, tr, r, todo. repeat (split; [assumption|]). unfold rq_key, rq_pc in B5. rewrite B2 in B5. exact B5.
  Qed.
  (** A node that only signs never crashes. *)
  Theorem C88_signing_node_survives evs : good_setup -> nclock now0 evs -> harmless evs -> signing_ids_differ evs ->
    (forall t base start doc, In (VRequest t base start doc) evs -> doc <> None) -> exists n tr, history evs n tr.
  Proof.
    intros HG HC HF HS HD. destruct (C88_node_survives evs HG HC HF HS) as [X|(a & t & i & g & b & n & tr & r & todo & E & HH & EN & ED & _)]; [exact X|exfalso].
    pose proof (time_inv ky keccak pshash su until now0 a n tr HH) as [_ R]. destruct (r_req _ _ _ _ _ _ _ _ R _ _ EN) as ((tq & base & HI & _) & _).
    rewrite ED in HI. apply (HD tq base (rq_start r) None); [|reflexivity]. rewrite E. apply in_or_app. left. exact HI.
  Qed.
End Statements.

(** The setup of C75_ex; a run without deals is abandoned. *)
Definition ex_ky8 : kyber Z := mkKyber Z (fun g => (g, if g =? 7 then None else Some [])) (fun g d => (g, Some None)) (fun g r => (g, None)) (fun g j => g) (fun g => g)
  (fun g => true) (fun g => [0; 1]) (fun g => (g, Some (mkCommits 0 [] [] []))) (fun g c => (g, None)) (fun g c => (g, None))
  (fun g r => g) (fun g => true) (fun g => Some (mkDks [of_E (smul 7 eG)] (mkPri 0 (poly [7] (0 + 1))))).
Definition ex_su8 : setup := mkSetup [0] demo_parts 1 2 (fun _ => 3) (fun _ => Some (mkDks [of_E (smul 5 eG)] (mkPri 0 (poly [5] (0 + 1))))).
Lemma ex_good8 : good_setup ex_ky8 ex_su8.
Proof.
  split; [|split; [reflexivity|split; [reflexivity|split; [cbn; lia|split; [repeat constructor; intuition discriminate|]]]]].
  - change (Z.of_nat (length (su_members ex_su8))) with 2. split; [intros g g' ds E; cbn in E; destruct (g =? 7); [discriminate|injection E as <- <-; constructor]|].
    split; [intros g; repeat constructor; lia|]. intros g s E. injection E as <-. discriminate.
  - intros g _. eexists _, _, _. split; [reflexivity|]. split; [reflexivity|]. apply curve_point_on, demo_curve, small_ndiv. split; reflexivity.
Qed.

(** A signing request whose run goes to its end, with messages of the network. *)
Example C88_ex : exists evs : list (nevent (G := Z)), good_setup ex_ky8 ex_su8 /\ nclock 0 evs /\ harmless evs /\ signing_ids_differ evs /\
  (forall t base start doc, In (VRequest t base start doc) evs -> doc <> None) /\
  In (VIn (16 * ms) (mkMsg 0 pc_dss 0 (k_run (ex_key pc_dss)) 2 (PWire WOther))) evs /\ length evs = 48%nat.
Proof.
  exists (ex_all (Some 10)). split; [exact ex_good8|]. split; [apply ex_all_clock|]. split; [|split; [|split; [|split]]].
  - repeat constructor; try (intros i l; apply Permutation_refl); intros [X Y]; cbn in Y; destruct Y as [? Y]; try discriminate Y; discriminate X.
  - intros k KP. unfold requests_for. cbn. destruct (_ && _); cbn; lia.
  - intros t base start doc H. repeat (destruct H as [H|H]; [try discriminate H; injection H as _ _ _ <-; discriminate|]). destruct H.
  - vm_compute. repeat first [left; reflexivity | right].
  - reflexivity.
Qed.

(** With two requests under the same id the node can crash: the second registers its document, the first, about to
    return, removes it, and the second's run goes on without. *)
Definition ex_crash : list (nevent (G := Z)) :=
  let k := ex_key pc_dss in let go := VGuest ex_end 0 0 7 in let go2 := VGuest ex_end 1 0 8 in
  ex_begin 0 (Some 10) ++ ex_go (Some 10) ++ ex_ticks 5 26 ++
  [go; VWait ex_end 0; VFw ex_end k 0; go; VFw ex_end k 0; go; VFw ex_end k 0; go; VTake ex_end pc_dss 0 7;
   VRequest ex_end [x61] ex_start (Some 11); VGo ex_end 1 0; VGo ex_end 0 0;
   go2; VFw ex_end k 1; VFw ex_end k 1; VFw ex_end k 1; go2; go2].
Definition ex_crash2 (n : nat) : list (nevent (G := Z)) := map (fun i => VTick (ex_end + Z.of_nat i * 100000 * ms) 1 9 (fun _ l => l)) (seq 0 n).
Lemma nexec_next {G} (ky : kyber G) keccak pshash su n ev l n1 t1 : nstep ky keccak pshash su n ev = Ok (n1, t1) -> nexec ky keccak pshash su n1 l = Panic ->
  nexec ky keccak pshash su n (ev :: l) = Panic.
Proof. intros E1 E2. cbn [nexec]. rewrite E1. cbn [rbind fst snd]. rewrite E2. reflexivity. Qed.
Section Crash.
  Variable keccak : bytes -> bytes. Variable pshash : Z -> Z -> bytes.
  Lemma crash_history random long P0 P1 d :
    new_dss keccak 3 [P0; P1] (share_of long) (share_of random) [0; 1] 0 1 = Ok d ->
    let ky := mkKyber Z (fun g => (g, if g =? 7 then None else Some [])) (fun g d => (g, Some None)) (fun g r => (g, None)) (fun g j => g) (fun g => g)
      (fun g => true) (fun g => [0; 1]) (fun g => (g, Some (mkCommits 0 [] [] []))) (fun g c => (g, None)) (fun g c => (g, None))
      (fun g r => g) (fun g => true) (fun g => Some random) in
    let su := mkSetup [0] [P0; P1] 1 2 (fun _ => 3) (fun _ => Some long) in
    exists n tr, nexec ky keccak pshash su (start_node su 0 0) ex_crash = Ok (n, tr) /\ nexec ky keccak pshash su n (ex_crash2 22) = Panic.
  Proof.
    intros E3 ky su. lazy -[share_of new_dss] in E3. eexists _, _. split; [vm_compute; reflexivity|].
    lazy beta delta [ex_crash2 app seq map] iota.
    do 19 (eapply nexec_next; [lazy -[share_of new_dss partial_sig]; reflexivity|]).
    eapply nexec_next.
    { eapply tick_node; [reflexivity|reflexivity|]. eapply enter_plain; [reflexivity|reflexivity|reflexivity|reflexivity|reflexivity|
      lazy -[share_of new_dss]; rewrite E3; reflexivity|reflexivity|reflexivity]. }
    eapply nexec_next; [lazy; reflexivity|]. lazy. reflexivity.
  Qed.
End Crash.
Lemma ex_crash_clock : nclock 0 (ex_crash ++ ex_crash2 22).
Proof. vm_compute. intuition discriminate. Qed.
Theorem C88_any_requests_refuted : exists (ky : kyber Z) keccak pshash su until now0 evs, good_setup ky su /\ nclock now0 evs /\ harmless evs /\
  (forall t base start doc, In (VRequest t base start doc) evs -> doc <> None) /\ nexec ky keccak pshash su (start_node su until now0) evs = Panic.
Proof.
  exists ex_ky8, (fun b => b), (fun _ _ => []), ex_su8, 0, 0, (ex_crash ++ ex_crash2 22). split; [exact ex_good8|]. split; [exact ex_crash_clock|]. split; [|split].
  - repeat constructor; try (intros i l; apply Permutation_refl); intros [X Y]; cbn in Y; destruct Y as [? Y]; try discriminate Y; discriminate X.
  - intros t base start doc H. repeat (destruct H as [H|H]; [try discriminate H; injection H as _ _ _ <-; discriminate|]). destruct H.
  - pose proof (demo_new (fun b => b) 0 [5] [7] [0; 1] 0 1 (or_introl eq_refl)) as EN. change (3 + 3 * 0) with 3 in EN.
    destruct (crash_history (fun b => b) (fun _ _ => []) (mkDks [of_E (smul 7 eG)] (mkPri 0 (poly [7] (0 + 1)))) (mkDks [of_E (smul 5 eG)] (mkPri 0 (poly [5] (0 + 1)))) _ _ _ EN) as (n & tr & E1 & E2).
    rewrite nexec_app.
    match type of E1 with ?x = _ => match goal with |- (rbind ?y _) = _ => change y with x end end. rewrite E1. cbn [rbind fst snd].
    match type of E2 with ?x = _ => match goal with |- (rbind ?y _) = _ => change y with x end end. rewrite E2. reflexivity.
Qed.

Print Assumptions C88_node_survives. Print Assumptions C88_signing_node_survives. Print Assumptions C88_any_requests_refuted.
