(** Property theorems C16, C17 (PublicKey), C21-C28 (Schnorr) and C81 (aliasing).
    [keccak] is any function on byte strings; the theorems hold for every one. *)
From Coq Require Import ZArith Znumtheory List Lia Bool.
From Coq Require Import Init.Byte.
From Verif Require Import Params NumTh Curve Order Bytes Res Secp Spec SecpProofs SecpProofs2 PublicKey
  Schnorr SchnorrProofs Heap.
Import ListNotations.
Open Scope Z_scope.

(** ** C16 *)
Theorem C16_address_agrees : forall keccak k P, (forall b, length (keccak b) = 32%nat) -> pk_point k = Ok P ->
  pk_hash keccak k = Ok (keccak (be_fixed 32 (fst P) ++ be_fixed 32 (snd P))) /\
  eth_address keccak P = Ok (pk_address keccak k) /\ length (pk_address keccak k) = 20%nat.
Proof.
  intros keccak k P LK H. pose proof (pt_unmarshal_point _ _ H) as (RX & RY & _).
  assert (E : pk_hash keccak k = Ok (keccak (be_fixed 32 (fst P) ++ be_fixed 32 (snd P)))).
  { unfold pk_hash. rewrite H. cbn [rbind]. rewrite long_marshal_spec. cbn [rbind].
    rewrite (Z.mod_small _ _ RX), (Z.mod_small _ _ RY). unfold must_hash.
    rewrite to_fixed_same by apply LK. reflexivity. }
  split; [exact E|]. unfold pk_address. rewrite E. unfold eth_address. rewrite long_marshal_spec. cbn [rbind].
  rewrite (Z.mod_small _ _ RX), (Z.mod_small _ _ RY).
  set (h := keccak _). assert (L : length (skipn 12 h) = 20%nat) by (rewrite skipn_length; unfold h; rewrite LK; reflexivity).
  rewrite (to_fixed_same 20 (skipn 12 h) L). split; [|exact L].
  f_equal. rewrite <- L at 1. apply firstn_all.
Qed.
Theorem C16_bad_key_has_zero_address : forall keccak k, (forall P, pk_point k <> Ok P) ->
  pk_address keccak k = repeat x00 20 /\ pk_hash keccak k = Err.
Proof.
  intros keccak k H. unfold pk_address, pk_hash. pose proof (pt_unmarshal_no_panic k) as NP.
  unfold pk_point in *. destruct (pt_unmarshal k) as [P| |]; [destruct (H P eq_refl)|split; reflexivity|contradiction].
Qed.
Example C16_ex : pk_point (be_fixed 32 Gx ++ [x00]) = Ok (Gx, Gy) /\ forall P, pk_point [x01] <> Ok P.
Proof.
  split; [|intros P; discriminate]. unfold pk_point. apply pt_unmarshal_ok.
  rewrite firstn_fixed, be2z_be_fixed, nth_fixed, app_length, be_fixed_length.
  vm_compute. repeat split; auto; discriminate.
Qed.
Print Assumptions C16_address_agrees. Print Assumptions C16_bad_key_has_zero_address.

(** ** C17 *)
Definition hexchar (c : byte) : Prop :=
  let z := z_of_byte c in 48 <= z <= 57 \/ 97 <= z <= 102 \/ 65 <= z <= 70.
Theorem C17_roundtrips : forall k old, length k = 33%nat ->
  (exists t, pk_marshal_text k = Ok t /\ pk_unmarshal_text old t = (k, Ok tt)) /\
  pk_set_from_hex old (pk_string k) = (k, Ok tt) /\
  (exists v, pk_value k = Ok v /\ pk_scan old v = (k, Ok tt)).
Proof.
  intros k old L. assert (E : pk_set_from_hex old (pk_string k) = (k, Ok tt)).
  { unfold pk_set_from_hex. rewrite pk_from_hex_string by exact L. reflexivity. }
  split; [exists (pk_string k); split; [reflexivity|exact E]|].
  split; [exact E|]. exists (DbString (pk_string k)). split; [reflexivity|exact E].
Qed.
Theorem C17_parses_iff : forall old s, snd (pk_set_from_hex old s) = Ok tt <->
  exists c r, s = x30 :: c :: r /\ (c = x78 \/ c = x58) /\ length r = 66%nat /\ Forall hexchar r.
Proof.
  assert (D : forall c, is_hex_digit c <-> hexchar c).
  { intros c. unfold is_hex_digit, hexchar, hex_val. cbv zeta.
    destruct (Z.leb_spec 48 (z_of_byte c)), (Z.leb_spec (z_of_byte c) 57), (Z.leb_spec 97 (z_of_byte c)),
      (Z.leb_spec (z_of_byte c) 102), (Z.leb_spec 65 (z_of_byte c)), (Z.leb_spec (z_of_byte c) 70); cbn [andb];
    (split; [intros [d H']; try discriminate; lia|intros H'; try (eexists; reflexivity); lia]). }
  intros old s. transitivity (exists k, pk_from_hex s = Ok k).
  - unfold pk_set_from_hex. pose proof (pk_from_hex_no_panic s).
    destruct (pk_from_hex s) as [k| |]; cbn; split; try discriminate; try contradiction; eauto;
    intros [k' H']; discriminate.
  - rewrite pk_from_hex_ok. split; intros (c & r & E & C & L & F); exists c, r; (split; [exact E|]);
      (split; [exact C|]); (split; [exact L|]); eapply Forall_impl; try exact F; intros a; apply D.
Qed.
Theorem C17_failure_keeps_receiver : forall old s v,
  (snd (pk_set_from_hex old s) <> Ok tt -> pk_set_from_hex old s = (old, Err)) /\
  (snd (pk_scan old v) <> Ok tt -> pk_scan old v = (old, Err)).
Proof.
  assert (A : forall old s, snd (pk_set_from_hex old s) <> Ok tt -> pk_set_from_hex old s = (old, Err)).
  { intros old s. unfold pk_set_from_hex. pose proof (pk_from_hex_no_panic s).
    destruct (pk_from_hex s); cbn; try contradiction; auto. }
  intros old s v. split; [apply A|]. destruct v as [raw|]; cbn; [apply A|reflexivity].
Qed.
Example C17_ex : pk_string [xab; x01] = [x30; x78; x61; x62; x30; x31] /\ length (be_fixed 33 7) = 33%nat /\
  snd (pk_set_from_hex [] [x30; x78; x61]) = Err.
Proof. repeat split. Qed.
Print Assumptions C17_roundtrips. Print Assumptions C17_parses_iff. Print Assumptions C17_failure_keeps_receiver.

(** ** C21 *)
Theorem C21_signatures_verify : forall keccak St (xks : St -> bytes -> St * bytes) fuel st x m k st1,
  ~ eqN x 0 -> uint256 m -> sc_pick St xks fuel st = Some (k, st1) ->
  exists sg P, sign keccak xks fuel st (KS x) m = Some (Ok sg, st1) /\
    pt_mul x KP_nil = Ok P /\ verify keccak (KP P) m sg = Ok tt.
Proof.
  intros keccak St xks fuel st x m k st1 NX U EK.
  assert (D : ~ (N | x)) by (intros D; apply NX; unfold eqN; rewrite (Zdivide_mod _ _ D); reflexivity).
  unfold sign. cbn [is_secp_scalar]. rewrite EK.
  pose proof (sign_with_spec keccak k x m D) as E. cbv zeta in E.
  destruct (key_sound x D) as (P & b & EP & _). unfold scalar_to_public_point in EP.
  eexists. exists P. split; [rewrite E; reflexivity|]. split; [exact EP|].
  eapply sign_verify; [exact U|exact E|exact EP].
Qed.
(** The same for any fixed nonce. *)
Theorem C21_any_nonce : forall keccak k x m sg P, uint256 m ->
  sign_with keccak k (KS x) m = Ok sg -> pt_mul x KP_nil = Ok P -> verify keccak (KP P) m sg = Ok tt.
Proof. exact sign_verify. Qed.
Example C21_ex : ~ eqN 7 0 /\ uint256 (2 ^ 256 - 1) /\
  exists k st1, sc_pick Z (fun st b => (st + 1, repeat (byte_of_z st) (length b))) 5 0 = Some (k, st1).
Proof. split; [vm_compute; discriminate|]. split; [vm_compute; split; [discriminate|reflexivity]|].
  do 2 eexists. vm_compute. reflexivity. Qed.
Print Assumptions C21_signatures_verify. Print Assumptions C21_any_nonce.

(** ** C22 *)
Theorem C22_verify_iff : forall keccak public m a z,
  verify keccak public m (Sig a (Some z)) = Ok tt <->
  0 <= z < N /\ uint256 m /\
  exists P, public = KP P /\ on_curve (fst P) (snd P) /\
    exists A B, pt_mul z KP_nil = Ok A /\ pt_mul (challenge_of keccak P a m) (KP P) = Ok B /\
      a = address_of keccak (pt_add A B).
Proof.
  intros. rewrite verify_ok. split.
  - intros (P & E & C & Z & U & H). split; [exact Z|]. split; [exact U|]. exists P. split; [exact E|]. split; [exact C|exact H].
  - intros (Z & U & P & E & C & H). exists P. split; [exact E|]. split; [exact C|]. split; [exact Z|]. split; [exact U|exact H].
Qed.
Theorem C22_verify_total : forall keccak public m a z,
  verify keccak public m (Sig a (Some z)) = Ok tt \/ verify keccak public m (Sig a (Some z)) = Err.
Proof.
  intros. pose proof (verify_no_panic keccak public m a z).
  destruct (verify keccak public m (Sig a (Some z))) as [[]| |]; tauto.
Qed.
(** A nil signature, or one with a nil integer, crashes the verifier. *)
Theorem C22_nil_signature_panics : forall keccak public m,
  verify keccak public m SigNil = Panic /\ forall a, verify keccak public m (Sig a None) = Panic.
Proof. exact verify_nil. Qed.
Print Assumptions C22_verify_iff. Print Assumptions C22_verify_total. Print Assumptions C22_nil_signature_panics.

(** ** C23: Sign does not reject messages outside uint256 *)
Theorem C23_sign_rejects_bad_messages_refuted : exists x m, ~ uint256 m /\
  forall keccak k, exists sg, sign_with keccak k (KS x) m = Ok sg.
Proof.
  exists 1, (-1).
  assert (D : ~ (N | 1)).
  { intros H. apply Z.divide_pos_le in H; [|lia]. assert (1 < N) by reflexivity. lia. }
  split; [unfold uint256; lia|]. intros keccak k. eexists. rewrite (sign_with_spec keccak k 1 (-1) D). reflexivity.
Qed.
(** Sign's outcome does not depend on the message's range at all, and what it signs is unverifiable. *)
Theorem C23_bad_message_signed_but_unverifiable : forall keccak k x m, ~ eqN x 0 -> ~ uint256 m ->
  exists sg P, sign_with keccak k (KS x) m = Ok sg /\ pt_mul x KP_nil = Ok P /\
    verify keccak (KP P) m sg = Err.
Proof.
  intros keccak k x m NX U.
  assert (D : ~ (N | x)) by (intros D; apply NX; unfold eqN; rewrite (Zdivide_mod _ _ D); reflexivity).
  destruct (key_sound x D) as (P & b & EP & _). unfold scalar_to_public_point in EP.
  pose proof (sign_with_spec keccak k x m D) as E. cbv zeta in E.
  eexists. exists P. split; [exact E|]. split; [exact EP|]. eapply sign_bad_msg; [exact U|exact E|exact EP].
Qed.
Example C23_ex : ~ uint256 (2 ^ 256) /\ ~ uint256 (-1).
Proof. unfold uint256. split; lia. Qed.
Print Assumptions C23_sign_rejects_bad_messages_refuted. Print Assumptions C23_bad_message_signed_but_unverifiable.

(** ** C24 *)
(** The challenge is the hash of [challenge_input], and that string determines key, |msg| and address. *)
Theorem C24_challenge_is_hash_of_input : forall keccak P a m e,
  challenge_hash keccak P a m = Ok e <->
  on_curve (fst P) (snd P) /\ e = be2z (keccak (challenge_input P a m)) mod N.
Proof. exact challenge_hash_ok. Qed.
Theorem C24_input_injective : forall P Q a b m n, curve_point P -> curve_point Q ->
  length a = 20%nat -> length b = 20%nat ->
  challenge_input P a m = challenge_input Q b n -> P = Q /\ a = b /\ Z.abs m = Z.abs n.
Proof. exact challenge_input_inj. Qed.
Theorem C24_sign_not_bound : forall keccak P a m,
  challenge_hash keccak P a (- m) = challenge_hash keccak P a m.
Proof.
  intros keccak P a m.
  assert (B : challenge_input P a (- m) = challenge_input P a m) by (unfold challenge_input; rewrite big_bytes_opp; reflexivity).
  destruct (challenge_hash keccak P a m) as [e| |] eqn:E.
  - apply challenge_hash_ok in E. apply challenge_hash_ok. rewrite B. exact E.
  - apply challenge_hash_err in E. apply challenge_hash_err. exact E.
  - destruct (challenge_hash_no_panic _ _ _ _ E).
Qed.
Example C24_ex : curve_point (Gx, Gy) /\ length (repeat x07 20) = 20%nat.
Proof. vm_compute. repeat split; discriminate. Qed.
Print Assumptions C24_challenge_is_hash_of_input. Print Assumptions C24_input_injective. Print Assumptions C24_sign_not_bound.

(** ** C25: the challenge is not the on-chain one *)
Theorem C25_onchain_parity_refuted : exists m, uint256 m /\
  forall P a, challenge_input P a m <> onchain_input P a m.
Proof.
  exists 1. assert (U : uint256 1) by (vm_compute; split; [discriminate|reflexivity]).
  split; [exact U|]. intros P a E. apply onchain_agree in E; [|exact U]. vm_compute in E. apply E. reflexivity.
Qed.
Theorem C25_agree_iff_large : forall P a m, uint256 m ->
  (challenge_input P a m = onchain_input P a m <-> 2 ^ 248 <= m).
Proof. exact onchain_agree. Qed.
Theorem C25_smaller_messages_hash_shorter_strings : forall P a m, uint256 m -> m < 2 ^ 248 ->
  (length (challenge_input P a m) < length (onchain_input P a m))%nat.
Proof. exact onchain_length. Qed.
Example C25_ex : uint256 (2 ^ 248) /\ uint256 5 /\ 5 < 2 ^ 248.
Proof. vm_compute. repeat split; discriminate. Qed.
Print Assumptions C25_onchain_parity_refuted. Print Assumptions C25_agree_iff_large.
Print Assumptions C25_smaller_messages_hash_shorter_strings.

(** ** C26 *)
Theorem C26_nonce_reuse_reveals_key : forall keccak k x m1 m2 a1 a2 s1 s2 P,
  sign_with keccak k (KS x) m1 = Ok (Sig a1 (Some s1)) ->
  sign_with keccak k (KS x) m2 = Ok (Sig a2 (Some s2)) ->
  pt_mul x KP_nil = Ok P ->
  let e1 := challenge_of keccak P a1 m1 in let e2 := challenge_of keccak P a2 m2 in
  e1 <> e2 -> exists d, sc_div (sc_sub s1 s2) (sc_sub e2 e1) = Ok d /\ d = x mod N.
Proof. exact nonce_reuse. Qed.
Theorem C26_signature_formula : forall keccak k x m R P, ~ eqN x 0 ->
  pt_mul k KP_nil = Ok R -> pt_mul x KP_nil = Ok P ->
  exists s, sign_with keccak k (KS x) m = Ok (Sig (address_of keccak R) (Some s)) /\
    repN s (k - x * challenge_of keccak P (address_of keccak R) m).
Proof.
  intros keccak k x m R P NX ER EP.
  assert (D : ~ (N | x)) by (intros D; apply NX; unfold eqN; rewrite (Zdivide_mod _ _ D); reflexivity).
  rewrite pt_mul_base in ER, EP by tauto. injection ER as <-. injection EP as <-.
  rewrite (sign_with_spec keccak k x m D). eexists. split; [reflexivity|apply repN_mod].
Qed.
(** A hash under which the challenges of messages 1 and 2 differ: the hypotheses are satisfiable. *)
Example C26_ex : forall P a, length a = 20%nat ->
  let h := fun b => [byte_of_z (Z.of_nat (length b))] in
  challenge_of h P a 1 <> challenge_of h P a 256.
Proof.
  intros P a L h. unfold challenge_of, h, challenge_input. rewrite !app_length, !be_fixed_length, L.
  vm_compute. discriminate.
Qed.
Print Assumptions C26_nonce_reuse_reveals_key. Print Assumptions C26_signature_formula.

(** ** C27 *)
Theorem C27_second_response_is_a_collision : forall keccak P m a s s', curve_point P -> s <> s' ->
  verify keccak (KP P) m (Sig a (Some s)) = Ok tt ->
  verify keccak (KP P) m (Sig a (Some s')) = Ok tt ->
  exists b b', b <> b' /\ length b = 64%nat /\ length b' = 64%nat /\
    firstn 20 (skipn 12 (keccak b)) = a /\ firstn 20 (skipn 12 (keccak b')) = a.
Proof.
  intros keccak P m a s s' C NE H1 H2. destruct (second_response keccak P m a s s' C NE H1 H2)
    as (R & R' & GR & GR' & NR & A1 & A2).
  exists (be_fixed 32 (fst R mod p) ++ be_fixed 32 (snd R mod p)),
    (be_fixed 32 (fst R' mod p) ++ be_fixed 32 (snd R' mod p)).
  split; [apply long_form_inj; assumption|]. rewrite !app_length, !be_fixed_length.
  split; [reflexivity|]. split; [reflexivity|]. split; assumption.
Qed.
(** With a constant hash every response verifies: the hypotheses are satisfiable. *)
Example C27_ex : forall z, 0 <= z < N -> verify (fun _ => repeat x00 32) (KP (Gx, Gy)) 1 (Sig (repeat x00 20) (Some z)) = Ok tt.
Proof.
  intros z Hz. apply C22_verify_iff. split; [exact Hz|]. split; [vm_compute; split; [discriminate|reflexivity]|].
  assert (C : curve_point (Gx, Gy)) by (vm_compute; repeat split; discriminate).
  exists (Gx, Gy). split; [reflexivity|]. split; [apply C|].
  destruct (pt_mul_total (challenge_of (fun _ => repeat x00 32) (Gx, Gy) (repeat x00 20) 1) (Gx, Gy)) as [B HB].
  rewrite pt_mul_base by tauto. do 2 eexists. split; [reflexivity|]. split; [exact HB|]. reflexivity.
Qed.
Print Assumptions C27_second_response_is_a_collision.

(** ** C28 *)
(** [ps], [pm], [cx], [cy]: the cells of the signature's integer, the message and the key's coordinates, in any
    aliasing. *)
Theorem C28_verify_pure : forall keccak h ps pm cx cy addr, 0 <= h cx < p ->
  snd (verify_heap keccak h ps pm cx cy addr) = verify keccak (KP (h cx, h cy)) (h pm) (Sig addr (Some (h ps))) /\
  forall i, fst (verify_heap keccak h ps pm cx cy addr) i = h i.
Proof. exact verify_heap_pure. Qed.
Print Assumptions C28_verify_pure.

(** ** C81 *)
(** Any program over the scalar and point methods, receivers and operands aliased in any way, computes what it
    computes on values. *)
Theorem C81_aliasing_safe : forall ops, well_scoped 0 ops ->
  let m := fold_left heap_step ops mem0 in let v := fold_left val_step ops vals0 in
  np v = npts m /\ (forall q, (q < npts m)%nat -> pv v q = (X m q, Y m q)) /\ (forall s, sv v s = sval m s) /\
  (forall q, (q < npts m)%nat -> 0 <= X m q < p /\ 0 <= Y m q < p) /\ (forall s, 0 <= sval m s < N).
Proof. exact aliasing. Qed.
Example C81_ex : well_scoped 0 [ONew; OBase 0; OClone 0; OAdd 0 0 0; ONeg 1 1; OSub 0 0 1; SSetInt 3 5; OMul 0 3 (Some 0); SMul 3 3 3]%nat.
Proof. repeat (split; [unfold live; repeat constructor|]); exact I. Qed.
Print Assumptions C81_aliasing_safe.
