(** Statements that pin down names, times, refusals and the bytes behind a session id. *)
From Coq Require Import Strings.String.
From Coq Require Import ZArith List Lia Bool.
From Coq Require Import Init.Byte.
From Verif Require Import Params Bytes Res Secp Spec SecpProofs SecpProofs2 Curve Order Schnorr Dss DssProofs DssProofs2 DssProofs3 Prot Node Requests Layout Main MainSpec PropsSecp PropsDss PropsMain.
Import ListNotations.
Open Scope list_scope.
Open Scope Z_scope.

(** ** C79.  When the rounds of a long-term key generation start, and their run ids. *)
(** The first round starts at the start of the request, and each round starts the timeout of a key generation and one
    second after the round before it: when the runs of round i have ended, the next round has not started. *)
Theorem C79_round_times : forall start tmo, round_at start tmo 0 = start /\
  forall i, round_at start tmo (S i) = round_at start tmo i + tmo + 1000000000.
Proof. intros start tmo. unfold round_at, lt_interval, ms. split; [lia|]. intros i. lia. Qed.
Theorem C79_rounds_apart : forall start tmo i j, 0 <= tmo -> (i < j)%nat ->
  round_at start tmo i + tmo < round_at start tmo j.
Proof. intros start tmo i j T L. unfold round_at, lt_interval, ms. nia. Qed.
(** The run id: "longterm", the milliseconds at the start of the request, the number of the round and the milliseconds
    at the start of the round. *)
Theorem C79_round_names : forall start tmo i, round_id start tmo i =
  list_byte_of_string "longterm" ++ format_int (start / 1000000) ++ format_int (Z.of_nat i) ++
  format_int ((start + Z.of_nat i * (tmo + 1000000000)) / 1000000).
Proof. intros start tmo i. unfold round_id, run_id_for, round_base, round_at, lt_interval, ms. change s_longterm with (list_byte_of_string "longterm"). rewrite <- !app_assoc. reflexivity. Qed.
Example C79_ex_names : round_id 5000000000 2000000000 1 = list_byte_of_string "longterm500018000" /\
  round_at 5000000000 2000000000 1 = 8000000000.
Proof. split; vm_compute; reflexivity. Qed.
Print Assumptions C79_round_times. Print Assumptions C79_rounds_apart. Print Assumptions C79_round_names.

(** ** C104, C105.  The names of the key files. *)
Theorem C104_secret_names : forall w dir nm, secret_file w dir nm <->
  exists names rest, w_names w dir = Some names /\ In nm names /\ nm = list_byte_of_string "secret_" ++ rest.
Proof. intros w dir nm. reflexivity. Qed.
Theorem C105_file_names : forall St (xks : St -> bytes -> St * bytes) fuel st r1 r2 f1 f2,
  keygen St xks fuel st r1 r2 = Some (Ok (f1, f2)) ->
  fst f1 = list_byte_of_string "secret_" ++ r1 /\ fst f2 = list_byte_of_string "public_" ++ r2.
Proof.
  intros St xks fuel st r1 r2 f1 f2 E. destruct (C105_keygen _ _ _ _ _ _ _ E) as (s & P & b1 & b2 & X & _). injection X as -> ->.
  split; reflexivity.
Qed.
Print Assumptions C104_secret_names. Print Assumptions C105_file_names.
Example C105_ex_names : exists f1 f2, keygen Z (fun st b => (st + 1, repeat (byte_of_z st) (length b))) 5 0 [x31] [x32] = Some (Ok (f1, f2)).
Proof.
  assert (K : forall St xks fuel (st : St) r1 r2 s st', sc_pick St xks fuel st = Some (s, st') -> exists r, keygen St xks fuel st r1 r2 = Some r).
  { intros St xks fuel st r1 r2 s st' E. unfold keygen. rewrite E. eauto. }
  assert (S : exists k st1, sc_pick Z (fun st b => (st + 1, repeat (byte_of_z st) (length b))) 5 0 = Some (k, st1)) by (do 2 eexists; vm_compute; reflexivity).
  destruct S as (k & st1 & S). destruct (K _ _ _ _ [x31] [x32] _ _ S) as [r E]. destruct (C105_keygen _ _ _ _ _ _ _ E) as (s & P & b1 & b2 & X & _). rewrite X in E. eauto.
Qed.

(** ** C21.  Signing with something that is not a scalar of this group. *)
(** A missing key and a scalar of another group are refused with an error, and no randomness is drawn. *)
Theorem C21_foreign_key : forall keccak St (xks : St -> bytes -> St * bytes) fuel st private m,
  private = KS_nil \/ private = KS_foreign -> sign keccak xks fuel st private m = Some (Err, st) /\
  forall k, sign_with keccak k private m = Err.
Proof. intros keccak St xks fuel st private m [-> | ->]; split; reflexivity. Qed.
(** Only a scalar of this group signs. *)
Theorem C21_signers : forall keccak k private m sg, sign_with keccak k private m = Ok sg -> exists x, private = KS x.
Proof. intros keccak k [| |x|] m sg E; try discriminate E. eauto. Qed.
Example C21_ex_foreign : KS_foreign = KS_nil \/ KS_foreign = KS_foreign.
Proof. right. reflexivity. Qed.
Print Assumptions C21_foreign_key. Print Assumptions C21_signers.

(** ** C29.  What the session id stands for. *)
Lemma marshal_to_unmarshal P : curve_point P -> pt_unmarshal (marshal_to P) = Ok P /\ length (marshal_to P) = 33%nat.
Proof. intros C. destruct (C06_point_roundtrip P C) as (b & E & L & U). unfold marshal_to. rewrite E. split; assumption. Qed.
Lemma marshal_all_length l : Forall curve_point l -> length (concat (map marshal_to l)) = (33 * length l)%nat.
Proof. intros F. induction F as [|P l C F IH]; [reflexivity|]. cbn [map concat length]. rewrite app_length, IH, (proj2 (marshal_to_unmarshal P C)). lia. Qed.
Lemma app_eq_len {A} : forall (a b c d : list A), length a = length c -> a ++ b = c ++ d -> a = c /\ b = d.
Proof.
  induction a as [|x a IH]; intros b [|y c] d L E; try discriminate L; [split; [reflexivity|exact E]|].
  injection L as L. injection E as -> E. destruct (IH _ _ _ L E) as [-> ->]. split; reflexivity.
Qed.
Lemma marshal_all_inj : forall l l', Forall curve_point l -> Forall curve_point l' ->
  concat (map marshal_to l) = concat (map marshal_to l') -> l = l'.
Proof.
  induction l as [|P l IH]; intros [|Q l'] F F' E.
  - reflexivity.
  - apply (f_equal (@length _)) in E. rewrite !marshal_all_length in E by assumption. cbn in E. lia.
  - apply (f_equal (@length _)) in E. rewrite !marshal_all_length in E by assumption. cbn in E. lia.
  - apply Forall_cons_iff in F, F'. destruct F as [C F], F' as [C' F']. cbn [map concat] in E.
    destruct (marshal_to_unmarshal P C) as [U1 L1], (marshal_to_unmarshal Q C') as [U2 L2].
    apply app_eq_len in E; [|congruence]. destruct E as [E1 E2]. rewrite E1 in U1. rewrite U1 in U2. injection U2 as ->. f_equal. exact (IH _ F F' E2).
Qed.
Definition encodings (l : list point) (bs : list bytes) : Prop := Forall2 (fun P b => pt_marshal P = Ok b) l bs.
Lemma encodings_concat l bs : encodings l bs -> concat (map marshal_to l) = concat bs.
Proof. intros F. induction F as [|P b l bs E F IH]; [reflexivity|]. cbn [map concat]. rewrite IH. unfold marshal_to. rewrite E. reflexivity. Qed.
(** Two signing runs, after any calls, with equally many long-term commitments; [bs] and [bs'] are the encodings of
    their commitments, which are points of the curve.  If these do not collide under the hash, the first accepts a
    partial signature of the second only if they have the same long-term and the same nonce commitments. *)
Theorem C29_session_binds : forall keccak pshash x parts L R H2 msg T d cs x' parts' L' R' H2' msg' T' d' cs' bs bs' k e ps b,
  new_dss keccak x parts L R H2 msg T = Ok d -> new_dss keccak x' parts' L' R' H2' msg' T' = Ok d' ->
  Forall curve_point (ks_commits L ++ ks_commits R) -> Forall curve_point (ks_commits L' ++ ks_commits R') ->
  length (ks_commits L) = length (ks_commits L') ->
  encodings (ks_commits L ++ ks_commits R) bs -> encodings (ks_commits L' ++ ks_commits R') bs' ->
  (keccak (concat bs) = keccak (concat bs') -> concat bs = concat bs') ->
  partial_sig keccak pshash k (run keccak pshash d' cs') = Ok (e, ps, b) ->
  snd (process keccak pshash (run keccak pshash d cs) ps) = Ok tt ->
  ks_commits L = ks_commits L' /\ ks_commits R = ks_commits R'.
Proof.
  intros keccak pshash x parts L R H2 msg T d cs x' parts' L' R' H2' msg' T' d' cs' bs bs' k e ps b E E' C C' LL B B' K EP A.
  assert (S1 : ps_sid ps = d_sid d).
  { assert (X : d_sid (run keccak pshash d cs) = d_sid d) by (pose proof (run_static keccak pshash cs d) as S; unfold static in S; congruence).
    rewrite <- X. revert A. unfold process. destruct (ps_partial ps) as [[i v]|]; [|discriminate].
    destruct (find_pub _ _) as [[q|]| |]; try discriminate. destruct (bytes_eqb_spec (ps_sid ps) (d_sid (run keccak pshash d cs))) as [Y|]; [intros _; exact Y|discriminate]. }
  assert (S2 : ps_sid ps = d_sid d').
  { assert (X : d_sid (run keccak pshash d' cs') = d_sid d') by (pose proof (run_static keccak pshash cs' d') as S; unfold static in S; congruence).
    rewrite <- X. apply partial_sig_ok in EP. destruct EP as (h & _ & _ & -> & _). reflexivity. }
  apply (new_dss_ok keccak pshash) in E, E'. destruct E as (_ & _ & _ & _ & _ & _ & _ & _ & _ & _ & _ & E & _), E' as (_ & _ & _ & _ & _ & _ & _ & _ & _ & _ & _ & E' & _).
  rewrite S1, E, E' in S2. unfold session_id in S2. rewrite <- !concat_app, <- !map_app, (encodings_concat _ _ B), (encodings_concat _ _ B') in S2.
  specialize (K S2). rewrite <- (encodings_concat _ _ B), <- (encodings_concat _ _ B') in K. apply marshal_all_inj in K; [|assumption..].
  exact (app_eq_len _ _ _ _ LL K).
Qed.
Print Assumptions C29_session_binds.
Example C29_ex_session : forall keccak pshash, (forall b, length (keccak b) = 32%nat) ->
  exists d0 d1 d1' ps bs,
    new_dss keccak 3 demo_parts (demo_share [5; 6] 0) (demo_share [7; 8] 0) [0; 1] 10 2 = Ok d0 /\
    new_dss keccak 6 demo_parts (demo_share [5; 6] 1) (demo_share [7; 8] 1) [0; 1] 10 2 = Ok d1 /\
    Forall curve_point (ks_commits (demo_share [5; 6] 0) ++ ks_commits (demo_share [7; 8] 0)) /\
    encodings (ks_commits (demo_share [5; 6] 0) ++ ks_commits (demo_share [7; 8] 0)) bs /\
    partial_sig keccak pshash 9 (run keccak pshash d1 []) = Ok (d1', ps, true) /\
    snd (process keccak pshash (run keccak pshash d0 []) ps) = Ok tt.
Proof.
  intros keccak pshash LK. destruct (C29_ex keccak pshash LK) as (d0 & d1 & d1' & ps & E0 & E1 & _ & _ & EP & A & _).
  assert (C : Forall curve_point (ks_commits (demo_share [5; 6] 0) ++ ks_commits (demo_share [7; 8] 0))).
  { cbn [demo_share ks_commits map app]. do 4 (apply Forall_cons_iff; split; [apply demo_curve, small_ndiv; split; reflexivity|]). apply Forall_nil. }
  assert (B : forall l, Forall curve_point l -> exists bs, encodings l bs).
  { intros l F. induction F as [|P l CP F [bs IH]]; [exists []; constructor|]. destruct (C06_point_roundtrip P CP) as (b & M & _). exists (b :: bs). constructor; assumption. }
  destruct (B _ C) as [bs H]. exists d0, d1, d1', ps, bs. split; [exact E0|]. split; [exact E1|]. split; [exact C|]. split; [exact H|]. split; [exact EP|exact A].
Qed.
