(** Model of secp256k1/public_key.go, utils.go and EthereumAddress. *)
From Coq Require Import ZArith List Lia Bool.
From Coq Require Import Init.Byte.
From Verif Require Import Params Bytes Res Secp.
Import ListNotations.
Open Scope Z_scope.

(** * go-ethereum hexutil (contract B3) *)

(** encoding/hex: one lower-case digit; [d] in 0..15 *)
Definition hex_digit (d : Z) : byte :=
  if d <? 10 then byte_of_z (48 + d) else byte_of_z (87 + d).

(** encoding/hex fromHexChar *)
Definition hex_val (c : byte) : option Z :=
  let z := z_of_byte c in
  if (48 <=? z) && (z <=? 57) then Some (z - 48)
  else if (97 <=? z) && (z <=? 102) then Some (z - 87)
  else if (65 <=? z) && (z <=? 70) then Some (z - 55)
  else None.

(** hex.EncodeToString *)
Fixpoint hex_encode (b : bytes) : bytes :=
  match b with
  | [] => []
  | x :: b' => hex_digit (z_of_byte x / 16) :: hex_digit (z_of_byte x mod 16) :: hex_encode b'
  end.

(** hex.DecodeString: error on odd length or a non-digit *)
Fixpoint hex_decode (s : bytes) : option bytes :=
  match s with
  | [] => Some []
  | c :: d :: s' =>
      match hex_val c, hex_val d, hex_decode s' with
      | Some h, Some l, Some r => Some (byte_of_z (16 * h + l) :: r)
      | _, _, _ => None
      end
  | [_] => None
  end.

Definition ch_0 : byte := x30.
Definition ch_x : byte := x78.
Definition ch_X : byte := x58.

(** hexutil.Encode *)
Definition hexutil_encode (b : bytes) : bytes := ch_0 :: ch_x :: hex_encode b.

(** hexutil.Decode: empty string and missing prefix are errors *)
Definition hexutil_decode (s : bytes) : res bytes :=
  match s with
  | c0 :: c1 :: r =>
      if byte_eqb c0 ch_0 && (byte_eqb c1 ch_x || byte_eqb c1 ch_X) then
        match hex_decode r with Some b => Ok b | None => Err end
      else Err
  | _ => Err
  end.

(** common.BytesToHash (n = 32) and BytesToAddress (n = 20): crop from the left
    or pad on the left. *)
Definition to_fixed (n : nat) (b : bytes) : bytes :=
  if (n <? length b)%nat then skipn (length b - n) b
  else repeat x00 (n - length b) ++ b.

(** * public_key.go; a PublicKey is a 33-byte array *)

(** 21 *)
Definition pk_len : nat := 33.

(** 30-34: copy between arrays of the same length *)
Definition pk_set (k l : bytes) : bytes := l.

(** 37-40 *)
Definition pk_point (k : bytes) : res point := pt_unmarshal k.

(** 52-62 *)
Definition pk_from_bytes (raw : bytes) : res bytes :=
  if (length raw =? pk_len)%nat then Ok raw else Err.

(** 43-49 *)
Definition pk_from_hex (hex : bytes) : res bytes :=
  raw <- hexutil_decode hex ;; pk_from_bytes raw.

(** 66-73: the key afterwards and the error *)
Definition pk_set_from_hex (k hex : bytes) : bytes * res unit :=
  match pk_from_hex hex with
  | Ok nk => (pk_set k nk, Ok tt)
  | Err => (k, Err)
  | Panic => (k, Panic)
  end.

(** 76-78 *)
Definition pk_string (k : bytes) : bytes := hexutil_encode k.

(** 81-87 *)
Definition pk_string_uncompressed (k : bytes) : res bytes :=
  P <- pk_point k ;; b <- long_marshal P ;; Ok (hexutil_encode b).

(** 118-120 *)
Definition pk_is_zero (k : bytes) : bool := bytes_eqb k (repeat x00 pk_len).

(** 123-125 *)
Definition pk_marshal_text (k : bytes) : res bytes := Ok (pk_string k).

(** 128-133 *)
Definition pk_unmarshal_text (k text : bytes) : bytes * res unit := pk_set_from_hex k text.

(** Database values: a string or anything else. *)
Inductive dbvalue := DbString (s : bytes) | DbOther.

(** 136-138 *)
Definition pk_value (k : bytes) : res dbvalue := Ok (DbString (pk_string k)).

(** 141-150 *)
Definition pk_scan (k : bytes) (v : dbvalue) : bytes * res unit :=
  match v with
  | DbString raw => pk_set_from_hex k raw
  | DbOther => (k, Err)
  end.

Section Hash.
  (** Legacy Keccak-256; sha3's Write never returns an error. *)
  Variable keccak : bytes -> bytes.

  (** utils.go:14-18, 21-27 *)
  Definition must_hash (inp : bytes) : bytes := to_fixed 32 (keccak inp).

  (** point.go:287-298 *)
  Definition eth_address (P : point) : res bytes :=
    b <- long_marshal P ;; Ok (firstn 20 (skipn 12 (keccak b))).

  (** 91-97 *)
  Definition pk_hash (k : bytes) : res bytes :=
    P <- pk_point k ;; b <- long_marshal P ;; Ok (must_hash b).

  (** 100-106 *)
  Definition pk_must_hash (k : bytes) : res bytes :=
    match pk_hash k with Ok h => Ok h | _ => Panic end.

  (** 109-115 *)
  Definition pk_address (k : bytes) : bytes :=
    match pk_hash k with
    | Ok h => to_fixed 20 (skipn 12 h)
    | _ => repeat x00 20
    end.
End Hash.

(** * Proofs *)
Lemma hex_val_digit d : 0 <= d < 16 -> hex_val (hex_digit d) = Some d.
Proof.
  intros H. unfold hex_digit, hex_val.
  destruct (Z.ltb_spec d 10); rewrite z_byte_z, Z.mod_small by lia.
  - destruct (Z.leb_spec 48 (48 + d)), (Z.leb_spec (48 + d) 57); try lia; cbn [andb]; f_equal; lia.
  - destruct (Z.leb_spec 48 (87 + d)), (Z.leb_spec (87 + d) 57), (Z.leb_spec 97 (87 + d)),
      (Z.leb_spec (87 + d) 102); try lia; cbn [andb]; f_equal; lia.
Qed.

Lemma hex_decode_encode b : hex_decode (hex_encode b) = Some b.
Proof.
  induction b as [|x b IH]; [reflexivity|]. cbn [hex_encode hex_decode].
  pose proof (z_of_byte_range x). rewrite !hex_val_digit, IH.
  - do 2 f_equal. rewrite <- Z.div_mod by lia. apply byte_z_byte.
  - apply Z.mod_pos_bound; lia.
  - split; [apply Z.div_pos; lia|apply Z.div_lt_upper_bound; lia].
Qed.

Lemma hexutil_roundtrip b : hexutil_decode (hexutil_encode b) = Ok b.
Proof. unfold hexutil_encode, hexutil_decode. cbn. rewrite hex_decode_encode. reflexivity. Qed.

Definition is_hex_digit (c : byte) : Prop := exists d, hex_val c = Some d.

Lemma hex_decode_spec n : forall s, (length s <= n)%nat ->
  (forall b, hex_decode s = Some b -> length s = (2 * length b)%nat /\ Forall is_hex_digit s) /\
  (forall m, length s = (2 * m)%nat -> Forall is_hex_digit s -> exists b, hex_decode s = Some b).
Proof.
  induction n as [|n IH]; intros s Hs.
  - destruct s; [|cbn in Hs; lia]. split.
    + intros b H. injection H as <-. split; [reflexivity|constructor].
    + intros m _ _. exists []. reflexivity.
  - destruct s as [|c [|d s]].
    + split; [intros b H; injection H as <-; split; [reflexivity|constructor]|].
      intros m _ _. exists []. reflexivity.
    + split; [discriminate|]. intros m H. cbn in H. lia.
    + destruct (IH s) as [I1 I2]; [cbn in Hs; lia|]. cbn [hex_decode]. split.
      * intros b. destruct (hex_val c) eqn:E1; [|discriminate]. destruct (hex_val d) eqn:E2; [|discriminate].
        destruct (hex_decode s) as [r|] eqn:E3; [|discriminate]. intros H. injection H as <-.
        destruct (I1 r eq_refl) as [L F]. cbn [length]. split; [lia|].
        constructor; [eexists; exact E1|]. constructor; [eexists; exact E2|exact F].
      * intros m L F. inversion F as [|? ? [v1 Hv1] F']; subst. inversion F' as [|? ? [v2 Hv2] F'']; subst.
        destruct (I2 (m - 1)%nat) as [b Hb]; [cbn [length] in L; lia|exact F''|].
        rewrite Hv1, Hv2, Hb. eexists. reflexivity.
Qed.

Lemma pk_from_hex_ok s : (exists k, pk_from_hex s = Ok k) <->
  exists c r, s = ch_0 :: c :: r /\ (c = ch_x \/ c = ch_X) /\ length r = 66%nat /\ Forall is_hex_digit r.
Proof.
  unfold pk_from_hex, hexutil_decode, pk_from_bytes, pk_len. split.
  - intros [k H]. destruct s as [|c0 [|c1 r]]; try discriminate.
    destruct (byte_eqb_spec c0 ch_0) as [->|]; cbn [andb] in H; [|discriminate].
    assert (C : c1 = ch_x \/ c1 = ch_X).
    { destruct (byte_eqb_spec c1 ch_x); [tauto|]. destruct (byte_eqb_spec c1 ch_X); [tauto|discriminate]. }
    assert (E : byte_eqb c1 ch_x || byte_eqb c1 ch_X = true) by (destruct C as [-> | ->]; reflexivity).
    rewrite E in H. destruct (hex_decode r) as [b|] eqn:D; [|discriminate]. cbn [rbind] in H.
    destruct (Nat.eqb_spec (length b) 33) as [L|]; [|discriminate].
    destruct (proj1 (hex_decode_spec _ r (le_n _)) b D) as [L2 F].
    exists c1, r. split; [reflexivity|]. split; [exact C|]. split; [lia|exact F].
  - intros (c & r & -> & C & L & F).
    assert (E : byte_eqb c ch_x || byte_eqb c ch_X = true) by (destruct C as [-> | ->]; reflexivity).
    rewrite E. change (byte_eqb ch_0 ch_0) with true. cbn [andb].
    destruct (proj2 (hex_decode_spec _ r (le_n _)) 33%nat) as [b D]; [lia|exact F|].
    rewrite D. cbn [rbind]. destruct (proj1 (hex_decode_spec _ r (le_n _)) b D) as [L2 _].
    destruct (Nat.eqb_spec (length b) 33); [|lia]. eexists; reflexivity.
Qed.

Lemma pk_from_hex_len s k : pk_from_hex s = Ok k -> length k = 33%nat.
Proof.
  unfold pk_from_hex. destruct (hexutil_decode s); try discriminate. cbn. unfold pk_from_bytes, pk_len.
  destruct (Nat.eqb_spec (length a) 33) as [L|]; [|discriminate]. intros H. injection H as <-. exact L.
Qed.

Lemma pk_from_hex_string k : length k = 33%nat -> pk_from_hex (pk_string k) = Ok k.
Proof.
  intros L. unfold pk_from_hex, pk_string. rewrite hexutil_roundtrip. cbn. unfold pk_from_bytes, pk_len.
  rewrite L. reflexivity.
Qed.

Lemma pk_from_hex_no_panic s : pk_from_hex s <> Panic.
Proof.
  unfold pk_from_hex, hexutil_decode.
  destruct s as [|a [|b s]]; cbn; try discriminate.
  destruct (_ && _); cbn; [|discriminate]. destruct (hex_decode s) as [r|]; cbn; [|discriminate].
  unfold pk_from_bytes. destruct (_ =? _)%nat; discriminate.
Qed.

Lemma to_fixed_same n b : length b = n -> to_fixed n b = b.
Proof.
  intros <-. unfold to_fixed. rewrite Nat.ltb_irrefl, Nat.sub_diag. reflexivity.
Qed.
