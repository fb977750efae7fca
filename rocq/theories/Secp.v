(** Model of ch/core/services/signatures/secp256k1 (field.go, scalar.go,
    point.go, curve.go, suite.go).

    [*big.Int] is [Z].  Go methods write their result into the receiver and
    return it; here they return it.  A method's result never depends on the
    receiver's old value, except where the definition takes it as an argument.
    In-place reductions of arguments (modQ, modG) do not change the residue
    class and are noted where they occur; where such an effect is the subject of a
    property (Verify, C28) it is modelled explicitly in Schnorr.v. *)
From Coq Require Import ZArith List Lia Bool.
From Coq Require Import Init.Byte.
From Verif Require Import Params NumTh Zmod Bytes Res.
Import ListNotations.
Open Scope Z_scope.

(** * field.go *)

(** field.go:34-44 [modQ] *)
Definition fe_modQ (f : Z) : Z := if (p <=? f) || (f <? 0) then f mod p else f.

(** field.go:62-73 [Equal] on non-nil elements *)
Definition fe_equal (f g : Z) : bool := fe_modQ (f - g) =? 0.

(** field.go:76-79 *)
Definition fe_add (a b : Z) : Z := fe_modQ (a + b).
(** field.go:82-85 *)
Definition fe_sub (a b : Z) : Z := fe_modQ (a - b).
(** field.go:88-91 [Set], 94-97 [SetInt], 111 [Clone] *)
Definition fe_set (v : Z) : Z := fe_modQ v.
(** field.go:105-108 *)
Definition fe_neg (g : Z) : Z := fe_modQ (- g).
(** field.go:115-118 *)
Definition fe_set_bytes (buf : bytes) : Z := fe_modQ (be2z buf).

(** field.go:121-129 [Bytes]; also reduces f in place. *)
Definition fe_bytes (f : Z) : res bytes :=
  let b := big_bytes (fe_modQ f) in
  if (32 <? length b)%nat then Panic
  else Ok (repeat x00 (32 - length b) ++ b).

(** field.go:134-136; big.Int.Exp with a modulus is the Euclidean residue. *)
Definition fe_square (y : Z) : Z := fe_modQ (powm y 2 p).

(** field.go:144: btcec's QPlus1Div4 = (P+1)/4 *)
Definition sqrt_power : positive := Z.to_pos ((p + 1) / 4).

(** field.go:147-154; nil is [None] *)
Definition fe_maybe_sqrt (v : Z) : option Z :=
  let s := powm v sqrt_power p in
  if fe_equal (fe_square s) v then Some s else None.

(** field.go:160-164 *)
Definition fe_rhs (x : Z) : Z := fe_add (powm x 3 p) (fe_modQ 7).

(** field.go:167-169 *)
Definition fe_is_even (f : Z) : bool := f mod 2 =? 0.

(** * scalar.go *)

(** scalar.go:43-45 [newScalar], 53-57 [modG], 73-75 [Set], 78-80 [Clone],
    218-220 [IntToScalar] *)
Definition sc_mod (v : Z) : Z := v mod N.
(** scalar.go:67-70 *)
Definition sc_equal (s s' : Z) : bool := (s - s') mod N =? 0.
(** scalar.go:83-85; v ranges over int64 *)
Definition sc_set_int64 (v : Z) : Z := sc_mod v.
(** scalar.go:88-90, 111-113 *)
Definition sc_zero : Z := sc_set_int64 0.
Definition sc_one : Z := sc_set_int64 1.
(** scalar.go:93-96 *)
Definition sc_add (a b : Z) : Z := sc_mod (a + b).
(** scalar.go:99-102 *)
Definition sc_sub (a b : Z) : Z := sc_mod (a - b).
(** scalar.go:105-108 *)
Definition sc_neg (a : Z) : Z := sc_mod (- a).
(** scalar.go:116-120 *)
Definition sc_mul (a b : Z) : Z := sc_mod (a * b).

(** big.Int.ModInverse(g, N): nil if g is a multiple of the prime N. *)
Definition big_mod_inverse (g : Z) : option Z :=
  if g mod N =? 0 then None else Some (modinv g N).

(** scalar.go:123-130: a nil ModInverse makes big.Int.Mul dereference nil. *)
Definition sc_div (a b : Z) : res Z :=
  if b =? 0 then Panic
  else match big_mod_inverse b with
       | None => Panic
       | Some i => Ok (sc_mod (a * i))
       end.

(** scalar.go:133-139: when there is no inverse, ModInverse leaves its
    receiver (old value [s]) unchanged. *)
Definition sc_inv (s a : Z) : res Z :=
  if a =? 0 then Panic
  else match big_mod_inverse a with
       | None => Ok s
       | Some i => Ok i
       end.

(** scalar.go:149-157; make([]byte, negative) would panic *)
Definition sc_marshal (s : Z) : res bytes :=
  let b := big_bytes (sc_mod s) in
  if (32 <? length b)%nat then Panic
  else let rv := repeat x00 (32 - length b) ++ b in
       if (length rv =? 32)%nat then Ok rv else Err.

(** scalar.go:169-175 *)
Definition sc_unmarshal (buf : bytes) : res Z :=
  if (length buf =? 32)%nat then Ok (sc_mod (be2z buf)) else Err.

(** scalar.go:200-202 *)
Definition sc_set_bytes (a : bytes) : Z := sc_mod (be2z a).

(** scalar.go:227-229 *)
Definition represents_scalar (i : Z) : bool := i <? N.

(** kyber.Scalar interface values: a nil interface, a nil *secp256k1Scalar,
    a scalar of this package, a scalar of another one. *)
Inductive kscalar := KS_nil | KS_typed_nil | KS (s : Z) | KS_foreign.

(** scalar.go:205-213: [Some b] the returned bool, [None] a panic (modG on a
    nil *big.Int). *)
Definition is_secp_scalar (s : kscalar) : option bool :=
  match s with
  | KS _ => Some true
  | KS_typed_nil => None
  | KS_nil | KS_foreign => Some false
  end.

(** * btcec (contract B1) *)

(** point.go:29-32: coordinates; (0,0) is the identity. *)
Definition point : Type := (Z * Z)%type.

Definition pt_null : point := (0, 0).
Definition pt_base : point := (Gx, Gy).
Definition is_null (P : point) : bool := (fst P =? 0) && (snd P =? 0).

(** Tangent and chord with a given slope. *)
Definition line_third (l x1 y1 x2 : Z) : point :=
  let x3 := (l * l - x1 - x2) mod p in (x3, (l * (x1 - x3) - y1) mod p).

(** btcec KoblitzCurve.Add: affine textbook law on reduced coordinates. *)
Definition btc_add (P Q : point) : point :=
  if is_null P then Q
  else if is_null Q then P
  else let (x1, y1) := P in let (x2, y2) := Q in
    if x1 =? x2 then
      if y1 =? y2 then
        if y1 =? 0 then pt_null
        else line_third ((3 * (x1 * x1)) mod p * modinv (2 * y1) p) x1 y1 x2
      else pt_null
    else line_third ((y2 - y1) * modinv (x2 - x1) p) x1 y1 x2.

(** btcec ScalarMult / ScalarBaseMult on big-endian multiplier bytes.
    Simplified: btcec decomposes the multiplier with the curve endomorphism;
    here double-and-add, the contract being that both give k*P. *)
Fixpoint btc_pmul (k : positive) (P : point) : point :=
  match k with
  | xH => P
  | xO k' => let Q := btc_pmul k' P in btc_add Q Q
  | xI k' => let Q := btc_pmul k' P in btc_add (btc_add Q Q) P
  end.
Definition btc_mul (P : point) (k : bytes) : point :=
  match be2z k with Zpos n => btc_pmul n P | _ => pt_null end.

(** * point.go *)

(** kyber.Point interface values. *)
Inductive kpoint := KP_nil | KP_typed_nil | KP (P : point) | KP_foreign.

(** point.go:44-47 *)
Definition pt_equal (P Q : point) : bool :=
  fe_equal (fst P) (fst Q) && fe_equal (snd P) (snd Q).

(** point.go:83-87 [Set], 90-92 [Clone] *)
Definition pt_set (P : point) : point := (fe_set (fst P), fe_set (snd P)).

(** point.go:149-156 *)
Definition pt_add (a b : point) : point := pt_set (btc_add a b).
(** point.go:159-167 *)
Definition pt_sub (a b : point) : point := pt_set (btc_add a (fst b, fe_neg (snd b))).
(** point.go:170-174 *)
Definition pt_neg (a : point) : point := (fe_set (fst a), fe_neg (snd a)).

(** point.go:178-194 with a secp256k1 scalar: panics on a foreign point. *)
Definition pt_mul (s : Z) (a : kpoint) : res point :=
  match sc_marshal s with
  | Ok sb =>
      match a with
      | KP_nil | KP_typed_nil => Ok (pt_set (btc_mul pt_base sb))
      | KP P => Ok (pt_set (btc_mul P sb))
      | KP_foreign => Panic
      end
  | _ => Panic
  end.

(** point.go:199-222; P.X is also reduced in place. *)
Definition pt_marshal (P : point) : res bytes :=
  match fe_maybe_sqrt (fe_rhs (fst P)) with
  | None => Err
  | Some s =>
      if negb (fe_equal (snd P) s) && negb (fe_equal (snd P) (fe_neg s)) then Err
      else xb <- fe_bytes (fst P) ;;
           Ok (xb ++ [if fe_is_even (snd P) then x00 else x01])
  end.

(** point.go:234-263.  [P] is the receiver before the call: a failed call may have
    overwritten its X.  Result: the receiver afterwards, and the error. *)
Definition pt_unmarshal_recv (P : point) (buf : bytes) : point * res unit :=
  if negb (length buf =? 33)%nat then (P, Err)
  else
    let s := nth 32 buf x00 in
    if negb (byte_eqb s x00 || byte_eqb s x01) then (P, Err)
    else
      let x := fe_set_bytes (firstn 32 buf) in
      match fe_maybe_sqrt (fe_rhs x) with
      | None => ((x, snd P), Err)
      | Some y0 =>
          let even := fe_is_even y0 in
          let y := fe_set y0 in
          if (byte_eqb s x00 && negb even) || (byte_eqb s x01 && even)
          then ((x, fe_neg y), Ok tt)
          else ((x, y), Ok tt)
      end.

(** curve.go:42-44 + point.go:234: decoding into a new point. *)
Definition pt_unmarshal (buf : bytes) : res point :=
  match pt_unmarshal_recv pt_null buf with
  | (P, Ok _) => Ok P
  | (_, Err) => Err
  | (_, Panic) => Panic
  end.

(** point.go:341-345 *)
Definition long_marshal (P : point) : res bytes :=
  xb <- fe_bytes (fst P) ;; yb <- fe_bytes (snd P) ;; Ok (xb ++ yb).

(** point.go:317-327 *)
Definition valid_public_key (k : kpoint) : bool :=
  match k with
  | KP P =>
      match fe_maybe_sqrt (fe_rhs (fst P)) with
      | None => false
      | Some y => fe_equal (snd P) y || fe_equal (snd P) (fe_neg y)
      end
  | _ => false
  end.

(** point.go:301-308 *)
Definition is_secp_point (k : kpoint) : bool :=
  match k with KP _ | KP_typed_nil => true | _ => false end.

(** point.go:349-362 *)
Definition long_unmarshal (m : bytes) : res point :=
  if negb (length m =? 64)%nat then Err
  else let P := (fe_set (be2z (firstn 32 m)), fe_set (be2z (skipn 32 m))) in
       if valid_public_key (KP P) then Ok P else Err.

(** point.go:371-379 *)
Definition set_coordinates (x y : Z) : res point :=
  let P := (fe_set x, fe_set y) in
  if valid_public_key (KP P) then Ok P else Panic.

(** point.go:365-368 *)
Definition scalar_to_public_point (s : Z) : res point := pt_mul s KP_nil.

(** point.go:95-99 *)
Definition embed_len : Z := (255 - 8 - 8) / 8.

(** point.go:139-146 *)
Definition pt_data (P : point) : res bytes :=
  b <- fe_bytes (fst P) ;;
  let n := z_of_byte (hd x00 b) in
  if embed_len <? n then Err
  else Ok (firstn (Z.to_nat n) (tl b)).

(** * Randomness *)
Section Rand.
  (** A cipher.Stream: [xks st src] is XORKeyStream's output for [src], and the
      new state.  Only the length of the output is ever assumed. *)
  Variable St : Type.
  Variable xks : St -> bytes -> St * bytes.

  (** kyber random.Int (contract B4), fuelled: [None] means it has not
      returned after [fuel] candidates.  For p and N BitLen is 256, so Bits
      reads 32 bytes and masks nothing. *)
  Fixpoint random_int (fuel : nat) (m : Z) (st : St) : option (Z * St) :=
    match fuel with
    | O => None
    | S f =>
        let (st', b) := xks st (repeat x00 32) in
        let i := be2z b in
        if (0 <? i) && (i <? m) then Some (i, st') else random_int f m st'
    end.

  (** scalar.go:143-145 *)
  Definition sc_pick (fuel : nat) (st : St) : option (Z * St) :=
    match random_int fuel N st with
    | Some (i, st') => Some (sc_mod i, st')
    | None => None
    end.

  (** field.go:100-102 *)
  Definition fe_pick (fuel : nat) (st : St) : option (Z * St) :=
    match random_int fuel p st with
    | Some (i, st') => Some (fe_set i, st')
    | None => None
    end.

  (** point.go:64-80 *)
  Fixpoint pt_pick (fuel : nat) (st : St) : option (point * St) :=
    match fuel with
    | O => None
    | S f =>
        match fe_pick fuel st with
        | None => None
        | Some (x0, st1) =>
            let x := fe_set x0 in
            match fe_maybe_sqrt (fe_rhs x) with
            | Some y0 =>
                let y := fe_set y0 in
                let (st2, b) := xks st1 [x00] in
                let y' := if z_of_byte (hd x00 b) mod 2 =? 0 then fe_neg y else y in
                Some ((x, y'), st2)
            | None => pt_pick f st1
            end
        end
    end.

  (** point.go:331-338: [valid] is ValidPublicKey of the pair so far. *)
  Fixpoint generate_loop (fuel : nat) (pair : Z * kpoint) (st : St) : option ((Z * kpoint) * nat * St) :=
    if valid_public_key (snd pair) then Some (pair, O, st)
    else match fuel with
    | O => None
    | S f =>
        match sc_pick fuel st with
        | None => None
        | Some (s, st') =>
            match pt_mul s KP_nil with
            | Ok P =>
                match generate_loop f (s, KP P) st' with
                | Some (r, n, st'') => Some (r, S n, st'')
                | None => None
                end
            | _ => None
            end
        end
    end.
  Definition generate (fuel : nat) (st : St) := generate_loop fuel (0, KP_nil) st.

  (** point.go:104-136: [Ok (Some ...)] a point, [Panic] the two panics.  The loop body
      for attempt numbers below maxAttempts = 10000. *)
  Fixpoint embed_loop (attempts : nat) (pre : bytes) (rest : bytes) (st : St) : res (point * St) :=
    match attempts with
    | O => Panic
    | S n =>
        let (st', rest') := xks st rest in
        let x := fe_set_bytes (pre ++ rest') in
        match fe_maybe_sqrt (fe_rhs x) with
        | Some y => Ok ((x, y), st')
        | None => embed_loop n pre rest' st'
        end
    end.
  Definition max_attempts : nat := 100 * 100.
  Definition pt_embed (data : bytes) (st : St) : res (point * St) :=
    if (Z.of_nat (length data) <=? embed_len)
    then let pre := byte_of_z (Z.of_nat (length data)) :: data in
         embed_loop max_attempts pre (repeat x00 (32 - length pre)) st
    else Panic.
End Rand.

(** * suite.go *)

(** reflect.Type values: the nil Type, the Scalar and Point interface types, the
    concrete pointer types, anything else. *)
Inductive rtype := RT_nil | RT_scalar_iface | RT_point_iface | RT_scalar_ptr | RT_point_ptr
                 | RT_other (n : nat).

(** reflect.TypeOf of an interface value: nil for a nil interface. *)
Definition type_of_scalar (s : kscalar) : rtype :=
  match s with KS_nil => RT_nil | KS_typed_nil | KS _ => RT_scalar_ptr | KS_foreign => RT_other 0 end.
Definition type_of_point (P : kpoint) : rtype :=
  match P with KP_nil => RT_nil | KP_typed_nil | KP _ => RT_point_ptr | KP_foreign => RT_other 1 end.

(** suite.go:58-61: zero-valued (nil) interface variables *)
Definition t_scalar : rtype := type_of_scalar KS_nil.
Definition t_point : rtype := type_of_point KP_nil.

Definition rtype_eqb (a b : rtype) : bool :=
  match a, b with
  | RT_nil, RT_nil | RT_scalar_iface, RT_scalar_iface | RT_point_iface, RT_point_iface
  | RT_scalar_ptr, RT_scalar_ptr | RT_point_ptr, RT_point_ptr => true
  | RT_other n, RT_other m => Nat.eqb n m
  | _, _ => false
  end.

Inductive new_result := NewNil | NewScalar (s : Z) | NewPoint (P : point).

(** suite.go:65-73 *)
Definition suite_new (t : rtype) : new_result :=
  if rtype_eqb t t_scalar then NewScalar (sc_mod 0)
  else if rtype_eqb t t_point then NewPoint pt_null
  else NewNil.
