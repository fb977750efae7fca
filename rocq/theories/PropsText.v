(** Statements about the textual forms of points and scalars. *)
From Coq Require Import Strings.String.
From Coq Require Import ZArith List Lia Bool.
From Coq Require Import Init.Byte.
From Coq Require Hexadecimal HexadecimalZ.
From Verif Require Import Params Bytes Res Secp Spec SecpProofs SecpProofs2 Curve Order Requests ReqSpec PropsReq PropsEqual Text.
Import ListNotations.
Open Scope list_scope.
Open Scope Z_scope.

(** ** Digits *)
Fixpoint vals (u : Hexadecimal.uint) : list nat :=
  match u with
  | Hexadecimal.Nil => []
  | Hexadecimal.D0 u => 0%nat :: vals u | Hexadecimal.D1 u => 1%nat :: vals u | Hexadecimal.D2 u => 2%nat :: vals u | Hexadecimal.D3 u => 3%nat :: vals u
  | Hexadecimal.D4 u => 4%nat :: vals u | Hexadecimal.D5 u => 5%nat :: vals u | Hexadecimal.D6 u => 6%nat :: vals u | Hexadecimal.D7 u => 7%nat :: vals u
  | Hexadecimal.D8 u => 8%nat :: vals u | Hexadecimal.D9 u => 9%nat :: vals u | Hexadecimal.Da u => 10%nat :: vals u | Hexadecimal.Db u => 11%nat :: vals u
  | Hexadecimal.Dc u => 12%nat :: vals u | Hexadecimal.Dd u => 13%nat :: vals u | Hexadecimal.De u => 14%nat :: vals u | Hexadecimal.Df u => 15%nat :: vals u
  end.
(** The bytes [l] are the digits [ds] in lower case. *)
Definition lower_digits (l : bytes) (ds : list nat) : Prop := Forall2 (fun c d => nth_error lower d = Some c) l ds.
Lemma hexdigs_vals u : lower_digits (hexdigs u) (vals u).
Proof. induction u; cbn; [constructor|..]; (constructor; [reflexivity|assumption]). Qed.
Lemma acc_number u : forall acc, Z.pos (Pos.of_hex_uint_acc u acc) = Z.pos acc * 16 ^ Z.of_nat (length (vals u)) + number (vals u).
Proof.
  induction u; intros acc; cbn [Pos.of_hex_uint_acc vals length number]; [cbn; lia|..].
  all: rewrite IHu, Nat2Z.inj_succ, Z.pow_succ_r by lia; lia.
Qed.
Lemma uint_number u : Z.of_hex_uint u = number (vals u).
Proof.
  unfold Z.of_hex_uint. induction u; cbn [Pos.of_hex_uint vals number]; [reflexivity|..].
  1: rewrite IHu; cbn; lia.
  all: cbn [Z.of_N]; rewrite acc_number; cbn [Z.of_nat Pos.of_succ_nat Pos.succ]; lia.
Qed.
(** No leading zeros *)
Definition minimal (ds : list nat) : Prop := ds = [0%nat] \/ exists d r, ds = d :: r /\ d <> 0%nat.
Lemma unorm_minimal u : minimal (vals (Hexadecimal.unorm u)).
Proof.
  unfold Hexadecimal.unorm. induction u; cbn [Hexadecimal.nzhead]; [left; reflexivity|exact IHu|..].
  all: right; eexists _, _; split; [reflexivity|discriminate].
Qed.

(** ** C123.  Points and scalars as text. *)
(** [b] is [z] in lower case with the fewest digits, at least one, after a minus sign if it is negative; integers are
    written so. *)
Definition hexadecimal (z : Z) (b : bytes) : Prop :=
  exists l ds, b = (if z <? 0 then [x2d] else []) ++ l /\ lower_digits l ds /\ minimal ds /\ number ds = Z.abs z.
Theorem C123_hex_form : forall z, hexadecimal z (format_hex z).
Proof.
  intros z. unfold hexadecimal, format_hex. pose proof (HexadecimalZ.of_to z) as OT. pose proof (HexadecimalZ.to_of (Z.to_hex_int z)) as TO. rewrite OT in TO.
  destruct (Z.to_hex_int z) as [u|u] eqn:E; cbn [Z.of_hex_int Hexadecimal.norm] in OT, TO; rewrite uint_number in OT.
  - assert (NN : 0 <= number (vals u)). { clear. induction (vals u) as [|d r IH]; cbn [number]; [lia|]. pose proof (Z.pow_nonneg 16 (Z.of_nat (length r)) ltac:(lia)). nia. }
    exists (hexdigs u), (vals u). destruct (Z.ltb_spec z 0); [lia|]. split; [reflexivity|]. split; [apply hexdigs_vals|]. split; [|lia]. injection TO as TO. rewrite TO. apply unorm_minimal.
  - assert (MZ : z < 0 /\ minimal (vals u)).
    { destruct z; [discriminate E|discriminate E|]. split; [lia|]. destruct (Hexadecimal.nzhead u) eqn:EN; [discriminate TO|..]; injection TO as TO; rewrite TO; try (right; eexists _, _; split; [reflexivity|discriminate]).
      exfalso. clear - EN. induction u; cbn in EN; try discriminate EN. auto. }
    destruct MZ as [LZ MI]. exists (hexdigs u), (vals u). destruct (Z.ltb_spec z 0); [|lia]. split; [reflexivity|]. split; [apply hexdigs_vals|]. split; [exact MI|lia].
Qed.
Lemma lower_hex l ds : lower_digits l ds -> hex_digits l ds.
Proof. intros H. induction H; constructor; auto. Qed.
(** It is read back as itself by SetString(_, 16), as documents are. *)
Theorem C123_hex_reads_back : forall z, set_string16 (format_hex z) = Some z.
Proof.
  intros z. apply set_string_spec. destruct (C123_hex_form z) as (l & ds & -> & L & M & E). exists l, ds. split; [|split; [apply lower_hex, L|]].
  - intros ->. inversion L; subst. destruct M as [M|(d & r & M & _)]; discriminate M.
  - destruct (Z.ltb_spec z 0); [right|left]; (split; [auto|lia]).
Qed.
Lemma hex_inj a b : format_hex a = format_hex b -> a = b.
Proof. intros E. pose proof (C123_hex_reads_back a) as A. rewrite E, C123_hex_reads_back in A. congruence. Qed.
Lemma hex_plain z : ~ In x7d (format_hex z).
Proof.
  destruct (C123_hex_form z) as (l & ds & -> & L & _). intros H. apply in_app_or in H. destruct H as [H|H]; [destruct (z <? 0); [destruct H as [H|[]]; discriminate H|destruct H]|].
  induction L as [|c d l ds HC L IH]; [destruct H|]. destruct H as [->|H]; [|auto]. do 16 (destruct d as [|d]; [discriminate HC|]). destruct d; discriminate HC.
Qed.
Lemma cut_first {A} (c : A) a : forall b x y, ~ In c a -> ~ In c b -> a ++ c :: x = b ++ c :: y -> a = b /\ x = y.
Proof.
  induction a as [|u a IH]; intros [|v b] x y NA NB E; cbn in E.
  - injection E as ->. auto.
  - exfalso. injection E as -> _. apply NB. left. reflexivity.
  - exfalso. injection E as -> _. apply NA. left. reflexivity.
  - injection E as -> E. destruct (IH b x y) as [-> ->]; auto; intros H; [apply NA|apply NB]; right; exact H.
Qed.
(** The texts, with the integers in this form. *)
Theorem C123_text_forms : forall x y s, exists hx hy hs, hexadecimal x hx /\ hexadecimal y hy /\ hexadecimal s hs /\
  pt_string (x, y) = list_byte_of_string "Secp256k1{X: fieldElt{" ++ hx ++ list_byte_of_string "}, Y: fieldElt{" ++ hy ++ list_byte_of_string "}}" /\
  sc_string s = list_byte_of_string "scalar{" ++ hs ++ list_byte_of_string "}".
Proof.
  intros x y s. exists (format_hex x), (format_hex y), (format_hex s). do 3 (split; [apply C123_hex_form|]). split; [|reflexivity].
  unfold pt_string, fe_string. cbn [fst snd]. rewrite <- !app_assoc. reflexivity.
Qed.
(** The texts of two points agree exactly if the integers do: for group elements, if the points are Equal. *)
Theorem C123_point_text : forall P Q, pt_string P = pt_string Q <-> P = Q.
Proof.
  intros [x y] [x' y']. split; [|intros ->; reflexivity]. intros E. unfold pt_string, fe_string in E. cbn [fst snd] in E. rewrite <- !app_assoc in E.
  apply app_inv_head, app_inv_head in E. apply cut_first in E; try apply hex_plain. destruct E as [E1 E]. apply hex_inj in E1. subst x'.
  change (list_byte_of_string ", Y: " ++ list_byte_of_string "fieldElt{" ++ format_hex y ++ list_byte_of_string "}" ++ list_byte_of_string "}" = list_byte_of_string ", Y: " ++ list_byte_of_string "fieldElt{" ++ format_hex y' ++ list_byte_of_string "}" ++ list_byte_of_string "}") in E.
  apply app_inv_head, app_inv_head in E. apply cut_first in E; try apply hex_plain. destruct E as [E _]. apply hex_inj in E. subst. reflexivity.
Qed.
Theorem C123_point_text_equal : forall P Q, group_elt P -> group_elt Q -> (pt_string P = pt_string Q <-> pt_equal P Q = true).
Proof. intros P Q HP HQ. rewrite C123_point_text, (C117_equal_is_equality P Q HP HQ). reflexivity. Qed.
(** The texts of two reduced scalars agree exactly if they are Equal; every result of the scalar operations is reduced (C01). *)
Theorem C123_scalar_text : forall a b, 0 <= a < N -> 0 <= b < N -> (sc_string a = sc_string b <-> sc_equal a b = true).
Proof.
  intros a b HA HB. rewrite sc_equal_spec. unfold eqN. rewrite !Z.mod_small by assumption. split; [|intros ->; reflexivity].
  unfold sc_string. intros E. apply app_inv_head in E. apply cut_first in E; try apply hex_plain. apply hex_inj, E.
Qed.
(** No text is both that of a point and that of a scalar. *)
Theorem C123_kinds_differ : forall P s, pt_string P <> sc_string s.
Proof. intros P s E. discriminate E. Qed.

(** C123: the base point; a scalar; zero. *)
Example C123_ex : group_elt (of_E eG) /\ group_elt (pt_neg (of_E eG)) /\ pt_string (of_E eG) <> pt_string (pt_neg (of_E eG)) /\
  sc_string 255 = list_byte_of_string "scalar{ff}" /\ format_hex (-4096) = list_byte_of_string "-1000" /\
  pt_string (0, 0) = list_byte_of_string "Secp256k1{X: fieldElt{0}, Y: fieldElt{0}}" /\
  pt_string (of_E eG) = list_byte_of_string "Secp256k1{X: fieldElt{79be667ef9dcbbac55a06295ce870b07029bfcdb2dce28d959f2815b16f81798}, Y: fieldElt{483ada7726a3c4655da4fbfc0e1108a8fd17b448a68554199c47d08ffb10d4b8}}".
Proof.
  assert (C : curve_point (of_E eG)) by apply C117_ex.
  assert (A : group_elt (of_E eG)) by (right; exact C).
  assert (B : group_elt (pt_neg (of_E eG))) by (rewrite pt_neg_of_E; apply of_E_elt).
  split; [exact A|]. split; [exact B|]. split; [rewrite (C123_point_text_equal _ _ A B), (C117_opposite _ C); discriminate|].
  repeat (split; [vm_compute; reflexivity|]). vm_compute. reflexivity.
Qed.
Print Assumptions C123_hex_form.
Print Assumptions C123_hex_reads_back.
Print Assumptions C123_text_forms.
Print Assumptions C123_point_text.
Print Assumptions C123_point_text_equal.
Print Assumptions C123_scalar_text.
Print Assumptions C123_kinds_differ.
