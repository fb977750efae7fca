(** Vocabulary for streams of encoded objects (C111, C112). *)
From Coq Require Import ZArith List Bool.
From Coq Require Import Init.Byte.
From Verif Require Import Params Bytes Res Spec Secp Stream.
Import ListNotations.

(** What is written and read: points and scalars. *)
Inductive item := IPoint (P : point) | IScalar (s : Z).

(** An item that can be encoded: a point of the curve in reduced form, or any
    scalar; and what a reader of it should find. *)
Definition encodable (i : item) : Prop :=
  match i with IPoint P => curve_point P | IScalar _ => True end.
Definition meant (i : item) : item :=
  match i with IPoint P => IPoint P | IScalar s => IScalar (s mod N) end.
Definition item_size (i : item) : nat := match i with IPoint _ => 33 | IScalar _ => 32 end.
Definition sizes (l : list item) : nat := fold_right (fun i n => (item_size i + n)%nat) 0%nat l.

(** One call of MarshalTo on the item. *)
Definition put_item (i : item) (w : writer) : res (writer * (nat * bool)) :=
  match i with IPoint P => pt_marshal_to P w | IScalar s => sc_marshal_to s w end.

(** One call of UnmarshalFrom with the item as receiver. *)
Definition get_item (i : item) (r : reader) : item * (nat * bool) * reader :=
  match i with
  | IPoint P => let '(P', x, r') := pt_unmarshal_from P r in (IPoint P', x, r')
  | IScalar s => let '(s', x, r') := sc_unmarshal_from s r in (IScalar s', x, r')
  end.

(** Calls of MarshalTo for the items in turn, each returning the item's size and
    no error. *)
Inductive written : list item -> writer -> writer -> Prop :=
| written_nil : forall w, written [] w w
| written_cons : forall i l w w1 w2,
    put_item i w = Ok (w1, (item_size i, false)) -> written l w1 w2 -> written (i :: l) w w2.

(** Calls of UnmarshalFrom for the receivers in turn, each returning the item's size
    and no error; the receivers end as given. *)
Inductive read_back : list item -> reader -> list item -> reader -> Prop :=
| read_nil : forall r, read_back [] r [] r
| read_cons : forall i l i' l' r r1 r2,
    get_item i r = (i', (item_size i, false), r1) -> read_back l r1 l' r2 ->
    read_back (i :: l) r (i' :: l') r2.

(** The receivers are of the kinds of the items. *)
Definition same_kind (i j : item) : Prop :=
  match i, j with IPoint _, IPoint _ => True | IScalar _, IScalar _ => True | _, _ => False end.

(** All the bytes that a reader will deliver, and those before its first error. *)
Definition delivers (r : reader) : bytes := concat (map ck_data r).
Definition sound (r : reader) : Prop := Forall (fun c => ck_err c = false) r.
Fixpoint available (r : reader) : bytes :=
  match r with
  | [] => []
  | c :: rest => ck_data c ++ if ck_err c then [] else available rest
  end.
