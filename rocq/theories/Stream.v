(** Model of the stream forms of the encodings: point.go:265-284 and
    scalar.go:177-196 ([MarshalTo], [UnmarshalFrom]), and of what they use of
    Go's io package.  An error's text is dropped: [true] is a non-nil error. *)
From Coq Require Import ZArith List Bool.
From Coq Require Import Init.Byte.
From Verif Require Import Bytes Res Secp.
Import ListNotations.

(** An io.Writer: what it accepted so far, and how many bytes it still accepts
    ([None]: no limit). *)
Record writer := mkWriter { w_out : bytes; w_room : option nat }.

(** Go's io.Writer contract: Write returns the number of bytes written and a
    non-nil error if it is less than len(b). *)
Definition w_write (b : bytes) (w : writer) : writer * (nat * bool) :=
  match w_room w with
  | None => (mkWriter (w_out w ++ b) None, (length b, false))
  | Some n =>
      if (length b <=? n)%nat then (mkWriter (w_out w ++ b) (Some (n - length b)%nat), (length b, false))
      else (mkWriter (w_out w ++ firstn n b) (Some 0%nat), (n, true))
  end.

(** An io.Reader: what successive calls of Read find.  A call returns the data of
    the first chunk, as much as fits, and with the last byte of the chunk the
    error that the chunk ends in, if any.  After the last chunk, io.EOF. *)
Record chunk := mkChunk { ck_data : bytes; ck_err : bool }.
Definition reader := list chunk.

(** Go's io.ReadFull (io.ReadAtLeast with min = len(buf) = [k]): Read into the rest of
    the buffer until it is full or Read reports an error; an error reported
    together with the last byte wanted is dropped.
    Result: the bytes read, whether an error is returned, the reader after. *)
Fixpoint read_full (k : nat) (r : reader) : bytes * bool * reader :=
  match k with
  | O => ([], false, r)
  | S _ =>
      match r with
      | [] => ([], true, [])
      | mkChunk d e :: rest =>
          if (k <? length d)%nat then (firstn k d, false, mkChunk (skipn k d) e :: rest)
          else if (length d =? k)%nat then (d, false, rest)
          else if e then (d, true, rest)
          else let '(b, x, r') := read_full (k - length d) rest in (d ++ b, x, r')
      end
  end.

(** point.go:225, scalar.go:160 [MarshalSize] *)
Definition pt_size : nat := 33.
Definition sc_size : nat := 32.

(** point.go:267-273 *)
Definition pt_marshal_to (P : point) (w : writer) : res (writer * (nat * bool)) :=
  match pt_marshal P with
  | Ok b => Ok (w_write b w)
  | Err => Ok (w, (0%nat, true))
  | Panic => Panic
  end.

(** scalar.go:179-185 *)
Definition sc_marshal_to (s : Z) (w : writer) : res (writer * (nat * bool)) :=
  match sc_marshal s with
  | Ok b => Ok (w_write b w)
  | Err => Ok (w, (0%nat, true))
  | Panic => Panic
  end.

Definition is_err {A} (r : res A) : bool := match r with Ok _ => false | _ => true end.

(** point.go:277-284.  [P] is the receiver before the call.  Result: the receiver
    after, the number and error returned, the reader after. *)
Definition pt_unmarshal_from (P : point) (r : reader) : point * (nat * bool) * reader :=
  let '(buf, e, r') := read_full pt_size r in
  if e then (P, (0%nat, true), r')
  else let '(P', x) := pt_unmarshal_recv P buf in (P', (length buf, is_err x), r').

(** scalar.go:189-196 *)
Definition sc_unmarshal_from (s : Z) (r : reader) : Z * (nat * bool) * reader :=
  let '(buf, e, r') := read_full sc_size r in
  if e then (s, (length buf, true), r')
  else match sc_unmarshal buf with
       | Ok s' => (s', (length buf, false), r')
       | _ => (s, (length buf, true), r')
       end.
