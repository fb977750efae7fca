(** Model of the programs that compile a configuration: hostcomp/hostcomp.lisp and
    hostcomp/wispym.lisp (expand-config), s2j/sexp-to-json.lisp, s2j/wispym.lisp and
    s2j/wispym2.lisp (translate-file), and of what load_config reads then
    (siggy/src/layout/config.go:11-20).

    A file of expressions is the list of expressions that READ finds in it; what PPRINT
    writes of an expression is read back as that expression.  A file of JSON is the list
    of values in it.  A Lisp error is a [Panic]. *)
From Coq Require Import ZArith List Lia Bool.
From Coq Require Import Init.Byte.
From Verif Require Import Bytes Res Layout.
Import ListNotations.

(** What READ yields (hostcomp/wispym.lisp:6-11, s2j/wispym.lisp:12-17). Symbols are named as the
    reader interns them, in upper case; NIL is [SNil]. Numbers are not told apart, other kinds of
    object are left out. *)
Inductive sexp := SNil | SSym (s : bytes) | SStr (s : bytes) | SNum | SCons (a b : sexp).
(** HOSTS (hostcomp.lisp:12), and the symbol T *)
Definition n_hosts : bytes := [x48; x4f; x53; x54; x53].
Definition n_t : bytes := [x54].

(** CAR, CDR, CADR and CADDR as in hostcomp.lisp:12-15 *)
Definition car (x : sexp) : res sexp := match x with SNil => Ok SNil | SCons a _ => Ok a | _ => Panic end.
Definition cdr (x : sexp) : res sexp := match x with SNil => Ok SNil | SCons _ b => Ok b | _ => Panic end.
Definition cadr (x : sexp) : res sexp := y <- cdr x ;; car y.
Definition caddr (x : sexp) : res sexp := y <- cdr x ;; z <- cdr y ;; car z.

(** The elements of a proper list; an error for anything else (hostcomp.lisp:13-17: MAPCAR, COPY-LIST;
    simplified: COPY-LIST keeps an atom at
    the end; s2j or load_config refuses it then, as the list itself is written too) *)
Fixpoint elements (x : sexp) : res (list sexp) :=
  match x with SNil => Ok [] | SCons a b => l <- elements b ;; Ok (a :: l) | _ => Panic end.
(** LIST (hostcomp.lisp:17) *)
Fixpoint slist (l : list sexp) : sexp := match l with [] => SNil | a :: r => SCons a (slist r) end.

(** hostcomp.lisp:12, (assoc 'hosts exprs): NIL elements are skipped, other atoms are an error *)
Fixpoint assoc_hosts (exprs : list sexp) : res sexp :=
  match exprs with
  | [] => Ok SNil
  | SNil :: r => assoc_hosts r
  | SCons (SSym n) d :: r => if bytes_eqb n n_hosts then Ok (SCons (SSym n) d) else assoc_hosts r
  | SCons _ _ :: r => assoc_hosts r
  | _ :: _ => Panic
  end.

(** hostcomp.lisp:11-18: what is appended to the output *)
Definition expand (exprs : list sexp) : res sexp :=
  h <- assoc_hosts exprs ;; es <- cdr h ;; entries <- elements es ;;
  labels <- rmap car entries ;; addrs <- rmap cadr entries ;; members <- rmap caddr entries ;;
  copies <- rmap elements members ;;
  Ok (slist [slist labels; slist addrs; slist members; slist (concat copies)]).
(** hostcomp.lisp:11-18 with wispym.lisp:12-17: the output file after *)
Definition expand_config_file (exprs out : list sexp) : res (list sexp) := e <- expand exprs ;; Ok (out ++ [e]).

Section Json.
  (** cl-json's name for a symbol (lower camel case) *)
  Variable sym_text : bytes -> bytes.
  (** cl-json's encode-json with wispym2.lisp:14-15; an improper list is not encoded as an
      array: an error here (cl-json may make an object of it, which load_config refuses too). *)
  Fixpoint encode (x : sexp) : res json :=
    match x with
    | SNil => Ok (JArr [])
    | SSym s => Ok (if bytes_eqb s n_t then JBool true else JStr (sym_text s))
    | SStr s => Ok (JStr s)
    | SNum => Ok JNum
    | SCons a b => j <- encode a ;; r <- encode b ;; match r with JArr l => Ok (JArr (j :: l)) | _ => Panic end
    end.
  (** sexp-to-json.lisp:5-10: one value a line, the file replaced *)
  Definition translate_file (exprs : list sexp) : res (list json) := rmap encode exprs.
  (** config.go:13-14: json.Unmarshal fails on an empty file and on anything after the value *)
  Definition unmarshal_file (docs : list json) : res json := match docs with [d] => Ok d | _ => Panic end.
  (** usage.txt: config.in to the value in config.out; [out]: the intermediate file before *)
  Definition compile (source out : list sexp) : res json :=
    tmp <- expand_config_file source out ;; docs <- translate_file tmp ;; unmarshal_file docs.
  (** and to the configuration a process loads *)
  Definition compile_and_load (source out : list sexp) : res config := v <- compile source out ;; load_config v.
End Json.
