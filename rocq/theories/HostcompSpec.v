(** Vocabulary for configuration sources (C116). *)
From Coq Require Import List Bool.
From Coq Require Import Init.Byte.
From Verif Require Import Bytes Layout Hostcomp.
Import ListNotations.

(** What a label, an address or a file name written as a string or a symbol stands for;
    the symbol T stands for nothing. *)
Inductive stands_for (sym_text : bytes -> bytes) : sexp -> bytes -> Prop :=
| stands_string : forall s, stands_for sym_text (SStr s) s
| stands_symbol : forall s, s <> n_t -> stands_for sym_text (SSym s) (sym_text s).

(** An entry for a host: label, address and a list of file names, or no list; whatever follows
    does not matter. *)
Inductive host_entry (sym_text : bytes -> bytes) : sexp -> bytes * bytes * list bytes -> Prop :=
| entry_full : forall l a fs rest lt at_ fts, stands_for sym_text l lt -> stands_for sym_text a at_ ->
    Forall2 (stands_for sym_text) fs fts ->
    host_entry sym_text (SCons l (SCons a (SCons (slist fs) rest))) (lt, at_, fts)
| entry_short : forall l a lt at_, stands_for sym_text l lt -> stands_for sym_text a at_ ->
    host_entry sym_text (SCons l (SCons a SNil)) (lt, at_, []).

(** The source's first form that begins with HOSTS has these entries; forms before it are lists. *)
Definition other_form (x : sexp) : Prop :=
  x = SNil \/ exists a b, x = SCons a b /\ a <> SSym n_hosts.
Inductive hosts_are (source : list sexp) (entries : list sexp) : Prop :=
| hosts_first : forall before after, Forall other_form before ->
    source = before ++ SCons (SSym n_hosts) (slist entries) :: after -> hosts_are source entries
| hosts_missing : Forall other_form source -> entries = [] -> hosts_are source entries.
