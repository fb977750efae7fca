(** Vocabulary for the statements about configurations and member lists. *)
From Coq Require Import ZArith List Bool Permutation Sorting.Sorted.
From Verif Require Import Params Bytes Res Secp Layout.
Import ListNotations.
Open Scope Z_scope.

(** What sort.Slice promises: a permutation in which no element is less than an
    earlier one.  The order of equal elements is not promised. *)
Definition sorts (srt : list member -> list member) : Prop :=
  forall l, Permutation l (srt l) /\ StronglySorted (fun a b => str_ltb (mb_hex b) (mb_hex a) = false) (srt l).

(** The file [f] can be read and holds the public key [P]. *)
Definition holds (fs : bytes -> option bytes) (f : bytes) (P : point) : Prop :=
  exists b, fs f = Some b /\ pt_unmarshal b = Ok P.
(** The listed files are different and hold different public keys. *)
Definition distinct_keys (fs : bytes -> option bytes) (names : list bytes) : Prop :=
  NoDup names /\ forall f g P, In f names -> In g names -> holds fs f P -> holds fs g P -> f = g.

(** A configuration file's hosts: label, address, key files. *)
Definition host : Type := (bytes * bytes * list bytes)%type.
Definition h_addr (h : host) : bytes := snd (fst h).
Definition h_files (h : host) : list bytes := snd h.
(** The configuration that load_config should make of the compiled file. *)
Definition config_of (hosts : list host) : config :=
  mkConf (map (fun h => fst (fst h)) hosts) (map h_addr hosts) (map h_files hosts) (concat (map h_files hosts)).
(** [J] is, entry by entry, the list of strings [l]. *)
Definition json_strings (l : list bytes) : json := JArr (map JStr l).
