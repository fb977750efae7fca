(** Model of siggy/src/layout/{config,layout,member}.go, of the file and key helpers
    they use (siggy/src/util/file.go, siggy/src/base/base.go) and of
    hostcomp/hostcomp.lisp.  Strings are byte strings.  Reading a directory is a
    function from names to contents; json.Unmarshal is not modelled: load_config
    gets the value it decodes. *)
From Coq Require Import ZArith List Lia Bool.
From Coq Require Import Init.Byte.
From Verif Require Import Params Bytes Res Secp.
Import ListNotations.
Open Scope Z_scope.

(** ** Strings *)
(** Go's < on strings *)
Fixpoint str_ltb (a b : bytes) : bool :=
  match a, b with
  | _, [] => false
  | [], _ :: _ => true
  | x :: a', y :: b' => if z_of_byte x <? z_of_byte y then true else if z_of_byte y <? z_of_byte x then false else str_ltb a' b'
  end.
(** encoding/hex: the digits of 0..15, and EncodeToString *)
Definition hex_digit (d : Z) : byte := byte_of_z (if d <? 10 then 48 + d else 87 + d).
Definition hex_encode (l : bytes) : bytes := flat_map (fun b => [hex_digit (z_of_byte b / 16); hex_digit (z_of_byte b mod 16)]) l.

(** ** Maps *)
(** map[string]int, newest entry first; m[s] is 0 if there is none *)
Fixpoint sget0 (m : list (bytes * Z)) (s : bytes) : Z :=
  match m with [] => 0 | (k, v) :: r => if bytes_eqb k s then v else sget0 r s end.
(** map[int]V *)
Fixpoint zget {V} (m : list (Z * V)) (k : Z) : option V :=
  match m with [] => None | (k', v) :: r => if k' =? k then Some v else zget r k end.
Definition zset {V} (m : list (Z * V)) (k : Z) (v : V) : list (Z * V) := (k, v) :: filter (fun x => negb (fst x =? k)) m.

(** ** config.go *)
Inductive json := JNull | JBool (b : bool) | JNum | JStr (s : bytes) | JArr (l : list json) | JObj (l : list (bytes * json)).
(** config.go:3-9, without dir *)
Record config := mkConf { cf_labels : list bytes; cf_addrs : list bytes; cf_members : list (list bytes); cf_pubfiles : list bytes }.
(** x.([]interface{}) and x.(string) *)
Definition as_array (v : json) : res (list json) := match v with JArr l => Ok l | _ => Panic end.
Definition as_string (v : json) : res bytes := match v with JStr s => Ok s | _ => Panic end.
Fixpoint rmap {A B} (f : A -> res B) (l : list A) : res (list B) :=
  match l with [] => Ok [] | x :: r => y <- f x ;; ys <- rmap f r ;; Ok (y :: ys) end.
(** config.go:22-27 *)
Definition extract_strings (v : json) : res (list bytes) := xs <- as_array v ;; rmap as_string xs.
(** config.go:29-37 *)
Definition extract_string_lists (v : json) : res (list (list bytes)) := xs <- as_array v ;; rmap extract_strings xs.
(** xs[i] *)
Definition at_index {A} (l : list A) (i : nat) : res A := match nth_error l i with Some x => Ok x | None => Panic end.
(** config.go:11-20 *)
Definition load_config (conf : json) : res config :=
  triple <- as_array conf ;;
  v0 <- at_index triple 0 ;; labels <- extract_strings v0 ;;
  v1 <- at_index triple 1 ;; addrs <- extract_strings v1 ;;
  v2 <- at_index triple 2 ;; members <- extract_string_lists v2 ;;
  v3 <- at_index triple 3 ;; pubfiles <- extract_strings v3 ;;
  Ok (mkConf labels addrs members pubfiles).

(** hostcomp.lisp:11-19 with s2j: the configuration file compiled from the entries
    (label, address, key files) of hosts.  Appending to an existing file is not modelled. *)
Definition strs (l : list bytes) : json := JArr (map JStr l).
Definition expand_config (entries : list (bytes * bytes * list bytes)) : json :=
  JArr [strs (map (fun e => fst (fst e)) entries); strs (map (fun e => snd (fst e)) entries);
        JArr (map (fun e => strs (snd e)) entries); strs (concat (map snd entries))].

(** ** member.go *)
(** member.go:3-8 *)
Record member := mkMem { mb_file : bytes; mb_index : Z; mb_pub : point; mb_hex : bytes }.
(** file.go:41-46: [fs] reads a file of the directory *)
Definition slurp_all1 (fs : bytes -> option bytes) (names : list bytes) : res (list bytes) :=
  rmap (fun nm => match fs nm with Some b => Ok b | None => Panic end) names.
(** assert_nil: util/prim.go:3 *)
Definition must {A} (r : res A) : res A := match r with Ok x => Ok x | _ => Panic end.
(** base.go:26-39 *)
Definition unmarshal_public_keys (blobs : list bytes) : res (list point) := rmap (fun b => must (pt_unmarshal b)) blobs.
Definition unmarshal_secret_keys (blobs : list bytes) : res (list Z) := rmap (fun b => must (sc_unmarshal b)) blobs.
(** base.go:18-19 *)
Definition compute_pub (s : Z) : res point := pt_mul s KP_nil.
(** base.go:21-24 *)
Definition pubhex (P : point) : res bytes := b <- must (pt_marshal P) ;; Ok (hex_encode b).
(** member.go:17-19 *)
Fixpoint make_members (files : list bytes) (pubs : list point) : res (list member) :=
  match files, pubs with
  | f :: fs, P :: Ps => h <- pubhex P ;; r <- make_members fs Ps ;; Ok (mkMem f 0 P h :: r)
  | _, _ => Ok []
  end.
(** member.go:22 *)
Fixpoint number_from (i : Z) (ms : list member) : list member :=
  match ms with [] => [] | m :: r => mkMem (mb_file m) i (mb_pub m) (mb_hex m) :: number_from (i + 1) r end.
(** member.go:14-23.  [srt]: sort.Slice with the order of line 21, of which only
    what its documentation promises is known (LayoutSpec.sorts). *)
Definition load_and_sort (srt : list member -> list member) (fs : bytes -> option bytes) (pubfiles : list bytes) : res (list member) :=
  blobs <- slurp_all1 fs pubfiles ;; pubs <- unmarshal_public_keys blobs ;;
  ms <- make_members pubfiles pubs ;; Ok (number_from 0 (srt ms)).
(** member.go:25-29 *)
Definition map_pubfile_to_index (ms : list member) : list (bytes * Z) :=
  fold_left (fun acc m => (mb_file m, mb_index m) :: acc) ms [].
(** member.go:31-35 *)
Fixpoint find_from (i : Z) (pub : point) (ms : list member) : Z :=
  match ms with [] => -1 | m :: r => if pt_equal (mb_pub m) pub then i else find_from (i + 1) pub r end.
Definition find_member_index (pub : point) (ms : list member) : Z := find_from 0 pub ms.

(** ** layout.go *)
(** layout.go:3-8 *)
Record layout := mkLay { ly_addrs : list bytes; ly_addr_members : list (list Z); ly_members : list member; ly_m2a : list (Z * Z) }.
(** layout.go:19-25 *)
Definition conf_members_as_indices (conf : config) (mm : list (bytes * Z)) : list (list Z) :=
  map (map (sget0 mm)) (cf_members conf).
(** layout.go:27-32 *)
Fixpoint m2a_from (i : Z) (sets : list (list Z)) (acc : list (Z * Z)) : list (Z * Z) :=
  match sets with
  | [] => acc
  | ms :: r => m2a_from (i + 1) r (fold_left (fun a m => zset a m i) ms acc)
  end.
Definition compute_member_to_addr (sets : list (list Z)) : list (Z * Z) := m2a_from 0 sets [].
(** layout.go:10-17 *)
Definition compute_layout (srt : list member -> list member) (fs : bytes -> option bytes) (conf : config) : res layout :=
  ms <- load_and_sort srt fs (cf_pubfiles conf) ;;
  let sets := conf_members_as_indices conf (map_pubfile_to_index ms) in
  Ok (mkLay (cf_addrs conf) sets ms (compute_member_to_addr sets)).

(** layout.go:35-41 *)
Record guest := mkGuest { gu_index : Z; gu_sec : Z; gu_pub : point; gu_addr_index : Z; gu_addr : bytes }.
(** m[k] for a map[int]int *)
Definition zget0 (m : list (Z * Z)) (k : Z) : Z := match zget m k with Some v => v | None => 0 end.
Definition z_index {A} (l : list A) (i : Z) : res A := if i <? 0 then Panic else at_index l (Z.to_nat i).
(** layout.go:45-60 *)
Fixpoint guests_loop (L : layout) (secrets : list Z) (acc : list (Z * guest)) : res (list (Z * guest)) :=
  match secrets with
  | [] => Ok acc
  | s :: r =>
      P <- compute_pub s ;;
      let midx := find_member_index P (ly_members L) in
      if midx =? -1 then guests_loop L r acc
      else
        m <- z_index (ly_members L) midx ;;
        let ai := zget0 (ly_m2a L) midx in
        a <- z_index (ly_addrs L) ai ;;
        guests_loop L r (zset acc midx (mkGuest midx s (mb_pub m) ai a))
  end.
Definition compute_guests (L : layout) (secrets : list Z) : res (list (Z * guest)) := guests_loop L secrets [].
