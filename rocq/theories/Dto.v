(** Model of siggy/src/protocol/{dkg_dto,dss_dto}.go and siggy/src/signode/longterm_db.go:
    conversion between protocol objects and the structs put on the wire or in a
    file.  uint32 and int fields are integers.  Scalars held by local objects are
    non-nil; encoding/gob itself is outside the model (contract: what is decoded is
    the value that was encoded). *)
From Coq Require Import ZArith List Lia Bool.
From Coq Require Import Init.Byte.
From Verif Require Import Params Bytes Res Secp PublicKey Schnorr Dss.
Import ListNotations.
Open Scope Z_scope.

(** * Protocol objects (kyber share, vss/rabin, dkg/rabin) *)
Record pri_share := mkPri { pr_i : Z; pr_v : Z }.
Record enc_deal := mkDeal { de_index : Z; de_dhkey : point; de_sig : bytes; de_nonce : bytes; de_cipher : bytes }.
Record vss_deal := mkVss { vd_sid : bytes; vd_sec : pri_share; vd_rnd : pri_share; vd_t : Z; vd_commits : list point }.
Record justif := mkJust { ju_index : Z; ju_sid : bytes; ju_jindex : Z; ju_deal : vss_deal; ju_sig : bytes }.
Record commits := mkCommits { co_index : Z; co_commits : list point; co_sid : bytes; co_sig : bytes }.
Record compl := mkCompl { cc_index : Z; cc_dealer : Z; cc_deal : vss_deal; cc_sig : bytes }.
Record recons := mkRecons { rc_sid : bytes; rc_index : Z; rc_dealer : Z; rc_share : pri_share; rc_sig : bytes }.
(** dkg.DistKeyShare (longterm_db.go:5) *)
Record dks := mkDks { dk_commits : list point; dk_share : pri_share }.

(** * Wire structs *)
(** dkg_dto.go:40 *)
Record pri_share_dto := mkPriD { prd_i : Z; prd_v : bytes }.
(** dkg_dto.go:8-14 *)
Record deal_dto := mkDealD { ded_index : Z; ded_dhkey : bytes; ded_sig : bytes; ded_nonce : bytes; ded_cipher : bytes }.
(** dkg_dto.go:53-57 *)
Record vss_deal_dto := mkVssD { vdd_sid : bytes; vdd_sec : pri_share_dto; vdd_rnd : pri_share_dto; vdd_t : Z; vdd_commits : list bytes }.
(** dkg_dto.go:85-91 *)
Record justif_dto := mkJustD { jud_index : Z; jud_sid : bytes; jud_jindex : Z; jud_deal : vss_deal_dto; jud_sig : bytes }.
(** dkg_dto.go:117-122 *)
Record commits_dto := mkCommitsD { cod_index : Z; cod_commits : list bytes; cod_sid : bytes; cod_sig : bytes }.
(** dkg_dto.go:149-154 *)
Record compl_dto := mkComplD { ccd_index : Z; ccd_dealer : Z; ccd_deal : vss_deal_dto; ccd_sig : bytes }.
(** dkg_dto.go:177-183 *)
Record recons_dto := mkReconsD { rcd_sid : bytes; rcd_index : Z; rcd_dealer : Z; rcd_share : pri_share_dto; rcd_sig : bytes }.
(** dss_dto.go:7-11 *)
Record part_dto := mkPartD { pad_partial : pri_share_dto; pad_sid : bytes; pad_sig : sigptr }.
(** longterm_db.go:6 *)
Record dks_dto := mkDksD { dkd_commits : list bytes; dkd_share : pri_share_dto }.

(** * Conversions *)
(** The loops that marshal or unmarshal every point of a list, stopping at the
    first error (dkg_dto.go:64-65, 76-78, 127-128, 140-141; longterm_db.go:23-24, 36-37). *)
Fixpoint marshal_all (l : list point) : res (list bytes) :=
  match l with [] => Ok [] | P :: r => b <- pt_marshal P ;; bs <- marshal_all r ;; Ok (b :: bs) end.
Fixpoint unmarshal_all (l : list bytes) : res (list point) :=
  match l with [] => Ok [] | b :: r => P <- pt_unmarshal b ;; Ps <- unmarshal_all r ;; Ok (P :: Ps) end.

(** dkg_dto.go:42-45 *)
Definition pri_share_to_dto (s : pri_share) : res pri_share_dto := vb <- sc_marshal (pr_v s) ;; Ok (mkPriD (pr_i s) vb).
(** dkg_dto.go:47-51 *)
Definition dto_to_pri_share (d : pri_share_dto) : res pri_share := v <- sc_unmarshal (prd_v d) ;; Ok (mkPri (prd_i d) v).

(** dkg_dto.go:16-25, for a deal whose inner pointer is not nil *)
Definition deal_to_dto (d : enc_deal) : res deal_dto :=
  k <- pt_marshal (de_dhkey d) ;; Ok (mkDealD (de_index d) k (de_sig d) (de_nonce d) (de_cipher d)).
(** dkg_dto.go:27-38 *)
Definition dto_to_deal (d : deal_dto) : res enc_deal :=
  k <- pt_unmarshal (ded_dhkey d) ;; Ok (mkDeal (ded_index d) k (ded_sig d) (ded_nonce d) (ded_cipher d)).

(** dkg_dto.go:59-70 *)
Definition vss_deal_to_dto (d : vss_deal) : res vss_deal_dto :=
  sp <- pri_share_to_dto (vd_sec d) ;; rp <- pri_share_to_dto (vd_rnd d) ;;
  cbs <- marshal_all (vd_commits d) ;; Ok (mkVssD (vd_sid d) sp rp (vd_t d) cbs).
(** dkg_dto.go:72-83 *)
Definition dto_to_vss_deal (d : vss_deal_dto) : res vss_deal :=
  sec <- dto_to_pri_share (vdd_sec d) ;; rnd <- dto_to_pri_share (vdd_rnd d) ;;
  cs <- unmarshal_all (vdd_commits d) ;; Ok (mkVss (vdd_sid d) sec rnd (vdd_t d) cs).

(** dkg_dto.go:93-102 *)
Definition justification_to_dto (j : justif) : res justif_dto :=
  jd <- vss_deal_to_dto (ju_deal j) ;; Ok (mkJustD (ju_index j) (ju_sid j) (ju_jindex j) jd (ju_sig j)).
(** dkg_dto.go:104-115 *)
Definition dto_to_justification (d : justif_dto) : res justif :=
  deal <- dto_to_vss_deal (jud_deal d) ;; Ok (mkJust (jud_index d) (jud_sid d) (jud_jindex d) deal (jud_sig d)).

(** dkg_dto.go:124-134 *)
Definition commits_to_dto (c : commits) : res commits_dto :=
  cs <- marshal_all (co_commits c) ;; Ok (mkCommitsD (co_index c) cs (co_sid c) (co_sig c)).
(** dkg_dto.go:136-147 *)
Definition dto_to_commits (d : commits_dto) : res commits :=
  cs <- unmarshal_all (cod_commits d) ;; Ok (mkCommits (cod_index d) cs (cod_sid d) (cod_sig d)).

(** dkg_dto.go:156-164 *)
Definition compl_commits_to_dto (c : compl) : res compl_dto :=
  d <- vss_deal_to_dto (cc_deal c) ;; Ok (mkComplD (cc_index c) (cc_dealer c) d (cc_sig c)).
(** dkg_dto.go:166-175 *)
Definition dto_to_compl_commits (d : compl_dto) : res compl :=
  de <- dto_to_vss_deal (ccd_deal d) ;; Ok (mkCompl (ccd_index d) (ccd_dealer d) de (ccd_sig d)).

(** dkg_dto.go:185-194 *)
Definition recons_commits_to_dto (r : recons) : res recons_dto :=
  s <- pri_share_to_dto (rc_share r) ;; Ok (mkReconsD (rc_sid r) (rc_index r) (rc_dealer r) s (rc_sig r)).
(** dkg_dto.go:196-206 *)
Definition dto_to_recons_commits (d : recons_dto) : res recons :=
  s <- dto_to_pri_share (rcd_share d) ;; Ok (mkRecons (rcd_sid d) (rcd_index d) (rcd_dealer d) s (rcd_sig d)).

(** dss_dto.go:13-18; a nil Partial or a nil scalar in it is dereferenced *)
Definition partsig_to_dto (s : psig) : res part_dto :=
  match ps_partial s with
  | Some (i, Some v) => p <- pri_share_to_dto (mkPri i v) ;; Ok (mkPartD p (ps_sid s) (ps_sig s))
  | _ => Panic
  end.
(** dss_dto.go:20-25 *)
Definition dto_to_partsig (d : part_dto) : res psig :=
  p <- dto_to_pri_share (pad_partial d) ;; Ok (mkPsig (Some (pr_i p, Some (pr_v p))) (pad_sid d) (pad_sig d)).

(** longterm_db.go:20-26 *)
Definition dks_to_dto (s : dks) : res dks_dto :=
  cs <- marshal_all (dk_commits s) ;; p <- pri_share_to_dto (dk_share s) ;; Ok (mkDksD cs p).
(** longterm_db.go:33-39 *)
Definition dto_to_dks (d : dks_dto) : res dks :=
  cs <- unmarshal_all (dkd_commits d) ;; s <- dto_to_pri_share (dkd_share d) ;; Ok (mkDks cs s).

(** * Objects of any kind and dynamic types *)
Inductive obj := ODeal (d : enc_deal) | OJust (j : justif) | OCommits (c : commits)
  | OCompl (c : compl) | ORecons (r : recons) | OPart (s : psig).
(** A value of interface type received from the network: one of the registered
    structs, or something else. *)
Inductive wire := WDeal (d : deal_dto) | WJust (j : justif_dto) | WCommits (c : commits_dto)
  | WCompl (c : compl_dto) | WRecons (r : recons_dto) | WPart (s : part_dto) | WOther.
Inductive kind := KDeal | KJust | KCommits | KCompl | KRecons | KPart.

Definition obj_kind (o : obj) : kind :=
  match o with ODeal _ => KDeal | OJust _ => KJust | OCommits _ => KCommits
             | OCompl _ => KCompl | ORecons _ => KRecons | OPart _ => KPart end.

(** The *_to_dto function of each kind. *)
Definition to_wire (o : obj) : res wire :=
  match o with
  | ODeal d => x <- deal_to_dto d ;; Ok (WDeal x)
  | OJust j => x <- justification_to_dto j ;; Ok (WJust x)
  | OCommits c => x <- commits_to_dto c ;; Ok (WCommits x)
  | OCompl c => x <- compl_commits_to_dto c ;; Ok (WCompl x)
  | ORecons r => x <- recons_commits_to_dto r ;; Ok (WRecons x)
  | OPart s => x <- partsig_to_dto s ;; Ok (WPart x)
  end.
(** The dto_to_* function of each kind: the type assertion on its argument panics
    on any other dynamic type (dkg_dto.go:29, 106, 138, 168, 198; dss_dto.go:21). *)
Definition from_wire (k : kind) (w : wire) : res obj :=
  match k, w with
  | KDeal, WDeal d => x <- dto_to_deal d ;; Ok (ODeal x)
  | KJust, WJust j => x <- dto_to_justification j ;; Ok (OJust x)
  | KCommits, WCommits c => x <- dto_to_commits c ;; Ok (OCommits x)
  | KCompl, WCompl c => x <- dto_to_compl_commits c ;; Ok (OCompl x)
  | KRecons, WRecons r => x <- dto_to_recons_commits r ;; Ok (ORecons x)
  | KPart, WPart s => x <- dto_to_partsig s ;; Ok (OPart x)
  | _, _ => Panic
  end.

(** * The long-term key file *)
(** Go maps from int, as lists of entries in iteration order; assignment. *)
Fixpoint mget {V} (m : list (Z * V)) (k : Z) : option V :=
  match m with [] => None | (k', v) :: r => if k' =? k then Some v else mget r k end.
Fixpoint mset {V} (m : list (Z * V)) (k : Z) (v : V) : list (Z * V) :=
  match m with [] => [(k, v)] | (k', v') :: r => if k' =? k then (k, v) :: r else (k', v') :: mset r k v end.

(** longterm_db.go:13-18, with [lts] in the order of the range loop *)
Definition lts_to_dto (lts : list (Z * dks)) : res (list (Z * dks_dto)) :=
  fold_left (fun acc e => m <- acc ;; d <- dks_to_dto (snd e) ;; Ok (mset m (fst e) d)) lts (Ok []).
(** 28-31 *)
Definition dto_to_lts (d : list (Z * dks_dto)) : res (list (Z * dks)) :=
  fold_left (fun acc e => m <- acc ;; s <- dto_to_dks (snd e) ;; Ok (mset m (fst e) s)) d (Ok []).
(** 50-53 *)
Fixpoint verify_keys_subset {Q R} (xs : list (Z * Q)) (ys : list (Z * R)) : res unit :=
  match xs with
  | [] => Ok tt
  | (k, _) :: r => match mget ys k with None => Err | Some _ => verify_keys_subset r ys end
  end.
Definition assert_nil {A} (r : res A) : res A := match r with Ok a => Ok a | _ => Panic end. (* util/prim.go:3 *)
(** 8-11: what is put in the file *)
Definition save_longterms (lts : list (Z * dks)) : res (list (Z * dks_dto)) := assert_nil (lts_to_dto lts).
(** 42-48, on the decoded contents of the file *)
Definition load_longterms {G} (guests : list (Z * G)) (file : list (Z * dks_dto)) : res (list (Z * dks)) :=
  lts <- assert_nil (dto_to_lts file) ;; _ <- assert_nil (verify_keys_subset guests lts) ;; Ok lts.
