(** Vocabulary for the statements about the wire structs. *)
From Coq Require Import ZArith List.
From Coq Require Import Init.Byte.
From Verif Require Import Params Bytes Res Secp Spec PublicKey Schnorr Dss Dto.
Import ListNotations.
Open Scope Z_scope.

(** Objects as the protocol produces them: reduced scalars, curve points. *)
Definition good_share (s : pri_share) : Prop := 0 <= pr_v s < N.
Definition good_deal (d : vss_deal) : Prop :=
  good_share (vd_sec d) /\ good_share (vd_rnd d) /\ Forall curve_point (vd_commits d).
Definition good (o : obj) : Prop :=
  match o with
  | ODeal d => curve_point (de_dhkey d)
  | OJust j => good_deal (ju_deal j)
  | OCommits c => Forall curve_point (co_commits c)
  | OCompl c => good_deal (cc_deal c)
  | ORecons r => good_share (rc_share r)
  | OPart s => exists i v, ps_partial s = Some (i, Some v) /\ 0 <= v < N
  end.
Definition good_dks (s : dks) : Prop := Forall curve_point (dk_commits s) /\ good_share (dk_share s).

(** The byte strings of a wire struct that must be scalars and points. *)
Definition deal_scalars (d : vss_deal_dto) : list bytes := [prd_v (vdd_sec d); prd_v (vdd_rnd d)].
Definition wire_scalars (w : wire) : list bytes :=
  match w with
  | WJust j => deal_scalars (jud_deal j)
  | WCompl c => deal_scalars (ccd_deal c)
  | WRecons r => [prd_v (rcd_share r)]
  | WPart s => [prd_v (pad_partial s)]
  | _ => []
  end.
Definition wire_points (w : wire) : list bytes :=
  match w with
  | WDeal d => [ded_dhkey d]
  | WJust j => vdd_commits (jud_deal j)
  | WCommits c => cod_commits c
  | WCompl c => vdd_commits (ccd_deal c)
  | _ => []
  end.
Definition wire_kind (w : wire) : option kind :=
  match w with WDeal _ => Some KDeal | WJust _ => Some KJust | WCommits _ => Some KCommits
             | WCompl _ => Some KCompl | WRecons _ => Some KRecons | WPart _ => Some KPart | WOther => None end.

(** 32 bytes of abscissa followed by a byte below 2 (see C06). *)
Definition is_point (b : bytes) : Prop := exists P, pt_unmarshal b = Ok P.
Definition is_scalar (b : bytes) : Prop := length b = 32%nat.
