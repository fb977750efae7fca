(** Vocabulary for the statements about the DKG and DSS stages. *)
From Coq Require Import ZArith List Bool.
From Coq Require Import Init.Byte.
From Verif Require Import Params Bytes Res Secp Spec PublicKey Schnorr Dss Dto Prot ProtSpec DkgProt.
Import ListNotations.
Open Scope Z_scope.

(** The member indices a protocol object claims to come from. *)
Definition claimed (a : arg) : list Z :=
  match a with
  | AObj (ODeal d) => [de_index d]
  | AObj (OJust j) => [ju_index j; ju_jindex j]
  | AObj (OCommits c) => [co_index c]
  | AObj (OCompl c) => [cc_index c]
  | AObj (ORecons r) => [rc_index r]
  | AObj (OPart q) => match ps_partial q with Some (i, _) => [i] | None => [] end
  | AResp r => match rs_inner r with Some v => [vr_index v] | None => [] end
  end.

(** The kind of object each stage takes: 1 deals, 2 responses, 3 justifications,
    5 commitments, 6 complaints, 7 reconstructions, 10 partial signatures. *)
Definition kind_of_op (op : Z) : option kind :=
  if op =? 1 then Some KDeal else if op =? 3 then Some KJust else if op =? 5 then Some KCommits
  else if op =? 6 then Some KCompl else if op =? 7 then Some KRecons else if op =? 10 then Some KPart else None.
Definition decodes (op : Z) (d : payload) (a : arg) : Prop :=
  (op = 2 /\ exists r, d = PResp r /\ a = AResp r) \/
  (exists k w o, kind_of_op op = Some k /\ d = PWire w /\ from_wire k w = Ok o /\ a = AObj o).

(** The two message shapes that crash a node. *)
Definition bare_response (m : message payload) : Prop :=
  m_op m = 2 /\ exists i, m_dto m = PResp (mkResp i None).
Definition unsigned_partial (m : message payload) : Prop :=
  m_op m = 10 /\ exists d, m_dto m = PWire (WPart d) /\ (pad_sig d = SigNil \/ exists a, pad_sig d = Sig a None).

(** What is asked of the key generator, n being the number of members: deals and
    QUAL name members, and a key share has a public key. *)
Definition kyber_ok {G} (n : Z) (ky : kyber G) : Prop :=
  (forall g g' ds, ky_deals ky g = (g', Some ds) -> Forall (fun e => 0 <= fst e < n) ds) /\
  (forall g, Forall (fun i => 0 <= i < n) (ky_qual ky g)) /\
  (forall g s, ky_share ky g = Some s -> dk_commits s <> []).
(** A registered document and a long-term key on the curve. *)
Definition env_ok (e : env) : Prop :=
  e_doc e <> None /\ (forall i l, Permutation.Permutation (e_ord e i l) l) /\
  exists l P Ps, e_long e = Some l /\ dk_commits l = P :: Ps /\ on_curve (fst P) (snd P).

(** [g']: [g] after any calls of the library. *)
Inductive kcall {G} (ky : kyber G) : G -> G -> Prop :=
| kc_deals g : kcall ky g (fst (ky_deals ky g)) | kc_deal g d : kcall ky g (fst (ky_deal ky g d))
| kc_resp g r : kcall ky g (fst (ky_resp ky g r)) | kc_just g j : kcall ky g (ky_just ky g j)
| kc_timeout g : kcall ky g (ky_timeout ky g) | kc_commits g : kcall ky g (fst (ky_commits ky g))
| kc_process g c : kcall ky g (fst (ky_process_commits ky g c)) | kc_compl g c : kcall ky g (fst (ky_compl ky g c))
| kc_recons g r : kcall ky g (ky_recons ky g r).
Inductive evolves {G} (ky : kyber G) (g : G) : G -> Prop :=
| ev_same : evolves ky g g
| ev_call g1 g2 : evolves ky g g1 -> kcall ky g1 g2 -> evolves ky g g2.

(** The share [s] is the value at [i] + 1 of a polynomial with fewer than [T] + 1 coefficients, its commitments
    those to the coefficients: what key generation gives member [i]. *)
Definition right_share (i T : Z) (s : dks) : Prop :=
  exists f, f <> [] /\ Z.of_nat (length f) <= T /\ Forall2 (fun a P => pt_mul a KP_nil = Ok P) f (dk_commits s) /\
    eqN (pr_v (dk_share s)) (poly f (i + 1)).
