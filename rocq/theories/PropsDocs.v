(** Statements about the document and the long-term share that a signing run finds while it runs. *)
From Coq Require Import ZArith List Lia Bool Permutation.
From Coq Require Import Init.Byte.
From Verif Require Import Params Bytes Res Secp Dto Dss Prot ProtSpec ProtProofs TimeSpec TimeProofs DkgProt KMap Firewall Outputs Node NodeSpec NodeRun ObjSpec SignSpec HonestSpec DocsProofs PropsObj.
From Verif Require SignProofs.
Import ListNotations.
Open Scope Z_scope.

Section Statements.
  Context {G : Type}.
  Variable ky : kyber G.
  Variable keccak : bytes -> bytes.
  Variable pshash : Z -> Z -> bytes.
  Notation prot := (dss_prot ky keccak pshash).

  (** ** C102.  A signing run that was asked for at most once finds, at each step it takes before it ends, the document of its request and the
      long-term share of its guest, whatever else the node is asked for and whichever of its requests end meanwhile. *)
  Theorem C102_document_found su until now0 evs n tr j k k0 h a e now b r os : nhistory ky keccak pshash su until now0 evs n tr -> NoDup (su_guests su) ->
    k_pc k = pc_dss -> (requests_for k evs <= 1)%nat -> lives ky keccak pshash su (start_node su until now0) evs j k k0 h ->
    untimed h = a ++ ETick e now :: b -> exec prot (run_info su k) (new_run k0) a = Ok (r, os) -> terminated_in os = false ->
    e_long e = su_long su (k_guest k) /\
    exists start doc t, requested su evs k start (Some doc) t /\ e_doc e = Some doc /\ forall start' doc' t', requested su evs k start' doc' t' -> doc' = Some doc.
  Proof.
    intros HH ND KP RQ HL EU EX NT.
    assert (S : exists A x B, h = A ++ x :: B /\ untimed A = a /\ snd x = ETick e now).
    { clear - EU. revert a EU. induction h as [|y l IH]; intros [|z a] E; cbn in E; try discriminate.
      - injection E as E1 E2. exists [], y, l. auto.
      - injection E as E1 E2. destruct (IH _ E2) as (A & x & B & -> & <- & E3). exists (y :: A), x, B. split; [reflexivity|]. split; [cbn; rewrite E1; reflexivity|exact E3]. }
    destruct S as (A & [t x] & B & EH & EA & E3). cbn [snd] in E3. subst x a.
    assert (PP : the_prot ky keccak pshash (k_pc k) = prot) by (rewrite KP; reflexivity).
    pose proof (run_inv prot (run_info su k) _ _ _ _ EX) as HI. destruct (iv_link _ _ _ _ _ HI) as (_ & _ & K3).
    rewrite <- PP in EX.
    destruct (tick_env ky keccak pshash su until now0 (k_run k) ND evs n tr j k k0 h A t e now B r os HH RQ KP eq_refl HL EH EX ltac:(congruence)) as (L & start & d & tq & R1 & R2).
    split; [exact L|]. exists start, d, tq. split; [exact R1|]. split; [exact R2|]. intros start' doc' t' R'.
    destruct (requested_once su evs k _ _ _ _ _ _ RQ R1 R') as (_ & <- & _). reflexivity.
  Qed.
End Statements.
Print Assumptions C102_document_found.

(** All assumptions of C102: a node of C95_ex, when its run is about to compute its partial signature. *)
Example C102_ex : exists keccak pshash ky su (evs : list (nevent (G := Z))) n tr k k0 h a e now b r os,
  nhistory ky keccak pshash su (-20 * ms) (-20 * ms) evs n tr /\ NoDup (su_guests su) /\ k_pc k = pc_dss /\ (requests_for k evs <= 1)%nat /\
  lives ky keccak pshash su (start_node su (-20 * ms) (-20 * ms)) evs 0 k k0 h /\ untimed h = a ++ ETick e now :: b /\ 
  exec (dss_prot ky keccak pshash) (run_info su k) (new_run k0) a = Ok (r, os) /\ terminated_in os = false /\ stage_now os = (op_dkg_final, true).
Proof.
  destruct (C95_ex (fun _ => repeat x00 32) (fun _ _ => []) ltac:(reflexivity)) as (ky & id & su & evs & n & tr & k0 & h & _ & _ & _ & H & _). cbv zeta in H.
  destruct (H 0 ltac:(left; reflexivity)) as (A & B & C & D & E & (v & F) & L & S & RD & _).
  destruct RD as (R1 & R2 & R3 & a & e & now & b & r & os & sh & long & x & q & E1 & X1 & S8 & _).
  exists (fun _ => repeat x00 32), (fun _ _ => []), ky, (su 0), (evs 0), (n 0), (tr 0), (mkKey pc_dss 0 id), (k0 0), (h 0), a, e, now, b, r, os.
  split; [exact A|]. split; [exact B|]. split; [reflexivity|]. split; [exact E|]. split; [exact L|]. split; [exact E1|]. split; [exact X1|]. split; [|exact S8].
  pose proof (run_inv _ _ _ _ _ _ X1) as HI. destruct (iv_link _ _ _ _ _ HI) as (K1 & _ & K3). rewrite K3. destruct (r_term r) eqn:TR; [exfalso|reflexivity].
  pose proof (iv_loc _ _ _ _ _ HI) as LO. rewrite TR in LO. rewrite S8 in K1. injection K1 as K1 _. destruct (r_loc r); destruct LO as (L1 & _ & L2); try discriminate L2. rewrite <- K1 in L1. cbn in L1. discriminate L1.
Qed.
