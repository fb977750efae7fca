(** Model of siggy/src/protocol/{dkg,dss}.go: the stages of the two protocols.

    kyber's share/dkg/rabin generator is a parameter: any state type and any
    functions with the shapes below (a nil error is [Some]); they do not panic.
    The outer signature's nonce and the order of a map iteration, which the code
    draws at random, are read from the environment. *)
From Coq Require Import ZArith List Lia Bool.
From Coq Require Import Init.Byte.
From Verif Require Import Params Bytes Res Secp PublicKey Schnorr Dss Dto Prot.
Import ListNotations.
Open Scope Z_scope.

(** dkg.Response: a pointer to the VSS response, which gob leaves nil when the
    sender leaves it out. *)
Record vss_resp := mkVresp { vr_sid : bytes; vr_index : Z; vr_status : bool; vr_sig : bytes }.
Record resp := mkResp { rs_index : Z; rs_inner : option vss_resp }.

(** What a message carries and what the processors get. *)
Inductive payload := PWire (w : wire) | PResp (r : resp).
Inductive arg := AObj (o : obj) | AResp (r : resp).

(** *dkg.DistKeyGenerator *)
Record kyber (G : Type) := mkKyber {
  ky_deals : G -> G * option (list (Z * enc_deal));
  ky_deal : G -> enc_deal -> G * option (option resp);
  ky_resp : G -> resp -> G * option (option justif);
  ky_just : G -> justif -> G;
  ky_timeout : G -> G;
  ky_certified : G -> bool;
  ky_qual : G -> list Z;
  ky_commits : G -> G * option commits;
  ky_process_commits : G -> commits -> G * option (option compl);
  ky_compl : G -> compl -> G * option (option recons);
  ky_recons : G -> recons -> G;
  ky_finished : G -> bool;
  ky_share : G -> option dks }.
Arguments ky_deals {G} k _. Arguments ky_deal {G} k _ _. Arguments ky_resp {G} k _ _. Arguments ky_just {G} k _ _.
Arguments ky_timeout {G} k _. Arguments ky_certified {G} k _. Arguments ky_qual {G} k _. Arguments ky_commits {G} k _.
Arguments ky_process_commits {G} k _ _. Arguments ky_compl {G} k _ _. Arguments ky_recons {G} k _ _.
Arguments ky_finished {G} k _. Arguments ky_share {G} k _.

(** dss.go:50-54 *)
Record kargs := mkArgs { ka_secret : Z; ka_parts : list point; ka_T : Z }.
(** The data of one run: kyber_dat; prot_dat (nil before step_init); its entries
    in dss_kdat_args and dss_kdats (dss.go:55-58).  For the latter, whether Msg
    is non-nil is kept beside it. *)
Record kd (G : Type) := mkKd { kd_gen : G; kd_qual : option (list Z); kd_args : option kargs; kd_dss : option (dss * bool) }.
Arguments mkKd {G} kd_gen kd_qual kd_args kd_dss.
Arguments kd_gen {G} k. Arguments kd_qual {G} k. Arguments kd_args {G} k. Arguments kd_dss {G} k.
(** What a step may read elsewhere: _docs and _longterms for its guest and run
    (dss.go:33-38), randomness, map order. *)
Record env := mkEnv { e_doc : option Z; e_long : option dks; e_nonce : Z; e_ord : Z -> list (Z * Z) -> list (Z * Z) }.
(** Outputs: struct dks (dkg.go:129-132) or a signature. *)
Inductive output := VShare (s : dks) (qual : list Z) | VSig (s : sigptr).

Definition pc_dkg : Z := 0. Definition pc_dss : Z := 1. (* prot.go:6 *)
(** dkg.go:6-8, dss.go:15 *)
Definition op_deal : Z := 1. Definition op_response : Z := 2. Definition op_justification : Z := 3.
Definition op_commits : Z := 5. Definition op_compl_commits : Z := 6. Definition op_recons_commits : Z := 7.
Definition op_dkg_final : Z := 8. Definition op_dss_partsig : Z := op_dkg_final + 2.

Definition u32 (x : Z) : Z := x mod 2 ^ 32.

(** * Validators *)
(** dkg.go:136-148; dss.go:110-111 *)
Definition deal_v (a : arg) (s : Z) : res bool :=
  match a with AObj (ODeal d) => Ok (de_index d =? u32 s) | _ => Panic end.
Definition response_v (a : arg) (s : Z) : res bool :=
  match a with AResp r => match rs_inner r with Some v => Ok (vr_index v =? u32 s) | None => Panic end | _ => Panic end.
Definition justification_v (a : arg) (s : Z) : res bool :=
  match a with AObj (OJust j) => Ok ((ju_index j =? u32 s) && (ju_jindex j =? u32 s)) | _ => Panic end.
Definition commits_v (a : arg) (s : Z) : res bool :=
  match a with AObj (OCommits c) => Ok (co_index c =? u32 s) | _ => Panic end.
Definition compl_commits_v (a : arg) (s : Z) : res bool :=
  match a with AObj (OCompl c) => Ok (cc_index c =? u32 s) | _ => Panic end.
Definition recons_commits_v (a : arg) (s : Z) : res bool :=
  match a with AObj (ORecons r) => Ok (rc_index r =? u32 s) | _ => Panic end.
Definition partsig_v (a : arg) (s : Z) : res bool :=
  match a with AObj (OPart q) => match ps_partial q with Some (i, _) => Ok (i =? s) | None => Panic end | _ => Panic end.

(** * Unmarshallers and types *)
Definition unm (k : kind) (d : payload) : res arg :=
  match d with PWire w => o <- from_wire k w ;; Ok (AObj o) | PResp _ => Panic end.
(** prot.go:62 *)
Definition identity_unm (d : payload) : res arg :=
  match d with PResp r => Ok (AResp r) | PWire _ => Panic end.
Definition is_kind (k : kind) (d : payload) : bool :=
  match k, d with
  | KDeal, PWire (WDeal _) | KJust, PWire (WJust _) | KCommits, PWire (WCommits _)
  | KCompl, PWire (WCompl _) | KRecons, PWire (WRecons _) | KPart, PWire (WPart _) => true
  | _, _ => false
  end.
Definition is_resp (d : payload) : bool := match d with PResp _ => true | PWire _ => false end.

Section Stages.
  Context {G : Type}.
  Variable ky : kyber G.
  Variable keccak : bytes -> bytes.
  Variable pshash : Z -> Z -> bytes.
  Notation action := (action payload output). Notation kd := (kd G).
  Definition result : Type := res (kd * list action).

  Definition set_gen (k : kd) (g : G) : kd := mkKd g (kd_qual k) (kd_args k) (kd_dss k).
  Definition set_qual (k : kd) (q : list Z) : kd := mkKd (kd_gen k) (Some q) (kd_args k) (kd_dss k).
  Definition set_dss (k : kd) (d : option (dss * bool)) : kd := mkKd (kd_gen k) (kd_qual k) (kd_args k) d.

  (** dkg.go:45-50; [w]: what the marshaller returns *)
  Definition broadcast_qual (ci : info) (k : kd) (op : Z) (w : res wire) : res (list action) :=
    match w with
    | Err => Ok []
    | Panic => Panic
    | Ok d => match kd_qual k with None => Panic | Some q => Ok (multicast q ci op (PWire d)) end
    end.

  (** dkg.go:54 *)
  Definition step_init (ci : info) (e : env) (k : kd) : result := Ok (set_qual k [], []).
  (** dkg.go:56-63; the range loop sends the deals that can be marshalled *)
  Definition step_deal (ci : info) (e : env) (k : kd) : result :=
    let x := ky_deals ky (kd_gen k) in
    match snd x with
    | None => Ok (set_gen k (fst x), [AAbandon])
    | Some ds => Ok (set_gen k (fst x),
        flat_map (fun e => match deal_to_dto (snd e) with Ok d => [ASend (fst e) op_deal (PWire (WDeal d))] | _ => [] end) ds)
    end.
  (** dkg.go:65-70 *)
  Definition process_deal (ci : info) (e : env) (k : kd) (a : arg) : result :=
    match a with
    | AObj (ODeal d) =>
        let x := ky_deal ky (kd_gen k) d in
        Ok (set_gen k (fst x), match snd x with Some (Some r) => broadcast ci op_response (PResp r) | _ => [] end)
    | _ => Panic
    end.
  (** dkg.go:72-80 *)
  Definition process_response (ci : info) (e : env) (k : kd) (a : arg) : result :=
    match a with
    | AResp r =>
        let x := ky_resp ky (kd_gen k) r in
        Ok (set_gen k (fst x),
            match snd x with
            | Some (Some j) => match justification_to_dto j with Ok d => broadcast ci op_justification (PWire (WJust d)) | _ => [] end
            | _ => []
            end)
    | _ => Panic
    end.
  (** dkg.go:82-83 *)
  Definition process_justification (ci : info) (e : env) (k : kd) (a : arg) : result :=
    match a with AObj (OJust j) => Ok (set_gen k (ky_just ky (kd_gen k) j), []) | _ => Panic end.
  (** dkg.go:85-89; QUAL and Certified are read for printing only *)
  Definition step_vss_done (ci : info) (e : env) (k : kd) : result := Ok (set_gen k (ky_timeout ky (kd_gen k)), []).
  (** dkg.go:91-98 with 52 *)
  Definition step_commits (ci : info) (e : env) (k : kd) : result :=
    match kd_qual k with
    | None => Panic
    | Some _ =>
        let k1 := set_qual k (ky_qual ky (kd_gen k)) in
        if negb (ky_certified ky (kd_gen k1)) then Ok (k1, [AAbandon])
        else let x := ky_commits ky (kd_gen k1) in
             let k2 := set_gen k1 (fst x) in
             match snd x with
             | None => Ok (k2, [AAbandon])
             | Some sc => acts <- broadcast_qual ci k2 op_commits (to_wire (OCommits sc)) ;; Ok (k2, acts)
             end
    end.
  (** dkg.go:100-105 *)
  Definition process_commits (ci : info) (e : env) (k : kd) (a : arg) : result :=
    match a with
    | AObj (OCommits c) =>
        let x := ky_process_commits ky (kd_gen k) c in
        let k1 := set_gen k (fst x) in
        match snd x with
        | Some (Some cc) => acts <- broadcast_qual ci k1 op_compl_commits (to_wire (OCompl cc)) ;; Ok (k1, acts)
        | _ => Ok (k1, [])
        end
    | _ => Panic
    end.
  (** dkg.go:107-112 *)
  Definition process_compl_commits (ci : info) (e : env) (k : kd) (a : arg) : result :=
    match a with
    | AObj (OCompl c) =>
        let x := ky_compl ky (kd_gen k) c in
        let k1 := set_gen k (fst x) in
        match snd x with
        | Some (Some r) => acts <- broadcast_qual ci k1 op_recons_commits (to_wire (ORecons r)) ;; Ok (k1, acts)
        | _ => Ok (k1, [])
        end
    | _ => Panic
    end.
  (** dkg.go:114-116 *)
  Definition process_recons_commits (ci : info) (e : env) (k : kd) (a : arg) : result :=
    match a with AObj (ORecons r) => Ok (set_gen k (ky_recons ky (kd_gen k) r), []) | _ => Panic end.
  (** dkg.go:118-127 *)
  Definition step_final (ci : info) (e : env) (k : kd) : result :=
    if ky_finished ky (kd_gen k) then
      match ky_share ky (kd_gen k) with
      | None => Ok (k, [AAbandon])
      | Some s => match kd_qual k with None => Panic | Some q => Ok (k, [AOutput pc_dkg (VShare s q)]) end
      end
    else Ok (k, [AAbandon]).

  Definition pstage := stage payload arg kd env output.
  (** prot.go:30-35 for a stage without processor *)
  Definition ps0 (st : info -> env -> kd -> result) : pstage :=
    mkStage (Some st) None (fun _ => Err) (fun _ _ => Ok false) (fun _ => false).
  Definition ps (st : option (info -> env -> kd -> result)) (pr : info -> env -> kd -> arg -> result)
      (u : payload -> res arg) (v : arg -> Z -> res bool) (t : payload -> bool) : pstage :=
    mkStage st (Some pr) u v t.

  (** dkg.go:15-31 *)
  Definition dkg_stages : list pstage :=
    [ ps0 step_init;
      ps (Some step_deal) process_deal (unm KDeal) deal_v (is_kind KDeal);
      ps None process_response identity_unm response_v is_resp;
      ps None process_justification (unm KJust) justification_v (is_kind KJust);
      ps0 step_vss_done;
      ps (Some step_commits) process_commits (unm KCommits) commits_v (is_kind KCommits);
      ps None process_compl_commits (unm KCompl) compl_commits_v (is_kind KCompl);
      ps None process_recons_commits (unm KRecons) recons_commits_v (is_kind KRecons);
      ps0 step_final ].
  (** dkg.go:10-34 *)
  Definition dkg_prot : protocol payload arg kd env output := mkProt pc_dkg dkg_stages (fun k => k).

  Definition share_of (s : dks) : keyshare := mkShare (pr_v (dk_share s)) (dk_commits s).
  (** dss.go:78-89.  A nil long-term share is dereferenced by the session id, after
      the index was found; a missing entry of dss_kdat_args has a nil secret. *)
  Definition st_init (ci : info) (e : env) (k : kd) : result :=
    match ky_share ky (kd_gen k) with
    | None => Ok (k, [AAbandon])
    | Some random =>
        match kd_args k with
        | None => Panic
        | Some a =>
            let msg := match e_doc e with Some m => m | None => 0 end in
            let new long := new_dss keccak (ka_secret a) (ka_parts a) long (share_of random) (ky_qual ky (kd_gen k)) msg (ka_T a) in
            match e_long e with
            | None => match new (mkShare 0 []) with Err => Ok (set_dss k None, [AAbandon]) | _ => Panic end
            | Some l =>
                match new (share_of l) with
                | Ok d => Ok (set_dss k (Some (d, match e_doc e with Some _ => true | None => false end)), [])
                | Err => Ok (set_dss k None, [AAbandon])
                | Panic => Panic
                end
            end
        end
    end.
  (** dss.go:91-94; with a nil message hashSig dereferences it *)
  Definition st_partsig (ci : info) (e : env) (k : kd) : result :=
    match kd_dss k with
    | Some (d, true) =>
        match partial_sig keccak pshash (e_nonce e) d with
        | Ok (d', sg, ok) =>
            let k1 := set_dss k (Some (d', true)) in
            if ok : bool then acts <- broadcast_qual ci k1 op_dss_partsig (to_wire (OPart sg)) ;; Ok (k1, acts)
            else Ok (k1, [AAbandon])
        | _ => Panic
        end
    | _ => Panic
    end.
  (** dss.go:96-97.  With a nil message st_partsig has panicked before. *)
  Definition pr_partsig (ci : info) (e : env) (k : kd) (a : arg) : result :=
    match a, kd_dss k with
    | AObj (OPart sg), Some (d, b) =>
        match process keccak pshash d sg with (_, Panic) => Panic | (d', _) => Ok (set_dss k (Some (d', b)), []) end
    | _, _ => Panic
    end.
  (** dss.go:99-103 *)
  Definition dss_st_final (ci : info) (e : env) (k : kd) : result :=
    match kd_dss k with
    | None => Panic
    | Some (d, _) =>
        if negb (enough d) then Ok (k, [AAbandon])
        else match signature keccak (e_ord e) d with
             | Ok s => Ok (k, [AOutput pc_dss (VSig s)])
             | Err => Ok (k, [AAbandon])
             | Panic => Panic
             end
    end.
  (** dss.go:40-48 *)
  Definition dss_stages : list pstage :=
    dkg_stages ++
    [ ps0 st_init;
      ps (Some st_partsig) pr_partsig (unm KPart) partsig_v (is_kind KPart);
      ps0 dss_st_final ].
  (** dss.go:17-20, 62-65 *)
  Definition dss_prot : protocol payload arg kd env output :=
    mkProt pc_dss dss_stages (fun k => mkKd (kd_gen k) (kd_qual k) None None).
End Stages.
