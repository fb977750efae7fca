(** Vocabulary for the statements about a running node, read off events and traces. *)
From Coq Require Import ZArith List Bool.
From Verif Require Import Params Bytes Res Secp Spec Dto Dss Schnorr Prot DkgProt DkgSpec KMap Firewall Node.
Import ListNotations.
Open Scope Z_scope.

Section Spec.
  Context {G : Type}.
  Notation nevent := (nevent (G := G)).

  Definition ntime (ev : nevent) : Z :=
    match ev with
    | VRequest t _ _ _ | VGo t _ _ | VWait t _ | VGuest t _ _ _ | VIn t _ | VUndrop t | VFw t _ _
    | VTake t _ _ _ | VDeliver t _ _ _ _ | VTick t _ _ _ => t end.
  (** The clock does not go back; [t0]: where it starts. *)
  Fixpoint nclock (t0 : Z) (evs : list nevent) : Prop :=
    match evs with [] => True | ev :: l => t0 <= ntime ev /\ nclock (ntime ev) l end.

  Definition pc_for (doc : option Z) : Z := match doc with None => pc_dkg | Some _ => pc_dss end.
  (** At time [t] the operator asked for run [k] from [start] on: key generation
      ([doc] is None) or a signature of the document. *)
  Definition requested (su : setup) (evs : list nevent) (k : key) (start : Z) (doc : option Z) (t : Z) : Prop :=
    exists base, In (VRequest t base start doc) evs /\ k_run k = run_id_for base start /\ k_pc k = pc_for doc /\
      In (k_guest k) (su_guests su).
  (** How often. *)
  Definition is_request (k : key) (ev : nevent) : bool :=
    match ev with
    | VRequest _ base start doc => (pc_for doc =? k_pc k) && bytes_eqb (run_id_for base start) (k_run k)
    | _ => false end.
  Definition requests_for (k : key) (evs : list nevent) : nat := length (filter (is_request k) evs).

  (** The node runs from its start at [now0], dropping messages until [until]. *)
  Definition nhistory (ky : kyber G) keccak pshash (su : setup) (until now0 : Z) (evs : list nevent) (n : node) (tr : list nobs) : Prop :=
    nclock now0 evs /\ nexec ky keccak pshash su (start_node su until now0) evs = Ok (n, tr).

  (** The trace of the firewall. *)
  Definition fw_trace (tr : list nobs) : list (fobs payload) :=
    flat_map (fun o => match o with NFw x => [x] | _ => [] end) tr.
  Definition in_range (ky : kyber G) keccak pshash (su : setup) (m : message payload) : Prop :=
    0 <= m_pc m < 2 /\ In (m_rcpt m) (su_guests su) /\
    0 <= m_op m < Z.of_nat (length (p_stages (the_prot ky keccak pshash (m_pc m)))).

  (** An order of map iteration that occurred; a state of a generator that was made for a run of guest [g]. *)
  Definition drawn (evs : list nevent) (ord : Z -> list (Z * Z) -> list (Z * Z)) : Prop :=
    (exists t pc g nonce, In (VDeliver t pc g nonce ord) evs) \/ (exists t j nonce, In (VTick t j nonce ord) evs).
  Definition made_for (evs : list nevent) (g : Z) (gen : G) : Prop :=
    (exists t i, In (VGuest t i g gen) evs) \/ (exists t pc, In (VTake t pc g gen) evs).
  Definition generator_of (ky : kyber G) (evs : list nevent) (g : Z) (st : G) : Prop :=
    exists gen, made_for evs g gen /\ evolves ky gen st.

  (** [d]: a DSS instance of guest g for the document [doc]: made by NewDSS with the guest's secret and
      long-term share and a share its own key generation returned, and then used. *)
  Definition instance_for (ky : kyber G) keccak pshash (su : setup) (evs : list nevent) (g doc : Z) (d : dss) : Prop :=
    exists l random st d0 calls, su_long su g = Some l /\ generator_of ky evs g st /\ ky_share ky st = Some random /\
      new_dss keccak (su_secret su g) (su_members su) (share_of l) (share_of random) (ky_qual ky st) doc (su_T su) = Ok d0 /\
      d = Dss.run keccak pshash d0 calls.

  (** The observation [o] of run [k] concerns a requested document: a partial signature it sends and a
      signature it outputs are those of an instance for a document the operator asked to sign
      under that id. *)
  Definition on_request (ky : kyber G) keccak pshash (su : setup) (evs : list nevent) (k : key) (o : obs payload arg output) : Prop :=
    match o with
    | OCreate m | OSent m => m_op m = op_dss_partsig ->
        exists doc start t d d' nonce sg w, requested su evs k start (Some doc) t /\ instance_for ky keccak pshash su evs (k_guest k) doc d /\
          partial_sig keccak pshash nonce d = Ok (d', sg, true) /\ to_wire (OPart sg) = Ok w /\ m_dto m = PWire w
    | OOutput pc v => pc = pc_dss ->
        exists doc start t d ord s, requested su evs k start (Some doc) t /\ instance_for ky keccak pshash su evs (k_guest k) doc d /\
          drawn evs ord /\ signature keccak ord d = Ok s /\ v = VSig s
    | _ => True
    end.

  (** A key share output by run [k]: its generator was certified, the members named are those qualified then, and
      later, after more calls, it was finished and gave this share. *)
  Definition from_generator (ky : kyber G) (evs : list nevent) (k : key) (o : obs payload arg output) : Prop :=
    match o with
    | OOutput pc v => pc = pc_dkg ->
        exists s st1 st2, v = VShare s (ky_qual ky st1) /\ generator_of ky evs (k_guest k) st1 /\ ky_certified ky st1 = true /\
          evolves ky st1 st2 /\ ky_finished ky st2 = true /\ ky_share ky st2 = Some s
    | _ => True
    end.

  (** Guest [g]'s public key, coordinates modulo p, occurs among the members only at [i]. *)
  Definition member_at (su : setup) (g i : Z) : Prop :=
    forall j Q P, pt_mul (su_secret su g) KP_nil = Ok P -> nth_error (su_members su) j = Some Q ->
      eqP (fst Q) (fst P) -> eqP (snd Q) (snd P) -> Z.of_nat j = i.

  (** Whether run [k] is in the table: it was made and not removed since. *)
  Definition in_table (k : key) (tr : list nobs) : bool :=
    fold_left (fun b o => match o with
      | NCreate _ k' => if key_eqb k' k then true else b
      | NDelete k' => if key_eqb k' k then false else b
      | _ => b end) tr false.
  (** The messages that entered, and that were taken from, the queue of protocol [pc] and guest [g]. *)
  Definition for_queue (pc g : Z) (m : message payload) : bool := (Z.abs (m_pc m) =? pc) && (m_rcpt m =? g).
  Definition queued_to (pc g : Z) (tr : list nobs) : list (message payload) :=
    flat_map (fun o => match o with NQueued m => if for_queue pc g m then [m] else [] | _ => [] end) tr.
  Definition taken_from (pc g : Z) (tr : list nobs) : list (message payload) :=
    flat_map (fun o => match o with NTake m => if for_queue pc g m then [m] else [] | _ => [] end) tr.
  (** How often a run was removed, and a signal to remove it was sent. *)
  Definition deletes (k : key) (tr : list nobs) : nat :=
    length (filter (fun o => match o with NDelete k' => key_eqb k' k | _ => false end) tr).
  Definition cleanups (k : key) (tr : list nobs) : nat :=
    length (filter (fun o => match o with NCleanup k' => key_eqb k' k | _ => false end) tr).
End Spec.
