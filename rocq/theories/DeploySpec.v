(** Vocabulary for deployments: one process for each host of a configuration, what their members' runs go through, and
    what the processes keep of it. *)
From Coq Require Import ZArith List Bool Permutation.
From Coq Require Import Init.Byte.
From Verif Require Import Params Bytes Res Secp Spec Dss Dto Prot ProtSpec TimeSpec DkgProt KMap Firewall FwSpec Outputs Requests Node NodeSpec NodeRun ObjSpec ReachSpec Layout LayoutSpec Main MainSpec
  Cluster ClusterSpec DeliverSpec HonestSpec.
From Verif Require Net.
Import ListNotations.
Open Scope Z_scope.

Section Deploy.
  Variables (hosts : list LayoutSpec.host) (fs : bytes -> option bytes) (T : Z) (mem : list Layout.member).
  Notation n := (Z.of_nat (length mem)).
  (** A process is launched for each host, with the key files [fs] and T, and starts.  They are the processes of a cluster, and calls to the address of a
      member reach the process that listens there.  [host] tells the process of a member, [pl] describes it. *)
  Definition deployed (launches : list launch) (sts : list started) (places : list place) (home : Z -> option nat) (host : Z -> nat) (pl : Z -> place) : Prop :=
    Forall2 (launched_for hosts fs T) hosts launches /\ Forall2 (fun l st => starts l = Ok st) launches sts /\
    Forall2 (fun st q => same_setup (pl_su q) (sd_setup st) /\ pl_until q = sd_until st) sts places /\
    (forall i a st j st', In i (everyone n) -> In st sts -> nth_error (sd_dial st) (Z.to_nat i) = Some (Some a) -> nth_error sts j = Some st' -> In a (sd_listen st') -> home i = Some j) /\
    (forall i, In i (everyone n) -> exists m h, nth_error mem (Z.to_nat i) = Some m /\ nth_error hosts (host i) = Some h /\ In (mb_file m) (h_files h)) /\
    (forall i, In i (everyone n) -> nth_error places (host i) = Some (pl i)).
End Deploy.

Section Runs.
  Context {G : Type}.
  Variable ky : kyber G.
  Variable keccak : bytes -> bytes.
  Variable pshash : Z -> Z -> bytes.
  Variables (n : Z) (pc : Z) (id : bytes) (g : Z -> G).
  (** The times when the runs start; by how much they are late at most; how long calls and the incoming queues take; by how much clocks differ. *)
  Variables (s : Z -> Z) (d lat1 lat2 drift : Z).
  (** All [n] members have a run of the protocol [pc] under the id [id] in their processes, asked for once, whose request has returned.  The run of i starts at [s i]; none is late by more
      than [d] when it wakes up.  What they send one another is carried by calls that succeed within [lat1] and comes in while the firewall forwards,
      or buffers with room and forwards within [lat2]; the incoming queues are not full and are emptied within [lat2]; no two clocks differ by more than [drift]; nothing comes in for these runs from elsewhere. *)
  Definition run_together (host : Z -> nat) (pl : Z -> place) (tr : list (cobs (G := G))) : Prop :=
    let k i := mkKey pc i id in let ours (m : message payload) := m_run m = id in
    0 <= d /\ 0 <= lat2 /\
    (forall i, In i (everyone n) -> let q := pl i in let su := pl_su q in let e := events_at (host i) tr in let t := trace_at (host i) tr in
       (requests_for (k i) e <= 1)%nat /\ (exists v, In (NPop (k i) v) t) /\
       (exists j k0 h, lives ky keccak pshash su (start_node su (pl_until q) (pl_begin q)) e j (k i) k0 h /\ kd_gen k0 = g i /\
          punctual (the_prot ky keccak pshash pc) (run_info su (k i)) d (new_run k0) (untimed h)) /\
       In (NRun (k i) (OStart (s i))) t /\ has_room pc i t /\ forall m, In m (from_outside (host i) tr) -> key_of m <> k i) /\
    (forall i i', In i (everyone n) -> In i' (everyone n) -> pl_skew (pl i) - pl_skew (pl i') <= drift /\ s i - s i' + 2 * d + (lat1 + lat2 + drift) < 70 * ms) /\
    (forall i i', In i (everyone n) -> In i' (everyone n) -> let l := mkLane (host i') pc i' i in
       calls_within ours lat1 l tr /\ lets_in ours (pl i) (host i) l tr /\ keeps_up ky keccak pshash ours lat2 (pl i) (host i) l tr).
End Runs.

(** What the loop for key generation of the process [st] with the trace [t] returned: it found, in every round until it returned, what was popped for
    the guests; [tmo] is how long a key generation lasts. *)
Definition returned_shares (tmo : Z) (st : started) (t : list nobs) (lts : list (Z * dks)) : Prop :=
  let gs := su_guests (sd_setup st) in let rid := round_id (sd_at st) tmo in
  exists found fuel r ord ord', (forall i, Permutation gs (ord i)) /\ (forall i l, Permutation l (ord' i l)) /\
    (forall q i, (q <= r)%nat -> In i gs -> In (NPop (mkKey pc_dkg i (rid q)) (found (rid q) i)) t) /\
    longterm_loop found (length (su_members (sd_setup st))) (sd_at st) tmo fuel 0 ord ord' = Ok (Some (r, lts)).

(** The process is launched with the file that the shares [lts] were saved to; the loops over the maps of shares go in any order. *)
Definition launched_with (lts : list (Z * dks)) (l : launch) : Prop :=
  exists a lts' saved ord, la_rest l = [a] /\ Permutation lts lts' /\ save_longterms lts' = Ok saved /\ (forall x : list (Z * dks_dto), Permutation (ord x) x) /\ w_gob (la_w l) a = Some (ord saved).
