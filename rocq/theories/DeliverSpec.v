(** Vocabulary: messages on their way from a run in one process to a run in another. *)
From Coq Require Import ZArith List Bool.
From Verif Require Import Bytes Res Dto Prot DkgProt KMap Firewall FwSpec Node NodeSpec ReachSpec Cluster ClusterSpec.
From Verif Require Net.
Import ListNotations.
Open Scope Z_scope.

Section Spec.
  Context {G : Type}.
  Variable ky : kyber G.
  Variable keccak : bytes -> bytes.
  Variable pshash : Z -> Z -> bytes.
  Notation message := (message payload).
  Notation cobs := (cobs (G := G)).
  (** The messages spoken of. *)
  Variable P : message -> Prop.

  (** At time [t] by the clock of process [i] the run [k] sends [m]. *)
  Definition sends_at (i : nat) (k : key) (t : Z) (m : message) (tr : list cobs) : Prop :=
    exists org ev os, In (XNode i org ev os) tr /\ ntime ev = t /\ In (NRun k (OSent m)) os.
  (** A message put in lane [l] is carried by a call that succeeds, within [lat]. *)
  Definition calls_within (lat : Z) (l : lane) (tr : list cobs) : Prop :=
    forall t m os, P m -> In (XLane t l (Net.EvSend m) os) tr ->
    exists t1 ok os1, t1 <= t + lat /\ In (XLane t1 l (Net.EvGo ok) os1) tr /\ In (Net.NCall m true) os1.
  (** When a message comes in to process [j] by lane [l], its firewall does not drop all messages any more, and either forwards those for the run, or buffers
      them and has room. *)
  Definition lets_in (p : place) (j : nat) (l : lane) (tr : list cobs) : Prop :=
    forall x t m os y, P m -> tr = x ++ XNode j (Via l) (VIn t m) os :: y ->
    let d := pl_begin p <? pl_until p in let k := key_of m in let f := fw_trace (trace_at j x) in
    dropping d f = false /\ (phase k f = Some 2 \/ (phase k f = Some 1 /\ (length (arrivals d k 1 [] f) < 2048)%nat)).
  (** Within [lat] of its coming in, if the firewall buffered it, it forwards, and no message for the run waits in the queue, or for the lock of the run. *)
  Definition keeps_up (lat : Z) (p : place) (j : nat) (l : lane) (tr : list cobs) : Prop :=
    forall x t m os y, P m -> tr = x ++ XNode j (Via l) (VIn t m) os :: y ->
    exists y1 y2 n tr1, y = y1 ++ y2 /\ Forall (fun ev => ntime ev <= t + lat) (events_at j y1) /\
      nexec ky keccak pshash (pl_su p) (start_node (pl_su p) (pl_until p) (pl_begin p)) (events_at j x ++ VIn t m :: events_at j y1) = Ok (n, tr1) /\
      (phase (key_of m) (fw_trace (trace_at j x)) = Some 1 -> phase (key_of m) (fw_trace tr1) = Some 2) /\ held_for (key_of m) n = [] /\ waiting_for (key_of m) n = [].
  (** The queue of protocol [pc] and guest [g] never holds as many messages as it can. *)
  Definition has_room (pc g : Z) (tr : list nobs) : Prop :=
    forall a b, tr = a ++ b -> Z.of_nat (length (queued_to pc g a)) - Z.of_nat (length (taken_from pc g a)) < 10000.
End Spec.
