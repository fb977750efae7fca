(** Vocabulary for the statements about the firewall, read off events and traces. *)
From Coq Require Import ZArith List Bool.
From Verif Require Import Bytes Res Prot KMap Firewall.
Import ListNotations.
Open Scope Z_scope.

Section Spec.
  Context {D : Type}.
  Notation message := (message D). Notation fobs := (fobs D). Notation fevent := (fevent D).

  (** The run a message is addressed to: of the protocol and guest, with the id, that it names. *)
  Definition key_of (m : message) : key := mkKey (m_pc m) (m_rcpt m) (m_run m).

  Definition time_of (ev : fevent) : Z :=
    match ev with EvIn t _ | EvUndrop t | EvAllow t _ _ | EvWake t _ _ | EvRecv t _ _ => t end.
  (** The clock does not go back; [t0]: where it starts. *)
  Fixpoint clock (t0 : Z) (evs : list fevent) : Prop :=
    match evs with [] => True | ev :: l => t0 <= time_of ev /\ clock (time_of ev) l end.

  (** Messages of run [k] passed on. *)
  Definition passed (k : key) (tr : list fobs) : list message :=
    flat_map (fun o => match o with FPass _ m => if key_eqb (key_of m) k then [m] else [] | _ => [] end) tr.
  (** What the channel of the n-th call for [k] was told. *)
  Definition told_to (k : key) (n : nat) (tr : list fobs) : list Z :=
    flat_map (fun o => match o with FTold _ k' n' v => if key_eqb k' k && Nat.eqb n' n then [v] else [] | _ => [] end) tr.

  Definition is_set (k : key) (o : fobs) : bool := match o with FSet _ k' _ => key_eqb k' k | _ => false end.
  Definition is_phase (k : key) (p : Z) (o : fobs) : bool :=
    match o with FPhase _ k' q => key_eqb k' k && (q =? p) | _ => false end.
  (** Phase of run [k] after a trace: 0 after an allowance was set, then 1 buffering,
      2 forwarding, 3 stopped; None before any allowance. *)
  Definition phase (k : key) (tr : list fobs) : option Z :=
    fold_left (fun s o => match o with
      | FSet _ k' _ => if key_eqb k' k then Some 0 else s
      | FPhase _ k' q => if key_eqb k' k then Some q else s
      | _ => s end) tr None.
  Definition phase_is (k : key) (p : Z) (tr : list fobs) : bool :=
    match phase k tr with Some q => q =? p | None => false end.
  (** Whether initial dropping is still on; [d0]: whether it was at the beginning. *)
  Definition dropping (d0 : bool) (tr : list fobs) : bool :=
    d0 && negb (existsb (fun o => match o with FUndropped _ => true | _ => false end) tr).

  (** The messages for [k] that came in in phase [p] and after initial dropping,
      in [tr], which goes on after [pre]. *)
  Fixpoint arrivals (d0 : bool) (k : key) (p : Z) (pre tr : list fobs) : list message :=
    match tr with
    | [] => []
    | o :: r =>
        match o with
        | FIn _ m => if key_eqb (key_of m) k && negb (dropping d0 pre) && phase_is k p pre then [m] else []
        | _ => []
        end ++ arrivals d0 k p (pre ++ [o]) r
    end.

  (** Events and observations that have to do with run [k]. *)
  Definition about (k : key) (ev : fevent) : bool :=
    match ev with
    | EvIn _ m => key_eqb (key_of m) k | EvUndrop _ => true
    | EvAllow _ k' _ | EvWake _ k' _ | EvRecv _ k' _ => key_eqb k' k
    end.
  Definition about_obs (k : key) (o : fobs) : bool :=
    match o with
    | FIn _ m | FPass _ m => key_eqb (key_of m) k | FUndropped _ => true
    | FSet _ k' _ | FPhase _ k' _ | FTold _ k' _ _ => key_eqb k' k
    end.
End Spec.
