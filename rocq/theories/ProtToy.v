(** A small protocol for the examples: three stages.  In stage 0 everyone
    broadcasts a number; in stage 1 the numbers received are added up, and any
    number above 100 makes the sum announced at once for stage 2; the step of
    stage 2 abandons the run when the sum is odd and outputs it otherwise.
    Numbers are their own DTO. *)
From Coq Require Import ZArith List Lia Bool.
From Verif Require Import Bytes Res Dto Prot ProtSpec.
Import ListNotations.
Open Scope Z_scope.

Definition toy_stage (st : option (info -> unit -> Z -> res (Z * list (action Z Z))))
                     (pr : option (info -> unit -> Z -> Z -> res (Z * list (action Z Z)))) : stage Z Z Z unit Z :=
  mkStage st pr Ok (fun a s => Ok (negb (a =? 13))) (fun _ => true).
Definition toy : protocol Z Z Z unit Z := mkProt 1
  [ toy_stage (Some (fun ci _ k => Ok (k, broadcast ci 1 (i_guest ci)))) None;
    toy_stage None (Some (fun ci _ k a => Ok (k + a, if 100 <? a then multicast [0; 2; 1] ci 2 (k + a) else [])));
    toy_stage (Some (fun ci _ k => Ok (k, if Z.odd k then [AAbandon] else [AOutput 1 k]))) None ]
  (fun _ => 0).
Definition toy_info : info := mkInfo 1 [] 1 3 3.
Definition toy_msg (s op d : Z) : message Z := mkMsg s 1 1 [] op d.

(** Early, timely, refused, late messages; the run ends normally. *)
Definition toy_evs : list (event Z unit) :=
  [ EMsg tt (toy_msg 0 1 7); ETick tt 1000; EMsg tt (toy_msg 2 1 13); ETick tt 2000;
    EMsg tt (toy_msg 9 1 5); ETick tt (1000 + 25 * ms); EMsg tt (toy_msg 0 2 0); ETick tt (1000 + 31 * ms);
    EMsg tt (toy_msg 2 1 101); ETick tt (1000 + 102 * ms); EMsg tt (toy_msg 2 1 6); ETick tt (1000 + 108 * ms);
    EMsg tt (toy_msg 2 1 6); ETick tt (1000 + 126 * ms); EMsg tt (toy_msg 2 2 6) ].
(** The same without 101: the sum is odd and the run is abandoned. *)
Definition toy_evs_odd : list (event Z unit) :=
  [ EMsg tt (toy_msg 0 1 7); ETick tt 1000; ETick tt 2000; ETick tt (1000 + 25 * ms); ETick tt (1000 + 31 * ms);
    ETick tt (1000 + 102 * ms); ETick tt (1000 + 108 * ms); EMsg tt (toy_msg 2 2 6); ETick tt (1000 + 126 * ms) ].
Definition toy_trace evs : list (obs Z Z Z) := match exec toy toy_info (new_run 0) evs with Ok x => snd x | _ => [] end.

(** A protocol that queues messages for stage 1 and abandons at once. *)
Definition toy_untidy : protocol Z Z Z unit Z := mkProt 1
  [ toy_stage (Some (fun ci _ k => Ok (k, broadcast ci 1 (i_guest ci) ++ [AAbandon]))) None;
    toy_stage None (Some (fun ci _ k a => Ok (k + a, []))) ] (fun k => k).
