(** Statements that pin down the run ids of requests. *)
From Coq Require Import Strings.String.
From Coq Require Import ZArith List Lia Bool.
From Coq Require Import Init.Byte.
From Verif Require Import Params Bytes Res Secp Spec Dto Dss Prot DkgProt Firewall Node Requests ReqSpec PropsReq.
Import ListNotations.
Open Scope list_scope.
Open Scope Z_scope.

(** ** C77.  The run id of a signing request: "sig", its namespace and the milliseconds of its start. *)
Theorem C77_signing_id : forall parse def nm tm doc base t d, run_sig1 parse def nm tm doc = Some (base, t, d) ->
  run_id_for base t = list_byte_of_string "sig" ++ nm ++ format_int (t / 1000000).
Proof.
  intros parse def nm tm doc base t d E. apply C80_outcome in E. destruct E as (-> & _ & _). unfold run_id_for, ms.
  change s_sig with (list_byte_of_string "sig"). rewrite <- app_assoc. reflexivity.
Qed.
(** No signing request has the id of a round of key generation. *)
Theorem C77_kinds_apart : forall parse def nm tm doc base t d start tmo i, run_sig1 parse def nm tm doc = Some (base, t, d) ->
  run_id_for base t <> round_id start tmo i.
Proof.
  intros parse def nm tm doc base t d start tmo i E. rewrite (C77_signing_id _ _ _ _ _ _ _ _ E). unfold round_id, run_id_for, round_base.
  cbn [list_byte_of_string s_longterm app]. discriminate.
Qed.
Example C77_ex_signing : run_sig1 (fun _ => None) 5000000 (list_byte_of_string "a") (list_byte_of_string "_") (list_byte_of_string "ff") =
  Some (list_byte_of_string "siga", 5000000, 255) /\ run_id_for (list_byte_of_string "siga") 5000000 = list_byte_of_string "siga5".
Proof. split; vm_compute; reflexivity. Qed.
Print Assumptions C77_signing_id. Print Assumptions C77_kinds_apart.
