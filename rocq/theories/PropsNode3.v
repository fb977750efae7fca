(** Statements about what is left of a run once its request has returned. *)
From Coq Require Import ZArith List Lia Bool.
From Coq Require Import Init.Byte.
From Verif Require Import Params Bytes Res Secp Dto Prot DkgProt KMap Firewall Outputs Node NodeSpec
  NodeProofs NodeProofs2 NodeProofs5 NodeProofs7 PropsNode.
Import ListNotations.
Open Scope Z_scope.

Section Statements.
  Context {G : Type}.
  Variable ky : kyber G.
  Variable keccak : bytes -> bytes.
  Variable pshash : Z -> Z -> bytes.
  Variable su : setup.
  Variables until now0 : Z.
  Notation history := (nhistory ky keccak pshash su until now0).

  (** ** C87.  Once a request takes an output from run [k] (it does so after the runs of all its guests have
      terminated), the runs [k'] of its guests do nothing any more: none is made, they send nothing, output nothing,
      enter no stage; a message that still reaches one is dropped or ignored. *)
  Theorem C87_silent_after_return evs n tr a k v b k' : NoDup (su_guests su) -> history evs n tr -> (requests_for k evs <= 1)%nat ->
    tr = a ++ NPop k v :: b -> k_pc k' = k_pc k -> k_run k' = k_run k -> In (k_guest k') (su_guests su) ->
    (forall t, ~ In (NCreate t k') b) /\ (forall o, In (NRun k' o) b -> match o with OHandle _ | ODrop _ => True | _ => False end).
  Proof.
    intros ND HH HR ET K1 K2 K3. destruct (history_silent ky keccak pshash su until now0 evs n tr k k' ND HH) as (S & _); [repeat split; assumption|].
    exact (S HR a v b ET).
  Qed.
  (** The document of a signing request is registered with no guest any more. *)
  Theorem C87_document_forgotten evs n tr k v g : NoDup (su_guests su) -> history evs n tr -> (requests_for k evs <= 1)%nat ->
    k_pc k = pc_dss -> In (k_guest k) (su_guests su) -> In (NPop k v) tr -> kget (n_docs n) (dkey g (k_run k)) = None.
  Proof. intros ND HH HR KP KG HI. eapply document_forgotten; eassumption. Qed.
End Statements.

(** The history of C56_ex; a message that came in before the end is taken and delivered after the request has returned. *)
Definition ex_late : list (nevent (G := Z)) :=
  let stray := mkMsg 0 pc_dss 0 (k_run (ex_key pc_dss)) 2 (PWire WOther) in
  ex_begin 0 (Some 10) ++ ex_go (Some 10) ++ ex_ticks 5 26 ++ [VIn (10000000 * ms) stray] ++ ex_stop 0 (Some 10) ++
  [VTick ex_end 0 5 (fun _ l => l); VTake ex_end pc_dss 0 7; VDeliver ex_end pc_dss 0 5 (fun _ l => l)].
Example C87_ex : exists n tr a v b m, ex_history None ex_late n tr /\ requests_for (ex_key pc_dss) ex_late = 1%nat /\
  tr = a ++ NPop (ex_key pc_dss) v :: b /\ In (NRun (ex_key pc_dss) (ODrop m)) b /\ NoDup (su_guests ex_su) /\
  In (k_guest (ex_key pc_dss)) (su_guests ex_su) /\ map rq_phase (n_reqs n) = [RDone].
Proof.
  destruct (ex_run None ex_late) as [[n tr]| |] eqn:E; [|vm_compute in E; discriminate..]. exists n, tr. vm_compute in E. injection E as <- <-.
  match goal with |- exists a v b m, _ /\ _ /\ ?tr = _ /\ _ => exists (firstn (length tr - 3) tr), None, (skipn (length tr - 2) tr) end. eexists.
  split; [split; [vm_compute; intuition discriminate|vm_compute; reflexivity]|]. split; [vm_compute; reflexivity|]. split; [reflexivity|].
  split; [right; left; reflexivity|]. split; [repeat constructor; intuition discriminate|]. split; [left; reflexivity|reflexivity].
Qed.

Print Assumptions C87_silent_after_return. Print Assumptions C87_document_forgotten.
