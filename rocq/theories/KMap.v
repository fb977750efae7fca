(** Maps indexed by protocol code, guest index and run id.  The code nests three
    Go maps (prot.go:65-68, 315; firewall.go:29-31); here they are one association
    list with compound keys. *)
From Coq Require Import ZArith List Lia Bool.
From Verif Require Import Bytes.
Import ListNotations.
Open Scope Z_scope.

Record key := mkKey { k_pc : Z; k_guest : Z; k_run : bytes }.
Definition key_eqb (a b : key) : bool := (k_pc a =? k_pc b) && (k_guest a =? k_guest b) && bytes_eqb (k_run a) (k_run b).
Lemma key_eqb_spec a b : reflect (a = b) (key_eqb a b).
Proof.
  destruct a as [p g r], b as [p' g' r']. unfold key_eqb. cbn.
  destruct (Z.eqb_spec p p') as [->|N]; [|constructor; congruence].
  destruct (Z.eqb_spec g g') as [->|N]; [|constructor; congruence].
  destruct (bytes_eqb_spec r r') as [->|N]; constructor; congruence.
Qed.
Lemma key_eqb_refl k : key_eqb k k = true.
Proof. destruct (key_eqb_spec k k); congruence. Qed.

Section Maps.
  Context {V : Type}.
  Definition kmap := list (key * V).
  (** m[k] with its second result *)
  Fixpoint kget (m : kmap) (k : key) : option V :=
    match m with [] => None | (k', v) :: r => if key_eqb k' k then Some v else kget r k end.
  (** delete(m, k) *)
  Fixpoint kdel (m : kmap) (k : key) : kmap :=
    match m with [] => [] | (k', v) :: r => if key_eqb k' k then kdel r k else (k', v) :: kdel r k end.
  (** m[k] = v *)
  Definition kset (m : kmap) (k : key) (v : V) : kmap := (k, v) :: kdel m k.

  Lemma kget_kdel m k k' : kget (kdel m k) k' = if key_eqb k k' then None else kget m k'.
  Proof.
    induction m as [|[a v] m IH]; cbn [kdel kget]; [destruct (key_eqb k k'); reflexivity|].
    destruct (key_eqb_spec a k) as [->|N].
    - rewrite IH. destruct (key_eqb k k'); reflexivity.
    - cbn [kget]. rewrite IH. destruct (key_eqb_spec a k') as [->|N']; [|reflexivity].
      destruct (key_eqb_spec k k'); [congruence|reflexivity].
  Qed.
  Lemma kget_kset m k v k' : kget (kset m k v) k' = if key_eqb k k' then Some v else kget m k'.
  Proof. unfold kset. cbn [kget]. rewrite kget_kdel. destruct (key_eqb k k'); reflexivity. Qed.
  Lemma kget_kset_same m k v : kget (kset m k v) k = Some v.
  Proof. rewrite kget_kset, key_eqb_refl. reflexivity. Qed.
  Lemma kget_kset_other m k v k' : k <> k' -> kget (kset m k v) k' = kget m k'.
  Proof. intros H. rewrite kget_kset. destruct (key_eqb_spec k k'); [contradiction|reflexivity]. Qed.
  Lemma kget_kdel_same m k : kget (kdel m k) k = None.
  Proof. rewrite kget_kdel, key_eqb_refl. reflexivity. Qed.
  Lemma kget_kdel_other m k k' : k <> k' -> kget (kdel m k) k' = kget m k'.
  Proof. intros H. rewrite kget_kdel. destruct (key_eqb_spec k k'); [contradiction|reflexivity]. Qed.
End Maps.
Arguments kmap V : clear implicits.
(** map[k] for slices: nil when absent *)
Definition kslice {V} (m : kmap (list V)) (k : key) : list V := match kget m k with Some l => l | None => [] end.
Lemma kslice_kset {V} (m : kmap (list V)) k v k' : kslice (kset m k v) k' = if key_eqb k k' then v else kslice m k'.
Proof. unfold kslice. rewrite kget_kset. destruct (key_eqb k k'); reflexivity. Qed.
Lemma kslice_kdel {V} (m : kmap (list V)) k k' : kslice (kdel m k) k' = if key_eqb k k' then [] else kslice m k'.
Proof. unfold kslice. rewrite kget_kdel. destruct (key_eqb k k'); reflexivity. Qed.
