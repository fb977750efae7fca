(** Primality of the field size p, by a chain of Pocklington certificates
    (data only; the checkers are proved sound in NumTh.v). *)
From Coq Require Import ZArith Znumtheory List Lia.
From Verif Require Import Params NumTh FastP.
Import ListNotations.
Open Scope Z_scope.

Lemma prime_7 : prime 7.
Proof. apply (small_prime_sound _ 3). vm_cast_no_check (eq_refl true). Qed.

Lemma prime_29 : prime 29.
Proof. apply (small_prime_sound _ 6). vm_cast_no_check (eq_refl true). Qed.

Lemma prime_53 : prime 53.
Proof. apply (small_prime_sound _ 8). vm_cast_no_check (eq_refl true). Qed.

Lemma prime_20113 : prime 20113.
Proof. apply (small_prime_sound _ 142). vm_cast_no_check (eq_refl true). Qed.

Lemma prime_96557 : prime 96557.
Proof. apply (small_prime_sound _ 311). vm_cast_no_check (eq_refl true). Qed.

Lemma prime_107590001 : prime 107590001.
Proof.
  apply (pockl_sound _ 2 [7; 29; 53]).
  - apply Forall_cons; [exact prime_7|]. apply Forall_cons; [exact prime_29|]. apply Forall_cons; [exact prime_53|]. apply Forall_nil.
  - repeat constructor; cbn; lia.
  -   vm_cast_no_check (eq_refl true).
Qed.

Lemma prime_1206781 : prime 1206781.
Proof.
  apply (pock1_sound _ 20113 2 60 prime_20113).
  vm_cast_no_check (eq_refl true).
Qed.

Lemma prime_7240687 : prime 7240687.
Proof.
  apply (pock1_sound _ 1206781 2 6 prime_1206781).
  vm_cast_no_check (eq_refl true).
Qed.

Lemma prime_255515944373312847190720520512484175977 : prime 255515944373312847190720520512484175977.
Proof.
  apply (pockl_sound _ 2 [107590001; 7240687; 96557]).
  - apply Forall_cons; [exact prime_107590001|]. apply Forall_cons; [exact prime_7240687|]. apply Forall_cons; [exact prime_96557|]. apply Forall_nil.
  - repeat constructor; cbn; lia.
  -   vm_cast_no_check (eq_refl true).
Qed.

Lemma prime_205115282021455665897114700593932402728804164701536103180137503955397371 : prime 205115282021455665897114700593932402728804164701536103180137503955397371.
Proof.
  apply (pock1_sound _ 255515944373312847190720520512484175977 2 802749442992798076634733441528810 prime_255515944373312847190720520512484175977).
  vm_cast_no_check (eq_refl true).
Qed.

Lemma prime_p : prime p.
Proof.
  apply (pockp_sound 205115282021455665897114700593932402728804164701536103180137503955397371 2 564522 prime_205115282021455665897114700593932402728804164701536103180137503955397371).
  vm_cast_no_check (eq_refl true).
Qed.

