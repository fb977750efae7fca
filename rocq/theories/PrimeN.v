(** Primality of the group order N, by a chain of Pocklington certificates
    (data only; the checkers are proved sound in NumTh.v). *)
From Coq Require Import ZArith Znumtheory List Lia.
From Verif Require Import Params NumTh FastP.
Import ListNotations.
Open Scope Z_scope.

Lemma prime_1627771 : prime 1627771.
Proof. apply (small_prime_sound _ 1276). vm_cast_no_check (eq_refl true). Qed.

Lemma prime_28181 : prime 28181.
Proof. apply (small_prime_sound _ 168). vm_cast_no_check (eq_refl true). Qed.

Lemma prime_9349 : prime 9349.
Proof. apply (small_prime_sound _ 97). vm_cast_no_check (eq_refl true). Qed.

Lemma prime_120233 : prime 120233.
Proof. apply (small_prime_sound _ 347). vm_cast_no_check (eq_refl true). Qed.

Lemma prime_85831 : prime 85831.
Proof. apply (small_prime_sound _ 293). vm_cast_no_check (eq_refl true). Qed.

Lemma prime_4681609 : prime 4681609.
Proof. apply (small_prime_sound _ 2164). vm_cast_no_check (eq_refl true). Qed.

Lemma prime_545358713 : prime 545358713.
Proof.
  apply (pock1_sound _ 28181 2 19352 prime_28181).
  vm_cast_no_check (eq_refl true).
Qed.

Lemma prime_297159362677 : prime 297159362677.
Proof.
  apply (pock1_sound _ 1627771 2 182556 prime_1627771).
  vm_cast_no_check (eq_refl true).
Qed.

Lemma prime_29047611873442575647497758179 : prime 29047611873442575647497758179.
Proof.
  apply (pock2_sound _ 297159362677 545358713 2 179241578 prime_297159362677 prime_545358713).
  vm_cast_no_check (eq_refl true).
Qed.

Lemma prime_341948486974166000522343609283189 : prime 341948486974166000522343609283189.
Proof.
  apply (pock1_sound _ 29047611873442575647497758179 2 11772 prime_29047611873442575647497758179).
  vm_cast_no_check (eq_refl true).
Qed.

Lemma prime_44706919 : prime 44706919.
Proof.
  apply (pock1_sound _ 9349 2 4782 prime_9349).
  vm_cast_no_check (eq_refl true).
Qed.

Lemma prime_174723607534414371449 : prime 174723607534414371449.
Proof.
  apply (pock2_sound _ 44706919 120233 2 32505224 prime_44706919 prime_120233).
  vm_cast_no_check (eq_refl true).
Qed.

Lemma prime_N : prime N.
Proof.
  apply (pock2_sound _ 341948486974166000522343609283189 174723607534414371449 2 1938057310625759192294976 prime_341948486974166000522343609283189 prime_174723607534414371449).
  vm_cast_no_check (eq_refl true).
Qed.

