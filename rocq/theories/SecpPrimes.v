(** The two primes of secp256k1 are prime: Pocklington certificates.
    The field prime P = 2^256 - 2^32 - 977 and the group order N, as in
    /repo/xcrypto/secp256k1/secp256k1.go lines 26-27. *)

From Coq Require Import ZArith Znumtheory List.
From Verif Require Import NumTheory.
Import ListNotations.
Local Open Scope Z_scope.

Ltac leaf f := apply (no_divisor_prime _ f); [reflexivity | vm_compute; reflexivity].
Ltac nodup := repeat (apply NoDup_cons; [cbn; intuition discriminate | ]); apply NoDup_nil.
Ltac pock qs :=
  match goal with |- prime ?n =>
    apply (pock_check_prime n 2 (fun e => powm 2 e n) qs);
    [ apply powm_mod; reflexivity
    | repeat (apply Forall_cons; [assumption | ]); apply Forall_nil
    | nodup | vm_cast_no_check (eq_refl true) ]
  end.
(* for n = 2^256 - c *)
Ltac pockf c qs :=
  match goal with |- prime ?n =>
    apply (pock_check_prime n 2 (fun e => powf 2 e 256 c) qs);
    [ apply (powf_mod 2 256 c n); [discriminate | reflexivity]
    | repeat (apply Forall_cons; [assumption | ]); apply Forall_nil
    | nodup | vm_cast_no_check (eq_refl true) ]
  end.

Definition secpP : Z :=
  115792089237316195423570985008687907853269984665640564039457584007908834671663.
Definition secpN : Z :=
  115792089237316195423570985008687907852837564279074904382605163141518161494337.

Lemma prime_7 : prime 7.
Proof. leaf 200%nat. Qed.
Lemma prime_19 : prime 19.
Proof. leaf 200%nat. Qed.
Lemma prime_29 : prime 29.
Proof. leaf 200%nat. Qed.
Lemma prime_53 : prime 53.
Proof. leaf 200%nat. Qed.
Lemma prime_101 : prime 101.
Proof. leaf 200%nat. Qed.
Lemma prime_113 : prime 113.
Proof. leaf 200%nat. Qed.
Lemma prime_239 : prime 239.
Proof. leaf 200%nat. Qed.
Lemma prime_1871 : prime 1871.
Proof. leaf 200%nat. Qed.
Lemma prime_9349 : prime 9349.
Proof. leaf 200%nat. Qed.
Lemma prime_20113 : prime 20113.
Proof. leaf 200%nat. Qed.
Lemma prime_28181 : prime 28181.
Proof. leaf 200%nat. Qed.

Lemma prime_96557 : prime 96557.
Proof.
  pose proof prime_239.
  pose proof prime_101.
  pock [239; 101].
Qed.

Lemma prime_120233 : prime 120233.
Proof.
  pose proof prime_113.
  pose proof prime_19.
  pock [113; 19].
Qed.

Lemma prime_1206781 : prime 1206781.
Proof.
  pose proof prime_20113.
  pock [20113].
Qed.

Lemma prime_1627771 : prime 1627771.
Proof.
  pose proof prime_1871.
  pock [1871].
Qed.

Lemma prime_7240687 : prime 7240687.
Proof.
  pose proof prime_1206781.
  pock [1206781].
Qed.

Lemma prime_44706919 : prime 44706919.
Proof.
  pose proof prime_9349.
  pock [9349].
Qed.

Lemma prime_107590001 : prime 107590001.
Proof.
  pose proof prime_53.
  pose proof prime_29.
  pose proof prime_7.
  pock [53; 29; 7].
Qed.

Lemma prime_545358713 : prime 545358713.
Proof.
  pose proof prime_28181.
  pock [28181].
Qed.

Lemma prime_297159362677 : prime 297159362677.
Proof.
  pose proof prime_1627771.
  pock [1627771].
Qed.

Lemma prime_b68 : prime 174723607534414371449.
Proof.
  pose proof prime_44706919.
  pose proof prime_120233.
  pock [44706919; 120233].
Qed.

Lemma prime_b95 : prime 29047611873442575647497758179.
Proof.
  pose proof prime_297159362677.
  pose proof prime_545358713.
  pock [297159362677; 545358713].
Qed.

Lemma prime_b109 : prime 341948486974166000522343609283189.
Proof.
  pose proof prime_b95.
  pock [29047611873442575647497758179].
Qed.

Lemma prime_b128 : prime 255515944373312847190720520512484175977.
Proof.
  pose proof prime_107590001.
  pose proof prime_7240687.
  pose proof prime_96557.
  pock [107590001; 7240687; 96557].
Qed.

Lemma prime_b237 : prime 205115282021455665897114700593932402728804164701536103180137503955397371.
Proof.
  pose proof prime_b128.
  pock [255515944373312847190720520512484175977].
Qed.

Lemma prime_P : prime secpP.
Proof.
  pose proof prime_b237.
  pockf 4294968273 [205115282021455665897114700593932402728804164701536103180137503955397371].
Qed.

Lemma prime_N : prime secpN.
Proof.
  pose proof prime_b109.
  pose proof prime_b68.
  pockf 432420386565659656852420866394968145599 [341948486974166000522343609283189; 174723607534414371449].
Qed.
