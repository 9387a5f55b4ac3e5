(** C140: how far a signature determines its hash. *)
From Verif Require Import GoBase BaseLemmas SecpSpec SecpModel EcdsaModel EcdsaSpec EcdsaNonce EcdsaProofs EcdsaProps Bip32Proofs WholeProofs WholeProps.
From Verif Require Import BindProofs.
From Coq Require Import ZifyBool ZifyNat ZifyN.
Local Open Scope Z_scope.

(** C140: a signature and a key do not leave the hash open: hashes with the same 256 leading bits modulo the order of the group, and one
    other, which takes the private key to find.  False as it stands: the other one exists. *)
Theorem C140_one_hash_refuted : forall Q d hash r s, good Q -> multiple base d Q -> bytes_ok hash -> EcdsaModel.Verify (px Q) (py Q) hash r s = Ok true ->
  exists hash', bytes_ok hash' /\ len hash' = 32 /\ message_int hash' = (- message_int hash - 2 * r * d) mod order_n /\
    (message_int hash' - message_int hash) mod order_n <> 0 /\ EcdsaModel.Verify (px Q) (py Q) hash' r s = Ok true.
Proof.
  intros Q d hash r s G M Hh V. set (e' := (- message_int hash - 2 * r * d) mod order_n). assert (Re : 0 <= e' < order_n) by (apply Z.mod_pos_bound; reflexivity). assert (Lt : order_n < 256 ^ Z.of_nat 32) by reflexivity.
  exists (octets 32 e'). pose proof (octets_length 32 e') as Lo. assert (O : bytes_ok (octets 32 e')) by apply octets_ok.
  assert (Me : message_int (octets 32 e') = e') by (unfold message_int, bits_to_int; rewrite Lo; change (Z.max 0 (8 * Z.of_nat 32 - 256)) with 0; rewrite Z.pow_0_r, Z.div_1_r; apply be_octets; lia).
  split; [exact O|]. split; [unfold len; rewrite Lo; reflexivity|]. split; [exact Me|].
  assert (Se : (e' + message_int hash + 2 * r * d) mod order_n = 0) by (unfold e'; rewrite <- Z.add_assoc, Zplus_mod_idemp_l; rewrite <- (Z.mod_0_l order_n) by discriminate; f_equal; ring).
  destruct (C64_verify Q hash r s G Hh) as (b & E & Vb). destruct (C64_verify Q (octets 32 e') r s G O) as (b' & E' & Vb'). assert (V1 : ecdsa_valid Q (message_int hash) r s) by (apply Vb; congruence).
  split; [rewrite Me; exact (other_differs d Q _ _ r s M V1 Se)|]. rewrite E'. f_equal. apply Vb'. rewrite Me. exact (other_message d Q _ _ r s M Se V1).
Qed.
Print Assumptions C140_one_hash_refuted.
Theorem C140_two_hashes_partial : forall Q d hash hash' r s, good Q -> multiple base d Q -> bytes_ok hash -> bytes_ok hash' -> prime_p - order_n <= r ->
  EcdsaModel.Verify (px Q) (py Q) hash r s = Ok true ->
  (EcdsaModel.Verify (px Q) (py Q) hash' r s = Ok true <-> (message_int hash' - message_int hash) mod order_n = 0 \/ (message_int hash' + message_int hash + 2 * r * d) mod order_n = 0).
Proof.
  intros Q d hash hash' r s G M Hh Hh' Lr V. destruct (C64_verify Q hash r s G Hh) as (b & E & Vb). destruct (C64_verify Q hash' r s G Hh') as (b' & E' & Vb'). assert (b = true) by congruence. subst b. pose proof (proj1 Vb eq_refl) as V1. split.
  - intros V'. assert (b' = true) by congruence. subst b'. exact (two_messages d Q _ _ r s M Lr V1 (proj1 Vb' eq_refl)).
  - intros D. rewrite E'. f_equal. apply Vb'. destruct D as [D|D]; [exact (same_message Q _ _ r s G D V1)|exact (other_message d Q _ _ r s M D V1)].
Qed.
Print Assumptions C140_two_hashes_partial.

Example C140_example : exists Q hash r s, good Q /\ multiple base 2 Q /\ bytes_ok hash /\ len hash = 32 /\ prime_p - order_n <= r /\ EcdsaModel.Verify (px Q) (py Q) hash r s = Ok true.
Proof.
  destruct (made_good _ ex_made) as (HD & G & M). exists (Some (snd ex_two)), (repeat 5 32). assert (Hh : bytes_ok (repeat 5 32)) by bytes_ok_tac.
  assert (E : exists r s, Sign ex_hmac 1 (fst ex_two) (repeat 5 32) = Some (Ok (r, s)) /\ prime_p - order_n <= r) by (eexists _, _; split; [vm_compute; reflexivity|vm_compute; discriminate]).
  destruct E as (r & s & E & Lr). exists r, s. split; [exact G|]. split; [exact M|]. split; [exact Hh|]. split; [reflexivity|]. split; [exact Lr|].
  destruct (C64_sign ex_hmac 1 (fst ex_two) _ r s _ Hh HD E M) as (V & _). destruct (C64_verify (Some (snd ex_two)) (repeat 5 32) r s G Hh) as (b & Eb & Vb). rewrite Eb. f_equal. now apply Vb.
Qed.
