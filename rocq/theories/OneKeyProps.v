(** C144: how far a signature determines its key. *)
From Verif Require Import GoBase BaseLemmas SecpSpec SecpModel EcdsaModel EcdsaSpec EcdsaNonce EcdsaProofs EcdsaProps SecpProps Bip32Proofs WholeProofs WholeProps BindProofs BindProps.
From Verif Require Import OneKeyProofs.
From Coq Require Import ZifyBool ZifyNat ZifyN.
Local Open Scope Z_scope.

(** C144: a signature for a hash verifies under the key it was made with and no other.  False: there is a second key, which anyone can compute from
    the hash, the signature and the first one (the two add up to -2e/r times the base point).  It is a usable key unless 2e + rd = 0. *)
Theorem C144_one_key_refuted : forall Q d hash r s, good Q -> multiple base d Q -> bytes_ok hash -> EcdsaModel.Verify (px Q) (py Q) hash r s = Ok true ->
  exists Q' u S, good Q' /\ Q' <> Q /\ EcdsaModel.Verify (px Q') (py Q') hash r s = Ok true /\
    (r * u) mod order_n = 1 /\ multiple base ((- (2 * message_int hash * u)) mod order_n) S /\ sum_of Q Q' S /\ ((2 * message_int hash + r * d) mod order_n <> 0 -> Q' <> None).
Proof.
  intros Q d hash r s G M Hh V. destruct (C64_verify Q hash r s G Hh) as (b & E & Vb). assert (V1 : ecdsa_valid Q (message_int hash) r s) by (apply Vb; congruence). pose proof V1 as (R & _).
  set (e := message_int hash) in *. destruct (other_key e r d R) as (d' & Hd & Rel). destruct (has_multiple d' (proj1 Hd)) as (Q' & M' & G').
  destruct (keys_sum d d' Q Q' e r M M' R Rel) as (u & S & Hu & HS & Sum). exists Q', u, S. split; [exact G'|]. split; [|split; [|repeat (split; [assumption|])]].
  - intros ->. apply (other_differs d Q e e r s M V1); [|rewrite Z.sub_diag; reflexivity]. pose proof (multiple_inj _ _ _ M M') as D. apply Z.mod_divide in D, Rel; try discriminate. apply Z.mod_divide; [discriminate|].
    destruct D as [a A], Rel as [c C]. exists (c - r * a). replace ((c - r * a) * order_n) with (c * order_n - r * (a * order_n)) by ring. rewrite <- C, <- A. ring.
  - destruct (C64_verify Q' hash r s G' Hh) as (b' & E' & Vb'). rewrite E'. f_equal. apply Vb'. apply (other_signer d d' Q Q' e e r s M M'); [|exact V1]. rewrite <- Rel. f_equal. ring.
  - intros Ne ->. apply Ne. pose proof (mult_0 base) as MZ.
    pose proof (multiple_inj _ _ _ MZ M') as D. rewrite Z.sub_0_r in D. apply Z.mod_divide in D, Rel; try discriminate. apply Z.mod_divide; [discriminate|].
    destruct D as [a A], Rel as [c C]. exists (c - r * a). replace ((c - r * a) * order_n) with (c * order_n - r * (a * order_n)) by ring. rewrite <- C, <- A. ring.
Qed.
Print Assumptions C144_one_key_refuted.
(** There is no third key, if r is not one of the few values that two x coordinates share. *)
Theorem C144_two_keys_partial : forall Q Q' d d' hash r s, good Q -> good Q' -> multiple base d Q -> multiple base d' Q' -> bytes_ok hash -> prime_p - order_n <= r ->
  EcdsaModel.Verify (px Q) (py Q) hash r s = Ok true ->
  (EcdsaModel.Verify (px Q') (py Q') hash r s = Ok true <-> Q' = Q \/ (2 * message_int hash + r * (d + d')) mod order_n = 0).
Proof.
  intros Q Q' d d' hash r s G G' M M' Hh Lr V. destruct (C64_verify Q hash r s G Hh) as (b & E & Vb). destruct (C64_verify Q' hash r s G' Hh) as (b' & E' & Vb'). assert (V1 : ecdsa_valid Q (message_int hash) r s) by (apply Vb; congruence). split.
  - intros V'. assert (V2 : ecdsa_valid Q' (message_int hash) r s) by (apply Vb'; congruence). set (e := message_int hash) in *.
    destruct (two_signers d d' Q Q' e e r s M M' Lr V1 V2) as [D|D].
    + left. apply (multiple_same d d' Q Q' M M'). pose proof V1 as (R & _). pose proof (proj1 (proj2 C89_parameters)) as Pn. replace (e + d' * r - (e + d * r)) with (r * (d' - d)) in D by ring.
      apply Z.mod_divide in D; [|discriminate]. apply Z.mod_divide; [discriminate|]. destruct (Znumtheory.prime_mult order_n Pn _ _ D) as [[k K]|H]; [|exact H].
      exfalso. revert K R. generalize order_n. intros n K R. assert (k <= 0 \/ 1 <= k) as [?|?] by lia; nia.
    + right. rewrite <- D. f_equal. ring.
  - intros [->|D]; [exact V|]. rewrite E'. f_equal. apply Vb'. apply (other_signer d d' Q Q' (message_int hash) (message_int hash) r s M M'); [|exact V1]. rewrite <- D. f_equal. ring.
Qed.
Print Assumptions C144_two_keys_partial.
(** The hypotheses hold of a signature made by the program (C140_example); here with the two keys in full. *)
Example C144_example : exists Q hash r s, good Q /\ multiple base 2 Q /\ bytes_ok hash /\ len hash = 32 /\ prime_p - order_n <= r /\ EcdsaModel.Verify (px Q) (py Q) hash r s = Ok true /\
  (2 * message_int hash + r * 2) mod order_n <> 0.
Proof.
  destruct (made_good _ ex_made) as (HD & G & M). exists (Some (snd ex_two)), (repeat 5 32). assert (Hh : bytes_ok (repeat 5 32)) by bytes_ok_tac.
  assert (E : exists r s, Sign ex_hmac 1 (fst ex_two) (repeat 5 32) = Some (Ok (r, s)) /\ prime_p - order_n <= r /\ (2 * message_int (repeat 5 32) + r * 2) mod order_n <> 0) by (eexists _, _; split; [vm_compute; reflexivity|split; vm_compute; discriminate]).
  destruct E as (r & s & E & Lr & Nz). exists r, s. split; [exact G|]. split; [exact M|]. split; [exact Hh|]. split; [reflexivity|]. split; [exact Lr|]. split; [|exact Nz].
  destruct (C64_sign ex_hmac 1 (fst ex_two) _ r s _ Hh HD E M) as (V & _). destruct (C64_verify (Some (snd ex_two)) (repeat 5 32) r s G Hh) as (b & Eb & Vb). rewrite Eb. f_equal. now apply Vb.
Qed.
