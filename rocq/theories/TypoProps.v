(** Property theorems C120 (mistyped addresses). *)
From Verif Require Import GoBase BaseLemmas Sha256 Bech32Model Bech32Spec WitnessModel AddressModel AddressSpec AddressProofs TypoSpec TypoProofs.

(** C120 is false: DecodeAddress does not look at the human-readable part of the decoded string, so that a letter l
    mistyped as the digit 1 may turn the address of a script into one of a key. *)
Theorem C120_mistyped_refuted : exists a s' b, address_ok a /\ witness_address a /\ bytes_ok s' /\
  (forall sha256, distance (ToString sha256 a MainNet) s' = 1%nat) /\ (forall sha256, mistyped (ToString sha256 a MainNet) s') /\
  (forall sha256, DecodeAddress sha256 s' MainNet = Ok (Some b)) /\ a <> b.
Proof.
  exists (PayToWitnessV0ScriptHashAddress (hx "003a686c6dc0564c70264c3e01aa38f99b4d8930bf8ac9e8287dba45cb203baa")),
         (str_bytes "bc1qqqaxsmrdcptycupxfs1qr23clxd5mzfsh79vn6pg0kaytjeq8w4qsmpfxu"),
         (PayToWitnessV0PubKeyHashAddress (hx "1aa38f99b4d8930bf8ac9e8287dba45cb203baa0")).
  split; [split; [bytes_ok_tac|reflexivity]|]. split; [exact I|]. split; [bytes_ok_tac|].
  split; [intros f; vm_compute; reflexivity|]. split; [intros f; split; [vm_compute; reflexivity|vm_compute; repeat constructor]|].
  split; [intros f; vm_compute; reflexivity|discriminate].
Qed.
Print Assumptions C120_mistyped_refuted.
(** C120: or crash the program. *)
Theorem C120_mistyped_panics : exists a s', address_ok a /\ witness_address a /\ bytes_ok s' /\
  (forall sha256, distance (ToString sha256 a MainNet) s' = 1%nat) /\ (forall sha256, mistyped (ToString sha256 a MainNet) s') /\
  (forall sha256, DecodeAddress sha256 s' MainNet = Panic).
Proof.
  exists (PayToWitnessV0PubKeyHashAddress (hx "003a686c6dc0576fa25c23b2265c091633b161df")),
         (str_bytes "bc1qqqaxsmrdcptklgjuywezvhqfzcemzcw180gvze").
  split; [split; [bytes_ok_tac|reflexivity]|]. split; [exact I|]. split; [bytes_ok_tac|].
  split; [intros f; vm_compute; reflexivity|]. split; [intros f; split; [vm_compute; reflexivity|vm_compute; repeat constructor]|].
  intros f; vm_compute; reflexivity.
Qed.
Print Assumptions C120_mistyped_panics.
(** C120: a separator typed in that place is the only way for a mistyped witness address to be accepted, on either network. *)
Theorem C120_mistyped_form : forall sha256, hash32 sha256 -> forall net net' a s' b, known_net net -> known_net net' ->
  address_ok a -> witness_address a -> bytes_ok s' -> mistyped (ToString sha256 a net) s' -> DecodeAddress sha256 s' net' = Ok b ->
  (exists p, a = PayToWitnessV0ScriptHashAddress p) /\ nth 22 s' 0 = 49 /\ exists p', b = Some (PayToWitnessV0PubKeyHashAddress p').
Proof. exact mistyped_form. Qed.
Print Assumptions C120_mistyped_form.
(** C120: without a further separator every mistyped witness address is refused with an error. *)
Theorem C120_mistyped_refused : forall sha256, hash32 sha256 -> forall net net' a s', known_net net -> known_net net' ->
  address_ok a -> witness_address a -> bytes_ok s' -> mistyped (ToString sha256 a net) s' -> ~ In 49 (skipn 3 s') ->
  exists e, DecodeAddress sha256 s' net' = Err e.
Proof. exact mistyped_refused. Qed.
Print Assumptions C120_mistyped_refused.
Example C120_example :
  ToString sha256 (PayToWitnessV0PubKeyHashAddress (hx "751e76e8199196d454941c45d1b3a323f1433bd6")) MainNet
    = str_bytes "bc1qw508d6qejxtdg4y5r3zarvary0c5xw7kv8f3t4" /\
  distance (str_bytes "bc1qw508d6qejxtdg4y5r3zarvary0c5xw7kv8f3t4") (str_bytes "tb1qw508d6qejxtdg5y4r3zarvary0c5xw7kv8f3t4") = 4%nat /\
  is_ok (DecodeAddress sha256 (str_bytes "tb1qw508d6qejxtdg5y4r3zarvary0c5xw7kv8f3t4") TestNet) = false.
Proof. vm_compute. repeat split. Qed.
