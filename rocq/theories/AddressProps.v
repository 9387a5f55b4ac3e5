(** Property theorems C13, C14, C80 (addresses). *)
From Verif Require Import GoBase BaseLemmas Sha256 Sha256Proofs Base58Model Bech32Model WitnessModel AddressModel AddressSpec AddressProofs.

(** C13. *)
Theorem C13_address_roundtrip : forall sha256, hash32 sha256 -> forall net a, known_net net -> address_ok a ->
  DecodeAddress sha256 (ToString sha256 a net) net = Ok (Some a).
Proof. exact address_roundtrip. Qed.
Print Assumptions C13_address_roundtrip.
Example C13_hypotheses : hash32 sha256 /\ address_ok (PayToScriptHashAddress (hx "751e76e8199196d454941c45d1b3a323f1433bd6")).
Proof. split; [intros b; split; [apply sha256_len|apply sha256_ok]|]. split; [bytes_ok_tac|reflexivity]. Qed.
Example C13_example :
  ToString sha256 (PayToPubKeyHashAddress (hx "751e76e8199196d454941c45d1b3a323f1433bd6")) MainNet = str_bytes "1BgGZ9tcN4rm9KBzDn7KprQz87SZ26SAMH" /\
  DecodeAddress sha256 (str_bytes "tb1qrp33g0q5c5txsp9arysrx4k6zdkfs4nce4xj0gdcccefvpysxf3q0sl5k7") TestNet
   = Ok (Some (PayToWitnessV0ScriptHashAddress (hx "1863143c14c5166804bd19203356da136c985678cd4d27a1b8c6329604903262"))).
Proof. vm_compute. repeat split. Qed.

(** C14: no string at all is accepted by both networks. *)
Theorem C14_one_network : forall sha256, hash32 sha256 -> forall s a b, bytes_ok s ->
  DecodeAddress sha256 s MainNet = Ok a -> DecodeAddress sha256 s TestNet = Ok b -> False.
Proof. exact one_network. Qed.
Print Assumptions C14_one_network.
(** C14: the string of a well-formed address gives an error on the other network. *)
Theorem C14_other_network_refused : forall sha256, hash32 sha256 -> forall net net' a,
  known_net net -> known_net net' -> net <> net' -> address_ok a ->
  exists e, DecodeAddress sha256 (ToString sha256 a net) net' = Err e.
Proof. exact other_network_refused. Qed.
Print Assumptions C14_other_network_refused.
Example C14_example :
  DecodeAddress sha256 (str_bytes "1BgGZ9tcN4rm9KBzDn7KprQz87SZ26SAMH") TestNet = Err "address type unknown" /\
  DecodeAddress sha256 (str_bytes "bc1qw508d6qejxtdg4y5r3zarvary0c5xw7kv8f3t4") TestNet = Err "address format malformed".
Proof. vm_compute. repeat split. Qed.

(** C80 is false: the human-readable part may continue past the first separator, so a string made for "bc1x" is taken
    for a main-net address. *)
Theorem C80_canonical_address_refuted : exists s a, bytes_ok s /\
  (forall sha256, DecodeAddress sha256 s MainNet = Ok (Some a)) /\ (forall sha256, ToString sha256 a MainNet <> s).
Proof.
  exists (str_bytes "bc1x1qw508d6qejxtdg4y5r3zarvary0c5xw7kglx4m7"),
         (PayToWitnessV0PubKeyHashAddress (hx "751e76e8199196d454941c45d1b3a323f1433bd6")).
  split; [bytes_ok_tac|]. split; intros f; vm_compute; [reflexivity|discriminate].
Qed.
Print Assumptions C80_canonical_address_refuted.
(** C80: that is the only other form accepted. *)
Theorem C80_accepted_forms : forall sha256, hash32 sha256 -> forall net s a, known_net net -> bytes_ok s ->
  DecodeAddress sha256 s net = Ok a ->
  exists a', a = Some a' /\ address_ok a' /\
    (s = ToString sha256 a' net \/
     exists x, WitnessEncode (Bech32HRPSegwit net ++ [49] ++ x) 0 (addr_hash a') = Ok s /\ len s <= 90).
Proof. exact decode_sound. Qed.
Print Assumptions C80_accepted_forms.
Example C80_example :
  DecodeAddress sha256 (str_bytes "2N3vVYSK5XRgVSGWy21PnsRmBUywSQNdCsf") TestNet
   = Ok (Some (PayToScriptHashAddress (hx "751e76e8199196d454941c45d1b3a323f1433bd6"))).
Proof. vm_compute. reflexivity. Qed.
