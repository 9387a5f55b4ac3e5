(** Property theorems C10-C11 (witness programs). *)
From Verif Require Import GoBase BaseLemmas Sha256 Bech32Model Bech32Spec WitnessModel WitnessProofs AddressModel AddressSpec AddressProofs.

(** C10. *)
Theorem C10_witness_roundtrip : forall hrp version program, hrp_ok hrp -> 0 <= version < 32 -> bytes_ok program ->
  exists s, WitnessEncode hrp version program = Ok s /\
    5 * (len s - len hrp - 8) < 8 * len program + 5 /\ 8 * len program <= 5 * (len s - len hrp - 8) /\
    (len s <= 90 -> WitnessDecode s = Ok (hrp, version, program)).
Proof.
  intros h v p Hh Hv Hp. destruct (witness_encode_ok h v p Hv Hp) as (s & E & A & B). exists s.
  split; [exact E|]. split; [exact A|]. split; [exact B|]. exact (witness_roundtrip h v p s Hh Hv Hp E).
Qed.
Print Assumptions C10_witness_roundtrip.
Example C10_example :
  WitnessEncode (str_bytes "bc") 0 (hx "751e76e8199196d454941c45d1b3a323f1433bd6")
    = Ok (str_bytes "bc1qw508d6qejxtdg4y5r3zarvary0c5xw7kv8f3t4") /\
  WitnessDecode (str_bytes "bc1qw508d6qejxtdg4y5r3zarvary0c5xw7kv8f3t4")
    = Ok (str_bytes "bc", 0, hx "751e76e8199196d454941c45d1b3a323f1433bd6").
Proof. vm_compute. repeat split. Qed.

(** C11 is false: a valid Bech32 string with no data makes both functions panic. *)
Theorem C11_decode_never_panics_refuted : exists s, bytes_ok s /\ WitnessDecode s = Panic /\
  forall sha256, DecodeAddress sha256 s MainNet = Panic.
Proof. exists (str_bytes "bc1gmk9yu"). split; [bytes_ok_tac|]. split; [vm_compute; reflexivity|]. intros f. vm_compute. reflexivity. Qed.
Print Assumptions C11_decode_never_panics_refuted.
(** C11: that is the only way either can panic. *)
Theorem C11_witness_panics_iff : forall s, WitnessDecode s = Panic <-> exists hrp, Bech32Decode s = Ok (hrp, []).
Proof. exact witness_panics_iff. Qed.
Print Assumptions C11_witness_panics_iff.
Theorem C11_address_panics_iff : forall sha256, hash32 sha256 -> forall net s, known_net net -> bytes_ok s ->
  (DecodeAddress sha256 s net = Panic <->
   (exists r, s = Bech32HRPSegwit net ++ [49] ++ r) /\ exists hrp, Bech32Decode s = Ok (hrp, [])).
Proof. exact decode_panics_iff. Qed.
Print Assumptions C11_address_panics_iff.
Example C11_example :
  WitnessDecode (str_bytes "A12UEL5L") = Panic /\ DecodeAddress sha256 (str_bytes "A12UEL5L") MainNet = Err "address format malformed" /\
  is_panic (DecodeAddress sha256 (str_bytes "bc1qw508d6qejxtdg4y5r3zarvary0c5xw7kv8f3t5") MainNet) = false.
Proof. vm_compute. repeat split. Qed.
