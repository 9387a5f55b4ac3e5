(** Property theorems C07-C09 (Bech32). *)
From Verif Require Import GoBase BaseLemmas Bech32Model Bech32Spec Bech32Poly Bech32Proofs Bech32Code.

(** C07. *)
Theorem C07_bech32_encode_decode : forall hrp data, hrp_ok hrp -> five_bit data -> len hrp + len data + 7 <= 90 ->
  exists s, Bech32Encode hrp data = Ok s /\ len s = len hrp + len data + 7 /\ Bech32Decode s = Ok (hrp, data).
Proof.
  intros h d Hh Hd Hl. exists (encoding h d). split; [exact (encode_ok h d Hd)|]. split; [exact (encoding_len h d)|].
  exact (encode_then_decode h d _ Hh Hd Hl (encode_ok h d Hd)).
Qed.
Print Assumptions C07_bech32_encode_decode.
Example C07_example :
  Bech32Encode (str_bytes "abcdef") [0;1;2;3;4;5;6;7;8;9;10;11;12;13;14;15;16;17;18;19;20;21;22;23;24;25;26;27;28;29;30;31]
    = Ok (str_bytes "abcdef1qpzry9x8gf2tvdw0s3jn54khce6mua7lmqqqxw").
Proof. vm_compute. reflexivity. Qed.

(** C08. *)
Theorem C08_bech32_canonical : forall s hrp data, Bech32Decode s = Ok (hrp, data) ->
  Forall printable s /\ 8 <= len s <= 90 /\ ~ ((exists c, In c s /\ is_upper c) /\ (exists c, In c s /\ is_lower c)) /\
  five_bit data /\ hrp <> [] /\ Bech32Encode hrp data = Ok (lowercase s).
Proof. exact bech32_canonical. Qed.
Print Assumptions C08_bech32_canonical.
Theorem C08_bech32_same_decoding : forall s s' hrp data,
  Bech32Decode s = Ok (hrp, data) -> Bech32Decode s' = Ok (hrp, data) -> lowercase s = lowercase s'.
Proof. exact bech32_same_decoding. Qed.
Print Assumptions C08_bech32_same_decoding.
Theorem C08_bech32_never_panics : forall s, Bech32Decode s <> Panic.
Proof. exact decode_no_panic. Qed.
Print Assumptions C08_bech32_never_panics.
(** Vectors of /repo/xbase/bech32_test.go. *)
Example C08_example :
  Bech32Decode (str_bytes "A12UEL5L") = Ok (str_bytes "a", []) /\
  is_ok (Bech32Decode (str_bytes "split1checkupstagehandshakeupstreamerranterredcaperred2y9e3w")) = true /\
  is_ok (Bech32Decode (str_bytes "an83characterlonghumanreadablepartthatcontainsthenumber1andtheexcludedcharactersbio1tt5tgs")) = true /\
  is_ok (Bech32Decode (str_bytes "split1checkupstagehandshakeupstreamerranterredcaperred2y9e2w")) = false /\
  is_ok (Bech32Decode (str_bytes "a12UEL5L")) = false.
Proof. vm_compute. repeat split. Qed.

(** C09: [t] is the part after the separator, checksum included; [hrp'] and [t'] are [hrp] and [t] with up to four
    characters replaced, where one in the human-readable part counts for two, none by the separator.  Without changes in
    the human-readable part every length is covered, otherwise up to 88 checked symbols. *)
Theorem C09_substitution_rejected : forall s s' hrp data t hrp' t',
  Bech32Decode s = Ok (hrp, data) -> lowercase s = hrp ++ [49] ++ t -> ~ In 49 t ->
  lowercase s' = hrp' ++ [49] ++ t' -> ~ In 49 t' -> len hrp' = len hrp -> len t' = len t ->
  (1 <= distance hrp hrp' + distance t t')%nat -> (2 * distance hrp hrp' + distance t t' <= 4)%nat ->
  (hrp = hrp' \/ 2 * len hrp + len t <= 88) ->
  exists e, Bech32Decode s' = Err e.
Proof. exact four_substitutions_rejected. Qed.
Print Assumptions C09_substitution_rejected.
(** C09 at the level of the checksum: one wrong symbol in data of any length, four in up to 89 symbols. *)
Theorem C09_one_detected : forall hrp a b, bytes_ok hrp -> five_bit a -> five_bit b -> length a = length b ->
  distance a b = 1%nat -> bech32VerifyChecksum hrp a = true -> bech32VerifyChecksum hrp b = false.
Proof. intros hrp a b Hh Ha Hb L D. apply substitution_detected; auto. Qed.
Print Assumptions C09_one_detected.
Theorem C09_four_detected : forall hrp a b, bytes_ok hrp -> five_bit a -> five_bit b -> length a = length b -> (length a <= 89)%nat ->
  (1 <= distance a b <= 4)%nat -> bech32VerifyChecksum hrp a = true -> bech32VerifyChecksum hrp b = false.
Proof. intros hrp a b Hh Ha Hb L L89 D. apply four_substitutions_detected; auto; try (rewrite distance_refl; lia). Qed.
Print Assumptions C09_four_detected.
Example C09_example :
  is_ok (Bech32Decode (str_bytes "abcdef1qpzry9x8gf2tvdw0s3jn54khce6mua7lmqqqxw")) = true /\
  is_ok (Bech32Decode (str_bytes "abcdef1qpzry9x8gf2tvdw0s3jn54khce6mua7lmqqqxv")) = false /\
  is_ok (Bech32Decode (str_bytes "abcdef1ppzry9x8gq2tvdw0s3jn54khce6mua7pmqqqxv")) = false /\
  distance (str_bytes "qpzry9x8gf2tvdw0s3jn54khce6mua7lmqqqxw") (str_bytes "ppzry9x8gq2tvdw0s3jn54khce6mua7pmqqqxv") = 4%nat /\
  is_ok (Bech32Decode (str_bytes "abcdeg1qpzry9x8gf2tvdw0s3jn54khce6mua7lmqqqpv")) = false.
Proof. vm_compute. repeat split. Qed.

(** C121 is false: a string ending in [p] stays valid when characters [q] are inserted before the last one. *)
Theorem C121_insertion_detected_refuted : exists x c d d', len x + 2 <= 90 /\
  Bech32Decode (x ++ [c]) = Ok (str_bytes "bc", d) /\ Bech32Decode (x ++ [113] ++ [c]) = Ok (str_bytes "bc", d') /\ d <> d'.
Proof.
  exists (str_bytes "bc1qzv2p29shrqv35xcur50p7gppyg3jgffxkl4pr"), 112. eexists _, _. split; [vm_compute; discriminate|].
  split; [vm_compute; reflexivity|]. split; [vm_compute; reflexivity|discriminate].
Qed.
Print Assumptions C121_insertion_detected_refuted.
(** C121: exactly the strings ending in [p] do, for any number of inserted characters. *)
Theorem C121_inserted_iff : forall hrp x c data n, lowercase (x ++ [c]) = x ++ [c] ->
  Bech32Decode (hrp ++ [49] ++ x ++ [c]) = Ok (hrp, data) -> (1 <= n)%nat -> len hrp + len x + Z.of_nat n + 2 <= 90 ->
  (exists data', Bech32Decode (hrp ++ [49] ++ x ++ repeat 113 n ++ [c]) = Ok (hrp, data')) <-> c = 112.
Proof. exact inserted_iff. Qed.
Print Assumptions C121_inserted_iff.
Example C121_example :
  is_ok (Bech32Decode (str_bytes "bc1qzv2p29shrqv35xcur50p7gppyg3jgffxkl4prqqqqqqqqqqqqqqqqqqqqp")) = true /\
  is_ok (Bech32Decode (str_bytes "bc1qw508d6qejxtdg4y5r3zarvary0c5xw7kv8f3t4")) = true /\
  is_ok (Bech32Decode (str_bytes "bc1qw508d6qejxtdg4y5r3zarvary0c5xw7kv8f3tq4")) = false.
Proof. vm_compute. repeat split. Qed.
