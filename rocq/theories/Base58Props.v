(** Property theorems C05-C06 (Base58, Base58Check). *)
From Verif Require Import GoBase BaseLemmas Sha256 Sha256Proofs Base58Model Base58Spec Base58Proofs AddressSpec.

(** C05. *)
Theorem C05_base58_decode_encode : forall b, bytes_ok b ->
  Base58Decode (Base58Encode b) = b /\ Forall is_b58_char (Base58Encode b).
Proof. intros b Hb. split; [exact (base58_decode_encode b Hb)|exact (base58_encode_chars b Hb)]. Qed.
Print Assumptions C05_base58_decode_encode.
Theorem C05_base58_encode_decode : forall s, Forall is_b58_char s ->
  Base58Encode (Base58Decode s) = s /\ bytes_ok (Base58Decode s).
Proof. intros s Hs. split; [exact (base58_encode_decode s Hs)|exact (base58_decode_bytes s)]. Qed.
Print Assumptions C05_base58_encode_decode.
Theorem C05_base58_other_characters : forall s, bytes_ok s -> (exists c, In c s /\ ~ is_b58_char c) -> Base58Decode s = [].
Proof. exact base58_decode_invalid. Qed.
Print Assumptions C05_base58_other_characters.
(** Vectors of /repo/xbase/base58_test.go. *)
Example C05_example :
  Base58Encode (hx "00eb15231dfceb60925886b67d065299925915aeb172c06647") = str_bytes "1NS17iag9jJgTHD1VXjvLCEnZuQ3rJDE9L" /\
  Base58Encode (str_bytes "abcdefghijklmnopqrstuvwxyz") = str_bytes "3yxU3u1igY8WkgtjK92fbJQCd4BZiiT1v25f" /\
  Base58Encode (repeat 0 10) = str_bytes "1111111111" /\
  Base58Decode (str_bytes "EJDM8drfXA6uyA") = hx "ecac89cad93923c02321" /\
  Base58Decode (str_bytes "3mJr0") = [].
Proof. vm_compute. repeat split. Qed.

(** C06. *)
Theorem C06_check_roundtrip : forall sha256, hash32 sha256 -> forall payload version, bytes_ok payload -> is_byte version ->
  Base58CheckDecode sha256 (Base58CheckEncode sha256 payload version) = Ok (payload, version).
Proof. intros f Hf. exact (check_roundtrip f (fun b => proj1 (Hf b)) (fun b => proj2 (Hf b))). Qed.
Print Assumptions C06_check_roundtrip.
Theorem C06_check_iff : forall sha256, hash32 sha256 -> forall s payload version,
  Base58CheckDecode sha256 s = Ok (payload, version) <->
  exists c, Base58Decode s = [version] ++ payload ++ c /\ check_bytes sha256 ([version] ++ payload) c.
Proof. intros f Hf. exact (check_iff f (fun b => proj1 (Hf b)) (fun b => proj2 (Hf b))). Qed.
Print Assumptions C06_check_iff.
Theorem C06_check_never_panics : forall sha256, hash32 sha256 -> forall s, Base58CheckDecode sha256 s <> Panic.
Proof. intros f Hf. exact (check_never_panics f (fun b => proj1 (Hf b)) (fun b => proj2 (Hf b))). Qed.
Print Assumptions C06_check_never_panics.
Example C06_hypothesis : hash32 sha256.
Proof. intros b. split; [apply sha256_len|apply sha256_ok]. Qed.
(** Satoshi's genesis address, and the same with one character changed. *)
Example C06_example :
  Base58CheckDecode sha256 (str_bytes "1A1zP1eP5QGefi2DMPTfTL5SLmv7DivfNa")
    = Ok (hx "62e907b15cbf27d5425399ebf6f0fb50ebb88f18", 0) /\
  Base58CheckDecode sha256 (str_bytes "1A1zP1eP5QGefi2DMPTfTL5SLmv7DivfNb") = Err "checksum error".
Proof. vm_compute. repeat split. Qed.
