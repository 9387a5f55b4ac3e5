(** Property theorem C12 (hexadecimal ids). *)
From Verif Require Import GoBase BaseLemmas Sha256 HexModel HexProofs.

(** C12. *)
Theorem C12_id_roundtrip : forall h, bytes_ok h -> NewIDFromString (NewIDToString h) = Ok h.
Proof. exact id_roundtrip. Qed.
Print Assumptions C12_id_roundtrip.
Theorem C12_id_from_string : forall s, Forall is_hex s -> Nat.even (length s) = true ->
  exists h, NewIDFromString s = Ok h /\ bytes_ok h /\ NewIDToString h = map hex_low s /\ 2 * len h = len s.
Proof. exact id_from_string. Qed.
Print Assumptions C12_id_from_string.
Theorem C12_id_reject : forall s, ~ (Forall is_hex s /\ Nat.even (length s) = true) -> exists e, NewIDFromString s = Err e.
Proof. exact id_reject. Qed.
Print Assumptions C12_id_reject.
(** The text lists the bytes last to first. *)
Theorem C12_id_text_reversed : forall h, NewIDToString h = hex_encode (rev h).
Proof. exact id_text_reversed. Qed.
Print Assumptions C12_id_text_reversed.
Example C12_example :
  NewIDFromString (str_bytes "00FFa1") = Ok [0xa1; 0xff; 0] /\ NewIDToString [0xa1; 0xff; 0] = str_bytes "00ffa1" /\
  is_ok (NewIDFromString (str_bytes "00f")) = false /\ is_ok (NewIDFromString (str_bytes "0g")) = false.
Proof. vm_compute. repeat split. Qed.
