(** What a user expects of Base58 and Base58Check. *)
From Verif Require Import GoBase.

(** The 58 Bitcoin characters: digits and letters without 0, O, I and l. *)
Definition is_b58_char (c : Z) : Prop :=
  (49 <= c <= 57 \/ 65 <= c <= 90 \/ 97 <= c <= 122) /\ c <> 73 /\ c <> 79 /\ c <> 108.

(** The first four bytes of the double hash. *)
Definition check_bytes (sha256 : bytes -> bytes) (b c : bytes) : Prop :=
  len c = 4 /\ exists r, sha256 (sha256 b) = c ++ r.
