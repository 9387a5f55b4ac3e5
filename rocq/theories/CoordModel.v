(** Model of the coordinates of a public key as bytes, /repo/xcrypto/pubkey.go 87-95. *)
From Verif Require Import GoBase BigInt.
Local Open Scope Z_scope.

(** pubkey.go 87-90: XBytes. *)
Definition XBytes (p : Z * Z) : bytes := big_bytes (fst p).
(** pubkey.go 92-95: YBytes. *)
Definition YBytes (p : Z * Z) : bytes := big_bytes (snd p).
