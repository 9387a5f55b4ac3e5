(** The four standard locking scripts, byte for byte. *)
From Verif Require Import GoBase.

Definition p2pkh_script (h : bytes) : bytes := [0x76; 0xa9; 0x14] ++ h ++ [0x88; 0xac].
Definition p2sh_script (h : bytes) : bytes := [0xa9; 0x14] ++ h ++ [0x87].
Definition p2wpkh_script (h : bytes) : bytes := [0x00; 0x14] ++ h.
Definition p2wsh_script (h : bytes) : bytes := [0x00; 0x20] ++ h.
