(** What a script number means. *)
From Verif Require Import GoBase BufferSpec.

(** Sign-magnitude, little endian: the top bit of the last byte is the sign. *)
Definition num_value (v : bytes) : Z :=
  match v with
  | [] => 0
  | _ => let x := removelast v in let t := last v 0 in
         if t <? 128 then le_value x + 256 ^ len x * t else - (le_value x + 256 ^ len x * (t - 128))
  end.

(** No shorter string denotes the same number. *)
Definition num_minimal (v : bytes) : Prop := forall w, bytes_ok w -> num_value w = num_value v -> len v <= len w.
