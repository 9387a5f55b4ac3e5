(** PBKDF2 as in RFC 2898, section 5.2. *)
From Verif Require Import GoBase EcdsaSpec.
Local Open Scope Z_scope.

Section Rfc2898.
Variable prf : bytes -> bytes.

(** U_j: U_1 = PRF (P, S || INT (i)), U_c = PRF (P, U_{c-1}). *)
Fixpoint U (salt : bytes) (i : Z) (j : nat) : bytes :=
  match j with
  | O => prf (salt ++ octets 4 i)
  | S k => prf (U salt i k)
  end.

(** Octet x of T_i = F (P, S, c, i) = U_1 xor U_2 xor ... xor U_c. *)
Definition T_octet (salt : bytes) (c : nat) (i : Z) (x : nat) : Z :=
  fold_right Z.lxor 0 (map (fun j => nth x (U salt i j) 0) (seq 0 c)).

Definition T (hLen : nat) (salt : bytes) (c : nat) (i : Z) : bytes := map (T_octet salt c i) (seq 0 hLen).

(** DK = T_1 || T_2 || ... , the first dkLen octets. *)
Definition pbkdf2 (hLen : nat) (salt : bytes) (c : nat) (dkLen : nat) : bytes :=
  let l := ((dkLen + hLen - 1) / hLen)%nat in
  firstn dkLen (flat_map (fun i => T hLen salt c (Z.of_nat i)) (seq 1 l)).
End Rfc2898.
