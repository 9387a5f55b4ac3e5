(** BIP 32 in integers, byte strings and points. *)

From Verif Require Import GoBase SecpSpec EcdsaSpec PubKeySpec Base58Spec.
Local Open Scope Z_scope.

(** An extended key: depth, fingerprint of the parent, child number, chain code
    and a secret or a point. *)
Inductive xkey :=
| Xprv (depth : Z) (fp num chain : bytes) (k : Z)
| Xpub (depth : Z) (fp num chain : bytes) (K : point).

Definition fields_ok (depth : Z) (fp num chain : bytes) : Prop :=
  is_byte depth /\ (bytes_ok fp /\ len fp = 4) /\ (bytes_ok num /\ len num = 4) /\
  (bytes_ok chain /\ len chain = 32).

Definition xkey_ok (x : xkey) : Prop :=
  match x with
  | Xprv d fp num c k => fields_ok d fp num c /\ 0 <= k < 2 ^ 256
  | Xpub d fp num c K => fields_ok d fp num c /\ good K
  end.

(** ser32, ser256, serP. *)
Definition ser32 (i : Z) : bytes := octets 4 i.
Definition ser256 (k : Z) : bytes := octets 32 k.
Definition serP (K : point) : bytes := (2 + parity (py K)) :: octets 32 (px K).

(** The 78 bytes. *)
Definition payload (version : bytes) (x : xkey) : bytes :=
  match x with
  | Xprv d fp num c k => version ++ [d] ++ fp ++ num ++ c ++ [0] ++ ser256 k
  | Xpub d fp num c K => version ++ [d] ++ fp ++ num ++ c ++ serP K
  end.

(** N: the public key of a private one. *)
Inductive neuter : xkey -> xkey -> Prop :=
| neuter_prv : forall d fp num c k K, multiple base k K -> neuter (Xprv d fp num c k) (Xpub d fp num c K)
| neuter_pub : forall d fp num c K, neuter (Xpub d fp num c K) (Xpub d fp num c K).

(** CKDpriv and CKDpub, without the conditions for an invalid child.  A depth of
    255 goes back to 0. *)
Section Ckd.
Variable hmac512 : bytes -> bytes -> bytes.
Variable hash160 : bytes -> bytes.

Inductive ckd_priv : xkey -> Z -> xkey -> Prop :=
| ckd_priv_intro : forall d fp num c k i K IL IR,
    multiple base k K -> len IL = 32 ->
    hmac512 c ((if i <? 2 ^ 31 then serP K else 0 :: ser256 k) ++ ser32 i) = IL ++ IR ->
    ckd_priv (Xprv d fp num c k) i
      (Xprv ((d + 1) mod 256) (firstn 4 (hash160 (serP K))) (ser32 i) IR ((be IL + k) mod order_n)).

Inductive ckd_pub : xkey -> Z -> xkey -> Prop :=
| ckd_pub_intro : forall d fp num c K i IL IR Q R,
    i < 2 ^ 31 -> len IL = 32 ->
    hmac512 c (serP K ++ ser32 i) = IL ++ IR ->
    multiple base (be IL) Q -> sum_of Q K R ->
    ckd_pub (Xpub d fp num c K) i
      (Xpub ((d + 1) mod 256) (firstn 4 (hash160 (serP K))) (ser32 i) IR R).
End Ckd.

(** The number a string of decimal digits stands for. *)
Inductive digits : bytes -> Z -> Prop :=
| digits_nil : digits [] 0
| digits_cons : forall c s v, 48 <= c <= 57 -> digits s v ->
    digits (c :: s) ((c - 48) * 10 ^ Z.of_nat (length s) + v).

(** A step of a path: a decimal number, hardened or not; and its text. *)
Inductive step_text : bytes -> Z * bool -> Prop :=
| step_plain : forall s n, s <> [] -> digits s n -> step_text s (n, false)
| step_hard : forall s n, s <> [] -> digits s n -> step_text (s ++ [39]) (n, true).

Definition child_index (s : Z * bool) : Z := if snd s then fst s + 2 ^ 31 else fst s.

(** m/step/step/… *)
Definition path_text (steps : list bytes) : bytes := 109 :: concat (map (cons 47) steps).
