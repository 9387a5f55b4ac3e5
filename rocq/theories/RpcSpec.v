(** What an answer of a node says, stated without the client. *)
From Verif Require Import GoBase AsmSpec RpcModel.
Local Open Scope Z_scope.

(** ASCII letters in either case. *)
Inductive same_letter : Z -> Z -> Prop :=
| sl_same c : same_letter c c
| sl_up c : 97 <= c <= 122 -> same_letter c (c - 32)
| sl_down c : 97 <= c <= 122 -> same_letter (c - 32) c.
Definition same_name (a b : bytes) : Prop := Forall2 same_letter a b.
(** The last field of that name, if any. *)
Definition last_of (name : bytes) (fs : list (bytes * json)) (j : json) : Prop :=
  exists a k b, fs = a ++ (k, j) :: b /\ same_name k name /\ forall k' j', In (k', j') b -> ~ same_name k' name.
Definition none_of (name : bytes) (fs : list (bytes * json)) : Prop := forall k j, In (k, j) fs -> ~ same_name k name.
(** Absent or null in the end. *)
Definition missing (name : bytes) (fs : list (bytes * json)) : Prop := none_of name fs \/ last_of name fs JNull.

Definition int_literal (lit : bytes) (n : Z) : Prop := number lit n /\ - 2 ^ 63 <= n < 2 ^ 63.
Definition integer (j : json) : Prop := j = JNull \/ exists lit n, j = JNum lit /\ int_literal lit n.
Definition natural (j : json) : Prop := j = JNull \/ exists lit n, j = JNum lit /\ digits lit n /\ n < 2 ^ 64.
Definition text (j : json) : Prop := j = JNull \/ exists s, j = JStr s.
(** Every field has the type of the protocol. *)
Definition well_typed (fs : list (bytes * json)) : Prop := forall k j, In (k, j) fs ->
  (same_name k (str_bytes "id") -> natural j) /\
  (same_name k (str_bytes "error") -> j = JNull \/ exists gs, j = JObj gs /\ forall k' j', In (k', j') gs ->
     (same_name k' (str_bytes "code") -> integer j') /\ (same_name k' (str_bytes "message") -> text j')).

(** An answer that answers a result, one with neither result nor error, and one that is malformed or answers an error. *)
Definition answers (fs : list (bytes * json)) (j : json) : Prop := well_typed fs /\ missing (str_bytes "error") fs /\ last_of (str_bytes "result") fs j /\ j <> JNull.
Definition says_nothing (fs : list (bytes * json)) : Prop := well_typed fs /\ missing (str_bytes "error") fs /\ missing (str_bytes "result") fs.
Definition refuses (fs : list (bytes * json)) : Prop := ~ well_typed fs \/ ~ missing (str_bytes "error") fs.

(** Base64 (RFC 4648) of a whole number of three-octet groups. *)
Definition b64_char (n : Z) : Z := if n <? 26 then 65 + n else if n <? 52 then 97 + (n - 26) else if n <? 62 then 48 + (n - 52) else if n =? 62 then 43 else 47.
Inductive base64_of : bytes -> bytes -> Prop :=
| b64_nil : base64_of [] []
| b64_group a b c d x y z t s : x * 65536 + y * 256 + z = ((a * 64 + b) * 64 + c) * 64 + d -> is_byte x -> is_byte y -> is_byte z ->
    0 <= a < 64 -> 0 <= b < 64 -> 0 <= c < 64 -> 0 <= d < 64 -> base64_of t s ->
    base64_of (x :: y :: z :: t) (b64_char a :: b64_char b :: b64_char c :: b64_char d :: s).
