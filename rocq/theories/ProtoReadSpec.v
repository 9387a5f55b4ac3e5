(** The payloads the decoders accept, and what they make of them; stated without the decoders.  Against Bitcoin's
    format: ports are little-endian, a getheaders message need not have its stop hash, and a list that claims 2^63 or
    more entries is empty. *)
From Verif Require Import GoBase BufferSpec ProtoModel TxReadSpec.
Local Open Scope Z_scope.

Inductive blob (n : nat) : bytes -> bytes -> Prop := blob_of e : length e = n -> blob n e e.
Inductive octet : bytes -> Z -> Prop := octet_of x : is_byte x -> octet [x] x.
Inductive tallied {A} (G : bytes -> A -> Prop) : bytes -> list A -> Prop :=
| tally_is e l : counted G e l -> tallied G e l
| tally_huge c n : size c n -> 2 ^ 63 <= n -> tallied G c [].

Inductive an_inv : bytes -> InvVect -> Prop := inv_of a t b h : word 4 a t -> blob 32 b h -> an_inv (a ++ b) (MkInv t h).
(** The byte at the end is the number of transactions; it is not looked at. *)
Inductive a_header : bytes -> BlockHeader -> Prop := header_of a v b p c m d t e bi f n z : word 4 a v -> blob 32 b p -> blob 32 c m -> word 4 d t -> word 4 e bi -> word 4 f n -> is_byte z ->
  a_header (a ++ b ++ c ++ d ++ e ++ f ++ [z]) (MkHeader v p m t bi n).
Inductive a_version : bytes -> MsgVersion -> Prop := version_of a v b s c t d sy e ay f py g sm h am i pm j n k ua l lb m r :
  word 4 a v -> word 8 b s -> word 8 c t -> word 8 d sy -> blob 16 e ay -> word 2 f py -> word 8 g sm -> blob 16 h am -> word 2 i pm -> word 8 j n -> sized k ua -> word 4 l lb -> octet m r ->
  a_version (a ++ b ++ c ++ d ++ e ++ f ++ g ++ h ++ i ++ j ++ k ++ l ++ m) (MkVersion v s t sy ay py sm am pm n ua lb r).
Inductive a_locator : bytes -> MsgGetHeaders -> Prop := locator_of a v b l : word 4 a v -> tallied (blob 32) b l -> a_locator (a ++ b) (MkGetHeaders v l (repeat 0 32)).
Inductive a_reject : bytes -> MsgReject -> Prop :=
| reject_hash a c b k d r e h : sized a c -> octet b k -> sized d r -> (c = str_bytes "block" \/ c = str_bytes "tx") -> blob 32 e h -> a_reject (a ++ b ++ d ++ e) (MkReject c k r h)
| reject_plain a c b k d r : sized a c -> octet b k -> sized d r -> c <> str_bytes "block" -> c <> str_bytes "tx" -> a_reject (a ++ b ++ d) (MkReject c k r []).

(** [accepts c d m]: the payload [d] of a message named [c] is read as [m].  Bytes after the last field are ignored. *)
Inductive accepts : bytes -> bytes -> message -> Prop :=
| ac_version e junk v : a_version e v -> accepts (str_bytes "version") (e ++ junk) (Version v)
| ac_verack d : accepts (str_bytes "verack") d VerAck
| ac_inv e junk l : counted an_inv e l -> len l <= 50000 -> accepts (str_bytes "inv") (e ++ junk) (Inv l)
| ac_getdata e junk l : counted an_inv e l -> len l <= 50000 -> accepts (str_bytes "getdata") (e ++ junk) (GetData l)
| ac_getheaders e junk g : a_locator e g -> accepts (str_bytes "getheaders") (e ++ junk) (GetHeaders g)
| ac_tx d : accepts (str_bytes "tx") d (Tx d)
| ac_headers e junk l : tallied a_header e l -> accepts (str_bytes "headers") (e ++ junk) (Headers l)
| ac_reject e junk r : a_reject e r -> accepts (str_bytes "reject") (e ++ junk) (Reject r)
| ac_other c d : ~ In c (map str_bytes ["version"; "verack"; "inv"; "getdata"; "getheaders"; "tx"; "headers"; "reject"]%string) -> accepts c d (Unhandle c).

(** The twelve bytes that name [c]. *)
Definition names (field c : bytes) : Prop := length field = 12%nat /\ (exists k, field = c ++ repeat 0 k) /\ forall a, c <> a ++ [0].
