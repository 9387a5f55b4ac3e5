(** What the messages should be, independently of the code. *)
From Verif Require Import GoBase BufferSpec ProtoModel.

(** ** Fields that fit the wire. *)
Definition fits_in (bits v : Z) : Prop := 0 <= v < 2 ^ bits.
Definition hash_ok (h : bytes) : Prop := length h = 32%nat.
Definition inv_ok (i : InvVect) : Prop := fits_in 32 (iv_type i) /\ hash_ok (iv_hash i).
Definition header_ok (h : BlockHeader) : Prop :=
  fits_in 32 (bh_version h) /\ hash_ok (bh_prev h) /\ hash_ok (bh_merkle h) /\ fits_in 32 (bh_time h) /\ fits_in 32 (bh_bits h) /\ fits_in 32 (bh_nonce h).
Definition version_ok (v : MsgVersion) : Prop :=
  fits_in 32 (mv_version v) /\ fits_in 64 (mv_services v) /\ fits_in 64 (mv_time v) /\ fits_in 64 (mv_services_you v) /\ length (mv_addr_you v) = 16%nat /\ fits_in 16 (mv_port_you v) /\
  fits_in 64 (mv_services_me v) /\ length (mv_addr_me v) = 16%nat /\ fits_in 16 (mv_port_me v) /\ fits_in 64 (mv_nonce v) /\ fits_in 32 (mv_last v) /\ fits_in 8 (mv_relay v).
(** A reject message has a hash just when it is about a block or a transaction. *)
Definition about_hash (cmd : bytes) : Prop := cmd = str_bytes "block" \/ cmd = str_bytes "tx".
Definition reject_ok (r : MsgReject) : Prop :=
  fits_in 8 (rj_code r) /\ (about_hash (rj_cmd r) -> hash_ok (rj_hash r)) /\ (~ about_hash (rj_cmd r) -> rj_hash r = []).
(** The values NewMsg... and the Add methods make of fields that fit; a getheaders message's stop hash cannot be set. *)
Definition msg_ok (m : message) : Prop :=
  match m with
  | Version v => version_ok v
  | Inv l | GetData l => Forall inv_ok l /\ len l <= 50000
  | GetHeaders g => fits_in 32 (gh_version g) /\ Forall hash_ok (gh_locators g) /\ gh_stop g = repeat 0 32
  | Headers l => Forall header_ok l
  | Ping n | Pong n => fits_in 64 n
  | Reject r => reject_ok r
  | VerAck | Tx _ | Unhandle _ => True
  end.
(** A new message of the same type. *)
Definition fresh (m : message) : message :=
  match m with
  | Version _ => Version (MkVersion 0 0 0 0 [] 0 0 [] 0 0 [] 0 0)
  | VerAck => VerAck | Inv _ => Inv [] | GetData _ => GetData [] | GetHeaders _ => GetHeaders (MkGetHeaders 0 [] (repeat 0 32))
  | Tx _ => Tx [] | Headers _ => Headers [] | Ping _ => Ping 0 | Pong _ => Pong 0 | Reject _ => Reject (MkReject [] 0 [] []) | Unhandle c => Unhandle c
  end.
(** A getheaders message without locators is sent with one, all zeros. *)
Definition with_locator (m : message) : message :=
  match m with GetHeaders (MkGetHeaders v [] s) => GetHeaders (MkGetHeaders v [repeat 0 32] s) | _ => m end.

(** ** Framing. *)
(** All bytes a reader will deliver. *)
Definition content (r : reader) : bytes := r_buf r ++ concat (r_conn r).
(** The connection's Reads give at least one byte each. *)
Definition reader_wf (r : reader) : Prop := Forall (fun c => c <> []) (r_conn r).
(** Commands a receiver knows. *)
Definition known : list bytes :=
  map str_bytes ["version"; "verack"; "inv"; "getdata"; "getheaders"; "tx"; "headers"; "reject"]%string.
(** A command that the twelve bytes hold: not too long and not ending in a zero byte. *)
Definition wire_command (c : bytes) : Prop := (length c <= 12)%nat /\ forall a, c <> a ++ [0].
(** A message that can be sent: its fields fit and its payload's length fits in 32 bits. *)
Definition sendable (m : message) : Prop :=
  msg_ok m /\ len (Encode m) < 2 ^ 32 /\ match m with Unhandle c => wire_command c /\ ~ In c known | _ => True end.
(** Ping and pong are not known to the receiver, and arrive without their nonces. *)
Definition arrives (m : message) : message :=
  match m with Ping _ => Unhandle (str_bytes "ping") | Pong _ => Unhandle (str_bytes "pong") | _ => with_locator m end.

(** ** The version message as Bitcoin lays it out: all numbers little-endian, but ports big-endian. *)
Definition le (n : nat) (v : Z) : bytes := map (fun i => v / 256 ^ Z.of_nat i mod 256) (seq 0 n).
Definition compact (n : Z) : bytes :=
  if n <? 253 then [n] else if n <? 2 ^ 16 then 253 :: le 2 n else if n <? 2 ^ 32 then 254 :: le 4 n else 255 :: le 8 n.
Definition version_layout (port : Z -> bytes) (v : MsgVersion) : bytes :=
  le 4 (mv_version v) ++ le 8 (mv_services v) ++ le 8 (mv_time v) ++ le 8 (mv_services_you v) ++ mv_addr_you v ++ port (mv_port_you v) ++
  le 8 (mv_services_me v) ++ mv_addr_me v ++ port (mv_port_me v) ++ le 8 (mv_nonce v) ++ compact (len (mv_agent v)) ++ mv_agent v ++ le 4 (mv_last v) ++ [mv_relay v].
Definition header_layout (h : BlockHeader) : bytes :=
  le 4 (bh_version h) ++ bh_prev h ++ bh_merkle h ++ le 4 (bh_time h) ++ le 4 (bh_bits h) ++ le 4 (bh_nonce h).
Definition inv_layout (i : InvVect) : bytes := le 4 (iv_type i) ++ iv_hash i.
Definition layout (port : Z -> bytes) (m : message) : bytes :=
  match m with
  | Version v => version_layout port v
  | VerAck | Unhandle _ => []
  | Inv l | GetData l => compact (len l) ++ concat (map inv_layout l)
  | GetHeaders (MkGetHeaders v l s) => le 4 v ++ compact (len l) ++ concat l ++ s
  | Tx d => d
  | Headers l => compact (len l) ++ concat (map (fun h => header_layout h ++ [0]) l)
  | Ping n | Pong n => le 8 n
  | Reject (MkReject c k r h) => compact (len c) ++ c ++ [k] ++ compact (len r) ++ r ++ (if in_dec (list_eq_dec Z.eq_dec) c (map str_bytes ["block"; "tx"]%string) then h else [])
  end.
Definition port_le (p : Z) : bytes := le 2 p.
Definition port_be (p : Z) : bytes := rev (le 2 p).
Definition frame_layout (sha256 : bytes -> bytes) (magic : bytes) (m : message) : bytes :=
  let d := layout port_le (with_locator m) in
  magic ++ Command m ++ repeat 0 (12 - length (Command m)) ++ le 4 (len d) ++ firstn 4 (sha256 (sha256 d)) ++ d.
