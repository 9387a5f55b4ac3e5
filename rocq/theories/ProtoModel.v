(** Model of /repo/xprotocol: the messages, their encodings, and the stream that frames them.

    Simplifications: nil and empty slices are one value; list entries are values, so an entry added twice is two
    entries; a message left half decoded by a failed Decode is not returned; strings are their bytes. *)
From Verif Require Import GoBase BufferModel TxModel.

(** invvect.go:46-49. *)
Record InvVect := MkInv { iv_type : Z; iv_hash : bytes }.
(** blockheader.go:15-34. *)
Record BlockHeader := MkHeader { bh_version : Z; bh_prev : bytes; bh_merkle : bytes; bh_time : Z; bh_bits : Z; bh_nonce : Z }.
(** msgversion.go:20-64. *)
Record MsgVersion := MkVersion {
  mv_version : Z; mv_services : Z; mv_time : Z; mv_services_you : Z; mv_addr_you : bytes; mv_port_you : Z;
  mv_services_me : Z; mv_addr_me : bytes; mv_port_me : Z; mv_nonce : Z; mv_agent : bytes; mv_last : Z; mv_relay : Z }.
(** msggetheaders.go:14-18. *)
Record MsgGetHeaders := MkGetHeaders { gh_version : Z; gh_locators : list bytes; gh_stop : bytes }.
(** msgreject.go:28-33. *)
Record MsgReject := MkReject { rj_cmd : bytes; rj_code : Z; rj_reason : bytes; rj_hash : bytes }.

(** message.go:10-15: the types that implement Message (msginv.go:15, msggetdata.go:15, msgheaders.go:19, msgtx.go:9,
    msgping.go:13, msgpong.go:13, msgverack.go:9, msgunhandle.go:9). *)
Inductive message :=
| Version (v : MsgVersion) | VerAck | Inv (l : list InvVect) | GetData (l : list InvVect) | GetHeaders (g : MsgGetHeaders)
| Tx (d : bytes) | Headers (l : list BlockHeader) | Ping (n : Z) | Pong (n : Z) | Reject (r : MsgReject) | Unhandle (c : bytes).

(** command.go:9-48. *)
Definition CommandVersion := str_bytes "version".
Definition CommandVersionAck := str_bytes "verack".
Definition CommandInventory := str_bytes "inv".
Definition CommandPing := str_bytes "ping".
Definition CommandPong := str_bytes "pong".
Definition CommandBlock := str_bytes "block".
Definition CommandGetData := str_bytes "getdata".
Definition CommandGetHeaders := str_bytes "getheaders".
Definition CommandHeaders := str_bytes "headers".
Definition CommandTx := str_bytes "tx".
Definition CommandReject := str_bytes "reject".
(** The Command methods. *)
Definition Command (m : message) : bytes :=
  match m with
  | Version _ => CommandVersion | VerAck => CommandVersionAck | Inv _ => CommandInventory | GetData _ => CommandGetData
  | GetHeaders _ => CommandGetHeaders | Tx _ => CommandTx | Headers _ => CommandHeaders | Ping _ => CommandPing | Pong _ => CommandPong
  | Reject _ => CommandReject | Unhandle c => c
  end.

(** invvect.go:15, msgheaders.go:16. *)
Definition MaxInvPerMsg : Z := 50000.
Definition MaxBlockHeadersPerMsg : Z := 2000.
(** msggetdata.go:25-31. *)
Definition GetData_AddInvVect (iv : list InvVect) (l : list InvVect) : res (list InvVect) :=
  if MaxInvPerMsg <? len l + len iv then Err "too.many.invvect.in.message" else Ok (l ++ iv).
(** msginv.go:25-31. *)
Definition Inv_AddInvVect (iv : list InvVect) (l : list InvVect) : res (list InvVect) :=
  if MaxInvPerMsg <? len l + 1 then Err "too.many.invvect.in.message" else Ok (l ++ iv).
(** msgheaders.go:29-35. *)
Definition AddBlockHeader (hs : list BlockHeader) (l : list BlockHeader) : res (list BlockHeader) :=
  if MaxBlockHeadersPerMsg <? len l + 1 then Err "too.many.block.headers.in.message" else Ok (l ++ hs).
(** msggetheaders.go:28-31. *)
Definition AddBlockLocatorHash (h : bytes) (g : MsgGetHeaders) : MsgGetHeaders := MkGetHeaders (gh_version g) (gh_locators g ++ [h]) (gh_stop g).

(** msggetdata.go:37-40, msginv.go:37-40. *)
Definition write_inv (b : buffer) (i : InvVect) : buffer := WriteBytes (iv_hash i) (WriteU32 (iv_type i) b).
(** msgheaders.go:41-49. *)
Definition write_header (b : buffer) (h : BlockHeader) : buffer :=
  WriteU8 0 (WriteU32 (bh_nonce h) (WriteU32 (bh_bits h) (WriteU32 (bh_time h) (WriteBytes (bh_merkle h) (WriteBytes (bh_prev h) (WriteU32 (bh_version h) b)))))).
(** msgversion.go:81-97. *)
Definition write_version (m : MsgVersion) (b : buffer) : buffer :=
  WriteU8 (mv_relay m) (WriteU32 (mv_last m) (WriteVarString (mv_agent m) (WriteU64 (mv_nonce m)
    (WriteU16 (mv_port_me m) (WriteBytes (mv_addr_me m) (WriteU64 (mv_services_me m)
    (WriteU16 (mv_port_you m) (WriteBytes (mv_addr_you m) (WriteU64 (mv_services_you m)
    (WriteU64 (mv_time m) (WriteU64 (mv_services m) (WriteU32 (mv_version m) b)))))))))))).
(** msgreject.go:45-54. *)
Definition has_hash (cmd : bytes) : bool := list_Z_eqb cmd CommandBlock || list_Z_eqb cmd CommandTx.
Definition write_reject (m : MsgReject) (b : buffer) : buffer :=
  let b := WriteVarString (rj_reason m) (WriteU8 (rj_code m) (WriteVarString (rj_cmd m) b)) in
  if has_hash (rj_cmd m) then WriteBytes (rj_hash m) b else b.
(** msggetheaders.go:35-40: what Encode does to the message before encoding it. *)
Definition settle_gh (g : MsgGetHeaders) : MsgGetHeaders :=
  if len (gh_locators g) =? 0 then AddBlockLocatorHash (repeat 0 32) g else g.
Definition settle (m : message) : message := match m with GetHeaders g => GetHeaders (settle_gh g) | _ => m end.
(** msggetheaders.go:42-49. *)
Definition write_getheaders (g : MsgGetHeaders) (b : buffer) : buffer :=
  WriteBytes (gh_stop g) (fold_left (fun b l => WriteBytes l b) (gh_locators g) (WriteVarInt (u64 (len (gh_locators g))) (WriteU32 (gh_version g) b))).
(** The Encode methods: msgversion.go:81, msgverack.go:17, msginv.go:34, msggetdata.go:34, msggetheaders.go:34,
    msgtx.go:19, msgheaders.go:38, msgping.go:25, msgpong.go:25, msgreject.go:45, msgunhandle.go:21. *)
Definition Encode (m : message) : bytes :=
  match m with
  | Version v => Bytes (write_version v NewBuffer)
  | VerAck => []
  | Inv l | GetData l => Bytes (fold_left write_inv l (WriteVarInt (u64 (len l)) NewBuffer))
  | GetHeaders g => Bytes (write_getheaders (settle_gh g) NewBuffer)
  | Tx d => d
  | Headers l => Bytes (fold_left write_header l (WriteVarInt (u64 (len l)) NewBuffer))
  | Ping n | Pong n => Bytes (WriteU64 n NewBuffer)
  | Reject r => Bytes (write_reject r NewBuffer)
  | Unhandle _ => []
  end.

(** [buffer.ReadBytes(n)] into a slice field. *)
Definition read_bytes (n : Z) : BM bytes := do d <- ReadBytes n; bret (nilb d).
(** msgversion.go:100-144. *)
Definition read_version : BM MsgVersion :=
  do v <- ReadU32; do s <- ReadU64; do t <- ReadU64; do sy <- ReadU64; do ay <- read_bytes 16; do py <- ReadU16;
  do sm <- ReadU64; do am <- read_bytes 16; do pm <- ReadU16; do n <- ReadU64; do ua <- ReadVarString; do lb <- ReadU32; do r <- ReadU8;
  bret (MkVersion v s t sy ay py sm am pm n ua lb r).
(** msggetdata.go:55-64, msginv.go:55-64. *)
Definition read_inv : BM InvVect := do t <- ReadU32; do h <- read_bytes 32; bret (MkInv t h).
(** msggetdata.go:45-67, msginv.go:45-67; what is read is appended to the list the message has. *)
Definition read_invs (l : list InvVect) : BM (list InvVect) :=
  do count <- ReadVarInt;
  if MaxInvPerMsg <? count then bfail "too.many.invvect.in.message"
  else do r <- read_n (Z.to_nat (i64 count)) read_inv; bret (l ++ r).
(** msgheaders.go:64-86. *)
Definition read_header : BM BlockHeader :=
  do v <- ReadU32; do p <- read_bytes 32; do m <- read_bytes 32; do t <- ReadU32; do b <- ReadU32; do n <- ReadU32; do _ <- ReadU8;
  bret (MkHeader v p m t b n).
(** msgheaders.go:54-89. *)
Definition read_headers (l : list BlockHeader) : BM (list BlockHeader) :=
  do count <- ReadVarInt; do r <- read_n (Z.to_nat (i64 count)) read_header; bret (l ++ r).
(** msggetheaders.go:53-74. *)
Definition read_getheaders (g : MsgGetHeaders) : BM MsgGetHeaders :=
  do v <- ReadU32; do count <- ReadVarInt; do r <- read_n (Z.to_nat (i64 count)) (read_bytes 32);
  bret (MkGetHeaders v (gh_locators g ++ r) (gh_stop g)).
(** msgreject.go:57-76; the hash is left alone unless it is read. *)
Definition read_reject (m : MsgReject) : BM MsgReject :=
  do c <- ReadVarString; do k <- ReadU8; do r <- ReadVarString;
  if has_hash c then do h <- read_bytes 32; bret (MkReject c k r h) else bret (MkReject c k r (rj_hash m)).
(** Run a decoder over data (NewBufferReader, then the reads). *)
Definition run {A} (rd : BM A) (data : bytes) : res A := fst (rd (NewBufferReader data)).
(** The Decode methods: msgversion.go:100, msgverack.go:22, msginv.go:45, msggetdata.go:45, msggetheaders.go:53,
    msgtx.go:24, msgheaders.go:54, msgping.go:32, msgpong.go:32, msgreject.go:57, msgunhandle.go:26. *)
Definition Decode (m : message) (data : bytes) : res message :=
  match m with
  | Version _ => let! v := run read_version data in Ok (Version v)
  | VerAck => Ok VerAck
  | Inv l => let! r := run (read_invs l) data in Ok (Inv r)
  | GetData l => let! r := run (read_invs l) data in Ok (GetData r)
  | GetHeaders g => let! r := run (read_getheaders g) data in Ok (GetHeaders r)
  | Tx _ => Ok (Tx data)
  | Headers l => let! r := run (read_headers l) data in Ok (Headers r)
  | Ping _ => let! n := run ReadU64 data in Ok (Ping n)
  | Pong _ => let! n := run ReadU64 data in Ok (Pong n)
  | Reject r => let! r := run (read_reject r) data in Ok (Reject r)
  | Unhandle c => Ok (Unhandle c)
  end.

(** blockheader.go:50-52, invvect.go:60-62. *)
Definition header_size (h : BlockHeader) : Z := 4 + len (bh_prev h) + len (bh_merkle h) + 4 + 4 + 4.
Definition inv_size (i : InvVect) : Z := 4 + len (iv_hash i).
(** The Size methods: msgversion.go:147, msgverack.go:27, msginv.go:70, msggetdata.go:70, msggetheaders.go:77, msgtx.go:30,
    msgheaders.go:92, msgping.go:43, msgpong.go:43, msgreject.go:79, msgunhandle.go:31. *)
Definition Size (m : message) : Z :=
  match m with
  | Version v => 4 + 8 + 8 + 8 + len (mv_addr_you v) + 2 + 8 + len (mv_addr_me v) + 2 + 8 + VarIntSerializeSize (u64 (len (mv_agent v))) + len (mv_agent v) + 4 + 1
  | VerAck => len CommandVersionAck
  | Inv l | GetData l => fold_left (fun s i => s + inv_size i) l (VarIntSerializeSize (u64 (len l)))
  | GetHeaders g => fold_left (fun s h => s + len h) (gh_locators g) (4 + VarIntSerializeSize (u64 (len (gh_locators g)))) + 32
  | Tx d => len d
  | Headers l => fold_left (fun s h => s + (header_size h + 1)) l (VarIntSerializeSize (u64 (len l)))
  | Ping _ | Pong _ => 8
  | Reject r => len (rj_cmd r) + 1 + len (rj_reason r) + len (rj_hash r)
  | Unhandle c => len c
  end.

(** The zero values of the message types. *)
Definition empty_version : MsgVersion := MkVersion 0 0 0 0 [] 0 0 [] 0 0 [] 0 0.
Definition empty_getheaders : MsgGetHeaders := MkGetHeaders 0 [] (repeat 0 32).
Definition empty_reject : MsgReject := MkReject [] 0 [] [].
(** message.go:17-36. *)
Definition makeEmptyMessage (command : bytes) : message :=
  if list_Z_eqb command CommandVersion then Version empty_version
  else if list_Z_eqb command CommandVersionAck then VerAck
  else if list_Z_eqb command CommandInventory then Inv []
  else if list_Z_eqb command CommandGetData then GetData []
  else if list_Z_eqb command CommandGetHeaders then GetHeaders empty_getheaders
  else if list_Z_eqb command CommandTx then Tx []
  else if list_Z_eqb command CommandHeaders then Headers []
  else if list_Z_eqb command CommandReject then Reject empty_reject
  else Unhandle command.

(** blockheader.go:37-47; the hash function is a parameter. *)
Definition BlockHash (dsha : bytes -> bytes) (h : BlockHeader) : bytes :=
  dsha (Bytes (WriteU32 (bh_nonce h) (WriteU32 (bh_bits h) (WriteU32 (bh_time h) (WriteBytes (bh_merkle h) (WriteBytes (bh_prev h) (WriteU32 (bh_version h) NewBuffer))))))).

(** ** Bytes from the network. *)
(** stream.go:41. *)
Definition bufferSize : Z := 32 * 1024.
(** What is still to come: the bytes bufio holds, then what each Read of the connection has waiting; each such piece is
    not empty, and after the last the connection is at its end. *)
Record reader := MkReader { r_buf : bytes; r_conn : list bytes }.
(** net.Conn.Read into [n] bytes, n > 0: at most the next piece. *)
Definition conn_read (n : Z) (conn : list bytes) : option (bytes * list bytes) :=
  match conn with
  | [] => None
  | c :: r => if len c <=? n then Some (c, r) else Some (firstn (Z.to_nat n) c, skipn (Z.to_nat n) c :: r)
  end.
(** bufio.Reader.Read into [n] bytes, n > 0: the buffer if it holds anything, else one Read of the connection, straight
    into the caller's bytes if they are many. *)
Definition bufio_read (n : Z) (r : reader) : option (bytes * reader) :=
  match r_buf r with
  | [] =>
      if bufferSize <=? n then match conn_read n (r_conn r) with Some (d, c) => Some (d, MkReader [] c) | None => None end
      else match conn_read bufferSize (r_conn r) with
           | Some (d, c) => Some (firstn (Z.to_nat n) d, MkReader (skipn (Z.to_nat n) d) c)
           | None => None
           end
  | b => Some (firstn (Z.to_nat n) b, MkReader (skipn (Z.to_nat n) b) (r_conn r))
  end.
(** io.ReadFull for [n] bytes: Reads until all are there; the fuel is enough as each Read gives at least one byte. *)
Fixpoint read_full (fuel : nat) (n : Z) (r : reader) : res bytes * reader :=
  if n <=? 0 then (Ok [], r) else
  match fuel with
  | O => (Err "unexpected EOF", r)
  | S f =>
      match bufio_read n r with
      | None => (Err "unexpected EOF", r)
      | Some (d, r') => match read_full f (n - len d) r' with (Ok e, r'') => (Ok (d ++ e), r'') | (x, r'') => (x, r'') end
      end
  end.
Definition ReadFull (n : Z) (r : reader) : res bytes * reader := read_full (Z.to_nat n) n r.

(** bytes.TrimRight(command, "\x00"). *)
Fixpoint drop_zeros (l : bytes) : bytes := match l with 0 :: r => drop_zeros r | _ => l end.
Definition TrimRight0 (l : bytes) : bytes := rev (drop_zeros (rev l)).
(** binary.Read of a uint32, little-endian. *)
Definition le32 (d : bytes) : Z := fold_right (fun x a => x + 256 * a) 0 d.

Section Stream.
(** sha256.Sum256. *)
Variable sha256 : bytes -> bytes.
(** stream.go:130-134. *)
Definition checksum (data : bytes) : bytes := firstn 4 (sha256 (sha256 data)).
(** stream.go:63-100, between taking and releasing the lock. *)
Definition ReadMessage (r : reader) : res message * reader :=
  match ReadFull 4 r with
  | (Ok magic, r) =>
  match ReadFull 12 r with
  | (Ok command, r) =>
  match ReadFull 4 r with
  | (Ok size, r) =>
  match ReadFull 4 r with
  | (Ok check, r) =>
  match ReadFull (le32 size) r with
  | (Ok data, r) =>
      if list_Z_eqb check (checksum data) then (Decode (makeEmptyMessage (TrimRight0 command)) data, r)
      else (Err "stream.read.payload.checksum.mismatch", r)
  | (Err e, r) => (Err e, r) | (Panic, r) => (Panic, r) end
  | (Err e, r) => (Err e, r) | (Panic, r) => (Panic, r) end
  | (Err e, r) => (Err e, r) | (Panic, r) => (Panic, r) end
  | (Err e, r) => (Err e, r) | (Panic, r) => (Panic, r) end
  | (Err e, r) => (Err e, r) | (Panic, r) => (Panic, r) end.
(** [copy(command, []byte(msg.Command()))] into 12 zero bytes. *)
Definition command_field (c : bytes) : bytes := firstn 12 c ++ repeat 0 (12 - length c).
(** stream.go:109-123: the bytes WriteMessage hands to the connection. *)
Definition Frame (magic : bytes) (m : message) : bytes :=
  let datas := Encode m in
  magic ++ command_field (Command m) ++ Bytes (WriteU32 (u32 (len datas)) NewBuffer) ++ checksum datas ++ datas.
(** connection.go:41-51: ReadLoop's messages, until ReadMessage fails; [fuel] bounds how many are awaited. *)
Fixpoint ReadLoop (fuel : nat) (r : reader) : list message * res unit :=
  match fuel with
  | O => ([], Ok tt)
  | S f =>
      match ReadMessage r with
      | (Ok m, r') => let '(ms, e) := ReadLoop f r' in (m :: ms, e)
      | (Err e, _) => ([], Err e)
      | (Panic, _) => ([], Panic)
      end
  end.
End Stream.
