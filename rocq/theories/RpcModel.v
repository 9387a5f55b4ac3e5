(** The client of a node: /repo/xrpc/client.go, method.go and models.go, without GetBlock's nested result.
    A JSON text is its syntax tree (the parser of encoding/json is trusted); the HTTP exchange is an argument from the
    method and its parameters to an error or a status and a body.  The stores of encoding/json into Go values are
    written out.  encoding/json stores what it can and reports the first mismatch at the end; the callers here drop
    the value when there is an error, so the model stops at the first one.  Field names are compared without regard to
    ASCII case; the two non-ASCII letters that Unicode folds to k and s are left out. *)
From Verif Require Import GoBase AsmModel.
Local Open Scope Z_scope.

Inductive json := JNull | JBool (b : bool) | JNum (lit : bytes) | JStr (s : bytes) | JArr (l : list json) | JObj (fs : list (bytes * json)).
Inductive param := PInt (n : Z) | PStr (s : bytes).

(** encoding/json decode.go, object: the struct field for a key. *)
Definition lower (c : Z) : Z := if (65 <=? c) && (c <=? 90) then c + 32 else c.
Definition key_eq (k name : bytes) : bool := list_Z_eqb (map lower k) (map lower name).

(** strconv.ParseUint(s, 10, 64). *)
Definition ParseUint64 (s : bytes) : option Z :=
  if (0 <? len s) && forallb digit s then
    let v := fold_left (fun acc c => acc * 10 + (c - 48)) s 0 in if v <? 2 ^ 64 then Some v else None
  else None.

(** encoding/json decode.go, literalStore: what a value does to a variable of the kind that held [old]. *)
Definition mismatch {A} : res A := Err "json: cannot unmarshal".
Definition store_int (j : json) (old : Z) : res Z :=
  match j with JNull => Ok old | JNum lit => match ParseInt64 lit with Some v => Ok v | None => mismatch end | _ => mismatch end.
Definition store_uint (j : json) (old : Z) : res Z :=
  match j with JNull => Ok old | JNum lit => match ParseUint64 lit with Some v => Ok v | None => mismatch end | _ => mismatch end.
Definition store_string (j : json) (old : bytes) : res bytes :=
  match j with JNull => Ok old | JStr s => Ok s | _ => mismatch end.

(** encoding/base64, StdEncoding.Decode: a slice of bytes is read from base64.  Newlines are skipped. *)
Definition b64 (c : Z) : option Z :=
  if (65 <=? c) && (c <=? 90) then Some (c - 65) else if (97 <=? c) && (c <=? 122) then Some (c - 71)
  else if (48 <=? c) && (c <=? 57) then Some (c + 4) else if c =? 43 then Some 62 else if c =? 47 then Some 63 else None.
Definition quantum (a b c d : Z) : bytes := let v := ((a * 64 + b) * 64 + c) * 64 + d in [v / 65536 mod 256; v / 256 mod 256; v mod 256].
Fixpoint base64_loop (s : bytes) : option bytes :=
  match s with
  | [] => Some []
  | a :: b :: c :: d :: r =>
    match b64 a, b64 b with
    | Some a', Some b' =>
      match b64 c, b64 d with
      | Some c', Some d' => match base64_loop r with Some t => Some (quantum a' b' c' d' ++ t) | None => None end
      | Some c', None => if (d =? 61) && (len r =? 0) then Some (firstn 2 (quantum a' b' c' 0)) else None
      | None, _ => if (c =? 61) && (d =? 61) && (len r =? 0) then Some (firstn 1 (quantum a' b' 0 0)) else None
      end
    | _, _ => None
    end
  | _ => None
  end.
Definition base64_decode (s : bytes) : option bytes := base64_loop (filter (fun c => negb ((c =? 10) || (c =? 13))) s).
Definition store_bytes (j : json) : res (option bytes) :=
  match j with JNull => Ok None | JStr s => match base64_decode s with Some b => Ok (Some b) | None => mismatch end | _ => mismatch end.

(** client.go:24-34. *)
Record Response := { resp_id : Z; resp_result : option json; resp_error : option (Z * bytes) }.
Definition no_response : Response := {| resp_id := 0; resp_result := None; resp_error := None |}.
Definition error_field (old : Z * bytes) (f : bytes * json) : res (Z * bytes) :=
  if key_eq (fst f) (str_bytes "code") then let! c := store_int (snd f) (fst old) in Ok (c, snd old)
  else if key_eq (fst f) (str_bytes "message") then let! m := store_string (snd f) (snd old) in Ok (fst old, m)
  else Ok old.
Fixpoint fold_res {A B} (f : A -> B -> res A) (l : list B) (a : A) : res A :=
  match l with [] => Ok a | b :: r => let! a' := f a b in fold_res f r a' end.
(** A pointer becomes nil on null; otherwise what it points to, made if need be, is filled. *)
Definition store_error (j : json) (old : option (Z * bytes)) : res (option (Z * bytes)) :=
  match j with
  | JNull => Ok None
  | JObj gs => let! e := fold_res error_field gs (match old with Some e => e | None => (0, []) end) in Ok (Some e)
  | _ => mismatch
  end.
Definition response_field (old : Response) (f : bytes * json) : res Response :=
  let j := snd f in
  if key_eq (fst f) (str_bytes "id") then
    let! i := store_uint j (resp_id old) in Ok {| resp_id := i; resp_result := resp_result old; resp_error := resp_error old |}
  else if key_eq (fst f) (str_bytes "result") then
    Ok {| resp_id := resp_id old; resp_result := match j with JNull => None | _ => Some j end; resp_error := resp_error old |}
  else if key_eq (fst f) (str_bytes "error") then
    let! e := store_error j (resp_error old) in Ok {| resp_id := resp_id old; resp_result := resp_result old; resp_error := e |}
  else Ok old.
Definition decode_response (j : json) : res Response :=
  match j with JNull => Ok no_response | JObj fs => fold_res response_field fs no_response | _ => mismatch end.

Section Client.
(** net/http: the status code and the parsed body, or an error. *)
Variable Do : bytes -> list param -> res (Z * json).
(** client.go:53-87.  The id of the request is always 0; the status and the id of the answer are not looked at. *)
Definition call (method : bytes) (params : list param) : res Response :=
  let! raw := Do method params in
  let! resp := decode_response (snd raw) in
  match resp_error resp with Some _ => Err "resp.Error" | None => Ok resp end.
(** [*rawResp.Result] in method.go. *)
Definition deref (r : option json) : res json := match r with Some j => Ok j | None => Panic end.

(** method.go:12-23. *)
Definition GetBlockHash (height : Z) : res bytes :=
  let! raw := call (str_bytes "getblockhash") [PInt height] in let! j := deref (resp_result raw) in store_string j [].
(** method.go:26-37. *)
Definition GetBlockCount : res Z :=
  let! raw := call (str_bytes "getblockcount") [] in let! j := deref (resp_result raw) in store_int j 0.

(** models.go:8-24: the fields of BlockHeaderResult with their kinds.  Floating point values stay literals. *)
Inductive kind := KStr | KInt | KUint | KFloat | KBytes.
Definition header_fields : list (bytes * kind) :=
  [(str_bytes "hash", KStr); (str_bytes "confirmations", KInt); (str_bytes "height", KInt); (str_bytes "version", KInt);
   (str_bytes "versionHex", KStr); (str_bytes "merkleroot", KStr); (str_bytes "time", KUint); (str_bytes "mediantime", KInt);
   (str_bytes "nonce", KInt); (str_bytes "bits", KStr); (str_bytes "difficulty", KFloat); (str_bytes "chainwork", KStr);
   (str_bytes "previousblockhash", KBytes); (str_bytes "nextblockhash", KBytes)].
Inductive val := VStr (s : bytes) | VInt (n : Z) | VFloat (lit : bytes) | VBytes (b : option bytes).
Definition zero (k : kind) : val := match k with KStr => VStr [] | KInt | KUint => VInt 0 | KFloat => VFloat [] | KBytes => VBytes None end.
(** Whether strconv.ParseFloat takes the literal. *)
Variable float_ok : bytes -> bool.
Definition store (k : kind) (j : json) (old : val) : res val :=
  match k, old with
  | KStr, VStr s => let! s' := store_string j s in Ok (VStr s')
  | KInt, VInt n => let! n' := store_int j n in Ok (VInt n')
  | KUint, VInt n => let! n' := store_uint j n in Ok (VInt n')
  | KFloat, VFloat l => match j with JNull => Ok old | JNum lit => if float_ok lit then Ok (VFloat lit) else mismatch | _ => mismatch end
  | KBytes, VBytes _ => let! b := store_bytes j in Ok (VBytes b)
  | _, _ => mismatch
  end.
(** A struct is the list of its fields with name, kind and value. *)
Definition struct := list (bytes * kind * val).
Fixpoint set_field (s : struct) (f : bytes * json) : res struct :=
  match s with
  | [] => Ok []
  | (n, k, v) :: r =>
    if key_eq (fst f) n then let! v' := store k (snd f) v in Ok ((n, k, v') :: r)
    else let! r' := set_field r f in Ok ((n, k, v) :: r')
  end.
Definition decode_struct (s : struct) (j : json) : res struct :=
  match j with JNull => Ok s | JObj fs => fold_res set_field fs s | _ => mismatch end.
Definition empty_header : struct := map (fun f => (fst f, snd f, zero (snd f))) header_fields.
(** method.go:40-51. *)
Definition GetBlockHeader (hash : bytes) : res struct :=
  let! raw := call (str_bytes "getblockheader") [PStr hash] in let! j := deref (resp_result raw) in decode_struct empty_header j.
End Client.
(** A field of a struct. *)
Fixpoint field (s : struct) (name : bytes) : option val :=
  match s with [] => None | (n, _, v) :: r => if list_Z_eqb n name then Some v else field r name end.
