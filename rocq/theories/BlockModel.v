(** The nested result of GetBlock: /repo/xrpc/method.go:55-67 and models.go:26-90, on top of [RpcModel]. *)
From Verif Require Import GoBase AsmModel BuilderModel RpcModel.
From Coq Require Import SpecFloat.
Local Open Scope Z_scope.

(** The Go types of the fields with the tags of the structs, and their values.  A struct's value is the list of its
    fields' values in the order of the declaration; a nil slice is not told apart from an empty one. *)
Inductive ty := TStr | TInt (bits : Z) | TUint (bits : Z) | TFloat | TSlice (e : ty) | TStruct (fs : list (bytes * ty)).
Inductive gval := GStr (s : bytes) | GInt (n : Z) | GFloat (f : spec_float) | GSlice (l : list gval) | GStruct (l : list gval).
Fixpoint zero_of (t : ty) : gval :=
  match t with
  | TStr => GStr [] | TInt _ | TUint _ => GInt 0 | TFloat => GFloat (S754_zero false) | TSlice _ => GSlice []
  | TStruct fs => GStruct ((fix go fs := match fs with [] => [] | f :: r => zero_of (snd f) :: go r end) fs)
  end.

(** models.go:48-52. *)
Definition ScriptSig : ty := TStruct [(str_bytes "asm", TStr); (str_bytes "hex", TStr)].
(** models.go:54-61. *)
Definition Vin : ty := TStruct [(str_bytes "coinbase", TStr); (str_bytes "txid", TStr); (str_bytes "vout", TInt 64); (str_bytes "scriptSig", ScriptSig); (str_bytes "sequence", TUint 32)].
(** models.go:63-70. *)
Definition ScriptPubKey : ty := TStruct [(str_bytes "asm", TStr); (str_bytes "hex", TStr); (str_bytes "reqSigs", TInt 64); (str_bytes "type", TStr); (str_bytes "addresses", TSlice TStr)].
(** models.go:72-77. *)
Definition Vout : ty := TStruct [(str_bytes "value", TFloat); (str_bytes "n", TInt 64); (str_bytes "scriptPubKey", ScriptPubKey)].
(** models.go:79-90. *)
Definition TransactionResult : ty := TStruct [(str_bytes "hex", TStr); (str_bytes "txid", TStr); (str_bytes "version", TInt 32); (str_bytes "size", TUint 32);
  (str_bytes "vsize", TUint 32); (str_bytes "weight", TUint 32); (str_bytes "locktime", TUint 32); (str_bytes "vin", TSlice Vin); (str_bytes "vout", TSlice Vout)].
(** models.go:26-46. *)
Definition BlockResult : ty := TStruct [(str_bytes "hash", TStr); (str_bytes "confirmations", TUint 64); (str_bytes "strippedsize", TInt 32); (str_bytes "size", TInt 32);
  (str_bytes "weight", TInt 32); (str_bytes "height", TInt 64); (str_bytes "version", TInt 32); (str_bytes "versionHex", TStr); (str_bytes "merkleroot", TStr);
  (str_bytes "tx", TSlice TransactionResult); (str_bytes "nTx", TUint 32); (str_bytes "time", TInt 64); (str_bytes "nonce", TUint 32); (str_bytes "bits", TStr);
  (str_bytes "difficulty", TFloat); (str_bytes "chainwork", TStr); (str_bytes "previousblockhash", TStr); (str_bytes "nextblockhash", TStr)].

(** strconv/atof.go, readFloat: the digits of a number without sign and exponent, and how many stand behind the point. *)
Fixpoint readFloat (s : bytes) (mantissa : Z) (places : option Z) : option (Z * Z) :=
  match s with
  | [] => Some (mantissa, match places with Some k => k | None => 0 end)
  | c :: r =>
    if digit c then readFloat r (mantissa * 10 + (c - 48)) (match places with Some k => Some (k + 1) | None => None end)
    else if c =? 46 then match places with None => readFloat r mantissa (Some 0) | Some _ => None end
    else None
  end.

Section Decode.
(** strconv.ParseFloat where its exact path does not apply; None is a value out of range. *)
Variable slow : bytes -> option spec_float.
(** strconv/atof.go, atof64 with atof64exact: a mantissa below 2^52 over a power of ten up to 10^22. *)
Definition ParseFloat (lit : bytes) : option spec_float :=
  match readFloat lit 0 None with
  | Some (m, k) => if (m <? 2 ^ 52) && (k <=? 22) then Some (fdiv (float_of m) (float_of (10 ^ k))) else slow lit
  | None => slow lit
  end.
(** encoding/json decode.go, literalStore for a number. *)
Definition store_number (t : ty) (lit : bytes) : res gval :=
  match t with
  | TInt b => match ParseInt64 lit with Some v => if (- 2 ^ (b - 1) <=? v) && (v <? 2 ^ (b - 1)) then Ok (GInt v) else mismatch | None => mismatch end
  | TUint b => match ParseUint64 lit with Some v => if v <? 2 ^ b then Ok (GInt v) else mismatch | None => mismatch end
  | TFloat => match ParseFloat lit with Some f => Ok (GFloat f) | None => mismatch end
  | _ => mismatch
  end.
(** encoding/json decode.go, object: a key and what its value does to the field of that name, if there is one. *)
Fixpoint put (fs : list (bytes * ty)) (vs : list gval) (k : bytes) (f : ty -> gval -> res gval) : res (list gval) :=
  match fs, vs with
  | (n, t) :: fs', v :: vs' => if key_eq k n then let! v' := f t v in Ok (v' :: vs') else let! r := put fs' vs' k f in Ok (v :: r)
  | _, _ => Ok vs
  end.
(** encoding/json decode.go, value, array and object.  Simplified: the elements of a slice start from zero; when the
    same key comes twice encoding/json starts from the elements of the first slice. *)
Fixpoint decode (j : json) (t : ty) (old : gval) {struct j} : res gval :=
  match j with
  | JNull => Ok (match t with TSlice _ => GSlice [] | _ => old end)
  | JBool _ => mismatch
  | JNum lit => store_number t lit
  | JStr s => match t with TStr => Ok (GStr s) | _ => mismatch end
  | JArr l =>
    match t with
    | TSlice e =>
      let! vs := (fix elems l := match l with [] => Ok [] | x :: r => let! v := decode x e (zero_of e) in let! vs := elems r in Ok (v :: vs) end) l in
      Ok (GSlice vs)
    | _ => mismatch
    end
  | JObj gs =>
    match t, old with
    | TStruct fs, GStruct vs =>
      let! vs' := (fix fields gs vs := match gs with [] => Ok vs | (k, x) :: r => let! vs' := put fs vs k (decode x) in fields r vs' end) gs vs in
      Ok (GStruct vs')
    | _, _ => mismatch
    end
  end.
(** method.go:54-67. *)
Variable Do : bytes -> list param -> res (Z * json).
Definition GetBlock (hash : bytes) : res gval :=
  let! raw := call Do (str_bytes "getblock") [PStr hash; PInt 3] in let! j := deref (resp_result raw) in decode j BlockResult (zero_of BlockResult).
End Decode.
