(** Model of /repo/xbase/bech32.go.  Strings are byte lists.  Error texts are shortened. *)
From Verif Require Import GoBase.

(** bech32.go:14. *)
Definition charset : bytes := str_bytes "qpzry9x8gf2tvdw0s3jn54khce6mua7l".

(** [strings.ToLower]/[ToUpper] on ASCII (the callers have already rejected non-ASCII bytes). *)
Definition lower1 (c : Z) : Z := if (65 <=? c) && (c <=? 90) then c + 32 else c.
Definition upper1 (c : Z) : Z := if (97 <=? c) && (c <=? 122) then c - 32 else c.
Definition ToLower (s : bytes) : bytes := map lower1 s.
Definition ToUpper (s : bytes) : bytes := map upper1 s.

(** [strings.IndexByte] and [strings.LastIndexByte]: -1 when absent. *)
Fixpoint index_byte_from (i : Z) (s : bytes) (c : Z) : Z :=
  match s with [] => -1 | x :: s' => if x =? c then i else index_byte_from (i + 1) s' c end.
Definition IndexByte (s : bytes) (c : Z) : Z := index_byte_from 0 s c.
Fixpoint last_index_from (i : Z) (s : bytes) (c : Z) (found : Z) : Z :=
  match s with [] => found | x :: s' => last_index_from (i + 1) s' c (if x =? c then i else found) end.
Definition LastIndexByte (s : bytes) (c : Z) : Z := last_index_from 0 s c (-1).

(** bech32.go:95-105. *)
Fixpoint toBytes (chars : bytes) : res bytes :=
  match chars with
  | [] => Ok []
  | c :: r =>
      let index := IndexByte charset c in
      if index <? 0 then Err "invalid character not part of charset" else
      let! d := toBytes r in Ok (u8 index :: d)
  end.

(** bech32.go:108-117. *)
Fixpoint toChars (data : bytes) : res bytes :=
  match data with
  | [] => Ok []
  | b :: r =>
      if len charset <=? b then Err "invalid data byte" else
      let! c := index charset b in
      let! d := toChars r in Ok (c :: d)
  end.

(** bech32.go:140. *)
Definition gen : list Z := [0x3b6a57b2; 0x26508e6d; 0x1ea119fa; 0x3d4233dd; 0x2a1462b3].

(** bech32.go:145-149: the inner loop over the five generator words. *)
Fixpoint gen_loop (g : list Z) (i : Z) (b chk : Z) : Z :=
  match g with
  | [] => chk
  | gi :: g' => gen_loop g' (i + 1) b (if Z.land (Z.shiftr b i) 1 =? 1 then Z.lxor chk gi else chk)
  end.
(** bech32.go:142-150: one iteration. *)
Definition polymod_step (chk v : Z) : Z :=
  let b := Z.shiftr chk 25 in
  gen_loop gen 0 b (Z.lxor (Z.shiftl (Z.land chk 0x1ffffff) 5) v).
(** bech32.go:138-152. *)
Definition bech32Polymod (values : list Z) : Z := fold_left polymod_step values 1.

(** bech32.go:155-165. *)
Definition bech32HrpExpand (hrp : bytes) : list Z :=
  map (fun c => Z.shiftr c 5) hrp ++ [0] ++ map (fun c => Z.land c 31) hrp.

(** bech32.go:120-135. *)
Definition bech32Checksum (hrp data : bytes) : bytes :=
  let values := bech32HrpExpand hrp ++ data ++ [0; 0; 0; 0; 0; 0] in
  let polymod := Z.lxor (bech32Polymod values) 1 in
  map (fun i => u8 (Z.land (Z.shiftr polymod (5 * (5 - i))) 31)) [0; 1; 2; 3; 4; 5].

(** bech32.go:168-175. *)
Definition bech32VerifyChecksum (hrp data : bytes) : bool :=
  bech32Polymod (bech32HrpExpand hrp ++ data) =? 1.

(** bech32.go:19-74. *)
Definition Bech32Decode (bech : bytes) : res (bytes * bytes) :=
  if (len bech <? 8) || (90 <? len bech) then Err "invalid bech32 string length" else
  if existsb (fun c => (c <? 33) || (126 <? c)) bech then Err "invalid character in string" else
  let lower := ToLower bech in
  let upper := ToUpper bech in
  if negb (list_Z_eqb bech lower) && negb (list_Z_eqb bech upper) then Err "string not all lowercase or all uppercase" else
  let bech := lower in
  let one := LastIndexByte bech 49 in
  if (one <? 1) || (len bech <? one + 7) then Err "invalid index of 1" else
  let! hrp := slice bech 0 one in
  let! data := slice bech (one + 1) (len bech) in
  let! decoded := toBytes data in
  let! payload := slice decoded 0 (len decoded - 6) in
  if negb (bech32VerifyChecksum hrp decoded) then Err "checksum failed" else
  Ok (hrp, payload).

(** bech32.go:79-92.  [append(data, checksum...)] may write into the spare capacity of the caller's slice;
    that aliasing is not modelled. *)
Definition Bech32Encode (hrp data : bytes) : res bytes :=
  let combined := data ++ bech32Checksum hrp data in
  let! dataChars := toChars combined in
  Ok (hrp ++ [49] ++ dataChars).
