(** xcore/bip39/bip39.go: mnemonic sentences.  Strings are byte lists (UTF-8). *)
From Verif Require Import GoBase BigInt.

(** [strings.Fields] (Go's library): length in bytes of the white space rune [s] starts with, 0 if none.  No byte of a
    longer white space rune after its first starts a rune, so scanning bytes and scanning runes agree. *)
Definition space_len (s : bytes) : nat :=
  match s with
  | c :: r =>
    if ((9 <=? c) && (c <=? 13)) || (c =? 32) then 1%nat
    else match r with
    | d :: r' =>
      if (c =? 0xC2) && ((d =? 0x85) || (d =? 0xA0)) then 2%nat
      else match r' with
      | e :: _ =>
        if (c =? 0xE1) && (d =? 0x9A) && (e =? 0x80) then 3%nat
        else if (c =? 0xE2) && (d =? 0x80) && (((0x80 <=? e) && (e <=? 0x8A)) || (e =? 0xA8) || (e =? 0xA9) || (e =? 0xAF)) then 3%nat
        else if (c =? 0xE2) && (d =? 0x81) && (e =? 0x9F) then 3%nat
        else if (c =? 0xE3) && (d =? 0x80) && (e =? 0x80) then 3%nat
        else 0%nat
      | [] => 0%nat
      end
    | [] => 0%nat
    end
  | [] => 0%nat
  end.
Definition flush (cur : bytes) (rest : list bytes) : list bytes := match cur with [] => rest | _ => cur :: rest end.
Fixpoint fields_from (skip : nat) (cur : bytes) (s : bytes) : list bytes :=
  match s with
  | [] => flush cur []
  | c :: r =>
    match skip with
    | S k => fields_from k cur r
    | O => match space_len s with
           | O => fields_from O (cur ++ [c]) r
           | S k => flush cur (fields_from k [] r)
           end
    end
  end.
Definition Fields (s : bytes) : list bytes := fields_from O [] s.
(** [strings.Split(s, " ")]. *)
Fixpoint split_from (cur : bytes) (s : bytes) : list bytes :=
  match s with
  | [] => [cur]
  | c :: r => if c =? 32 then cur :: split_from [] r else split_from (cur ++ [c]) r
  end.
Definition Split (s : bytes) : list bytes := split_from [] s.
(** [strings.Join(ws, " ")]. *)
Fixpoint Join (ws : list bytes) : bytes :=
  match ws with
  | [] => []
  | [w] => w
  | w :: r => w ++ [32] ++ Join r
  end.

(** bip39.go:343-352. *)
Definition padByteSlice (slice : bytes) (length : Z) : bytes :=
  let offset := length - len slice in
  if offset <=? 0 then slice else repeat 0 (Z.to_nat offset) ++ slice.
(** bip39.go:355-365. *)
Definition compareByteSlices (a b : bytes) : bool := if negb (len a =? len b) then false else forallb (fun p => fst p =? snd p) (combine a b).
(** bip39.go:334-339. *)
Definition validateEntropyBitSize (bitSize : Z) : bool := (Z.rem bitSize 32 =? 0) && (128 <=? bitSize) && (bitSize <=? 256).
(** [binary.BigEndian.Uint16]. *)
Definition be16 (b : bytes) : res Z := let! hi := index b 0 in let! lo := index b 1 in Ok (Z.lor (Z.shiftl hi 8) lo).

Section Bip39.
Variable sha256 : bytes -> bytes.
(** bip39.go:49-53: the package-wide list.  The map is the list read backwards: a later word overwrites an earlier one. *)
Variable wordList : list bytes.
(** bip39.go:77-95. *)
Fixpoint last_index (i : Z) (l : list bytes) (w : bytes) : option Z :=
  match l with
  | [] => None
  | x :: r => match last_index (i + 1) r w with Some j => Some j | None => if list_Z_eqb x w then Some i else None end
  end.
Definition GetWordIndex (w : bytes) : option Z := last_index 0 wordList w.

(** bip39.go:101-111.  The random generator is a function from the number of bytes wanted. *)
Definition NewEntropy (random : Z -> bytes) (bitSize : Z) : res bytes :=
  if validateEntropyBitSize bitSize then Ok (random (Z.quot bitSize 8)) else Err "ErrEntropyLengthInvalid".

(** bip39.go:299-330.  The loop counter runs over [checksumBitLength] values from [i]; [1<<(7-i)] is a byte, 0 when the
    shift count underflows. *)
Fixpoint checksum_loop (k : nat) (i : Z) (first v : Z) : Z :=
  match k with
  | O => v
  | S k' =>
    let v := v * 2 in
    let bit := if i <=? 7 then Z.shiftl 1 (7 - i) else 0 in
    let v := if 0 <? Z.land first bit then Z.lor v 1 else v in
    checksum_loop k' (i + 1) first v
  end.
Definition addChecksum (data : bytes) : res bytes :=
  let! first := index (sha256 data) 0 in
  Ok (big_bytes (checksum_loop (Z.to_nat (Z.quot (len data) 4)) 0 first (set_bytes data))).

(** bip39.go:194-204. *)
Fixpoint words_loop (k : nat) (v : Z) (acc : list bytes) : res (list bytes) :=
  match k with
  | O => Ok acc
  | S k' =>
    let word := Z.land v 2047 in
    let v := v / 2048 in
    let! idx := be16 (padByteSlice (big_bytes word) 2) in
    let! w := index wordList idx in
    words_loop k' v (w :: acc)
  end.
(** bip39.go:166-207. *)
Definition NewMnemonic (entropy : bytes) : res bytes :=
  let entropyBitLength := len entropy * 8 in
  let checksumBitLength := Z.quot entropyBitLength 32 in
  let sentenceLength := Z.quot (entropyBitLength + checksumBitLength) 11 in
  if negb (validateEntropyBitSize entropyBitLength) then Err "ErrEntropyLengthInvalid" else
  let! entropy := addChecksum entropy in
  let! words := words_loop (Z.to_nat sentenceLength) (set_bytes entropy) [] in
  Ok (Join words).

(** bip39.go:367-379. *)
Definition count_ok (n : Z) : bool := (Z.rem n 3 =? 0) && (12 <=? n) && (n <=? 24).
Definition splitMnemonicWords (mnemonic : bytes) : option (list bytes) := let words := Fields mnemonic in if count_ok (len words) then Some words else None.
(** bip39.go:27-46: the two maps.  A missing entry is a nil pointer. *)
Definition checksum_mask (n : Z) : res Z :=
  if n =? 12 then Ok 15 else if n =? 15 then Ok 31 else if n =? 18 then Ok 63 else if n =? 21 then Ok 127 else if n =? 24 then Ok 255 else Panic.
Definition checksum_shift (n : Z) : res Z :=
  if n =? 12 then Ok 16 else if n =? 15 then Ok 8 else if n =? 18 then Ok 4 else if n =? 21 then Ok 2 else Panic.
(** bip39.go:123-134.  [uint16(index)] through two bytes. *)
Fixpoint decode_words (ws : list bytes) (b : Z) : res Z :=
  match ws with
  | [] => Ok b
  | w :: r =>
    match GetWordIndex w with
    | None => Err "word not found in reverse map"
    | Some i => decode_words r (Z.lor (b * 2048) (u16 i))
    end
  end.
(** bip39.go:117-162. *)
Definition EntropyFromMnemonic (mnemonic : bytes) : res bytes :=
  match splitMnemonicWords mnemonic with
  | None => Err "ErrInvalidMnemonic"
  | Some ws =>
    let! b := decode_words ws 0 in
    let! mask := checksum_mask (len ws) in
    let checksum := Z.land b mask in
    let b := b / (mask + 1) in
    let entropy := padByteSlice (big_bytes b) (Z.quot (len ws) 3 * 4) in
    let! first := index (sha256 entropy) 0 in
    let! entropyChecksum := if len ws =? 24 then Ok first else let! sh := checksum_shift (len ws) in Ok (first / sh) in
    if checksum =? entropyChecksum then Ok entropy else Err "ErrChecksumIncorrect"
  end.

(** bip39.go:276-295. *)
Definition IsMnemonicValid (mnemonic : bytes) : bool :=
  let words := Fields mnemonic in
  count_ok (len words) && forallb (fun w => match GetWordIndex w with Some _ => true | None => false end) words.
(** bip39.go:229-233: a word that is not in the map counts as 0. *)
Fixpoint sum_words (ws : list bytes) (b : Z) : Z :=
  match ws with
  | [] => b
  | w :: r => sum_words r (b * 2048 + match GetWordIndex w with Some i => i | None => 0 end)
  end.
(** bip39.go:212-256. *)
Definition MnemonicToByteArray (mnemonic : bytes) (raw : bool) : res bytes :=
  let ws := Split mnemonic in
  let entropyBitSize := len ws * 11 in
  let checksumBitSize := Z.rem entropyBitSize 32 in
  let fullByteSize := Z.quot (entropyBitSize - checksumBitSize) 8 + 1 in
  let checksumByteSize := fullByteSize - Z.rem fullByteSize 4 in
  if negb (IsMnemonicValid mnemonic) then Err "ErrInvalidMnemonic" else
  let checksummedEntropy := sum_words ws 0 in
  let rawEntropy := checksummedEntropy / 2 ^ checksumBitSize in
  let rawEntropyBytes := padByteSlice (big_bytes rawEntropy) checksumByteSize in
  let checksummedEntropyBytes := padByteSlice (big_bytes checksummedEntropy) fullByteSize in
  let! again := addChecksum rawEntropyBytes in
  if negb (compareByteSlices checksummedEntropyBytes (padByteSlice again fullByteSize)) then Err "ErrChecksumIncorrect" else
  Ok (if raw then rawEntropyBytes else checksummedEntropyBytes).
End Bip39.
