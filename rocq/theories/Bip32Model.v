(** Model of /repo/xcore/bip32/hdkey.go.

    HMAC-SHA512, SHA-256 and HASH160 are parameters.  Errors of fmt.Errorf are
    told apart by their text without the formatted values. *)
From Verif Require Import GoBase BigInt BigMod SecpModel EcdsaModel PubKeyModel Base58Model.
Local Open Scope Z_scope.

(** hdkey.go 51-59: HDKey; a private key is D with its point. *)
Record hdkey := MkHDKey {
  hk_childNum : bytes;
  hk_parentFP : bytes;
  hk_chainCode : bytes;
  hk_depth : Z;
  hk_isPrivate : bool;
  hk_prv : option (Z * (Z * Z));
  hk_pub : option (Z * Z)
}.

(** hdkey.go 38: HardenedKeyStart; 47: serializedKeyLen. *)
Definition HardenedKeyStart : Z := 0x80000000.
Definition serializedKeyLen : Z := 4 + 1 + 4 + 4 + 32 + 33.

(** A nil pointer that is used. *)
Definition need {A} (o : option A) : res A := match o with Some x => Ok x | None => Panic end.

(** hdkey.go 324-328: uint32ToBytes. *)
Definition uint32ToBytes (i : Z) : bytes :=
  [u8 (Z.shiftr i 24); u8 (Z.shiftr i 16); u8 (Z.shiftr i 8); u8 i].

Section Hd.
Variable hmac512 : bytes -> bytes -> bytes.
Variable hash160 : bytes -> bytes.
Variable sha256 : bytes -> bytes.

(** hdkey.go 62-82: NewHDKey. *)
Definition NewHDKey (seed : bytes) : res hdkey :=
  let intermediary := hmac512 (str_bytes "Bitcoin seed") seed in
  let! keyBytes := slice intermediary 0 32 in
  let! chainCode := slice intermediary 32 (len intermediary) in
  let! prvkey := PrvKeyFromBytes keyBytes in
  Ok (MkHDKey [0; 0; 0; 0] [0; 0; 0; 0] chainCode 0 true (Some prvkey) None).

(** hdkey.go 205-225: getIntermediary. *)
Definition getIntermediary (k : hdkey) (childIdx : Z) : res bytes :=
  let! data :=
    if HardenedKeyStart <=? childIdx then
      let! prv := need (hk_prv k) in Ok ([0] ++ PrvSerialize (fst prv))
    else if hk_isPrivate k then
      let! prv := need (hk_prv k) in Serialize (snd prv)
    else
      let! pub := need (hk_pub k) in Serialize pub in
  Ok (hmac512 (hk_chainCode k) (data ++ uint32ToBytes childIdx)).

(** hdkey.go 113-163: Derive. *)
Definition Derive (k : hdkey) (childIdx : Z) : res hdkey :=
  let isChildHardened := HardenedKeyStart <=? childIdx in
  if negb (hk_isPrivate k) && isChildHardened then Err "hdkey.derive.a.hardened.key.from.public.key.erro"
  else
    let! intermediary := getIntermediary k childIdx in
    let childNum := uint32ToBytes childIdx in
    let! chainCode := slice intermediary 32 (len intermediary) in
    let depth := u8 (hk_depth k + 1) in
    let! prvkeyBytes := slice intermediary 0 32 in
    if hk_isPrivate k then
      let! prv := need (hk_prv k) in
      let! pubkeyBytes := Serialize (snd prv) in
      let! fp := slice (hash160 pubkeyBytes) 0 4 in
      let! child := PrvAdd (fst prv) prvkeyBytes in
      Ok (MkHDKey childNum fp chainCode depth true (Some child) None)
    else
      let! pub := need (hk_pub k) in
      let! pubkeyBytes := Serialize pub in
      let! fp := slice (hash160 pubkeyBytes) 0 4 in
      let! privkey := PrvKeyFromBytes prvkeyBytes in
      let! unc := SerializeUncompressed (snd privkey) in
      let! p2 := PubKeyFromBytes unc in
      let! child := PubAdd pub p2 in
      Ok (MkHDKey childNum fp chainCode depth false None (Some child)).

(** strings.Split(path, "/"): the parts between slashes; never empty. *)
Fixpoint split_slash (s cur : bytes) : list bytes :=
  match s with
  | [] => [cur]
  | c :: r => if c =? 47 then cur :: split_slash r [] else split_slash r (cur ++ [c])
  end.

(** strconv.ParseUint(s, 10, 32): decimal digits only, at least one, no larger
    than 2^32 - 1; which error is returned does not matter to the caller. *)
Definition is_digit (c : Z) : bool := (48 <=? c) && (c <=? 57).
Definition ParseUint32 (s : bytes) : option Z :=
  if (0 <? len s) && forallb is_digit s then
    let v := fold_left (fun acc c => acc * 10 + (c - 48)) s 0 in
    if v <=? 2 ^ 32 - 1 then Some v else None
  else None.

(** hdkey.go 177-199: the loop of DeriveByPath.  step[len(step)-1] panics for
    an empty step. *)
Fixpoint path_loop (hd : hdkey) (steps : list bytes) : res hdkey :=
  match steps with
  | [] => Ok hd
  | step :: rest =>
      let! last := index step (len step - 1) in
      let isHardened := last =? 39 in
      let step := if isHardened then firstn (length step - 1) step else step in
      match ParseUint32 step with
      | None => Err "hdkey.derive.path.invalid"
      | Some idx =>
          let idx := if isHardened then u64 (idx + HardenedKeyStart) else idx in
          let! hd := Derive hd (u32 idx) in
          path_loop hd rest
      end
  end.

(** hdkey.go 167-201: DeriveByPath. *)
Definition DeriveByPath (k : hdkey) (path : bytes) : res hdkey :=
  if len path =? 0 then Ok k
  else
    match split_slash path [] with
    | [] => Panic
    | step0 :: steps =>
        if negb (list_Z_eqb step0 (str_bytes "m")) then Err "hdkey.derive.path.invalid"
        else path_loop k steps
    end.

(** hdkey.go 227-240: HDPublicKey. *)
Definition HDPublicKey (k : hdkey) : res hdkey :=
  let! pubkey := match hk_pub k with
                 | Some p => Ok p
                 | None => let! prv := need (hk_prv k) in Ok (snd prv)
                 end in
  Ok (MkHDKey (hk_childNum k) (hk_parentFP k) (hk_chainCode k) (hk_depth k) false None (Some pubkey)).

(** hdkey.go 243-248: PublicKey; 252-254: PrivateKey is the field. *)
Definition PublicKey (k : hdkey) : res (option (Z * Z)) :=
  if hk_isPrivate k then let! prv := need (hk_prv k) in Ok (Some (snd prv)) else Ok (hk_pub k).

(** hdkey.go 257-283: ToString, with the two version strings of the network. *)
Definition ToString (prvID pubID : bytes) (k : hdkey) : res bytes :=
  let! (version, keyBytes) :=
    if hk_isPrivate k then
      let! prv := need (hk_prv k) in Ok (prvID, [0] ++ PrvSerialize (fst prv))
    else
      let! pub := need (hk_pub k) in
      let! b := Serialize pub in Ok (pubID, b) in
  let data := version ++ [hk_depth k] ++ hk_parentFP k ++ hk_childNum k ++ hk_chainCode k ++ keyBytes in
  let! checksum := slice (sha256 (sha256 data)) 0 4 in
  Ok (Base58Encode (data ++ checksum)).

(** hdkey.go 286-322: NewHDKeyFromString. *)
Definition NewHDKeyFromString (wif : bytes) : res hdkey :=
  let data := Base58Decode wif in
  if negb (len data =? serializedKeyLen + 4) then Err "hdkey.serialized.key.wrong.size"
  else
    let! depth := index data 4 in
    let! parentFP := slice data 5 9 in
    let! childNum := slice data 9 13 in
    let! chainCode := slice data 13 45 in
    let! mark := index data 45 in
    let! k :=
      if mark =? 0 then
        let! kb := slice data 46 78 in
        let! prv := PrvKeyFromBytes kb in
        Ok (MkHDKey childNum parentFP chainCode depth true (Some prv) None)
      else
        let! kb := slice data 45 78 in
        let! pub := PubKeyFromBytes kb in
        Ok (MkHDKey childNum parentFP chainCode depth false None (Some pub)) in
    let! body := slice data 0 (len data - 4) in
    let! cs1 := slice (sha256 (sha256 body)) 0 4 in
    let! cs2 := slice data (len data - 4) (len data) in
    if list_Z_eqb cs1 cs2 then Ok k else Err "hdkey.checksum.mismatch".
End Hd.
