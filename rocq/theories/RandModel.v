(** Where new mnemonics come from: xcore/bip39/bip39.go 101-113 and 382-429, on math/rand.
    The generator of math/rand (the 607 words of state and the additive steps) is a function from the 31-bit number it
    is started with and the number of bytes read; the reduction of the seed to that number is written out.  The clock
    is an argument.  The package-wide word list (bip39.go:49-53) is a state that is passed along. *)
From Verif Require Import GoBase Bip39Model Bip39Words SeedModel.
Local Open Scope Z_scope.

(** math/rand/rng.go, rngSource.Seed (Go 1.12): seed % (1<<31 - 1), made positive, and 89482311 in place of zero.
    Everything the source returns afterwards is a function of this number. *)
Definition rng_seed (seed : Z) : Z :=
  let seed := Z.rem seed 2147483647 in
  let seed := if seed <? 0 then seed + 2147483647 else seed in
  if seed =? 0 then 89482311 else seed.

(** bip39.go:382-389. *)
Inductive Wordlists := ENGLISH | CHINESE | JAPANESE.
(** bip39.go:402-409: the list that NewBIP39 makes the package's list. *)
Definition words_of (list : Wordlists) : Datatypes.list bytes :=
  match list with CHINESE => Chinese | JAPANESE => Japanese | ENGLISH => English end.

(** bip39.go:392-395. *)
Record BIP39 := { b39_entropy : bytes; b39_mnemonic : bytes }.

Section Rand.
Variable sha256 : bytes -> bytes.
Variable gen : Z -> Z -> bytes.

(** bip39.go:102-113: [now] is time.Now().UnixNano(). *)
Definition NewEntropyAt (now bitSize : Z) : res bytes := NewEntropy (gen (rng_seed now)) bitSize.

(** bip39.go:398-418.  The second part of the result is the package's list after the call. *)
Definition NewBIP39 (list : Wordlists) (now : Z) : res BIP39 * Datatypes.list bytes :=
  let wordList := words_of list in
  (let! e := NewEntropyAt now 128 in
   let! m := NewMnemonic sha256 wordList e in
   Ok {| b39_entropy := e; b39_mnemonic := m |}, wordList).

(** What a program can do to the package's list: bip39.go:79-85 and 398. *)
Inductive change := CSet (list : Datatypes.list bytes) | CNew (list : Wordlists) (now : Z).
Definition step (wordList : Datatypes.list bytes) (c : change) : Datatypes.list bytes :=
  match c with CSet l => l | CNew l now => snd (NewBIP39 l now) end.
Definition run (wordList : Datatypes.list bytes) (cs : Datatypes.list change) : Datatypes.list bytes := fold_left step cs wordList.

(** bip39.go:427-429. *)
Variable hmac512 : bytes -> bytes -> bytes.
Definition Seed (b : BIP39) : res bytes := NewSeed hmac512 (b39_mnemonic b) (str_bytes "TREZOR").
End Rand.
