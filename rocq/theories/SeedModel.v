(** The seed of a wallet: xcore/bip39/bip39.go 259-271, on xcrypto/pbkdf2 and xcore/bip32.
    HMAC-SHA512 is a function from the key and the message (crypto/hmac and crypto/sha512 are trusted); pbkdf2 makes
    its object with the mnemonic as the key, and its Size is 64.  Strings are byte lists. *)
From Verif Require Import GoBase Bip39Model Pbkdf2Model.
Local Open Scope Z_scope.

Section Seed.
Variable sha256 : bytes -> bytes.
Variable hmac512 : bytes -> bytes -> bytes.
Variable wordList : list bytes.

(** bip39.go 269-271: NewSeed. *)
Definition NewSeed (mnemonic password : bytes) : res bytes :=
  Key (hmac512 mnemonic) 64 (str_bytes "mnemonic" ++ password) 2048 64.

(** bip39.go 259-265: NewSeedWithErrorChecking. *)
Definition NewSeedWithErrorChecking (mnemonic password : bytes) : res bytes :=
  let! _ := MnemonicToByteArray sha256 wordList mnemonic false in
  NewSeed mnemonic password.
End Seed.
