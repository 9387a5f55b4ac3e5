(** Model of /repo/xcrypto/paillier.  The random numbers (two primes, and one
    number for every encryption) are arguments; rand.Reader failing is not
    modelled.  A *big.Int that can be nil is an option. *)

From Verif Require Import GoBase NumTheory BigMod.
Local Open Scope Z_scope.

(** paillier.go 22-33: PubKey, PrvKey. *)
Record ppub := PPub { ppG : Z; ppN : Z; ppNN : Z }.
Record pprv := PPrv { skmu : option Z; skpk : ppub; sklambda : Z }.

(** Using a nil *big.Int panics. *)
Definition deref {A} (x : option A) : res A := match x with Some v => Ok v | None => Panic end.

(** paillier.go 101-105: phi. *)
Definition phi (x y : Z) : Z := (x - 1) * (y - 1).

(** paillier.go 36-65: GenerateKeyPair, with the two primes. *)
Definition GenerateKeyPair (p q : Z) : ppub * pprv :=
  let n := p * q in
  let pk := PPub (n + 1) n (n * n) in
  let lambda := phi p q in
  (pk, PPrv (mod_inverse lambda n) pk lambda).

(** paillier.go 68-84: Encrypt, with the random number r. *)
Definition Encrypt (pk : ppub) (r msg : Z) : res Z :=
  if (msg <? 0) || (ppN pk <=? msg) then Err "plaintext.invalid"
  else
    let! r := deref (big_exp r (ppN pk) (ppNN pk)) in
    let! m := deref (big_exp (ppG pk) msg (ppNN pk)) in
    Ok ((m * r) mod ppNN pk).

(** paillier.go 108-110: l; big.Int.Div is Euclidean, which is the floor for a
    positive divisor. *)
Definition lfun (x n : Z) : Z := (x - 1) / n.

(** The test `ct == nil || ct.Cmp(zero) != 1`. *)
Definition usable (ct : option Z) : option Z :=
  match ct with Some c => if 0 <? c then Some c else None | None => None end.

(** paillier.go 87-98: Decrypt. *)
Definition Decrypt (sk : pprv) (ct : option Z) : res Z :=
  match usable ct with
  | None => Err "ciphertext.invalid"
  | Some c =>
      let! clambda := deref (big_exp c (sklambda sk) (ppNN (skpk sk))) in
      let m := lfun clambda (ppN (skpk sk)) in
      let! mu := deref (skmu sk) in
      Ok ((m * mu) mod ppN (skpk sk))
  end.

(** homomorphism.go 16-22: MultPlaintext; Exp returns nil for a negative
    exponent and a base without an inverse. *)
Definition MultPlaintext (pk : ppub) (ct : option Z) (msg : Z) : res (option Z) :=
  match usable ct with
  | None => Err "input.invalid"
  | Some c => Ok (big_exp c msg (ppNN pk))
  end.

(** homomorphism.go 26-34: AddPlaintext. *)
Definition AddPlaintext (pk : ppub) (ct : option Z) (msg : Z) : res (option Z) :=
  match usable ct with
  | None => Err "input.invalid"
  | Some c =>
      let! ct2 := deref (big_exp (ppG pk) msg (ppNN pk)) in
      Ok (Some ((c * ct2) mod ppNN pk))
  end.

(** homomorphism.go 38-44: DivPlaintext; Exp with a nil exponent panics. *)
Definition DivPlaintext (pk : ppub) (ct : option Z) (msg : Z) : res (option Z) :=
  match usable ct with
  | None => Err "input.invalid"
  | Some c =>
      let! inv := deref (mod_inverse msg (ppNN pk)) in
      Ok (big_exp c inv (ppNN pk))
  end.

(** homomorphism.go 49-55: Add. *)
Definition PAdd (pk : ppub) (ct1 ct2 : option Z) : res (option Z) :=
  match usable ct1, usable ct2 with
  | Some c1, Some c2 => Ok (Some ((c1 * c2) mod ppNN pk))
  | _, _ => Err "input.invalid"
  end.

(** homomorphism.go 62-66: Sub. *)
Definition PSub (pk : ppub) (c1 c2 : Z) : res Z :=
  let! neg := deref (mod_inverse c2 (ppNN pk)) in
  Ok ((c1 * neg) mod ppNN pk).
