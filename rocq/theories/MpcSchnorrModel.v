(** Model of /repo/xcrypto/mpc_schnorr.go and of
    /repo/xcrypto/secp256k1/scalar.go. *)

From Verif Require Import GoBase BigInt BigMod SecpModel EcdsaModel PubKeyModel SchnorrModel.
Local Open Scope Z_scope.

(** mpc_schnorr.go 19-27: the fields that change; [None] is nil.  N and curve
    are the constants of the curve. *)
Record sparty := MkSParty {
  sp_k0 : option Z;
  sp_prv : Z;
  sp_pub : Z * Z;
  sp_hash : bytes;
  sp_r : option (Z * Z)
}.

(** mpc_schnorr.go 30-40: NewSchnorrParty, on a key and its public key. *)
Definition NewSchnorrParty (prv : Z * (Z * Z)) : sparty :=
  MkSParty None (fst prv) (snd prv) [] None.

(** mpc_schnorr.go 44-47: Phase1. *)
Definition SPhase1 (p : sparty) (pub2 : Z * Z) : res (Z * Z) := PubAdd (sp_pub p) pub2.

(** mpc_schnorr.go 70-76: Phase3; scalar.go 28-31: Add.  A party without
    its own R panics. *)
Definition SPhase3 (p : sparty) (r2 : Z * Z) : res (Z * Z) :=
  match sp_r p with
  | None => Panic
  | Some r => curveAdd (fst r) (snd r) (fst r2) (snd r2)
  end.

Section WithHash.
Variable sha : bytes -> bytes.

(** mpc_schnorr.go 51-67: Phase2; a zero nonce returns nil with the hash already
    stored. *)
Definition SPhase2 (p : sparty) (hash : bytes) : res (option (Z * Z) * sparty) :=
  let! d := IntToByte (sp_prv p) in
  match GetK0 sha hash d curveN with
  | Panic => Panic
  | Err _ => Ok (None, MkSParty (sp_k0 p) (sp_prv p) (sp_pub p) hash (sp_r p))
  | Ok k0 =>
      let! r := ScalarBaseMult (big_bytes k0) in
      Ok (Some r, MkSParty (Some k0) (sp_prv p) (sp_pub p) hash (Some r))
  end.

(** mpc_schnorr.go 79-103: Phase4.  schnorr.GetK writes its result into the
    party's k0 (schnorr.go 129: k0.Sub(N, k0)). *)
Definition SPhase4 (p : sparty) (sharePub shareR : Z * Z) : res (bytes * sparty) :=
  match sp_k0 p, sp_r p with
  | Some k0, Some r =>
      let! rb := IntToByte (fst r) in
      let! e := GetE sha (sp_hash p) (fst sharePub) (snd sharePub) rb in
      let ed := e * sp_prv p in
      let k := GetK (snd shareR) k0 in
      let s := (k + ed) mod curveN in
      let! sb := IntToByte s in
      Ok (sb, MkSParty (Some k) (sp_prv p) (sp_pub p) (sp_hash p) (sp_r p))
  | _, _ => Panic
  end.

(** mpc_schnorr.go 106-122: Phase5. *)
Definition SPhase5 (shareR : Z * Z) (sigs : list bytes) : res bytes :=
  let aggs := fold_left (fun a sig => a + set_bytes sig) sigs 0 mod curveN in
  let! rb := IntToByte (fst shareR) in
  let! sb := IntToByte aggs in
  Ok (rb ++ sb).

(** The run of the repository's test (mpc_schnorr_test.go 20-62): both parties'
    views of the shared key and R, and the final signature of party 1. *)
Definition RunSchnorr (prv1 prv2 : Z * (Z * Z)) (hash : bytes) : res ((Z * Z) * (Z * Z) * bytes * bytes) :=
  let p1 := NewSchnorrParty prv1 in
  let p2 := NewSchnorrParty prv2 in
  let! pub1 := SPhase1 p1 (snd prv2) in
  let! pub2 := SPhase1 p2 (snd prv1) in
  let! (o1, p1) := SPhase2 p1 hash in
  let! (o2, p2) := SPhase2 p2 hash in
  match o1, o2 with
  | Some r1, Some r2 =>
      let! sr1 := SPhase3 p1 r2 in
      let! sr2 := SPhase3 p2 r1 in
      let! (s1, p1) := SPhase4 p1 pub1 sr1 in
      let! (s2, p2) := SPhase4 p2 pub2 sr2 in
      let! f1 := SPhase5 sr1 [s1; s2] in
      let! f2 := SPhase5 sr2 [s1; s2] in
      Ok (pub1, sr1, f1, f2)
  | _, _ => Panic
  end.
End WithHash.
