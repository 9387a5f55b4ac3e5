(** Model of /repo/xcrypto/mpc_ecdsa.go and scriptless_ecdsa.go.

    The random choices of a party (the Paillier primes and the blinding factor)
    are arguments.  Phases 3 to 5 are modelled on the state that Phase2 leaves;
    calling them before Phase2 panics in the program. *)

From Verif Require Import GoBase BigInt BigMod SecpModel EcdsaModel DerModel PaillierModel.
Local Open Scope Z_scope.

(** mpc_ecdsa.go 24-34: the fields Phase2 sets, with the key. *)
Record eparty := MkEParty {
  ep_D : Z;
  ep_k : Z;
  ep_kinv : option Z;
  ep_hash : bytes;
  ep_encprv : pprv
}.

(** mpc_ecdsa.go 52-59: Phase1; the joint public key. *)
Definition EPhase1 (D : Z) (pub2 : Z * Z) : res (Z * Z) := ScalarMult (fst pub2) (snd pub2) (big_bytes D).

(** mpc_ecdsa.go 63-93: Phase2, with the primes p and q and the blinding factor
    r.  When the encryption fails three nils are returned; the callers go on to
    use them, which panics, so that is an error here. *)
Definition EPhase2 (hmac : bytes -> bytes -> bytes) (fuel : nat) (D : Z) (hash : bytes) (p q r : Z)
  : option (res (Z * ppub * (Z * Z) * eparty)) :=
  let '(encpub, encprv) := GenerateKeyPair p q in
  match Encrypt encpub r D with
  | Panic => Some Panic
  | Err e => Some (Err e)
  | Ok encpk =>
      match NonceRFC6979 hmac fuel curveN D hash with
      | None => None
      | Some k =>
          let kinv := mod_inverse k curveN in
          Some (let! R := ScalarBaseMult (big_bytes k) in
                Ok (encpk, encpub, R, MkEParty D k kinv hash encprv))
      end
  end.

(** mpc_ecdsa.go 97-103: Phase3; the joint R. *)
Definition EPhase3 (pt : eparty) (r2 : Z * Z) : res (Z * Z) := ScalarMult (fst r2) (snd r2) (big_bytes (ep_k pt)).

(** mpc_ecdsa.go 107-141: Phase4. *)
Definition EPhase4 (pt : eparty) (encpk2 : Z) (encpub2 : ppub) (shareR : Z * Z) : res (option Z) :=
  let z := HashToInt (ep_hash pt) in
  let! ct := MultPlaintext encpub2 (Some encpk2) (ep_D pt) in
  let! ct := MultPlaintext encpub2 ct (fst shareR) in
  let! ct := AddPlaintext encpub2 ct z in
  let! kinv := deref (ep_kinv pt) in
  MultPlaintext encpub2 ct kinv.

(** mpc_ecdsa.go 145-166: Phase5. *)
Definition EPhase5 (pt : eparty) (shareR : Z * Z) (sign2 : option Z) : res bytes :=
  let! sig := Decrypt (ep_encprv pt) sign2 in
  let! kinv := deref (ep_kinv pt) in
  let s := lowS ((sig * kinv) mod curveN) in
  if s =? 0 then Err "calculated S is zero" else SigSerialize (fst shareR) s.

(** The run of the repository's test (mpc_ecdsa_test.go 15-57): the joint key
    and R as both see them, and both final signatures. *)
Definition RunEcdsa (hmac : bytes -> bytes -> bytes) (fuel : nat) (prv1 prv2 : Z * (Z * Z)) (hash : bytes)
  (p1 q1 r1 p2 q2 r2 : Z) : option (res ((Z * Z) * (Z * Z) * (Z * Z) * (Z * Z) * bytes * bytes)) :=
  match EPhase2 hmac fuel (fst prv1) hash p1 q1 r1, EPhase2 hmac fuel (fst prv2) hash p2 q2 r2 with
  | Some s1, Some s2 =>
      Some (let! pub1 := EPhase1 (fst prv1) (snd prv2) in
            let! pub2 := EPhase1 (fst prv2) (snd prv1) in
            let! (encpk1, encpub1, R1, pt1) := s1 in
            let! (encpk2, encpub2, R2, pt2) := s2 in
            let! shareR1 := EPhase3 pt1 R2 in
            let! shareR2 := EPhase3 pt2 R1 in
            let! sig1 := EPhase4 pt1 encpk2 encpub2 shareR1 in
            let! sig2 := EPhase4 pt2 encpk1 encpub1 shareR2 in
            let! fs1 := EPhase5 pt1 shareR1 sig2 in
            let! fs2 := EPhase5 pt2 shareR2 sig1 in
            Ok (pub1, pub2, shareR1, shareR2, fs1, fs2))
  | _, _ => None
  end.

(** scriptless_ecdsa.go 50-61: Alice's ScriptlessPhase5. *)
Definition APhase5 (pt : eparty) (sign2 : option Z) : res Z :=
  let! sig := Decrypt (ep_encprv pt) sign2 in
  let! kinv := deref (ep_kinv pt) in
  Ok ((sig * kinv) mod curveN).

(** scriptless_ecdsa.go 64-70: Alice's ScriptlessPhase6. *)
Definition APhase6 (alicesig bobsig : Z) : res Z :=
  let! inv := deref (mod_inverse bobsig curveN) in
  Ok ((alicesig * inv) mod curveN).

(** scriptless_ecdsa.go 91-98: Bob's ScriptlessPhase2; 101-107: ScriptlessPhase3.
    secret.Bytes() is the absolute value. *)
Definition BPhase2 (hmac : bytes -> bytes -> bytes) (fuel : nat) (D secret : Z) (hash : bytes) (p q r : Z)
  : option (res (Z * ppub * (Z * Z) * eparty)) :=
  match EPhase2 hmac fuel D hash p q r with
  | None => None
  | Some s =>
      Some (let! (encpk, encpub, R, pt) := s in
            let! T := ScalarMult (fst R) (snd R) (big_bytes (Z.abs secret)) in
            Ok (encpk, encpub, T, pt))
  end.
Definition BPhase3 (pt : eparty) (secret : Z) (r2 : Z * Z) : res (Z * Z) :=
  let! R := EPhase3 pt r2 in
  ScalarMult (fst R) (snd R) (big_bytes (Z.abs secret)).

(** scriptless_ecdsa.go 115-129: Bob's ScriptlessPhase5. *)
Definition BPhase5 (pt : eparty) (secret : Z) (sign2 : option Z) : res Z :=
  let! sig := Decrypt (ep_encprv pt) sign2 in
  let! kinv := deref (ep_kinv pt) in
  let! tinv := deref (mod_inverse secret curveN) in
  Ok ((sig * kinv * tinv) mod curveN).

(** scriptless_ecdsa.go 129-144: Bob's ScriptlessPhase6. *)
Definition BPhase6 (shareR : Z * Z) (sig : Z) : res bytes :=
  let s := lowS sig in
  if s =? 0 then Err "calculated S is zero" else SigSerialize (fst shareR) s.

(** The run of the repository's test (scriptless_ecdsa_test.go 15-66): the joint
    key and R as both see them, the two numbers of phase 5, what Alice computes
    from them, and the signature Bob publishes. *)
Definition RunScriptless (hmac : bytes -> bytes -> bytes) (fuel : nat) (prv1 prv2 : Z * (Z * Z)) (secret : Z) (hash : bytes)
  (p1 q1 r1 p2 q2 r2 : Z) : option (res ((Z * Z) * (Z * Z) * (Z * Z) * (Z * Z) * Z * Z * Z * bytes)) :=
  match EPhase2 hmac fuel (fst prv1) hash p1 q1 r1, BPhase2 hmac fuel (fst prv2) secret hash p2 q2 r2 with
  | Some s1, Some s2 =>
      Some (let! pub1 := EPhase1 (fst prv1) (snd prv2) in
            let! pub2 := EPhase1 (fst prv2) (snd prv1) in
            let! (encpk1, encpub1, R1, alice) := s1 in
            let! (encpk2, encpub2, R2, bob) := s2 in
            let! shareR1 := EPhase3 alice R2 in
            let! shareR2 := BPhase3 bob secret R1 in
            let! sig1 := EPhase4 alice encpk2 encpub2 shareR1 in
            let! sig2 := EPhase4 bob encpk1 encpub1 shareR2 in
            let! fs1 := APhase5 alice sig2 in
            let! fs2 := BPhase5 bob secret sig1 in
            let! t := APhase6 fs1 fs2 in
            let! der := BPhase6 shareR2 fs2 in
            Ok (pub1, pub2, shareR1, shareR2, fs1, fs2, t, der))
  | _, _ => None
  end.
