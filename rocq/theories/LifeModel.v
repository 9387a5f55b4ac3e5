(** Model of the party objects of /repo/xcrypto/mpc_ecdsa.go and mpc_schnorr.go over their life: methods called in any
    order and any number of times, with Close, and with the caller's buffers changing in between.

    A party keeps the slice it is given as hash (mpc_ecdsa.go:68, mpc_schnorr.go:59), not a copy, so hashes are buffers of the
    caller here: a memory maps buffer numbers to contents.  Nil pointers are [None].  After a panic the object is left as it
    was at that point (the caller may recover).  The private key is the number D; the caller keeps its own reference to the
    key object, which Close does not touch.  encpk (mpc_ecdsa.go:79) is never read and left out. *)
From Verif Require Import GoBase BigInt BigMod SecpModel EcdsaModel DerModel PaillierModel PubKeyModel SchnorrModel.

Definition memory := nat -> bytes.
(** The caller's copy(buffer, c). *)
Definition overwrite (old c : bytes) : bytes := firstn (length old) c ++ skipn (length c) old.
Definition write (m : memory) (b : nat) (c : bytes) : memory := fun i => if Nat.eqb i b then overwrite (m i) c else m i.
(** The hash a party reads: nil before the first Phase2. *)
Definition contents (m : memory) (h : option nat) : bytes := match h with Some b => m b | None => [] end.

(** ** EcdsaParty *)
(** mpc_ecdsa.go:24-34. *)
Record eobject := MkEObject {
  eo_prv : option Z;
  eo_k : option Z;
  eo_kinv : option Z;
  eo_hash : option nat;
  eo_encprv : option pprv
}.

(** The methods, and the caller writing to a buffer.  The random choices of Phase2 are part of the call; [None] means that
    the random source failed (paillier.go:36-47, 74-77). *)
Inductive ecall :=
| EWrite (b : nat) (c : bytes)
| EP1 (pub2 : Z * Z)
| EP2 (b : nat) (primes : option (Z * Z)) (blind : option Z)
| EP3 (r2 : Z * Z)
| EP4 (encpk2 : option Z) (encpub2 : ppub) (shareR : Z * Z)
| EP5 (shareR : Z * Z) (sign2 : option Z)
| EClose.
Inductive eout :=
| ENothing
| EPoint (p : Z * Z)
| ENonce (r : option (Z * ppub * (Z * Z)))
| EShare (ct : option Z)
| ESignature (s : bytes).

(** mpc_ecdsa.go:37-48. *)
Definition NewEcdsaParty (D : Z) : eobject := MkEObject (Some D) None None None None.

Section Ecdsa.
(** What ecdsa.NonceRFC6979 returns for the key and the hash. *)
Variable nonce : Z -> bytes -> Z.

Definition estep (m : memory) (o : eobject) (c : ecall) : memory * eobject * res eout :=
  match c with
  | EWrite b d => (write m b d, o, Ok ENothing)
  | EP1 pub2 => (* mpc_ecdsa.go:52-59 *)
      (m, o, let! D := deref (eo_prv o) in
             let! p := ScalarMult (fst pub2) (snd pub2) (big_bytes D) in
             Ok (EPoint p))
  | EP2 b primes blind => (* mpc_ecdsa.go:63-93; the hash is stored first, the Paillier key next, the nonce last *)
      match eo_prv o with
      | None => (m, o, Panic)
      | Some D =>
          match primes with
          | None => (m, MkEObject (Some D) (eo_k o) (eo_kinv o) (Some b) (eo_encprv o), Ok (ENonce None))
          | Some (p, q) =>
              let '(encpub, encprv) := GenerateKeyPair p q in
              let kept := MkEObject (Some D) (eo_k o) (eo_kinv o) (Some b) (Some encprv) in
              match blind with
              | None => (m, kept, Ok (ENonce None))
              | Some r =>
                  match Encrypt encpub r D with
                  | Panic => (m, kept, Panic)
                  | Err _ => (m, kept, Ok (ENonce None))
                  | Ok encpk =>
                      let k := nonce D (m b) in
                      (m, MkEObject (Some D) (Some k) (mod_inverse k curveN) (Some b) (Some encprv),
                       let! R := ScalarBaseMult (big_bytes k) in Ok (ENonce (Some (encpk, encpub, R))))
                  end
              end
          end
      end
  | EP3 r2 => (* mpc_ecdsa.go:97-103 *)
      (m, o, let! k := deref (eo_k o) in
             let! p := ScalarMult (fst r2) (snd r2) (big_bytes k) in
             Ok (EPoint p))
  | EP4 encpk2 encpub2 shareR => (* mpc_ecdsa.go:107-141 *)
      (m, o, let! D := deref (eo_prv o) in
             let z := HashToInt (contents m (eo_hash o)) in
             let! ct := MultPlaintext encpub2 encpk2 D in
             let! ct := MultPlaintext encpub2 ct (fst shareR) in
             let! ct := AddPlaintext encpub2 ct z in
             match usable ct with
             | None => Err "input.invalid"
             | Some _ => let! kinv := deref (eo_kinv o) in
                         let! ct := MultPlaintext encpub2 ct kinv in Ok (EShare ct)
             end)
  | EP5 shareR sign2 => (* mpc_ecdsa.go:145-164; Decrypt looks at the ciphertext before the key *)
      (m, o, match usable sign2 with
             | None => Err "ciphertext.invalid"
             | Some _ =>
                 let! encprv := deref (eo_encprv o) in
                 let! sig := Decrypt encprv sign2 in
                 let! kinv := deref (eo_kinv o) in
                 let s := lowS ((sig * kinv) mod curveN) in
                 if s =? 0 then Err "calculated S is zero" else
                 let! s := SigSerialize (fst shareR) s in Ok (ESignature s)
             end)
  | EClose => (* mpc_ecdsa.go:167-174 *)
      match eo_k o with
      | None => (m, MkEObject None None (eo_kinv o) (eo_hash o) None, Ok ENothing)
      | Some _ =>
          match eo_kinv o with
          | None => (m, MkEObject None (Some 0) None (eo_hash o) None, Panic)
          | Some _ => (m, MkEObject None (Some 0) (Some 0) (eo_hash o) None, Ok ENothing)
          end
      end
  end.

Fixpoint erun (m : memory) (o : eobject) (cs : list ecall) : memory * eobject * list (res eout) :=
  match cs with
  | [] => (m, o, [])
  | c :: cs => let '(m, o, r) := estep m o c in
               let '(m, o, rs) := erun m o cs in (m, o, r :: rs)
  end.
End Ecdsa.

(** ** SchnorrParty *)
(** mpc_schnorr.go:19-27. *)
Record sobject := MkSObject {
  so_k0 : option Z;
  so_prv : option Z;
  so_pub : Z * Z;
  so_hash : option nat;
  so_r : option (Z * Z)
}.
Inductive scall :=
| SWrite (b : nat) (c : bytes)
| SP1 (pub2 : Z * Z)
| SP2 (b : nat)
| SP3 (r2 : Z * Z)
| SP4 (sharePub shareR : Z * Z)
| SP5 (shareR : Z * Z) (sigs : list bytes)
| SClose.
Inductive sout :=
| SNothing
| SPoint (p : option (Z * Z))
| SShare (s : bytes)
| SSignature (s : bytes).

(** mpc_schnorr.go:30-40. *)
Definition NewSchnorrObject (D : Z) (pub : Z * Z) : sobject := MkSObject None (Some D) pub None None.

Section Schnorr.
Variable sha : bytes -> bytes.

Definition sstep (m : memory) (o : sobject) (c : scall) : memory * sobject * res sout :=
  match c with
  | SWrite b d => (write m b d, o, Ok SNothing)
  | SP1 pub2 => (* mpc_schnorr.go:44-47 *)
      (m, o, let! p := PubAdd (so_pub o) pub2 in Ok (SPoint (Some p)))
  | SP2 b => (* mpc_schnorr.go:51-67 *)
      match so_prv o with
      | None => (m, o, Panic)
      | Some D =>
          match IntToByte D with
          | Err e => (m, o, Err e)
          | Panic => (m, o, Panic)
          | Ok d =>
              match GetK0 sha (m b) d curveN with
              | Panic => (m, MkSObject (so_k0 o) (Some D) (so_pub o) (Some b) (so_r o), Panic)
              | Err _ => (m, MkSObject (so_k0 o) (Some D) (so_pub o) (Some b) (so_r o), Ok (SPoint None))
              | Ok k0 =>
                  match ScalarBaseMult (big_bytes k0) with
                  | Ok r => (m, MkSObject (Some k0) (Some D) (so_pub o) (Some b) (Some r), Ok (SPoint (Some r)))
                  | Err e => (m, MkSObject (Some k0) (Some D) (so_pub o) (Some b) (so_r o), Err e)
                  | Panic => (m, MkSObject (Some k0) (Some D) (so_pub o) (Some b) (so_r o), Panic)
                  end
              end
          end
      end
  | SP3 r2 => (* mpc_schnorr.go:70-76 *)
      (m, o, let! r := deref (so_r o) in
             let! p := curveAdd (fst r) (snd r) (fst r2) (snd r2) in Ok (SPoint (Some p)))
  | SP4 sharePub shareR => (* mpc_schnorr.go:79-103; GetK changes k0 in place (schnorr.go:129), after the key was read *)
      match so_r o with
      | None => (m, o, Panic)
      | Some r =>
          match (let! rb := IntToByte (fst r) in GetE sha (contents m (so_hash o)) (fst sharePub) (snd sharePub) rb) with
          | Err e => (m, o, Err e)
          | Panic => (m, o, Panic)
          | Ok e =>
              match so_prv o, so_k0 o with
              | Some D, Some k0 =>
                  let k := GetK (snd shareR) k0 in
                  (m, MkSObject (Some k) (Some D) (so_pub o) (so_hash o) (so_r o),
                   let! s := IntToByte ((k + e * D) mod curveN) in Ok (SShare s))
              | _, _ => (m, o, Panic)
              end
          end
      end
  | SP5 shareR sigs => (* mpc_schnorr.go:106-124 *)
      (m, o, let aggs := fold_left (fun a sig => a + set_bytes sig) sigs 0 mod curveN in
             let! rb := IntToByte (fst shareR) in
             let! sb := IntToByte aggs in Ok (SSignature (rb ++ sb)))
  | SClose => (* mpc_schnorr.go:127-132 *)
      (m, MkSObject (match so_k0 o with Some _ => Some 0 | None => None end) None (so_pub o) (so_hash o) (so_r o), Ok SNothing)
  end.

Fixpoint srun (m : memory) (o : sobject) (cs : list scall) : memory * sobject * list (res sout) :=
  match cs with
  | [] => (m, o, [])
  | c :: cs => let '(m, o, r) := sstep m o c in
               let '(m, o, rs) := srun m o cs in (m, o, r :: rs)
  end.
End Schnorr.
