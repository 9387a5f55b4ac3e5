(** C101: transactions signed elsewhere, by one key, by two parties, or by two parties with an adaptor. *)
From Coq Require Import Znumtheory.
From Verif Require Import GoBase BaseLemmas NumTheory BigMod SecpModel SecpGroup SecpOrder SecpProofs SecpCyclic SecpSpec SecpLink EcdsaModel EcdsaSpec EcdsaNonce EcdsaProofs PubKeyModel PubKeySpec PubKeyProofs PubKeyProps
  SchnorrProps DerModel DerSpec DerProps PaillierModel MpcEcdsaModel MpcEcdsaProps MpcAdaptorProps RipemdSpec LockSpec TxModel TxSpec TxSignSpec TxSig WholeModel WholeProofs WholeProps EmbedProofs.
Local Open Scope Z_scope.

(** [der] is a signature of [h] under the point that [key] encodes, as the signers hand it over. *)
Definition good_signature (h key der : bytes) : Prop :=
  exists x y, good (Some (x, y)) /\ SerializeCompressed (x, y) = Ok key /\ DerModel.EcdsaVerify x y h der = Ok tt /\
    bytes_ok h /\ bytes_ok der /\ 1 <= len der <= 100.

(** [h] is the hash of input [n] of [t]; the input [i] is locked to the hash of the key. *)
Definition input_for (sha256 : bytes -> bytes) (t : transaction) (ht : Z) (n : nat) (i : TxIn) (h key : bytes) : Prop :=
  exists (w : bool) tn, asked (DoubleSha256 sha256) ht t tn /\ to_sign (DoubleSha256 sha256) tn (Z.of_nat n) ht w h /\
    if w then spends_p2wpkh (Hash160 sha256 key) i else spends_p2pkh (Hash160 sha256 key) i.

Theorem C101_embedded_verifies : forall sha256 ht l t t', hash32 sha256 -> 0 <= ht < 256 -> asked (DoubleSha256 sha256) ht t t' ->
  length l = length (tx_ins t) ->
  (forall n i key der, nth_error (tx_ins t) n = Some i -> nth_error l n = Some (key, der) ->
    exists h, input_for sha256 t ht n i h key /\ good_signature h key der) ->
  exists t2, embed_each sha256 ht 0 l t' = Ok t2 /\ core t2 = core t /\ WVerify sha256 t2 = Ok tt.
Proof.
  intros sha256 ht l t t' Hs R Ask L F.
  apply (embedded_verifies (Hash160 sha256) sha256 (DoubleSha256 sha256) sigVerifyFn ht l t t' (hashes sha256 Hs) R Ask L).
  intros n i key der Ni Nl. destruct (F n i key der Ni Nl) as (h & (w & tn & An & Ts & Sp) & x & y & G & Ek & Ev & Oh & Od & Ld).
  exists tn. split; [exact An | ]. exists w, h. split; [exact Sp | ]. split; [exact Ts | ].
  destruct (C70_roundtrip x y G) as (E1 & _ & _ & RT). destruct (RT SerializeCompressed key ltac:(cbn; tauto) Ek) as [_ PK].
  assert (KB : bytes_ok key /\ len key = 33).
  { assert (key = (2 + parity y) :: octets 32 x) by congruence. subst key. pose proof (parity_range y) as P.
    split; [apply bytes_ok_cons; split; [unfold is_byte; lia | apply octets_ok] | unfold len; cbn [length]; rewrite octets_length; reflexivity]. }
  destruct KB as [Kb Lk]. split; [ | rewrite Lk; repeat split; try assumption; lia].
  unfold sigVerifyFn. rewrite (proj2 (is_bytes_ok h) Oh), (proj2 (is_bytes_ok der) Od), (proj2 (is_bytes_ok key) Kb). cbn [andb].
  rewrite PK. cbn [rbind fst snd]. exact Ev.
Qed.
Print Assumptions C101_embedded_verifies.

(** The two parties of [RunEcdsa] hold shares [D1] and [D2] of the secret and sign [h]; what has to hold is what C62 asks for. *)
Definition two_party_signature (h key der : bytes) : Prop :=
  exists hmac fuel D1 D2 prv1 prv2 p1 q1 r1 p2 q2 r2 k1 k2 Q R pub pub2 R1 R2 der2,
    1 <= D1 < order_n /\ 1 <= D2 < order_n /\ pair_of D1 prv1 /\ pair_of D2 prv2 /\
    paillier_primes p1 q1 /\ paillier_primes p2 q2 /\ Z.gcd r1 (p1 * q1) = 1 /\ Z.gcd r2 (p2 * q2) = 1 /\
    NonceRFC6979 hmac fuel order_n D1 h = Some k1 /\ NonceRFC6979 hmac fuel order_n D2 h = Some k2 /\
    multiple base (D1 * D2) Q /\ multiple base (k1 * k2) R /\ px R < order_n /\
    (let m := message_int h + D1 * D2 * px R in
     D1 < p1 * q1 /\ D2 < p2 * q2 /\ MpcEcdsaProps.fits k1 m (p2 * q2) /\ MpcEcdsaProps.fits k2 m (p1 * q1)) /\
    RunEcdsa hmac fuel prv1 prv2 h p1 q1 r1 p2 q2 r2 = Some (Ok (pub, pub2, R1, R2, der, der2)) /\
    SerializeCompressed pub = Ok key.

Lemma joint_point : forall D1 D2 Q, 1 <= D1 < order_n -> 1 <= D2 < order_n -> multiple base (D1 * D2) Q ->
  good (Some (px Q, py Q)).
Proof.
  intros D1 D2 Q H1 H2 M. rewrite order_n_eq in *. assert (DD : 0 <= D1 * D2) by (apply Z.mul_nonneg_nonneg; lia).
  apply key_point in M; [ | exact DD]. destruct Q as [[x y] | ]; [exact (gof_is_good _ _ M) | exfalso].
  assert (Z0 : gmul (D1 * D2) gG = g0) by (apply enc_inj; rewrite (gof_enc _ _ M); reflexivity).
  apply gmul_G_0 in Z0. exact (nz_product D1 D2 (small_mod _ H1) (small_mod _ H2) Z0).
Qed.

Lemma sizes : forall sig r s e Q, bytes_ok sig -> der_sig sig r s -> 1 <= s <= order_n / 2 -> ecdsa_valid Q e r s -> 1 <= len sig <= 100.
Proof.
  intros sig r s e Q O D Hs (Hr & _). destruct (sig_bounds r s Hr Hs) as [B1 B2]. pose proof (der_sig_len sig r s D O B1 B2). lia.
Qed.

Lemma two_party_good : forall h key der, bytes_ok h -> two_party_signature h key der -> good_signature h key der.
Proof.
  intros h key der Oh (hmac & fuel & D1 & D2 & prv1 & prv2 & p1 & q1 & r1 & p2 & q2 & r2 & k1 & k2 & Q & R & pub & pub2 & R1 & R2 & der2 & HD).
  destruct HD as (H1 & H2 & K1 & K2 & P1 & P2 & G1 & G2 & N1 & N2 & MQ & MR & LX & (L1 & L2 & F1 & F2) & E & Ek).
  destruct (C62_run hmac fuel D1 D2 prv1 prv2 h p1 q1 r1 p2 q2 r2 k1 k2 Q R Oh H1 H2 K1 K2 P1 P2 G1 G2 N1 N2 MQ MR L1 L2 F1 F2)
    as [[_ C] | (s & sig & E' & [Os Ds] & Rs & _ & V & _)]; [rewrite C in E; discriminate E | ].
  rewrite E' in E. assert (EP : (px Q, py Q) = pub) by congruence. assert (ES : sig = der) by congruence. subst pub der.
  destruct (V LX) as [Va Ve]. exists (px Q), (py Q). split; [exact (joint_point D1 D2 Q H1 H2 MQ) | ]. split; [exact Ek | ]. split; [exact Ve | ].
  split; [exact Oh | ]. split; [exact Os | ]. exact (sizes sig (px R) s _ Q Os Ds Rs Va).
Qed.

(** The same with the adaptor of [RunScriptless]; the signature is the one Bob publishes. *)
Definition adaptor_signature (h key der : bytes) (secret : Z) : Prop :=
  exists hmac fuel D1 D2 prv1 prv2 p1 q1 r1 p2 q2 r2 k1 k2 Q R pub pub2 R1 R2 fs1 fs2 found,
    1 <= D1 < order_n /\ 1 <= D2 < order_n /\ pair_of D1 prv1 /\ pair_of D2 prv2 /\ 0 <= secret /\ secret mod order_n <> 0 /\
    paillier_primes p1 q1 /\ paillier_primes p2 q2 /\ Z.gcd r1 (p1 * q1) = 1 /\ Z.gcd r2 (p2 * q2) = 1 /\
    NonceRFC6979 hmac fuel order_n D1 h = Some k1 /\ NonceRFC6979 hmac fuel order_n D2 h = Some k2 /\
    multiple base (D1 * D2) Q /\ multiple base (k1 * k2 * secret) R /\ px R < order_n /\
    (let m := message_int h + D1 * D2 * px R in
     D1 < p1 * q1 /\ D2 < p2 * q2 /\ MpcEcdsaProps.fits k1 m (p2 * q2) /\ MpcEcdsaProps.fits k2 m (p1 * q1)) /\
    RunScriptless hmac fuel prv1 prv2 secret h p1 q1 r1 p2 q2 r2 = Some (Ok (pub, pub2, R1, R2, fs1, fs2, found, der)) /\
    SerializeCompressed pub = Ok key.

Lemma adaptor_good : forall h key der secret, bytes_ok h -> adaptor_signature h key der secret -> good_signature h key der.
Proof.
  intros h key der secret Oh (hmac & fuel & D1 & D2 & prv1 & prv2 & p1 & q1 & r1 & p2 & q2 & r2 & k1 & k2 & Q & R & pub & pub2 & R1 & R2 & fs1 & fs2 & found & HD).
  destruct HD as (H1 & H2 & K1 & K2 & S0 & SN & P1 & P2 & G1 & G2 & N1 & N2 & MQ & MR & LX & (L1 & L2 & F1 & F2) & E & Ek).
  destruct (C63_run hmac fuel D1 D2 prv1 prv2 secret h p1 q1 r1 p2 q2 r2 k1 k2 Q R Oh H1 H2 K1 K2 S0 SN P1 P2 G1 G2 N1 N2 MQ MR L1 L2 F1 F2)
    as [[_ C] | (f1 & f2 & s & sig & E' & _ & _ & [Os Ds] & Rs & V & _)]; [rewrite C in E; discriminate E | ].
  rewrite E' in E. assert (EP : (px Q, py Q) = pub) by congruence. assert (ES : sig = der) by congruence. subst pub der.
  destruct (V LX) as [Va Ve]. exists (px Q), (py Q). split; [exact (joint_point D1 D2 Q H1 H2 MQ) | ]. split; [exact Ek | ]. split; [exact Ve | ].
  split; [exact Oh | ]. split; [exact Os | ]. exact (sizes sig (px R) s _ Q Os Ds Rs Va).
Qed.

(** Every input is signed by two parties, with or without an adaptor. *)
Theorem C101_two_party_spend : forall sha256 ht l t t', hash32 sha256 -> 0 <= ht < 256 -> asked (DoubleSha256 sha256) ht t t' ->
  length l = length (tx_ins t) ->
  (forall n i key der, nth_error (tx_ins t) n = Some i -> nth_error l n = Some (key, der) ->
    exists h, bytes_ok h /\ input_for sha256 t ht n i h key /\ (two_party_signature h key der \/ exists secret, adaptor_signature h key der secret)) ->
  exists t2, embed_each sha256 ht 0 l t' = Ok t2 /\ core t2 = core t /\ WVerify sha256 t2 = Ok tt.
Proof.
  intros sha256 ht l t t' Hs R Ask L F. apply (C101_embedded_verifies sha256 ht l t t' Hs R Ask L).
  intros n i key der Ni Nl. destruct (F n i key der Ni Nl) as (h & Oh & Fi & [S | (secret & S)]); exists h; split; try exact Fi;
    [exact (two_party_good h key der Oh S) | exact (adaptor_good h key der secret Oh S)].
Qed.
Print Assumptions C101_two_party_spend.

(** Shares 1 and 2 of the secret 2, with a stand-in for HMAC that gives the nonce 1. *)
Lemma ex_two_party : forall h, bytes_ok h -> (message_int h + 1 * 2 * px base) mod order_n <> 0 ->
  exists der, two_party_signature h (PubKeyBytes ex_key true) der.
Proof.
  intros h Oh NZ. set (f := fun _ : Z => 1). set (Q := Some (snd ex_two)).
  assert (M2 : multiple base (1 * 2) Q) by (destruct (made_good _ ex_made) as (_ & _ & M); exact M).
  assert (M1 : multiple base 1 base).
  { assert (P1 : 0 <= 1) by discriminate. apply (proj2 (gof_multiple _ _ _ _ gof_base P1)). rewrite gmul_1. exact gof_base. }
  assert (EN : forall D, 0 <= D < curveN -> NonceRFC6979 (echo f) 1 order_n D h = Some 1).
  { intros D RD. rewrite order_n_eq. apply (echo_nonce f D h); [exact RD | split; [discriminate | reflexivity]]. }
  assert (H1 : 1 <= 1 < order_n) by (split; [discriminate | reflexivity]). assert (H2 : 1 <= 2 < order_n) by (split; [discriminate | reflexivity]).
  assert (K1 : pair_of 1 (1, (px base, py base))) by (exists base; split; [exact M1 | reflexivity]).
  assert (K2 : pair_of 2 (2, (px Q, py Q))) by (exists Q; split; [exact M2 | reflexivity]).
  assert (N1 := EN 1 ltac:(split; [discriminate | reflexivity])). assert (N2 := EN 2 ltac:(split; [discriminate | reflexivity])).
  assert (G : Z.gcd 1 (curveP * curveN) = 1) by apply Z.gcd_1_l.
  assert (F : MpcEcdsaProps.fits 1 (message_int h + 1 * 2 * px base) (curveP * curveN)).
  { intros i Ri Hi. rewrite Z.mul_1_l, Z.mod_small in Hi by exact Ri. subst i. rewrite Z.mul_1_l.
    pose proof (message_int_range h Oh) as [_ B]. assert (X : 2 ^ 256 + 1 * 2 * px base < curveP * curveN) by reflexivity.
    generalize dependent (message_int h). generalize dependent (1 * 2 * px base). generalize (curveP * curveN). generalize dependent (2 ^ 256). intros. lia. }
  assert (LX : px base < order_n) by reflexivity.
  destruct (C62_run (echo f) 1 1 2 (1, (px base, py base)) (2, (px Q, py Q)) h curveP curveN 1 curveP curveN 1 1 1 Q base Oh H1 H2 K1 K2 PN_primes PN_primes G G N1 N2
    M2 M1 ltac:(reflexivity) ltac:(reflexivity) F F) as [[C _] | (s & sig & E & _)]; [contradiction | ].
  exists sig. exists (echo f), 1%nat, 1, 2, (1, (px base, py base)), (2, (px Q, py Q)), curveP, curveN, 1, curveP, curveN, 1, 1, 1, Q, base,
    (px Q, py Q), (px Q, py Q), (px base, py base), (px base, py base), sig.
  split; [exact H1 | ]. split; [exact H2 | ]. split; [exact K1 | ]. split; [exact K2 | ]. split; [exact PN_primes | ]. split; [exact PN_primes | ].
  split; [exact G | ]. split; [exact G | ]. split; [exact N1 | ]. split; [exact N2 | ]. split; [exact M2 | ]. split; [exact M1 | ]. split; [exact LX | ].
  split; [split; [reflexivity | ]; split; [reflexivity | ]; split; exact F | ]. split; [exact E | ]. vm_compute. reflexivity.
Qed.
(** One input of each kind; the hashes are those of the transaction. *)
Definition ex_joint : transaction :=
  MkTx 2 0 [MkIn (repeat 7 32) 1 1000 0xffffffff [] None [] None (p2pkh_script ex_h) (p2pkh_script ex_h) [];
            MkIn (repeat 9 32) 5 2000 0xffffffff [] None [] (Some (p2pkh_script ex_h)) (p2wpkh_script ex_h) (p2pkh_script ex_h) []] [MkOut 900 [0x51]] None None None.
Example C101_example : exists h1 h2 der1 der2 t', asked (DoubleSha256 ex_sha) 1 ex_joint t' /\ tx_outputs t' <> None /\
  (exists i, nth_error (tx_ins ex_joint) 0 = Some i /\ input_for ex_sha ex_joint 1 0 i h1 (PubKeyBytes ex_key true)) /\
  (exists i, nth_error (tx_ins ex_joint) 1 = Some i /\ input_for ex_sha ex_joint 1 1 i h2 (PubKeyBytes ex_key true)) /\
  bytes_ok h1 /\ bytes_ok h2 /\ two_party_signature h1 (PubKeyBytes ex_key true) der1 /\ two_party_signature h2 (PubKeyBytes ex_key true) der2.
Proof.
  assert (E1 : Hash160 ex_sha (PubKeyBytes ex_key true) = ex_h) by (vm_compute; reflexivity).
  set (h1 := match RawSignatureHash (DoubleSha256 ex_sha) 0 1 ex_joint with Ok h => h | _ => [] end).
  set (w := match WitnessV0SignatureHash (DoubleSha256 ex_sha) 1 1 ex_joint with Ok h => h | _ => ([], ex_joint) end).
  assert (O1 : bytes_ok h1) by (apply is_bytes_ok; vm_compute; reflexivity). assert (O2 : bytes_ok (fst w)) by (apply is_bytes_ok; vm_compute; reflexivity).
  destruct (ex_two_party h1 O1 ltac:(vm_compute; discriminate)) as (der1 & D1). destruct (ex_two_party (fst w) O2 ltac:(vm_compute; discriminate)) as (der2 & D2).
  assert (W : WitnessV0SignatureHash (DoubleSha256 ex_sha) 1 1 ex_joint = Ok (fst w, snd w)) by (vm_compute; reflexivity).
  exists h1, (fst w), der1, der2, (snd w). split; [exact (asked_one _ _ _ _ _ _ _ W (asked_none _ _ _)) | ]. split; [vm_compute; discriminate | ].
  unfold input_for. rewrite E1.
  split; [eexists; split; [reflexivity | ]; exists false, ex_joint; split; [apply asked_none | ]; split; [constructor; vm_compute; reflexivity | repeat split] | ].
  split; [eexists; split; [reflexivity | ]; exists true, ex_joint; split; [apply asked_none | ]; split; [exact (sign_witness _ _ _ _ _ _ W) | repeat split] | ].
  tauto.
Qed.
