(** C104: in two-party ECDSA the answer of phase 4 gives the private key away. *)

From Coq Require Import Znumtheory.
From Verif Require Import GoBase BaseLemmas BigInt BigIntProofs NumTheory BigMod SecpModel SecpGroup SecpOrder SecpOrderN SecpProofs SecpCyclic SecpSpec SecpLink EcdsaModel EcdsaSpec EcdsaNonce EcdsaProofs PubKeyProofs SchnorrProofs SchnorrProps MpcSchnorrProofs DerModel DerSpec DerProofs DerProps PaillierModel PaillierProofs PaillierProps MpcEcdsaModel MpcEcdsaProofs MpcEcdsaProps Bip32Proofs MpcAdaptorProps.
Local Open Scope Z_scope.

(** ** What the other party computes *)

(** From the plaintext T of the answer, the number z of the hash and a number x: four divisions, the
    remainder having been taken j times too small. *)
Definition read_key (z x T j : Z) : Z := (T / x - j) / ((T mod x + j * x) / z).

(** The x coordinate of the joint R, from the R received and the own nonce; then the plaintext of the answer. *)
Definition spy (sk : pprv) (z k2 factor : Z) (R1 : Z * Z) (answer : option Z) (j : Z) : res Z :=
  let! R := ScalarMult (fst R1) (snd R1) (big_bytes k2) in
  let! T := Decrypt sk answer in
  Ok (read_key z (fst R * factor) T j).

Lemma read_key_ok : forall z x i D, 1 <= z -> 1 <= x -> 1 <= i -> read_key z x (i * (z + x * D)) (z * i / x) = D.
Proof.
  intros z x i D Hz Hx Hi. unfold read_key.
  replace (i * (z + x * D)) with (z * i + (D * i) * x) by ring.
  rewrite Z.div_add, Z.mod_add by lia.
  replace ((z * i) mod x + z * i / x * x) with (i * z) by (rewrite (Z.mul_comm i z), (Z.div_mod (z * i) x) at 1; [ring | lia]).
  rewrite Z.div_mul by lia. replace (z * i / x + D * i - z * i / x) with (D * i) by ring. apply Z.div_mul. lia.
Qed.

Lemma prod5 : forall a b c d e, 0 <= a < 2 ^ 256 -> 0 <= b < 2 ^ 256 -> 0 <= c < 2 ^ 256 -> 0 <= d <= 2 ^ 512 -> 0 <= e < 2 ^ 256 ->
  a * (b + c * d * e) < 2 ^ 1281.
Proof.
  intros a b c d e Ha Hb Hc Hd He.
  assert (H1 : c * d <= 2 ^ 256 * 2 ^ 512) by (apply Z.mul_le_mono_nonneg; lia).
  assert (H2 : c * d * e <= 2 ^ 256 * 2 ^ 512 * 2 ^ 256) by (apply Z.mul_le_mono_nonneg; [apply Z.mul_nonneg_nonneg | | | ]; lia).
  assert (H3 : 0 <= c * d * e) by (apply Z.mul_nonneg_nonneg; [apply Z.mul_nonneg_nonneg | ]; lia).
  assert (H4 : a * (b + c * d * e) <= 2 ^ 256 * (2 ^ 256 + 2 ^ 256 * 2 ^ 512 * 2 ^ 256)) by (apply Z.mul_le_mono_nonneg; lia).
  eapply Z.le_lt_trans; [exact H4 | reflexivity].
Qed.

Lemma P256 : curveP < 2 ^ 256. Proof. reflexivity. Qed.
Lemma N256 : curveN < 2 ^ 256. Proof. reflexivity. Qed.

(** One session of an honest party with key D1 against someone who plays by the rules except for encrypting another
    number F in place of the own key: the answer of phase 4 gives D1 whenever F is large enough to keep the two
    terms of the answer apart and the answer fits the Paillier modulus. *)
Theorem C104_chosen_plaintext_refuted : forall hmac fuel D1 hash p1 q1 r1 k1 p2 q2 r2 k2 F R,
  bytes_ok hash -> message_int hash <> 0 -> 1 <= D1 < order_n ->
  paillier_primes p1 q1 -> Z.gcd r1 (p1 * q1) = 1 -> D1 < p1 * q1 -> NonceRFC6979 hmac fuel order_n D1 hash = Some k1 ->
  paillier_primes p2 q2 -> Z.gcd r2 (p2 * q2) = 1 -> 1 <= k2 < order_n -> 1 <= F < p2 * q2 ->
  multiple base (k1 * k2) R ->
  (forall i, 0 <= i < order_n -> (k1 * i) mod order_n = 1 ->
     message_int hash * i < px R * F /\ i * (message_int hash + px R * F * D1) < p2 * q2) ->
  exists encpk1 encpub1 R1 pt R2 c shareR answer,
    EPhase2 hmac fuel D1 hash p1 q1 r1 = Some (Ok (encpk1, encpub1, R1, pt)) /\
    ScalarBaseMult (big_bytes k2) = Ok R2 /\
    Encrypt (fst (GenerateKeyPair p2 q2)) r2 F = Ok c /\
    EPhase3 pt R2 = Ok shareR /\
    EPhase4 pt c (fst (GenerateKeyPair p2 q2)) shareR = Ok answer /\
    spy (snd (GenerateKeyPair p2 q2)) (message_int hash) k2 F R1 answer 0 = Ok D1.
Proof.
  intros hmac fuel D1 hash p1 q1 r1 k1 p2 q2 r2 k2 F R Hh Hz HD PP1 G1 L1 N1 PP2 G2 HK2 HF MR FIT.
  rewrite order_n_eq in *.
  destruct (Phase2_ok hmac fuel D1 hash p1 q1 r1 k1 (primes_key _ _ PP1) G1 ltac:(lia) N1) as (c1 & pk1 & sk1 & i1 & KP1 & E1 & _ & _ & RI1 & MI1 & RK1).
  set (pk2 := fst (GenerateKeyPair p2 q2)). set (sk2 := snd (GenerateKeyPair p2 q2)).
  assert (KP2 : key_pair p2 q2 pk2 sk2).
  { destruct PP2 as (Hp & Hq & D & B). split; [exact Hp | ]. split; [exact Hq | ]. split; [exact D | ]. split; [exact B | ]. apply surjective_pairing. }
  assert (FF : 0 <= F < p2 * q2) by lia.
  destruct (C60_roundtrip p2 q2 pk2 sk2 r2 F KP2 G2 FF) as (c & EC & DC).
  pose proof (C61_encrypt_good p2 q2 pk2 sk2 r2 F c KP2 G2 FF EC) as GC.
  assert (KN : 0 <= k1 * k2) by (apply Z.mul_nonneg_nonneg; lia).
  assert (KK : (k1 * k2) mod curveN <> 0) by (apply nz_product; apply small_mod; assumption).
  assert (NZ : gmul (k1 * k2) gG <> g0) by (intro G; apply gmul_G_0 in G; contradiction).
  apply key_point in MR; [ | exact KN]. pose proof (gof_enc _ _ MR) as ER.
  pose proof (enc_x_nz _ NZ) as X0. pose proof (enc_bounds (gmul (k1 * k2) gG)) as [BX _]. rewrite ER in X0, BX. cbn [fst] in X0, BX.
  assert (I1 : 1 <= i1). { destruct (Z.eq_dec i1 0) as [-> | ]; [ | lia]. rewrite Z.mul_0_r in MI1. discriminate MI1. }
  pose proof (message_int_range hash Hh) as [HM _]. destruct (FIT i1 RI1 MI1) as [F1 F2].
  set (X := px R) in *. set (z := message_int hash) in *.
  destruct (Phase4_ok p2 q2 pk2 sk2 (MkEParty D1 k1 (Some i1) hash sk1) c F X i1 KP2 GC DC eq_refl ltac:(lia) ltac:(lia) ltac:(lia) ltac:(cbn; lia) Hh (py R))
    as (ct & P4 & _ & V4). cbn [ep_hash ep_D] in V4. fold z in V4.
  exists c1, pk1, (enc (gmul k1 gG)), (MkEParty D1 k1 (Some i1) hash sk1), (enc (gmul k2 gG)), c, (X, py R), (Some ct).
  split; [exact E1 | ]. split; [apply base_mult_big; lia | ]. split; [exact EC | ].
  split. { unfold EPhase3. cbn [ep_k]. rewrite mult_big by lia. rewrite <- gmul_mul, ER. reflexivity. }
  split; [exact P4 | ].
  unfold spy. rewrite mult_big by lia. cbn [rbind]. rewrite V4. cbn [rbind]. f_equal.
  rewrite <- gmul_mul, (Z.mul_comm k2 k1), ER. cbn [fst]. fold X.
  replace (i1 * (z + X * (D1 * F))) with (i1 * (z + X * F * D1)) by ring.
  assert (XF : 0 < X * F) by (apply Z.mul_pos_pos; lia).
  rewrite Z.mod_small.
  - rewrite <- (Z.div_small (z * i1) (X * F)) by (split; [apply Z.mul_nonneg_nonneg; lia | exact F1]). apply read_key_ok; lia.
  - split; [ | exact F2]. apply Z.mul_nonneg_nonneg; [lia | ]. apply Z.add_nonneg_nonneg; [lia | ]. apply Z.mul_nonneg_nonneg; lia.
Qed.
Print Assumptions C104_chosen_plaintext_refuted.

Lemma big_modulus : forall p q, 2 ^ 1023 <= p -> 2 ^ 1023 <= q -> 2 ^ 1281 <= p * q.
Proof.
  intros p q P Q. pose proof (Z.mul_le_mono_nonneg _ _ _ _ pow_1023 P pow_1023 Q).
  assert (2 ^ 1281 < 2 ^ 1023 * 2 ^ 1023) by reflexivity. lia.
Qed.

(** With the program's Paillier keys of 2048 bits, F = 2^512 does it for every key, message and nonce. *)
Theorem C104_chosen_plaintext_2048_refuted : forall hmac fuel D1 hash p1 q1 r1 k1 p2 q2 r2 k2,
  bytes_ok hash -> message_int hash <> 0 -> 1 <= D1 < order_n ->
  paillier_primes p1 q1 -> Z.gcd r1 (p1 * q1) = 1 -> D1 < p1 * q1 -> NonceRFC6979 hmac fuel order_n D1 hash = Some k1 ->
  paillier_primes p2 q2 -> Z.gcd r2 (p2 * q2) = 1 -> 2 ^ 1023 <= p2 -> 2 ^ 1023 <= q2 -> 1 <= k2 < order_n ->
  exists encpk1 encpub1 R1 pt R2 c shareR answer,
    EPhase2 hmac fuel D1 hash p1 q1 r1 = Some (Ok (encpk1, encpub1, R1, pt)) /\
    ScalarBaseMult (big_bytes k2) = Ok R2 /\
    Encrypt (fst (GenerateKeyPair p2 q2)) r2 (2 ^ 512) = Ok c /\
    EPhase3 pt R2 = Ok shareR /\
    EPhase4 pt c (fst (GenerateKeyPair p2 q2)) shareR = Ok answer /\
    spy (snd (GenerateKeyPair p2 q2)) (message_int hash) k2 (2 ^ 512) R1 answer 0 = Ok D1.
Proof.
  intros hmac fuel D1 hash p1 q1 r1 k1 p2 q2 r2 k2 Hh Hz HD PP1 G1 L1 N1 PP2 G2 L2 L3 HK2.
  pose proof (nonce_range _ _ _ _ _ _ N1) as RK1. pose proof (big_modulus _ _ L2 L3) as LL.
  assert (KN : 0 <= k1 * k2) by (apply Z.mul_nonneg_nonneg; lia).
  destruct (multiple_ex (k1 * k2) KN) as (R & MR).
  apply (C104_chosen_plaintext_refuted hmac fuel D1 hash p1 q1 r1 k1 p2 q2 r2 k2 (2 ^ 512) R); try assumption.
  - split; [discriminate | ]. eapply Z.lt_le_trans; [ | exact LL]. reflexivity.
  - intros i Ri Mi. rewrite order_n_eq in *. pose proof (key_point _ _ KN MR) as GR.
    assert (KK : (k1 * k2) mod curveN <> 0) by (apply nz_product; apply small_mod; assumption).
    assert (NZ : gmul (k1 * k2) gG <> g0) by (intro G; apply gmul_G_0 in G; contradiction).
    pose proof (enc_x_nz _ NZ) as X0. pose proof (enc_bounds (gmul (k1 * k2) gG)) as [BX _]. rewrite (gof_enc _ _ GR) in X0, BX. cbn [fst] in X0, BX.
    pose proof (message_int_range hash Hh) as HM. pose proof P256. pose proof N256. split.
    + assert (message_int hash * i < 2 ^ 256 * 2 ^ 256) by (apply Z.mul_lt_mono_nonneg; lia).
      assert (1 * 2 ^ 512 <= px R * 2 ^ 512) by (apply Z.mul_le_mono_nonneg_r; lia).
      change (2 ^ 256 * 2 ^ 256) with (1 * 2 ^ 512) in *. lia.
    + eapply Z.lt_le_trans; [ | exact LL]. apply prod5; [lia | lia | lia | split; [discriminate | apply Z.le_refl] | lia].
Qed.
Print Assumptions C104_chosen_plaintext_2048_refuted.

(** A party that plays by the rules learns as much: D1 is among the candidates for j up to z n / (x D2), which is
    a handful unless R.x or D2 is unusually small. *)
Theorem C104_honest_refuted : forall hmac fuel D1 D2 hash p1 q1 r1 k1 p2 q2 r2 k2 R,
  bytes_ok hash -> message_int hash <> 0 -> 1 <= D1 < order_n -> 1 <= D2 < order_n ->
  paillier_primes p1 q1 -> Z.gcd r1 (p1 * q1) = 1 -> D1 < p1 * q1 -> NonceRFC6979 hmac fuel order_n D1 hash = Some k1 ->
  paillier_primes p2 q2 -> Z.gcd r2 (p2 * q2) = 1 -> D2 < p2 * q2 -> NonceRFC6979 hmac fuel order_n D2 hash = Some k2 ->
  multiple base (k1 * k2) R -> fits k1 (message_int hash + D1 * D2 * px R) (p2 * q2) ->
  exists encpk1 encpub1 R1 pt1 encpk2 encpub2 R2 pt2 shareR answer j,
    EPhase2 hmac fuel D1 hash p1 q1 r1 = Some (Ok (encpk1, encpub1, R1, pt1)) /\
    EPhase2 hmac fuel D2 hash p2 q2 r2 = Some (Ok (encpk2, encpub2, R2, pt2)) /\
    EPhase3 pt1 R2 = Ok shareR /\
    EPhase4 pt1 encpk2 encpub2 shareR = Ok answer /\
    spy (ep_encprv pt2) (message_int hash) (ep_k pt2) D2 R1 answer j = Ok D1 /\
    0 <= j /\ j * (fst shareR * D2) <= message_int hash * order_n.
Proof.
  intros hmac fuel D1 D2 hash p1 q1 r1 k1 p2 q2 r2 k2 R Hh Hz HD HD2 PP1 G1 L1 N1 PP2 G2 Q2 N2 MR FIT.
  unfold fits in FIT. rewrite order_n_eq in *.
  destruct (Phase2_ok hmac fuel D1 hash p1 q1 r1 k1 (primes_key _ _ PP1) G1 ltac:(lia) N1) as (c1 & pk1 & sk1 & i1 & KP1 & E1 & _ & _ & RI1 & MI1 & RK1).
  destruct (Phase2_ok hmac fuel D2 hash p2 q2 r2 k2 (primes_key _ _ PP2) G2 ltac:(lia) N2) as (c2 & pk2 & sk2 & i2 & KP2 & E2 & GC & DC & RI2 & MI2 & RK2).
  assert (KN : 0 <= k1 * k2) by (apply Z.mul_nonneg_nonneg; lia).
  assert (KK : (k1 * k2) mod curveN <> 0) by (apply nz_product; apply small_mod; assumption).
  assert (NZ : gmul (k1 * k2) gG <> g0) by (intro G; apply gmul_G_0 in G; contradiction).
  apply key_point in MR; [ | exact KN]. pose proof (gof_enc _ _ MR) as ER.
  pose proof (enc_x_nz _ NZ) as X0. pose proof (enc_bounds (gmul (k1 * k2) gG)) as [BX _]. rewrite ER in X0, BX. cbn [fst] in X0, BX.
  set (X := px R) in *. specialize (FIT i1 RI1 MI1).
  assert (I1 : 1 <= i1). { destruct (Z.eq_dec i1 0) as [-> | ]; [ | lia]. rewrite Z.mul_0_r in MI1. discriminate MI1. }
  pose proof (message_int_range hash Hh) as [HM _].
  destruct (Phase4_ok p2 q2 pk2 sk2 (MkEParty D1 k1 (Some i1) hash sk1) c2 D2 X i1 KP2 GC DC eq_refl ltac:(lia) ltac:(lia) ltac:(lia) ltac:(cbn; lia) Hh (py R))
    as (ct & P4 & _ & V4). cbn [ep_hash ep_D] in V4.
  assert (XD : 1 <= X * D2) by (assert (0 < X * D2) by (apply Z.mul_pos_pos; lia); lia).
  exists c1, pk1, (enc (gmul k1 gG)), (MkEParty D1 k1 (Some i1) hash sk1), c2, pk2, (enc (gmul k2 gG)), (MkEParty D2 k2 (Some i2) hash sk2), (X, py R), (Some ct), (message_int hash * i1 / (X * D2)).
  split; [exact E1 | ]. split; [exact E2 | ].
  split. { unfold EPhase3. cbn [ep_k]. rewrite mult_big by lia. rewrite <- gmul_mul, ER. reflexivity. }
  split; [exact P4 | ].
  split; [ | split].
  - unfold spy. cbn [ep_k ep_encprv]. rewrite mult_big by lia. cbn [rbind]. rewrite V4. cbn [rbind]. f_equal.
    rewrite <- gmul_mul, (Z.mul_comm k2 k1), ER. cbn [fst]. fold X.
    replace (i1 * (message_int hash + X * (D1 * D2))) with (i1 * (message_int hash + X * D2 * D1)) by ring.
    rewrite Z.mod_small; [apply read_key_ok; lia | ]. split.
    + apply Z.mul_nonneg_nonneg; [lia | ]. apply Z.add_nonneg_nonneg; [lia | ]. apply Z.mul_nonneg_nonneg; lia.
    + replace (X * D2 * D1) with (D1 * D2 * X) by ring. exact FIT.
  - apply Z.div_pos; [apply Z.mul_nonneg_nonneg; lia | lia].
  - cbn [fst]. rewrite (Z.mul_comm (_ / _)). eapply Z.le_trans; [apply Z.mul_div_le; lia | ]. apply Z.mul_le_mono_nonneg_l; lia.
Qed.
Print Assumptions C104_honest_refuted.

(** A party with the key 5, a hash of 1, both nonces 1 (a stand-in for HMAC) and Paillier keys made of two 256-bit
    primes: the hypotheses hold for F = 2^100, and for an honest counterparty with the key 7. *)
Example C104_example : let f := fun _ : Z => 1 in
  bytes_ok [1] /\ message_int [1] = 1 /\ paillier_primes curveP curveN /\
  NonceRFC6979 (echo f) 1 order_n 5 [1] = Some 1 /\ NonceRFC6979 (echo f) 1 order_n 7 [1] = Some 1 /\
  multiple base (1 * 1) base /\
  (forall i, 0 <= i < order_n -> (1 * i) mod order_n = 1 ->
     message_int [1] * i < px base * 2 ^ 100 /\ i * (message_int [1] + px base * 2 ^ 100 * 5) < curveP * curveN) /\
  fits 1 (message_int [1] + 5 * 7 * px base) (curveP * curveN) /\
  read_key 1 (px base * 7) (1 + 5 * 7 * px base) 0 = 5.
Proof.
  intro f. assert (E : message_int [1] = 1) by reflexivity.
  assert (I : forall i, 0 <= i < order_n -> (1 * i) mod order_n = 1 -> i = 1) by (intros i R M; rewrite Z.mul_1_l, Z.mod_small in M by exact R; exact M).
  split; [apply bytes_ok_forallb; reflexivity | ]. split; [exact E | ]. split; [exact PN_primes | ].
  split; [rewrite order_n_eq; apply (echo_nonce f 5 [1]); (split; [discriminate | reflexivity]) | ].
  split; [rewrite order_n_eq; apply (echo_nonce f 7 [1]); (split; [discriminate | reflexivity]) | ].
  split. { assert (P1 : 0 <= 1 * 1) by discriminate. apply (proj2 (gof_multiple _ _ _ _ gof_base P1)). change (1 * 1) with 1. rewrite gmul_1. exact gof_base. }
  split; [intros i R M; apply I in M; [ | exact R]; subst i; rewrite E; split; reflexivity | ].
  split; [intros i R M; apply I in M; [ | exact R]; subst i; rewrite E; reflexivity | reflexivity].
Qed.
