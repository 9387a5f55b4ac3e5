(** C62, C63: two-party ECDSA and the adaptor signature built on it. *)

From Coq Require Import Znumtheory.
From Verif Require Import GoBase BaseLemmas BigInt BigIntProofs NumTheory BigMod SecpModel SecpGroup SecpOrder SecpOrderN SecpProofs SecpCyclic SecpSpec SecpLink EcdsaModel EcdsaSpec EcdsaNonce EcdsaProofs PubKeyProofs SchnorrProofs SchnorrProps MpcSchnorrProofs DerModel DerSpec DerProofs DerProps PaillierModel PaillierProofs PaillierProps MpcEcdsaModel MpcEcdsaProofs.
Local Open Scope Z_scope.

(** Two distinct primes of the same length. *)
Definition paillier_primes (p q : Z) : Prop :=
  prime p /\ prime q /\ p <> q /\ exists k, 3 <= k /\ 2 ^ (k - 1) <= p < 2 ^ k /\ 2 ^ (k - 1) <= q < 2 ^ k.

Lemma primes_key : forall p q, paillier_primes p q -> exists pk sk, key_pair p q pk sk.
Proof.
  intros p q (Hp & Hq & D & B). exists (fst (GenerateKeyPair p q)), (snd (GenerateKeyPair p q)).
  split; [exact Hp | ]. split; [exact Hq | ]. split; [exact D | ]. split; [exact B | ]. apply surjective_pairing.
Qed.

(** i times m stays below the modulus, for the inverse i of k. *)
Definition fits (k m n : Z) : Prop :=
  forall i, 0 <= i < order_n -> (k * i) mod order_n = 1 -> i * m < n.

Lemma N32 : curveN < 256 ^ 32. Proof. reflexivity. Qed.
Lemma P32 : curveP < 256 ^ 32. Proof. reflexivity. Qed.
Lemma Nhalf : curveN / 2 < curveN. Proof. reflexivity. Qed.

Lemma range_P : forall x, 0 <= x < curveP -> - 256 ^ 32 <= x < 256 ^ 32.
Proof. intros x H. pose proof P32. assert (0 < 256 ^ 32) by reflexivity. lia. Qed.
Lemma range_half : forall x, 0 <= x <= curveN / 2 -> - 256 ^ 32 <= x < 256 ^ 32.
Proof. intros x H. pose proof N32. pose proof Nhalf. assert (0 < 256 ^ 32) by reflexivity. lia. Qed.
Lemma small_n : 0 <= 32 <= 2 ^ 29. Proof. split; discriminate. Qed.
Lemma low_pos : forall s, 0 <= s <= curveN / 2 -> s <> 0 -> 1 <= s <= curveN / 2.
Proof. intros s H N. lia. Qed.

Lemma nz_product : forall a b, a mod curveN <> 0 -> b mod curveN <> 0 -> (a * b) mod curveN <> 0.
Proof.
  intros a b Ha Hb Z0. apply Zmod_divide in Z0; [ | discriminate].
  destruct (prime_mult curveN curveN_prime _ _ Z0) as [H | H]; apply Zdivide_mod in H; contradiction.
Qed.

Lemma low_equation : forall s0 k m, 0 <= s0 < curveN -> (s0 * k) mod curveN = m mod curveN ->
  (lowS s0 = 0 <-> m mod curveN = 0 \/ k mod curveN = 0 /\ s0 = 0) /\
  ((lowS s0 * k) mod curveN = m mod curveN \/ ((curveN - lowS s0) * k) mod curveN = m mod curveN) \/
  (k mod curveN = 0 /\ m mod curveN = 0).
Proof.
  intros s0 k m R E. pose proof (lowS_range s0 R) as LR.
  assert (EZ : lowS s0 = 0 <-> s0 = 0).
  { unfold lowS. rewrite half_N. destruct (curveN / 2 <? s0) eqn:A; [apply Z.ltb_lt in A | apply Z.ltb_ge in A]; lia. }
  destruct (Z.eq_dec (k mod curveN) 0) as [K0 | K0].
  { right. split; [exact K0 | ]. rewrite <- E, <- Zmult_mod_idemp_r, K0, Z.mul_0_r. reflexivity. }
  left. split.
  - rewrite EZ. split; [intros ->; left; rewrite <- E; reflexivity | ]. intros [M0 | [_ X]]; [ | exact X].
    rewrite M0 in E. apply Zmod_divide in E; [ | discriminate]. destruct (prime_mult curveN curveN_prime _ _ E) as [H | H].
    + destruct (Z.eq_dec s0 0) as [X | X]; [exact X | exfalso]. apply Zdivide_le in H; lia.
    + exfalso. apply K0. apply Zdivide_mod. exact H.
  - destruct (lowS_sign s0) as [-> | ->]; [left; exact E | right].
    replace (curveN - (curveN - s0)) with s0 by ring. exact E.
Qed.

Lemma verify_der : forall a hash x s sig, bytes_ok hash -> 0 <= x < 256 ^ 32 -> 0 <= s < 256 ^ 32 -> SigSerialize x s = Ok sig ->
  EcdsaVerify (fst (enc a)) (snd (enc a)) hash sig =
  let! ok := Verify (fst (enc a)) (snd (enc a)) hash x s in if ok then Ok tt else Err "ecdsa.signature.verify.failed".
Proof.
  intros a hash x s sig Hh Hx Hs E. unfold EcdsaVerify.
  rewrite (C71_der_roundtrip x s 32 sig) by (try exact E; lia). reflexivity.
Qed.

(** What becomes of a signature (X, s) of m with the nonce k, X being the x
    coordinate of kG, possibly not below the order. *)
Lemma signature_fate : forall D k hash s sig Q R, bytes_ok hash -> 0 <= D -> 0 <= k -> k mod curveN <> 0 ->
  multiple base D Q -> multiple base k R -> 1 <= s <= curveN / 2 -> SigSerialize (px R) s = Ok sig ->
  (s * k) mod curveN = (message_int hash + D * px R) mod curveN \/
  ((curveN - s) * k) mod curveN = (message_int hash + D * px R) mod curveN ->
  (px R < order_n -> ecdsa_valid Q (message_int hash) (px R) s /\ EcdsaVerify (px Q) (py Q) hash sig = Ok tt) /\
  (order_n <= px R -> EcdsaVerify (px Q) (py Q) hash sig = Err "ecdsa.signature.verify.failed").
Proof.
  intros D k hash s sig Q R Hh HD Hk K0 MQ MR Rs ES EQ.
  apply key_point in MQ; [ | exact HD]. apply key_point in MR; [ | exact Hk].
  assert (NZ : gmul k gG <> g0) by (intro G; apply gmul_G_0 in G; contradiction).
  pose proof (gof_enc _ _ MR) as ER. pose proof (gof_enc _ _ MQ) as EQQ.
  pose proof (enc_range _ NZ) as [RX _]. pose proof (enc_x_nz _ NZ) as X0. rewrite ER in RX, X0. cbn [fst] in RX, X0.
  pose proof N32. pose proof P32. pose proof Nhalf.
  assert (V := verify_der (gmul D gG) hash (px R) s sig Hh ltac:(lia) ltac:(lia) ES).
  destruct (Verify_group (gmul D gG) hash (px R) s Hh) as (b & EV & VB).
  rewrite EQQ in V, EV. cbn [fst snd] in V, EV. rewrite EV in V. cbn [rbind] in V. rewrite order_n_eq. split; intro L.
  - assert (W : exists w, (s * w) mod curveN = 1 /\ vpoint (gmul D gG) (message_int hash) (px R) w <> g0 /\
               fst (enc (vpoint (gmul D gG) (message_int hash) (px R) w)) mod curveN = px R).
    { apply (equation_valid D k); [exact K0 | | lia | lia | exact EQ]. rewrite ER. cbn [fst]. rewrite Z.mod_small by lia. reflexivity. }
    assert (G : 1 <= px R < curveN /\ 1 <= s < curveN /\ exists w, (s * w) mod curveN = 1 /\ vpoint (gmul D gG) (message_int hash) (px R) w <> g0 /\
               fst (enc (vpoint (gmul D gG) (message_int hash) (px R) w)) mod curveN = px R).
    { split; [lia | ]. split; [lia | exact W]. }
    split; [apply (valid_group Q _ _ _ _ MQ); exact G | ]. apply VB in G. rewrite G in V. exact V.
  - destruct b; [ | exact V]. destruct (proj1 VB eq_refl) as [C _]. lia.
Qed.

(** ** C62 *)

Theorem C62_run : forall hmac fuel D1 D2 prv1 prv2 hash p1 q1 r1 p2 q2 r2 k1 k2 Q R,
  bytes_ok hash -> 1 <= D1 < order_n -> 1 <= D2 < order_n -> pair_of D1 prv1 -> pair_of D2 prv2 ->
  paillier_primes p1 q1 -> paillier_primes p2 q2 -> Z.gcd r1 (p1 * q1) = 1 -> Z.gcd r2 (p2 * q2) = 1 ->
  NonceRFC6979 hmac fuel order_n D1 hash = Some k1 -> NonceRFC6979 hmac fuel order_n D2 hash = Some k2 ->
  multiple base (D1 * D2) Q -> multiple base (k1 * k2) R ->
  let m := message_int hash + D1 * D2 * px R in
  D1 < p1 * q1 -> D2 < p2 * q2 -> fits k1 m (p2 * q2) -> fits k2 m (p1 * q1) ->
  (m mod order_n = 0 /\
   RunEcdsa hmac fuel prv1 prv2 hash p1 q1 r1 p2 q2 r2 = Some (Err "calculated S is zero")) \/
  (exists s sig,
    RunEcdsa hmac fuel prv1 prv2 hash p1 q1 r1 p2 q2 r2 =
      Some (Ok ((px Q, py Q), (px Q, py Q), (px R, py R), (px R, py R), sig, sig)) /\
    (bytes_ok sig /\ der_sig sig (px R) s) /\ 1 <= s <= order_n / 2 /\
    ((s * (k1 * k2)) mod order_n = m mod order_n \/ ((order_n - s) * (k1 * k2)) mod order_n = m mod order_n) /\
    (px R < order_n -> ecdsa_valid Q (message_int hash) (px R) s /\ EcdsaVerify (px Q) (py Q) hash sig = Ok tt) /\
    (order_n <= px R -> EcdsaVerify (px Q) (py Q) hash sig = Err "ecdsa.signature.verify.failed")).
Proof.
  intros hmac fuel D1 D2 prv1 prv2 hash p1 q1 r1 p2 q2 r2 k1 k2 Q R Hh H1 H2 K1 K2 PP1 PP2 G1 G2 N1 N2 MQ MR m L1 L2 F1 F2.
  unfold fits in F1, F2. rewrite order_n_eq in *.
  apply pair_key in K1; [ | lia]. apply pair_key in K2; [ | lia]. subst prv1 prv2. unfold key.
  destruct (Phase2_ok hmac fuel D1 hash p1 q1 r1 k1 (primes_key _ _ PP1) G1 ltac:(lia) N1) as (c1 & pk1 & sk1 & i1 & KP1 & E1 & GC1 & DC1 & RI1 & MI1 & RK1).
  destruct (Phase2_ok hmac fuel D2 hash p2 q2 r2 k2 (primes_key _ _ PP2) G2 ltac:(lia) N2) as (c2 & pk2 & sk2 & i2 & KP2 & E2 & GC2 & DC2 & RI2 & MI2 & RK2).
  pose proof MQ as MQ'. pose proof MR as MR'. 
  assert (DD : 0 <= D1 * D2) by (apply Z.mul_nonneg_nonneg; lia). assert (KN : 0 <= k1 * k2) by (apply Z.mul_nonneg_nonneg; lia).
  apply key_point in MQ; [ | exact DD]. apply key_point in MR; [ | exact KN].
  pose proof (gof_enc _ _ MQ) as EQ. pose proof (gof_enc _ _ MR) as ER. pose proof (enc_bounds (gmul (k1 * k2) gG)) as BX.
  rewrite ER in BX. cbn [fst snd] in BX.
  assert (HM := message_int_range hash Hh). assert (M0 : 0 <= m) by (exact (Z.add_nonneg_nonneg _ _ (proj1 HM) (Z.mul_nonneg_nonneg (D1 * D2) (px R) DD (proj1 (proj1 BX))))).
  specialize (F1 i1 RI1 MI1). specialize (F2 i2 RI2 MI2).
  unfold RunEcdsa. cbn [fst snd]. rewrite E1, E2. unfold EPhase1. cbn [fst snd].
  rewrite !mult_big by lia. cbn [rbind]. rewrite <- !gmul_mul, (Z.mul_comm D2 D1), EQ.
  unfold EPhase3. cbn [ep_k]. rewrite !mult_big by lia. cbn [rbind]. rewrite <- !gmul_mul, (Z.mul_comm k2 k1), ER.
  destruct (Phase4_ok p2 q2 pk2 sk2 (MkEParty D1 k1 (Some i1) hash sk1) c2 D2 (px R) i1 KP2 GC2 DC2 eq_refl ltac:(lia) ltac:(lia) ltac:(lia) ltac:(cbn; lia) Hh (py R))
    as (ct1 & P1 & _ & V1).
  destruct (Phase4_ok p1 q1 pk1 sk1 (MkEParty D2 k2 (Some i2) hash sk2) c1 D1 (px R) i2 KP1 GC1 DC1 eq_refl ltac:(lia) ltac:(lia) ltac:(lia) ltac:(cbn; lia) Hh (py R))
    as (ct2 & P2 & _ & V2).
  rewrite P1. cbn [rbind]. rewrite P2. cbn [rbind]. cbn [ep_hash ep_D] in V1, V2.
  replace (message_int hash + px R * (D1 * D2)) with m in V1 by (unfold m; ring).
  replace (message_int hash + px R * (D2 * D1)) with m in V2 by (unfold m; ring).
  rewrite Z.mod_small in V1 by (split; [apply Z.mul_nonneg_nonneg; lia | exact F1]).
  rewrite Z.mod_small in V2 by (split; [apply Z.mul_nonneg_nonneg; lia | exact F2]).
  unfold EPhase5. cbn [ep_encprv ep_kinv fst]. rewrite V1, V2. cbn [rbind deref].
  destruct (final_number m k1 i1 k2 i2 MI1 MI2) as [FN FE]. rewrite <- FE. set (s0 := (i1 * m * i2) mod curveN) in *.
  assert (R0 : 0 <= s0 < curveN) by (apply Z.mod_pos_bound; exact N_pos).
  assert (KK : (k1 * k2) mod curveN <> 0).
  { apply nz_product; apply small_mod; assumption. }
  destruct (low_equation s0 (k1 * k2) m R0 FN) as [[LZ LE] | [C _]]; [ | contradiction].
  destruct (lowS s0 =? 0) eqn:Z0.
  - left. split; [ | reflexivity]. apply Z.eqb_eq in Z0. apply LZ in Z0. destruct Z0 as [Z0 | [C _]]; [exact Z0 | contradiction].
  - right. apply Z.eqb_neq in Z0. pose proof (lowS_range s0 R0) as LR.
    destruct (C71_der_encode (px R) (lowS s0) 32 small_n (range_P _ (proj1 BX)) (range_half _ LR)) as (sig & ES & OS & DS & _).
    exists (lowS s0), sig. rewrite ES. cbn [rbind]. split; [reflexivity | ]. split; [exact (conj OS DS) | ].
    pose proof (low_pos _ LR Z0) as LP.
    split; [exact LP | ]. split; [exact LE | ].
    apply (signature_fate (D1 * D2) (k1 * k2) hash (lowS s0) sig Q R Hh DD KN KK MQ' MR' LP ES).
    exact LE.
Qed.
Print Assumptions C62_run.

Lemma prod_lt : forall a b m n, 0 <= m -> 0 <= n -> 0 <= a < 2 ^ m -> 0 <= b < 2 ^ n -> 0 <= a * b < 2 ^ (m + n).
Proof.
  intros a b m n Hm Hn Ha Hb. rewrite Z.pow_add_r by assumption. split; [apply Z.mul_nonneg_nonneg; lia | ].
  apply Z.mul_lt_mono_nonneg; lia.
Qed.
Lemma pow_1023 : 0 <= 2 ^ 1023. Proof. discriminate. Qed.

(** With the key length of the program the plaintext always fits. *)
Theorem C62_run_2048 : forall hmac fuel D1 D2 prv1 prv2 hash p1 q1 r1 p2 q2 r2 k1 k2 Q R,
  bytes_ok hash -> 1 <= D1 < order_n -> 1 <= D2 < order_n -> pair_of D1 prv1 -> pair_of D2 prv2 ->
  prime p1 -> prime q1 -> p1 <> q1 -> prime p2 -> prime q2 -> p2 <> q2 ->
  2 ^ 1023 <= p1 < 2 ^ 1024 -> 2 ^ 1023 <= q1 < 2 ^ 1024 -> 2 ^ 1023 <= p2 < 2 ^ 1024 -> 2 ^ 1023 <= q2 < 2 ^ 1024 ->
  Z.gcd r1 (p1 * q1) = 1 -> Z.gcd r2 (p2 * q2) = 1 ->
  NonceRFC6979 hmac fuel order_n D1 hash = Some k1 -> NonceRFC6979 hmac fuel order_n D2 hash = Some k2 ->
  multiple base (D1 * D2) Q -> multiple base (k1 * k2) R -> px R < order_n ->
  (message_int hash + D1 * D2 * px R) mod order_n <> 0 ->
  exists s sig,
    RunEcdsa hmac fuel prv1 prv2 hash p1 q1 r1 p2 q2 r2 =
      Some (Ok ((px Q, py Q), (px Q, py Q), (px R, py R), (px R, py R), sig, sig)) /\
    (bytes_ok sig /\ der_sig sig (px R) s) /\ 1 <= s <= order_n / 2 /\
    ecdsa_valid Q (message_int hash) (px R) s /\ EcdsaVerify (px Q) (py Q) hash sig = Ok tt.
Proof.
  intros hmac fuel D1 D2 prv1 prv2 hash p1 q1 r1 p2 q2 r2 k1 k2 Q R Hh H1 H2 K1 K2 A1 B1 C1 A2 B2 C2 LA1 LB1 LA2 LB2 G1 G2 N1 N2 MQ MR LX NZ.
  assert (PP : forall p q, prime p -> prime q -> p <> q -> 2 ^ 1023 <= p < 2 ^ 1024 -> 2 ^ 1023 <= q < 2 ^ 1024 -> paillier_primes p q).
  { intros p q P1 P2 D L1 L2. split; [exact P1 | ]. split; [exact P2 | ]. split; [exact D | ]. exists 1024. split; [lia | ]. exact (conj L1 L2). }
  assert (ON : order_n < 2 ^ 256) by reflexivity.
  assert (HM := message_int_range hash Hh).
  pose proof (enc_bounds (gmul (k1 * k2) gG)) as BX. pose proof (nonce_range _ _ _ _ _ _ N1) as RK1. pose proof (nonce_range _ _ _ _ _ _ N2) as RK2.
  assert (KN : 0 <= k1 * k2) by (apply Z.mul_nonneg_nonneg; lia). pose proof (key_point _ _ KN MR) as GR. rewrite (gof_enc _ _ GR) in BX. cbn [fst] in BX.
  set (X := px R) in *. set (e := message_int hash) in *.
  assert (BM : 0 <= e + D1 * D2 * X < 2 ^ 769).
  { pose proof (prod_lt D1 D2 256 256 ltac:(lia) ltac:(lia) ltac:(lia) ltac:(lia)) as BD.
    pose proof (prod_lt (D1 * D2) X (256 + 256) 256 ltac:(lia) ltac:(lia) BD ltac:(lia)) as BDX. change (256 + 256 + 256) with 768 in BDX.
    assert (2 ^ 256 + 2 ^ 768 < 2 ^ 769) by reflexivity. lia. }
  assert (Big : forall p q, 2 ^ 1023 <= p -> 2 ^ 1023 <= q -> 2 ^ 1025 < p * q).
  { intros p q P1 P2. assert (2 ^ 1025 < 2 ^ 1023 * 2 ^ 1023) by reflexivity. pose proof (Z.mul_le_mono_nonneg _ _ _ _ pow_1023 P1 pow_1023 P2). lia. }
  assert (F : forall k p q, 2 ^ 1023 <= p -> 2 ^ 1023 <= q -> fits k (e + D1 * D2 * X) (p * q)).
  { intros k p q P1 P2 i Ri _. specialize (Big p q P1 P2).
    pose proof (prod_lt i (e + D1 * D2 * X) 256 769 ltac:(lia) ltac:(lia) ltac:(lia) BM) as PL. change (256 + 769) with 1025 in PL. lia. }
  pose proof (Big p1 q1 ltac:(lia) ltac:(lia)). pose proof (Big p2 q2 ltac:(lia) ltac:(lia)).
  assert (2 ^ 256 < 2 ^ 1025) by reflexivity.
  destruct (C62_run hmac fuel D1 D2 prv1 prv2 hash p1 q1 r1 p2 q2 r2 k1 k2 Q R Hh H1 H2 K1 K2
    ltac:(apply PP; assumption) ltac:(apply PP; assumption) G1 G2 N1 N2 MQ MR ltac:(lia) ltac:(lia)
    ltac:(apply F; lia) ltac:(apply F; lia)) as [[C _] | (s & sig & E & DS & Rs & _ & V & _)].
  - contradiction.
  - exists s, sig. destruct (V LX) as [V1 V2]. tauto.
Qed.
Print Assumptions C62_run_2048.
