(** C62 (a refuted strengthening and an example) and C63: the adaptor signature
    built on two-party ECDSA. *)

From Coq Require Import Znumtheory.
From Verif Require Import GoBase BaseLemmas BigInt BigIntProofs NumTheory BigMod SecpModel SecpGroup SecpOrder SecpOrderN SecpProofs SecpCyclic SecpSpec SecpLink EcdsaModel EcdsaSpec EcdsaNonce EcdsaProofs PubKeyProofs SchnorrProofs SchnorrProps MpcSchnorrProofs DerModel DerSpec DerProofs DerProps PaillierModel PaillierProofs PaillierProps MpcEcdsaModel MpcEcdsaProofs MpcEcdsaProps.
Local Open Scope Z_scope.

(** A function in the place of HMAC for which the nonce is f of the private key. *)
Definition echo (f : Z -> Z) (k m : bytes) : bytes :=
  if forallb (Z.eqb 0) k then octets 32 (f (set_bytes (firstn 32 (skipn 33 m)))) else k.

Lemma zeros_be : forall l, forallb (Z.eqb 0) l = true -> set_bytes l = 0.
Proof.
  intros l H. rewrite <- be_set_bytes. induction l as [ | x l IH]; [reflexivity | ].
  cbn [forallb] in H. apply andb_true_iff in H. destruct H as [H1 H2]. apply Z.eqb_eq in H1. subst x.
  cbn [be]. rewrite IH by exact H2. reflexivity.
Qed.

Lemma echo_stay : forall f o m, set_bytes o <> 0 -> echo f o m = o.
Proof.
  intros f o m H. unfold echo. destruct (forallb _ o) eqn:E; [ | reflexivity]. apply zeros_be in E. contradiction.
Qed.

Lemma echo_nonce : forall f D hash, 0 <= D < curveN -> 1 <= f D < curveN -> NonceRFC6979 (echo f) 1 curveN D hash = Some (f D).
Proof.
  intros f D hash RD RF. assert (NL : curveN < 2 ^ 256) by reflexivity. unfold NonceRFC6979. change (bit_len curveN) with 256.
  change (Z.shiftr (256 + 7) 3) with (Z.of_nat 32). rewrite int2octets_spec by lia.
  generalize (bits2octets hash curveN 256 (Z.of_nat 32)). intro h.
  assert (E : mac (echo f) (repeat 0 32) ((repeat 1 32 ++ [0]) ++ octets 32 D ++ h) = octets 32 (f D)).
  { unfold mac, echo. change (forallb (Z.eqb 0) (repeat 0 32)) with true. cbv iota.
    change (skipn 33 ((repeat 1 32 ++ [0]) ++ octets 32 D ++ h)) with (octets 32 D ++ h).
    rewrite firstn_app, octets_length, Nat.sub_diag, firstn_O, app_nil_r.
    rewrite firstn_all2 by (rewrite octets_length; constructor). rewrite octets_back by lia. reflexivity. }
  cbv zeta. rewrite E. pose proof (octets_back (f D) ltac:(lia)) as OB. pose proof (octets_length 32 (f D)) as OL. set (o := octets 32 (f D)) in *. clearbody o.
  assert (NZ : set_bytes o <> 0) by lia. unfold mac. rewrite !(echo_stay f o) by exact NZ.
  cbn [stepH]. change (256 / 8) with 32. change (Z.to_nat 32) with 32%nat. unfold mac.
  assert (LO : len o = 32) by (rewrite <- len_length, OL; reflexivity).
  assert (H2 : forall n, stepH2 (echo f) (S (S n)) o o [] 32 = (o, o)).
  { intro n. cbn [stepH2]. change (len [] <? 32) with true. cbv iota. unfold mac. rewrite (echo_stay f o) by exact NZ. cbn [app].
    rewrite LO. reflexivity. }
  rewrite (H2 30%nat). cbv iota zeta. unfold bits2int. rewrite LO. change (256 <? 32 * 8) with false. cbv iota zeta.
  rewrite OB. rewrite (proj2 (Z.leb_le 1 (f D))), (proj2 (Z.ltb_lt (f D) curveN)) by lia. reflexivity.
Qed.

Lemma PN_primes : paillier_primes curveP curveN.
Proof.
  split; [exact curveP_prime | ]. split; [exact curveN_prime | ]. split; [discriminate | ]. exists 256.
  split; [discriminate | ]. split; split; (discriminate || reflexivity).
Qed.

(** The point with x = N. *)
Definition tall : point := Some (curveN, 69186903114498750860896505739646488798970448350379198433587849548453839594014).
Lemma tall_good : good tall.
Proof. split; [split; [discriminate | reflexivity] | ]. split; [split; [discriminate | reflexivity] | ]. vm_compute. reflexivity. Qed.

(** A nonce whose point has x = N and whose inverse is in the lower half. *)
Lemma tall_nonce : exists k Rp, 1 <= k < curveN /\ gof Rp (gmul k gG) /\ px Rp = curveN /\
  forall i, 0 <= i < curveN -> (k * i) mod curveN = 1 -> i <= curveN / 2.
Proof.
  destruct (gof_good tall tall_good) as (a & GA). destruct (cyclic a) as (k & Rk & EK).
  assert (AN : a <> g0).
  { intro Z0. pose proof (gof_enc _ _ GA) as E. rewrite Z0 in E. change (enc g0) with (0, 0) in E. vm_compute in E. discriminate. }
  assert (K1 : 1 <= k < curveN).
  { destruct (Z.eq_dec k 0) as [-> | ]; [ | lia]. exfalso. apply AN. rewrite EK. apply gmul_G_0. reflexivity. }
  destruct (mod_inverse_prime curveN k curveN_prime (small_mod k K1)) as (j & _ & Rj & MJ).
  assert (U : forall c i, (c * i) mod curveN = 1 -> forall l, 0 <= i < curveN -> 0 <= l < curveN -> (c * l) mod curveN = 1 -> i = l).
  { intros c i Hi l Ri Rl Hl. assert (X : (i * (c * l)) mod curveN = (l * (c * i)) mod curveN) by (f_equal; ring).
    rewrite <- Zmult_mod_idemp_r, Hl, <- (Zmult_mod_idemp_r (c * i)), Hi, !Z.mul_1_r, !Z.mod_small in X by assumption. exact X. }
  pose proof curveN_odd as ODD. pose proof (Z.div_mod curveN 2 ltac:(lia)) as DM.
  destruct (Z_le_gt_dec j (curveN / 2)) as [L | L].
  - exists k, tall. split; [exact K1 | ]. rewrite <- EK. split; [exact GA | ]. split; [reflexivity | ].
    intros i Ri Hi. rewrite (U k i Hi j Ri Rj MJ). exact L.
  - exists (curveN - k), (opposite tall). split; [lia | ].
    split; [ | split; [reflexivity | ]].
    + replace (gmul (curveN - k) gG) with (gopp a); [apply gof_opp; exact GA | ].
      rewrite EK, <- gmul_opp. rewrite <- (gmul_any_mod (- k)), <- (gmul_any_mod (curveN - k)). f_equal. apply eqm_sub; [exact N_pos | ]. exists (-1). ring.
    + intros i Ri Hi. assert (Rc : 0 <= curveN - j < curveN).
      { destruct (Z.eq_dec j 0) as [-> | ]; [ | lia]. rewrite Z.mul_0_r, Z.mod_0_l in MJ by (apply Z.neq_sym, Z.lt_neq, N_pos). discriminate MJ. }
      assert (MC : ((curveN - k) * (curveN - j)) mod curveN = 1).
      { rewrite <- MJ. apply eqm_sub; [exact N_pos | ]. exists (curveN - k - j). ring. }
      rewrite (U _ i Hi _ Ri Rc MC). clear - ODD DM L. rewrite ODD in DM. clear ODD. generalize dependent (curveN / 2). intros h DM L. lia.
Qed.

(** The parties do not reduce the x coordinate of R, so not every signature
    they make is accepted. *)
Theorem C62_always_valid_refuted : exists hmac fuel D1 D2 prv1 prv2 hash p1 q1 r1 p2 q2 r2 k1 k2 Q R s sig,
  bytes_ok hash /\ 1 <= D1 < order_n /\ 1 <= D2 < order_n /\ pair_of D1 prv1 /\ pair_of D2 prv2 /\
  paillier_primes p1 q1 /\ paillier_primes p2 q2 /\ Z.gcd r1 (p1 * q1) = 1 /\ Z.gcd r2 (p2 * q2) = 1 /\
  NonceRFC6979 hmac fuel order_n D1 hash = Some k1 /\ NonceRFC6979 hmac fuel order_n D2 hash = Some k2 /\
  multiple base (D1 * D2) Q /\ multiple base (k1 * k2) R /\
  RunEcdsa hmac fuel prv1 prv2 hash p1 q1 r1 p2 q2 r2 =
    Some (Ok ((px Q, py Q), (px Q, py Q), (px R, py R), (px R, py R), sig, sig)) /\
  der_sig sig (px R) s /\ 1 <= s <= order_n / 2 /\
  EcdsaVerify (px Q) (py Q) hash sig = Err "ecdsa.signature.verify.failed".
Proof.
  destruct tall_nonce as (k & Rp & Rk & GR & XR & Low).
  assert (G1 : exists Q, multiple base 1 Q).
  { destruct (gof_ex (gmul 1 gG)) as (Q & GQ). exists Q. apply (gof_multiple _ _ _ _ gof_base); [lia | exact GQ]. }
  assert (G2 : exists Q, multiple base 2 Q).
  { destruct (gof_ex (gmul 2 gG)) as (Q & GQ). exists Q. apply (gof_multiple _ _ _ _ gof_base); [lia | exact GQ]. }
  destruct G1 as (Q1 & M1). destruct G2 as (Q2 & M2).
  assert (MR : multiple base (k * 1) Rp) by (rewrite Z.mul_1_r; apply (gof_multiple _ _ _ _ gof_base); [lia | exact GR]).
  set (f := fun D => if D =? 1 then k else 1).
  assert (E1 : NonceRFC6979 (echo f) 1 order_n 1 [1] = Some k).
  { rewrite order_n_eq. apply (echo_nonce f 1 [1]); [split; [discriminate | reflexivity] | exact Rk]. }
  assert (E2 : NonceRFC6979 (echo f) 1 order_n 2 [1] = Some 1).
  { rewrite order_n_eq. apply (echo_nonce f 2 [1]); [split; [discriminate | reflexivity] | split; [discriminate | reflexivity]]. }
  assert (K1 : pair_of 1 (1, (px Q1, py Q1))) by (exists Q1; split; [exact M1 | reflexivity]).
  assert (K2 : pair_of 2 (2, (px Q2, py Q2))) by (exists Q2; split; [exact M2 | reflexivity]).
  assert (R1 : 1 <= 1 < order_n) by (split; [discriminate | reflexivity]).
  assert (R2 : 1 <= 2 < order_n) by (split; [discriminate | reflexivity]).
  assert (H1 : bytes_ok [1]) by (repeat constructor; lia).
  assert (EM : message_int [1] + 1 * 2 * px Rp = 1 + 2 * curveN) by (rewrite XR; reflexivity).
  assert (G : Z.gcd 1 (curveP * curveN) = 1) by apply Z.gcd_1_l.
  assert (F1 : fits k (message_int [1] + 1 * 2 * px Rp) (curveP * curveN)).
  { intros i Ri Hi. rewrite order_n_eq in Ri, Hi. specialize (Low i Ri Hi). rewrite EM.
    assert (X : curveN / 2 * (1 + 2 * curveN) < curveP * curveN) by reflexivity.
    assert (0 <= 1 + 2 * curveN) by discriminate.
    pose proof (Z.mul_le_mono_nonneg_r _ _ (1 + 2 * curveN) ltac:(assumption) Low). lia. }
  assert (F2 : fits 1 (message_int [1] + 1 * 2 * px Rp) (curveP * curveN)).
  { intros i Ri Hi. rewrite Z.mul_1_l, Z.mod_small in Hi by exact Ri. subst i. rewrite EM. reflexivity. }
  destruct (C62_run (echo f) 1 1 2 _ _ [1] curveP curveN 1 curveP curveN 1 k 1 Q2 Rp H1 R1 R2 K1 K2 PN_primes PN_primes G G E1 E2
    M2 MR ltac:(reflexivity) ltac:(reflexivity) F1 F2) as [[C _] | (s & sig & E & [_ DS] & Rs & _ & _ & V)].
  { exfalso. rewrite EM in C. vm_compute in C. discriminate. }
  exists (echo f), 1%nat, 1, 2, (1, (px Q1, py Q1)), (2, (px Q2, py Q2)), [1], curveP, curveN, 1, curveP, curveN, 1, k, 1, Q2, Rp, s, sig.
  specialize (V ltac:(rewrite XR; discriminate)).
  pose proof PN_primes. tauto.
Qed.
Print Assumptions C62_always_valid_refuted.

(** ** C63 *)

(** What Alice computes from two numbers that differ by the factor t. *)
Theorem C63_recover : forall a b t, (b * t) mod order_n = a mod order_n -> b mod order_n <> 0 ->
  APhase6 a b = Ok (t mod order_n).
Proof.
  intros a b t E NZ. rewrite order_n_eq in *. unfold APhase6.
  destruct (mod_inverse_prime curveN b curveN_prime NZ) as (i & EI & RI & MI). rewrite EI. cbn [deref rbind]. f_equal.
  rewrite <- Zmult_mod_idemp_l, <- E, Zmult_mod_idemp_l. replace (b * t * i) with (t * (b * i)) by ring.
  rewrite <- Zmult_mod_idemp_r, MI, Z.mul_1_r. reflexivity.
Qed.
Print Assumptions C63_recover.

Theorem C63_recover_only : forall a b x, APhase6 a b = Ok x <->
  b mod order_n <> 0 /\ 0 <= x < order_n /\ (b * x) mod order_n = a mod order_n.
Proof.
  intros a b x. split.
  - intro E. assert (NZ : b mod order_n <> 0).
    { intro Z0. unfold APhase6 in E. destruct (mod_inverse b curveN) as [i | ] eqn:EI; [ | discriminate].
      assert (N1 : 1 < curveN) by reflexivity. destruct (mod_inverse_some _ _ _ N1 EI) as [_ X]. rewrite order_n_eq in Z0.
      rewrite <- Zmult_mod_idemp_l, Z0 in X. discriminate. }
    split; [exact NZ | ]. rewrite order_n_eq in *.
    destruct (mod_inverse_prime curveN b curveN_prime NZ) as (i & EI & RI & MI). unfold APhase6 in E. rewrite EI in E. cbn [deref rbind] in E.
    assert (X : x = (a * i) mod curveN) by congruence. clear E. subst x. split; [apply Z.mod_pos_bound; exact N_pos | ].
    rewrite Zmult_mod_idemp_r. replace (b * (a * i)) with (a * (b * i)) by ring. rewrite <- Zmult_mod_idemp_r, MI, Z.mul_1_r. reflexivity.
  - intros (NZ & R & E). rewrite (C63_recover a b x E NZ), Z.mod_small by exact R. reflexivity.
Qed.
Print Assumptions C63_recover_only.

Lemma nz_pos : forall s, 0 <= s < curveN -> s <> 0 -> 1 <= s < curveN.
Proof. intros s H N. lia. Qed.
Lemma neg_pos : forall s, 1 <= s < curveN -> 1 <= curveN - s < curveN.
Proof. intros s H. lia. Qed.
(** t has an inverse; a name that keeps lia away from it. *)
Definition unitN (t : Z) : Prop := t mod curveN <> 0.

(** The whole run. *)
Theorem C63_run : forall hmac fuel D1 D2 prv1 prv2 secret hash p1 q1 r1 p2 q2 r2 k1 k2 Q R,
  bytes_ok hash -> 1 <= D1 < order_n -> 1 <= D2 < order_n -> pair_of D1 prv1 -> pair_of D2 prv2 ->
  0 <= secret -> secret mod order_n <> 0 ->
  paillier_primes p1 q1 -> paillier_primes p2 q2 -> Z.gcd r1 (p1 * q1) = 1 -> Z.gcd r2 (p2 * q2) = 1 ->
  NonceRFC6979 hmac fuel order_n D1 hash = Some k1 -> NonceRFC6979 hmac fuel order_n D2 hash = Some k2 ->
  multiple base (D1 * D2) Q -> multiple base (k1 * k2 * secret) R ->
  let m := message_int hash + D1 * D2 * px R in
  D1 < p1 * q1 -> D2 < p2 * q2 -> fits k1 m (p2 * q2) -> fits k2 m (p1 * q1) ->
  (m mod order_n = 0 /\ RunScriptless hmac fuel prv1 prv2 secret hash p1 q1 r1 p2 q2 r2 = Some Panic) \/
  (exists fs1 fs2 s sig,
    RunScriptless hmac fuel prv1 prv2 secret hash p1 q1 r1 p2 q2 r2 =
      Some (Ok ((px Q, py Q), (px Q, py Q), (px R, py R), (px R, py R), fs1, fs2, secret mod order_n, sig)) /\
    (fs1 * (k1 * k2)) mod order_n = m mod order_n /\
    (fs2 * (k1 * k2 * secret)) mod order_n = m mod order_n /\
    (bytes_ok sig /\ der_sig sig (px R) s) /\ 1 <= s <= order_n / 2 /\
    (px R < order_n -> ecdsa_valid Q (message_int hash) (px R) s /\ EcdsaVerify (px Q) (py Q) hash sig = Ok tt) /\
    (order_n <= px R -> EcdsaVerify (px Q) (py Q) hash sig = Err "ecdsa.signature.verify.failed") /\
    (* from the published signature: the secret or its opposite *)
    (s = fs2 /\ APhase6 fs1 s = Ok (secret mod order_n) \/
     s = order_n - fs2 /\ APhase6 fs1 s = Ok ((- secret) mod order_n))).
Proof.
  intros hmac fuel D1 D2 prv1 prv2 t hash p1 q1 r1 p2 q2 r2 k1 k2 Q R Hh H1 H2 K1 K2 T0 TN PP1 PP2 G1 G2 N1 N2 MQ MR m L1 L2 F1 F2.
  unfold fits in F1, F2. rewrite order_n_eq in *. change (unitN t) in TN.
  apply pair_key in K1; [ | lia]. apply pair_key in K2; [ | lia]. subst prv1 prv2. unfold key.
  destruct (Phase2_ok hmac fuel D1 hash p1 q1 r1 k1 (primes_key _ _ PP1) G1 ltac:(lia) N1) as (c1 & pk1 & sk1 & i1 & KP1 & E1 & GC1 & DC1 & RI1 & MI1 & RK1).
  destruct (Phase2_ok hmac fuel D2 hash p2 q2 r2 k2 (primes_key _ _ PP2) G2 ltac:(lia) N2) as (c2 & pk2 & sk2 & i2 & KP2 & E2 & GC2 & DC2 & RI2 & MI2 & RK2).
  pose proof MQ as MQ'. pose proof MR as MR'.
  assert (DD : 0 <= D1 * D2) by (apply Z.mul_nonneg_nonneg; lia). assert (KN : 0 <= k1 * k2) by (apply Z.mul_nonneg_nonneg; lia).
  assert (KT : 0 <= k1 * k2 * t) by (apply Z.mul_nonneg_nonneg; assumption).
  apply key_point in MQ; [ | exact DD]. apply key_point in MR; [ | exact KT].
  pose proof (gof_enc _ _ MQ) as EQ. pose proof (gof_enc _ _ MR) as ER. pose proof (enc_bounds (gmul (k1 * k2 * t) gG)) as BX.
  rewrite ER in BX. cbn [fst snd] in BX.
  assert (HM := message_int_range hash Hh). assert (M0 : 0 <= m) by (apply Z.add_nonneg_nonneg; [exact (proj1 HM) | apply Z.mul_nonneg_nonneg; [exact DD | exact (proj1 (proj1 BX))]]).
  specialize (F1 i1 RI1 MI1). specialize (F2 i2 RI2 MI2).
  unfold RunScriptless, BPhase2. cbn [fst snd]. rewrite E1, E2. unfold EPhase1. cbn [fst snd rbind].
  rewrite !(Z.abs_eq t) by exact T0.
  rewrite !mult_big by (first [exact T0 | lia]). cbn [rbind]. rewrite <- !gmul_mul, (Z.mul_comm D2 D1), EQ.
  unfold BPhase3, EPhase3. cbn [ep_k]. rewrite !(Z.abs_eq t) by exact T0.
  rewrite !mult_big by (first [exact T0 | lia]). cbn [rbind]. rewrite !mult_big by (first [exact T0 | lia]). cbn [rbind].
  rewrite <- !gmul_mul.
  replace (k1 * (t * k2)) with (k1 * k2 * t) by ring. replace (t * k2 * k1) with (k1 * k2 * t) by ring. rewrite ER.
  destruct (Phase4_ok p2 q2 pk2 sk2 (MkEParty D1 k1 (Some i1) hash sk1) c2 D2 (px R) i1 KP2 GC2 DC2 eq_refl ltac:(lia) ltac:(lia) ltac:(lia) ltac:(cbn; lia) Hh (py R))
    as (ct1 & P1 & _ & V1).
  destruct (Phase4_ok p1 q1 pk1 sk1 (MkEParty D2 k2 (Some i2) hash sk2) c1 D1 (px R) i2 KP1 GC1 DC1 eq_refl ltac:(lia) ltac:(lia) ltac:(lia) ltac:(cbn; lia) Hh (py R))
    as (ct2 & P2 & _ & V2).
  rewrite P1. cbn [rbind]. rewrite P2. cbn [rbind]. cbn [ep_hash ep_D] in V1, V2.
  replace (message_int hash + px R * (D1 * D2)) with m in V1 by (unfold m; ring).
  replace (message_int hash + px R * (D2 * D1)) with m in V2 by (unfold m; ring).
  rewrite Z.mod_small in V1 by (split; [apply Z.mul_nonneg_nonneg; lia | exact F1]).
  rewrite Z.mod_small in V2 by (split; [apply Z.mul_nonneg_nonneg; lia | exact F2]).
  unfold APhase5, BPhase5. cbn [ep_encprv ep_kinv]. rewrite V1, V2. cbn [rbind deref].
  destruct (mod_inverse_prime curveN t curveN_prime TN) as (j & EJ & RJ & MJ). rewrite EJ. cbn [rbind deref].
  destruct (final_number m k1 i1 k2 i2 MI1 MI2) as [FN FE]. rewrite FE in FN. set (s1 := (i2 * m * i1) mod curveN) in *.
  set (s2 := (i1 * m * i2 * j) mod curveN) in *.
  assert (R2 : 0 <= s2 < curveN) by (apply Z.mod_pos_bound; exact N_pos).
  assert (S21 : (s2 * t) mod curveN = s1 mod curveN).
  { unfold s2. rewrite Zmult_mod_idemp_l. replace (i1 * m * i2 * j * t) with (i1 * m * i2 * (t * j)) by ring.
    rewrite <- Zmult_mod_idemp_r, MJ, Z.mul_1_r, FE. unfold s1. rewrite Z.mod_mod by discriminate. reflexivity. }
  assert (FT : (s2 * (k1 * k2 * t)) mod curveN = m mod curveN).
  { replace (s2 * (k1 * k2 * t)) with (s2 * t * (k1 * k2)) by ring. rewrite <- Zmult_mod_idemp_l, S21, Zmult_mod_idemp_l. exact FN. }
  assert (KK : (k1 * k2 * t) mod curveN <> 0).
  { apply nz_product; [apply nz_product; apply small_mod; assumption | exact TN]. }
  assert (ZZ : s2 = 0 <-> m mod curveN = 0).
  { split; [intro Z0; rewrite <- FT, Z0; reflexivity | intro Z0]. rewrite Z0 in FT.
    destruct (Z.eq_dec s2 0) as [X | X]; [exact X | exfalso]. apply (nz_product s2 (k1 * k2 * t)); [apply small_mod; apply nz_pos; assumption | exact KK | exact FT]. }
  destruct (Z.eq_dec s2 0) as [Z0 | Z0].
  - left. split; [apply ZZ; exact Z0 | ]. rewrite Z0. reflexivity.
  - right. assert (S2 := nz_pos s2 R2 Z0).  pose proof C63_recover as REC. rewrite order_n_eq in REC. assert (NZ2 := small_mod s2 S2).
    rewrite (REC s1 s2 t S21 NZ2). cbn [rbind].
    destruct (low_equation s2 (k1 * k2 * t) m R2 FT) as [[LZ LE] | [C _]]; [ | contradiction].
    pose proof (lowS_range s2 R2) as LR.
    assert (LN : lowS s2 <> 0).
    { intro X. apply LZ in X. destruct X as [X | [C _]]; [ | contradiction]. apply ZZ in X. contradiction. }
    unfold BPhase6. rewrite (proj2 (Z.eqb_neq _ _) LN). cbn [fst].
    destruct (C71_der_encode (px R) (lowS s2) 32 small_n (range_P _ (proj1 BX)) (range_half _ LR)) as (sig & ES & OS & DS & _).
    exists s1, s2, (lowS s2), sig. rewrite ES. cbn [rbind]. split; [reflexivity | ]. split; [exact FN | ]. split; [exact FT | ].
    split; [exact (conj OS DS) | ]. pose proof (low_pos _ LR LN) as LP. split; [exact LP | ].
    destruct (signature_fate (D1 * D2) (k1 * k2 * t) hash (lowS s2) sig Q R Hh DD KT KK MQ' MR' LP ES LE) as [SF1 SF2].
    rewrite order_n_eq in SF1, SF2. split; [exact SF1 | ]. split; [exact SF2 | ].
    destruct (lowS_sign s2) as [EL | EL]; rewrite EL; [left | right]; (split; [reflexivity | ]).
    + apply REC; assumption.
    + apply REC.
      * rewrite <- S21. apply eqm_sub; [exact N_pos | ]. exists (- t). ring.
      * apply small_mod, neg_pos. exact S2.
Qed.
Print Assumptions C63_run.

(** So the published signature alone does not always give the secret itself. *)
Theorem C63_published_refuted : exists hmac fuel D1 D2 prv1 prv2 secret hash p1 q1 r1 p2 q2 r2 pub1 pub2 R1 R2 fs1 fs2 t r s sig,
  bytes_ok hash /\ 1 <= D1 < order_n /\ 1 <= D2 < order_n /\ pair_of D1 prv1 /\ pair_of D2 prv2 /\ 1 <= secret < order_n /\
  RunScriptless hmac fuel prv1 prv2 secret hash p1 q1 r1 p2 q2 r2 =
    Some (Ok (pub1, pub2, R1, R2, fs1, fs2, t, sig)) /\ t = secret /\
  der_sig sig r s /\ EcdsaVerify (fst pub1) (snd pub1) hash sig = Ok tt /\
  APhase6 fs1 s = Ok (order_n - secret) /\ order_n - secret <> secret.
Proof.
  assert (G1 : exists Q, multiple base 1 Q).
  { destruct (gof_ex (gmul 1 gG)) as (Q & GQ). exists Q. apply (gof_multiple _ _ _ _ gof_base); [lia | exact GQ]. }
  destruct G1 as (Q & M1).
  assert (EQ : Q = base).
  { apply (gof_inj _ _ gG); [ | exact gof_base]. assert (P1 : 0 <= 1) by discriminate. pose proof (proj1 (gof_multiple _ _ _ _ gof_base P1) M1) as G.
    rewrite gmul_1 in G. exact G. }
  set (hash := [128] ++ repeat 0 31). set (f := fun _ : Z => 1).
  assert (R1 : 1 <= 1 < order_n) by (split; [discriminate | reflexivity]).
  assert (EN : NonceRFC6979 (echo f) 1 order_n 1 hash = Some 1).
  { rewrite order_n_eq. apply (echo_nonce f 1 hash); split; (discriminate || reflexivity). }
  assert (K1 : pair_of 1 (1, (px Q, py Q))) by (exists Q; split; [exact M1 | reflexivity]).
  assert (H1 : bytes_ok hash) by (repeat constructor; lia).
  assert (G : Z.gcd 1 (curveP * curveN) = 1) by apply Z.gcd_1_l.
  set (m := message_int hash + 1 * 1 * px Q).
  assert (BM : curveN / 2 < m < curveN) by (unfold m; rewrite EQ; split; vm_compute; reflexivity).
  assert (PN : curveN < curveP * curveN) by reflexivity.
  assert (F1 : fits 1 m (curveP * curveN)).
  { intros i Ri Hi. rewrite Z.mul_1_l, Z.mod_small in Hi by exact Ri. subst i. lia. }
  assert (ONE : 1 < curveP * curveN) by reflexivity.
  assert (MM : m mod order_n = m) by (rewrite order_n_eq; apply Z.mod_small; pose proof (Z_div_pos curveN 2 ltac:(lia) ltac:(discriminate)); lia).
  destruct (C63_run (echo f) 1 1 1 _ _ 1 hash curveP curveN 1 curveP curveN 1 1 1 Q Q H1 R1 R1 K1 K1 ltac:(lia) ltac:(discriminate)
    PN_primes PN_primes G G EN EN M1 M1 ONE ONE F1 F1) as [[C _] | (fs1 & fs2 & s & sig & E & FS1 & FS2 & [_ DS] & RS & V & _ & P)].
  { exfalso. fold m in C. rewrite MM in C. rewrite C in BM. destruct BM as [B _]. apply Z.ltb_lt in B. vm_compute in B. discriminate B. }
  fold m in FS1, FS2.
  exists (echo f), 1%nat, 1, 1, (1, (px Q, py Q)), (1, (px Q, py Q)), 1, hash, curveP, curveN, 1, curveP, curveN, 1,
    (px Q, py Q), (px Q, py Q), (px Q, py Q), (px Q, py Q), fs1, fs2, (1 mod order_n), (px Q), s, sig.
  assert (V' : EcdsaVerify (px Q) (py Q) hash sig = Ok tt) by (apply V; rewrite EQ; reflexivity).
  assert (A : APhase6 fs1 s = Ok (order_n - 1)).
  { destruct P as [[C _] | [_ A]]; [exfalso | exact A]. subst s. rewrite !Z.mul_1_r, MM in FS2. rewrite order_n_eq in *.
    rewrite Z.mod_small in FS2; [lia | ]. assert (curveN / 2 < curveN) by reflexivity. lia. }
  split; [exact H1 | ]. split; [exact R1 | ]. split; [exact R1 | ]. split; [exact K1 | ]. split; [exact K1 | ]. split; [exact R1 | ].
  split; [exact E | ]. split; [reflexivity | ]. split; [exact DS | ]. split; [exact V' | ]. split; [exact A | discriminate].
Qed.
Print Assumptions C63_published_refuted.

(** The number the protocol hands over in phase 5 does: 3 * 5 = 15. *)
Example ex_recover : APhase6 15 3 = Ok 5.
Proof. vm_compute. reflexivity. Qed.
Example ex_recover_panic : APhase6 15 0 = Panic.
Proof. vm_compute. reflexivity. Qed.
