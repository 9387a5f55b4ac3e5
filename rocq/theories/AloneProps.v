(** C149: one key used alone and in a two-party protocol. *)
From Coq Require Import Znumtheory.
From Verif Require Import GoBase BaseLemmas BigInt BigIntProofs NumTheory BigMod SecpModel SecpGroup SecpOrder SecpOrderN SecpProofs SecpCyclic SecpSpec SecpLink EcdsaModel EcdsaSpec EcdsaNonce EcdsaProofs EcdsaProps PubKeyModel PubKeySpec PubKeyProofs DerModel DerSpec
  SchnorrModel SchnorrSpec SchnorrProofs MpcSchnorrModel MpcSchnorrProofs SchnorrProps MpcRogueProps PaillierModel PaillierProofs PaillierProps MpcEcdsaModel MpcEcdsaProofs MpcEcdsaProps MpcAdaptorProps MpcLeakProps.
From Verif Require Bip32Proofs.
Local Open Scope Z_scope.

Lemma sign_alone : forall sha D m, 0 <= D < 2 ^ 256 -> nonce0 sha D m <> 0 ->
  SchnorrSignRS sha D m = Ok (fst (enc (gmul (nonce0 sha D m) gG)), (signed (gmul (nonce0 sha D m) gG) (nonce0 sha D m) + own sha (gmul D gG) m (nonce0 sha D m) * D) mod curveN).
Proof.
  intros sha D m HD NZ. unfold SchnorrSignRS. rewrite IntToByte_ok by exact HD. cbn [rbind]. unfold GetK0. fold (nonce0 sha D m).
  assert (RK : 0 <= nonce0 sha D m < curveN) by (apply Z.mod_pos_bound; exact N_pos). set (k0 := nonce0 sha D m) in *.
  replace (k0 =? 0) with false by (symmetry; apply Z.eqb_neq; exact NZ). cbn [rbind]. rewrite base_mult_big by lia. cbn [rbind].
  pose proof (enc_bounds (gmul k0 gG)) as (RX & _). pose proof P_lt. unfold signed, own.
  destruct (enc (gmul k0 gG)) as [Rx Ry] eqn:E1. cbn [fst snd] in *. rewrite IntToByte_ok by lia. cbn [rbind].
  rewrite ScalarBaseMult_ok by apply octets_ok. rewrite octets_back by exact HD. cbn [rbind].
  pose proof (GetE_ok sha m (gmul D gG) Rx) as GE. destruct (enc (gmul D gG)) as [Px Py] eqn:E2. cbn [fst snd] in GE. rewrite GE. reflexivity.
Qed.

(** C149 is false of Schnorr: the nonce is the same alone and together, the challenge is not.  A signature and the share
    of a run on the same message give the private key. *)
Theorem C149_schnorr_refuted : forall sha D1 Q1 m QA TA,
  1 <= D1 < order_n -> multiple base D1 Q1 -> good QA -> good TA -> be (sha (octets 32 D1 ++ m)) mod order_n <> 0 ->
  exists K s PA RA sA,
    SchnorrSignRS sha D1 m = Ok (px K, s) /\ sum_of Q1 QA PA /\ sum_of K TA RA /\
    session sha (D1, xy Q1) m (xy QA) (xy TA) = Ok (xy PA, xy K, xy RA, sA) /\
    let e := challenge sha Q1 m (px K) in
    let eA := challenge sha PA m (px K) in
    forall same, (same = true <-> (is_square (py K) <-> is_square (py RA))) ->
      let d := if same : bool then e - eA else e + eA in
      d mod order_n <> 0 ->
      exists i, (d * i) mod order_n = 1 /\ guess same s (be sA) i = D1.
Proof.
  intros sha D1 Q1 m QA TA HD M GA GT NZ.
  assert (GN : good None) by exact (gof_is_good _ _ gof_inf).
  destruct (C106_two_sessions_refuted sha D1 Q1 m None QA None TA HD M GN GA GN GT NZ) as (P0 & PA & K & R0 & RA & s0 & sA & S0 & SA & T0 & TT & E0 & EA & X).
  assert (HD' : 0 <= D1 < 2 ^ 256) by (rewrite order_n_eq in HD; pose proof N_lt; lia).
  assert (NZ' : nonce0 sha D1 m <> 0) by (unfold nonce0; rewrite <- be_set_bytes, <- order_n_eq; exact NZ).
  pose proof M as MQ. apply key_point in M; [|lia]. 
  assert (EQ : P0 = Q1). { apply (gof_sum _ _ _ _ _ M gof_inf) in S0. rewrite gadd_0_r in S0. exact (gof_inj _ _ _ S0 M). }
  assert (EK : key D1 = (D1, xy Q1)) by (unfold key; rewrite (gof_enc _ _ M); reflexivity).
  pose proof (session_ok sha D1 m g0 g0 HD' NZ') as SO. rewrite EK, (gof_enc _ _ gof_inf), !gadd_0_r in SO. change (px None, py None) with (xy None) in SO. rewrite E0 in SO.
  pose proof (sign_alone sha D1 m HD' NZ') as SI. revert SI SO. set (s := (signed _ _ + own _ _ _ _ * _) mod curveN). intros SI SO.
  assert (Ks : xy K = enc (gmul (nonce0 sha D1 m) gG)) by congruence. assert (Rs : xy R0 = enc (gmul (nonce0 sha D1 m) gG)) by congruence. assert (Es : s0 = octets 32 s) by congruence.
  assert (Rpy : py R0 = py K) by (unfold xy in *; congruence). clear SO.
  exists K, s, PA, RA, sA. split; [rewrite SI, <- Ks; reflexivity|]. split; [exact SA|]. split; [exact TT|]. split; [exact EA|].
  intros e eA same HS d Hd. rewrite EQ, Rpy in X. destruct (X same HS Hd) as (i & Hi & G). exists i. split; [exact Hi|]. rewrite <- G. rewrite Es. f_equal.
  rewrite be_set_bytes, octets_back; [reflexivity|]. unfold s. pose proof (Z.mod_pos_bound (signed (gmul (nonce0 sha D1 m) gG) (nonce0 sha D1 m) + own sha (gmul D1 gG) m (nonce0 sha D1 m) * D1) curveN N_pos). pose proof N_lt. lia.
Qed.
Print Assumptions C149_schnorr_refuted.

(** And of ECDSA: the two signatures, the one made alone and the joint one, give the private key to the other party,
    who knows the own key and nonce.  They try [a] and [b], each up to its sign. *)
Theorem C149_ecdsa_refuted : forall hmac fuel D1 D2 prv1 prv2 hash p1 q1 r1 p2 q2 r2 k2 Q R r s0 out,
  bytes_ok hash -> 1 <= D1 < order_n -> 1 <= D2 < order_n -> pair_of D1 prv1 -> pair_of D2 prv2 ->
  paillier_primes p1 q1 -> paillier_primes p2 q2 -> Z.gcd r1 (p1 * q1) = 1 -> Z.gcd r2 (p2 * q2) = 1 ->
  Sign hmac fuel D1 hash = Some (Ok (r, s0)) -> NonceRFC6979 hmac fuel order_n D2 hash = Some k2 ->
  multiple base (D1 * D2) Q -> (forall k1, NonceRFC6979 hmac fuel order_n D1 hash = Some k1 ->
    multiple base (k1 * k2) R /\ fits k1 (message_int hash + D1 * D2 * px R) (p2 * q2) /\ fits k2 (message_int hash + D1 * D2 * px R) (p1 * q1)) ->
  D1 < p1 * q1 -> D2 < p2 * q2 ->
  RunEcdsa hmac fuel prv1 prv2 hash p1 q1 r1 p2 q2 r2 = Some (Ok out) ->
  exists s sig a b, out = ((px Q, py Q), (px Q, py Q), (px R, py R), (px R, py R), sig, sig) /\ der_sig sig (px R) s /\
    (a = s0 \/ a = - s0) /\ (b = s \/ b = - s) /\
    let c := b * k2 * r - a * px R * D2 in
    (c mod order_n <> 0 -> exists i, (c * i) mod order_n = 1 /\ (message_int hash * (a - b * k2) * i) mod order_n = D1).
Proof.
  intros hmac fuel D1 D2 prv1 prv2 hash p1 q1 r1 p2 q2 r2 k2 Q R r s0 out Hh H1 H2 K1 K2 PP1 PP2 G1 G2 Sg N2 MQ HR L1 L2 Ru.
  destruct (C64_sign_equation hmac fuel D1 hash _ Hh ltac:(lia) Sg) as (k1 & R1 & Rk & N1 & M1 & [(e & X & _)|(s1 & X & Eq)]); [discriminate|].
  assert (r = px R1 mod order_n) as -> by congruence. assert (s1 = s0) as -> by congruence. destruct (HR k1 N1) as (MR & F1 & F2).
  destruct (C62_run hmac fuel D1 D2 prv1 prv2 hash p1 q1 r1 p2 q2 r2 k1 k2 Q R Hh H1 H2 K1 K2 PP1 PP2 G1 G2 N1 N2 MQ MR L1 L2 F1 F2) as [(_ & C)|(s & sig & C & (_ & Ds) & _ & Es & _)]; [congruence|].
  clear Sg. rewrite C in Ru. assert (Eo : out = (px Q, py Q, (px Q, py Q), (px R, py R), (px R, py R), sig, sig)) by congruence. clear Ru C.
  set (z := message_int hash) in *. set (x := px R1) in *. set (X0 := px R) in *.
  assert (On : 0 < order_n) by reflexivity.
  assert (A : exists a, (a = s0 \/ a = - s0) /\ (order_n | a * k1 - (z + D1 * (x mod order_n)))).
  { destruct (mod_off order_n x On) as (q & Hq). rewrite Hq. destruct Eq as [E|E]; apply Z.mod_divide in E; try discriminate; destruct E as (w & E).
    - exists s0. split; [now left|]. exists (w - D1 * q). transitivity (s0 * k1 - (z + D1 * x) - D1 * q * order_n); [ring|rewrite E; ring].
    - exists (- s0). split; [now right|]. exists (- w - D1 * q). transitivity (- (s0 * k1 + (z + D1 * x)) - D1 * q * order_n); [ring|rewrite E; ring]. }
  assert (B : exists b, (b = s \/ b = - s) /\ (order_n | b * (k1 * k2) - (z + D1 * D2 * X0))).
  { destruct Es as [E|E].
    - exists s. split; [now left|]. apply Z.mod_divide; [discriminate|]. rewrite Zminus_mod, E, Z.sub_diag. reflexivity.
    - exists (- s). split; [now right|]. apply Z.mod_divide; [discriminate|]. rewrite Zminus_mod. replace (- s * (k1 * k2)) with ((order_n - s) * (k1 * k2) + (- (k1 * k2)) * order_n) by ring. rewrite Z.mod_add by discriminate. rewrite E, Z.sub_diag. reflexivity. }
  destruct A as (a & Ha & (qa & Ea)). destruct B as (b & Hb & (qb & Eb)). exists s, sig, a, b. split; [exact Eo|]. split; [exact Ds|]. split; [exact Ha|]. split; [exact Hb|].
  intros c Hc. rewrite order_n_eq in Hc |- *. destruct (inv_exists curveN c curveN_prime Hc) as (i & _ & Hi). exists i. split; [exact Hi|].
  apply (cancel curveN _ D1 c i N_pos Hi); [|rewrite order_n_eq in H1; lia]. exists (b * k2 * qa - a * qb). rewrite order_n_eq in *.
  unfold c. rewrite ?order_n_eq. assert (E1 : z + D1 * (x mod curveN) = a * k1 - qa * curveN) by lia. assert (E2 : z + D1 * D2 * X0 = b * (k1 * k2) - qb * curveN) by lia.
  transitivity (a * (z + D1 * D2 * X0) - b * k2 * (z + D1 * (x mod curveN))); [ring|]. rewrite E1, E2. ring.
Qed.
Print Assumptions C149_ecdsa_refuted.

(** The key 1 alone and with a partner at the base point, for the hash of C106's example. *)
Example C149_schnorr_example : exists K s PA sA i,
  SchnorrSignRS cut 1 [7] = Ok (px K, s) /\ session cut (1, xy base) [7] (xy base) (xy None) = Ok (xy PA, xy K, xy K, sA) /\ guess true s (be sA) i = 1.
Proof.
  assert (GB : good base) by exact (gof_is_good _ _ gof_base). assert (GN : good None) by exact I.
  assert (M : multiple base 1 base). { assert (P1 : 0 <= 1) by discriminate. apply (proj2 (gof_multiple _ _ _ _ gof_base P1)). rewrite gmul_1. exact gof_base. }
  destruct (C149_schnorr_refuted cut 1 base [7] base None ltac:(split; [discriminate|reflexivity]) M GB GN) as (K & s & PA & RA & sA & E & SP & SR & X & F).
  { rewrite order_n_eq. vm_compute. discriminate. }
  assert (RK : RA = K) by (destruct K as [[? ?]|]; exact SR). rewrite RK in X, F.
  assert (EB : px PA = 0xc6047f9441ed7d6d3045406e95c07cd85c778e4b8cef3ca7abac09b95c709ee5).
  { apply (gof_sum _ _ _ _ _ gof_base gof_base) in SP. pose proof (gof_enc _ _ SP) as E1. pose proof (curveAdd_ok gG gG) as C. rewrite E1 in C. rewrite (gof_enc _ _ gof_base) in C.
    cbn [fst snd] in C. assert (H : px PA = match curveAdd (px base) (py base) (px base) (py base) with Ok (x, _) => x | _ => 0 end) by (rewrite C; reflexivity).
    rewrite H. vm_compute. reflexivity. }
  specialize (F true). cbv zeta in F. destruct F as (i & _ & G).
  { split; intro; [tauto|reflexivity]. }
  { rewrite !cut_challenge.
    - rewrite EB, order_n_eq. vm_compute. discriminate.
    - rewrite EB. split; [discriminate|reflexivity].
    - split; [discriminate|reflexivity]. }
  exists K, s, PA, sA, i. auto.
Qed.

(** The keys 5 and 7, a hash of 1 and both nonces 1, as in C104's example: both the signature of the first party alone
    and the joint run succeed. *)
Example C149_ecdsa_example : let f := fun _ : Z => 1 in
  exists prv1 prv2 Q r s0 out, pair_of 5 prv1 /\ pair_of 7 prv2 /\ multiple base (5 * 7) Q /\
    Sign (echo f) 1 5 [1] = Some (Ok (r, s0)) /\ RunEcdsa (echo f) 1 prv1 prv2 [1] curveP curveN 1 curveP curveN 1 = Some (Ok out) /\
    (forall k1, NonceRFC6979 (echo f) 1 order_n 5 [1] = Some k1 -> multiple base (k1 * 1) base /\
      fits k1 (message_int [1] + 5 * 7 * px base) (curveP * curveN) /\ fits 1 (message_int [1] + 5 * 7 * px base) (curveP * curveN)).
Proof.
  intros f. destruct C104_example as (Oh & Em & PP & N5 & N7 & MR & _ & FT & _). fold f in N5, N7.
  destruct (Bip32Proofs.multiple_ex 5 ltac:(discriminate)) as (Q5 & M5). destruct (Bip32Proofs.multiple_ex 7 ltac:(discriminate)) as (Q7 & M7). destruct (Bip32Proofs.multiple_ex (5 * 7) ltac:(discriminate)) as (Q & MQ).
  assert (P5 : pair_of 5 (5, (px Q5, py Q5))) by (exists Q5; auto). assert (P7 : pair_of 7 (7, (px Q7, py Q7))) by (exists Q7; auto).
  destruct (C62_run (echo f) 1 5 7 _ _ [1] curveP curveN 1 curveP curveN 1 1 1 Q base Oh ltac:(split; [discriminate|reflexivity]) ltac:(split; [discriminate|reflexivity]) P5 P7 PP PP eq_refl eq_refl N5 N7 MQ MR ltac:(reflexivity) ltac:(reflexivity) FT FT) as [(C & _)|(s & sig & C & _)].
  { exfalso. revert C. rewrite Em, order_n_eq. vm_compute. discriminate. }
  exists (5, (px Q5, py Q5)), (7, (px Q7, py Q7)), Q. eexists _, _, _. split; [exact P5|]. split; [exact P7|]. split; [exact MQ|]. split; [vm_compute; reflexivity|]. split; [exact C|].
  intros k1 N. assert (k1 = 1) as -> by congruence. auto.
Qed.
