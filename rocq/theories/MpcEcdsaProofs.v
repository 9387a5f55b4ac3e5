(** The two-party ECDSA protocol and the adaptor signature. *)

From Coq Require Import Znumtheory.
From Verif Require Import GoBase BaseLemmas BigInt BigIntProofs NumTheory BigMod SecpModel SecpGroup SecpOrder SecpOrderN SecpProofs SecpCyclic SecpSpec SecpLink EcdsaModel EcdsaSpec EcdsaProofs PubKeyProofs SchnorrProofs DerModel PaillierModel PaillierProofs PaillierProps MpcEcdsaModel.
Local Open Scope Z_scope.

(** ** No point has x = 0: such a point would have order three *)

Lemma enc_x_nz : forall a, a <> g0 -> fst (enc a) <> 0.
Proof.
  intros a N X0. destruct (gof_ex a) as (P & HP). pose proof (gof_enc _ _ HP) as E.
  destruct P as [[x y] | ].
  2: { apply N. apply (gof_fun None); [exact HP | exact gof_inf]. }
  pose proof (enc_range a N) as [_ RY]. rewrite E in X0, RY. cbn [px py fst snd] in X0, RY. subst x.
  assert (S : sum_of (Some (0, y)) (Some (0, y)) (opposite (Some (0, y)))).
  { right. left. split; [reflexivity | ]. split.
    - unfold eqp. rewrite prime_p_eq. intro H. apply Zmod_divide in H; [ | discriminate].
      replace (y + y - 0) with (2 * y) in H by ring.
      destruct (prime_mult curveP curveP_prime _ _ H) as [H2 | H2]; apply Zdivide_le in H2; try lia.
      pose proof P_lt. assert (2 < curveP) by reflexivity. lia.
    - exists 0. split; [reflexivity | ]. cbn [opposite]. exists 0, ((- y) mod prime_p).
      split; [reflexivity | ]. rewrite prime_p_eq. split; [split; [discriminate | reflexivity] | ].
      split; [apply Z.mod_pos_bound; reflexivity | ]. split; [reflexivity | ]. unfold eqp. rewrite prime_p_eq.
      rewrite Zminus_mod_idemp_l. replace (- y - (0 * (0 - 0) - y)) with 0 by ring. reflexivity. }
  apply (gof_sum _ _ _ _ _ HP HP) in S. pose proof (gof_fun _ _ _ S (gof_opp _ _ HP)) as G.
  destruct (cyclic a) as (k & Rk & EK).
  assert (T : gmul (3 * k) gG = g0).
  { replace (3 * k) with (k + (k + k)) by ring. rewrite !gmul_add. rewrite <- EK, G. apply gadd_opp. }
  apply gmul_G_0 in T. apply Zmod_divide in T; [ | discriminate].
  destruct (prime_mult curveN curveN_prime _ _ T) as [H | H].
  - apply Zdivide_le in H; [ | lia | lia]. assert (3 < curveN) by reflexivity. lia.
  - apply N. rewrite EK. apply gmul_G_0. apply Zdivide_mod. exact H.
Qed.

(** ** The signature equation implies validity *)

Lemma equation_valid : forall D k e r s, k mod curveN <> 0 -> r = fst (enc (gmul k gG)) mod curveN ->
  1 <= r < curveN -> 1 <= s < curveN ->
  (s * k) mod curveN = (e + D * r) mod curveN \/ ((curveN - s) * k) mod curveN = (e + D * r) mod curveN ->
  exists w, (s * w) mod curveN = 1 /\ vpoint (gmul D gG) e r w <> g0 /\
    fst (enc (vpoint (gmul D gG) e r w)) mod curveN = r.
Proof.
  intros D k e r s Hk ER Rr Rs EQ.
  destruct (mod_inverse_prime curveN s curveN_prime (small_mod s ltac:(lia))) as (w & _ & _ & W).
  exists w. split; [exact W | ].
  assert (NZ : gmul k gG <> g0) by (intro G; apply gmul_G_0 in G; contradiction).
  assert (X : vpoint (gmul D gG) e r w = gmul k gG \/ vpoint (gmul D gG) e r w = gopp (gmul k gG)).
  { destruct EQ as [EQ | EQ].
    - left. apply (vpoint_sign D _ r w s k W Hk EQ).
    - right. rewrite <- gmul_opp. apply (vpoint_sign D _ r w s (- k) W).
      + intro Z. apply Hk. apply Zmod_divide in Z; [ | discriminate]. apply Zdivide_mod. apply Z.divide_opp_r. exact Z.
      + rewrite <- EQ. apply eqm_sub; [exact N_pos | ]. exists (- k). ring. }
  destruct X as [-> | ->].
  - split; [exact NZ | ]. symmetry. exact ER.
  - split; [intro G; apply NZ; apply gopp_0; exact G | ]. rewrite enc_opp_x. symmetry. exact ER.
Qed.

(** ** Phase 4 *)

Lemma Phase4_ok : forall p q pk sk pt c D2 X kinv, key_pair p q pk sk -> good_ct p q c -> Decrypt sk (Some c) = Ok D2 ->
  ep_kinv pt = Some kinv -> 0 <= kinv -> 0 <= X -> 0 <= D2 -> 0 <= ep_D pt -> bytes_ok (ep_hash pt) ->
  forall y, exists ct, EPhase4 pt c pk (X, y) = Ok (Some ct) /\ good_ct p q ct /\
    Decrypt sk (Some ct) = Ok ((kinv * (message_int (ep_hash pt) + X * (ep_D pt * D2))) mod (p * q)).
Proof.
  intros p q pk sk pt c D2 X kinv K G E EK Hk HX HD HD1 Hh y. unfold EPhase4. cbn [fst]. rewrite EK.
  destruct (C61_mult_plaintext p q pk sk c D2 (ep_D pt) K G E) as (c1 & E1 & G1 & V1). rewrite E1. cbn [rbind].
  destruct (C61_mult_plaintext p q pk sk c1 _ X K G1 V1) as (c2 & E2 & G2 & V2). rewrite E2. cbn [rbind].
  destruct (C61_add_plaintext p q pk sk c2 _ (HashToInt (ep_hash pt)) K G2 V2) as (c3 & E3 & G3 & V3). rewrite E3. cbn [rbind deref].
  destruct (C61_mult_plaintext p q pk sk c3 _ kinv K G3 V3) as (c4 & E4 & G4 & V4). rewrite E4.
  exists c4. split; [reflexivity | ]. split; [exact G4 | ]. rewrite V4. f_equal.
  rewrite message_int_ok by exact Hh.
  rewrite (Zmult_mod_idemp_r (ep_D pt * D2) X), Zplus_mod_idemp_l.
  rewrite (Zmult_mod_idemp_r (X * (ep_D pt * D2) + message_int (ep_hash pt)) kinv). f_equal. ring.
Qed.

(** ** Phase 2 *)

Lemma Phase2_ok : forall hmac fuel D hash p q r k, (exists pk sk, key_pair p q pk sk) -> Z.gcd r (p * q) = 1 ->
  0 <= D < p * q -> NonceRFC6979 hmac fuel curveN D hash = Some k ->
  exists c pk sk kinv, key_pair p q pk sk /\
    EPhase2 hmac fuel D hash p q r = Some (Ok (c, pk, enc (gmul k gG), MkEParty D k (Some kinv) hash sk)) /\
    good_ct p q c /\ Decrypt sk (Some c) = Ok D /\ 0 <= kinv < curveN /\ (k * kinv) mod curveN = 1 /\ 1 <= k < curveN.
Proof.
  intros hmac fuel D hash p q r k (pk & sk & K) G R EN. pose proof (nonce_range _ _ _ _ _ _ EN) as RK.
  destruct (C60_roundtrip p q pk sk r D K G R) as (c & EC & DC).
  destruct (mod_inverse_prime curveN k curveN_prime (small_mod k RK)) as (kinv & EI & RI & MI).
  exists c, pk, sk, kinv. split; [exact K | ]. split.
  - unfold EPhase2. assert (EK := K). destruct EK as (_ & _ & _ & _ & EK). rewrite EK, EC, EN, EI.
    rewrite base_mult_big by lia. reflexivity.
  - split; [apply (C61_encrypt_good p q pk sk r D c K G R EC) | ]. split; [exact DC | ]. tauto.
Qed.

(** The number both parties reach from the plaintext of the other. *)
Lemma final_number : forall u k1 i1 k2 i2, (k1 * i1) mod curveN = 1 -> (k2 * i2) mod curveN = 1 ->
  ((i1 * u * i2) mod curveN * (k1 * k2)) mod curveN = u mod curveN /\
  (i1 * u * i2) mod curveN = (i2 * u * i1) mod curveN.
Proof.
  intros u k1 i1 k2 i2 H1 H2. split; [ | f_equal; ring].
  rewrite Zmult_mod_idemp_l. replace (i1 * u * i2 * (k1 * k2)) with (u * ((k1 * i1) * (k2 * i2))) by ring.
  rewrite <- Zmult_mod_idemp_r, (Z.mul_mod (k1 * i1)), H1, H2 by discriminate. rewrite Zmult_mod_idemp_r. f_equal. ring.
Qed.
