(** ECDSA: signing and verifying. *)

From Coq Require Import Znumtheory.
From Verif Require Import GoBase BaseLemmas BigInt BigIntProofs NumTheory BigMod SecpModel SecpGroup SecpOrder SecpOrderN SecpProofs SecpCyclic SecpSpec SecpLink EcdsaModel EcdsaSpec EcdsaNonce.
Local Open Scope Z_scope.

Lemma base_mult_big : forall u, 0 <= u -> ScalarBaseMult (big_bytes u) = Ok (enc (gmul u gG)).
Proof.
  intros u Hu. rewrite ScalarBaseMult_ok by apply big_bytes_ok.
  rewrite big_bytes_set by exact Hu. reflexivity.
Qed.

Lemma mult_big : forall a u, 0 <= u ->
  ScalarMult (fst (enc a)) (snd (enc a)) (big_bytes u) = Ok (enc (gmul u a)).
Proof.
  intros a u Hu. rewrite ScalarMult_ok by apply big_bytes_ok.
  rewrite big_bytes_set by exact Hu. reflexivity.
Qed.

Lemma enc_zero : forall a, ((fst (enc a) =? 0) && (snd (enc a) =? 0)) = true <-> a = g0.
Proof.
  intro a. split.
  - intro H. apply andb_true_iff in H. destruct H as [H1 H2].
    apply Z.eqb_eq in H1, H2. apply enc_inj. rewrite enc_g0.
    rewrite (surjective_pairing (enc a)), H1, H2. reflexivity.
  - intros ->. rewrite enc_g0. reflexivity.
Qed.

Lemma message_int_ok : forall hash, bytes_ok hash -> HashToInt hash = message_int hash.
Proof.
  intros hash Hh. unfold HashToInt, message_int, bits_to_int.
  change (bit_len curveN) with 256. change ((256 + 7) / 8) with 32.
  rewrite be_set_bytes, len_length. pose proof (len_nonneg hash) as LN.
  destruct (32 <? len hash) eqn:A.
  - apply Z.ltb_lt in A. change (Z.to_nat 32) with 32%nat.
    assert (L : len (firstn 32 hash) = 32).
    { unfold len in *. rewrite firstn_length. lia. }
    rewrite L. change (0 <? 32 * 8 - 256) with false. cbn iota.
    rewrite Z.max_r by lia.
    replace (set_bytes hash) with (set_bytes (firstn 32 hash ++ skipn 32 hash))
      by (rewrite firstn_skipn; reflexivity).
    rewrite set_bytes_app. assert (M : len (skipn 32 hash) = len hash - 32).
    { unfold len in *. rewrite skipn_length. lia. }
    rewrite M. replace (8 * len hash - 256) with (8 * (len hash - 32)) by lia.
    rewrite Z.pow_mul_r by lia. change (2 ^ 8) with 256.
    rewrite Z.div_add_l by (apply Z.pow_nonzero; lia).
    rewrite (Z.div_small (set_bytes (skipn 32 hash))); [lia | ].
    rewrite <- M. assert (O : bytes_ok (skipn 32 hash)) by (apply bytes_ok_skipn; exact Hh).
    split; [apply set_bytes_nonneg | apply set_bytes_lt]; exact O.
  - apply Z.ltb_ge in A. replace (0 <? len hash * 8 - 256) with false.
    + rewrite Z.max_l by lia. rewrite Z.pow_0_r, Z.div_1_r. reflexivity.
    + symmetry. apply Z.ltb_ge. lia.
Qed.

Lemma message_int_range : forall hash, bytes_ok hash -> 0 <= message_int hash < 2 ^ 256.
Proof. intros hash H. apply bits_to_int_range; [exact H | discriminate]. Qed.

Lemma N_pos : 0 < curveN. Proof. reflexivity. Qed.
Lemma N_gt1 : 1 < curveN. Proof. reflexivity. Qed.

Lemma small_mod : forall s, 1 <= s < curveN -> s mod curveN <> 0.
Proof. intros s H. rewrite Z.mod_small; lia. Qed.

(** The point the verifier computes. *)
Definition vpoint (a : gp) (e r w : Z) : gp :=
  gadd (gmul ((e * w) mod curveN) gG) (gmul ((r * w) mod curveN) a).

Lemma Verify_group : forall a hash r s, bytes_ok hash ->
  exists b, Verify (fst (enc a)) (snd (enc a)) hash r s = Ok b /\
  (b = true <->
   1 <= r < curveN /\ 1 <= s < curveN /\
   exists w, (s * w) mod curveN = 1 /\
     vpoint a (message_int hash) r w <> g0 /\
     fst (enc (vpoint a (message_int hash) r w)) mod curveN = r).
Proof.
  intros a hash r s Hh. unfold Verify. rewrite message_int_ok by exact Hh.
  destruct ((r <=? 0) || (s <=? 0)) eqn:A.
  { exists false. split; [reflexivity | ]. split; [discriminate | ].
    intros (R & S & _). exfalso. apply orb_true_iff in A. rewrite !Z.leb_le in A. lia. }
  destruct ((curveN <=? r) || (curveN <=? s)) eqn:B.
  { exists false. split; [reflexivity | ]. split; [discriminate | ].
    intros (R & S & _). exfalso. apply orb_true_iff in B. rewrite !Z.leb_le in B. lia. }
  apply orb_false_iff in A, B. rewrite !Z.leb_gt in A, B.
  destruct (mod_inverse_prime curveN s curveN_prime (small_mod s ltac:(lia))) as (w & E & Rw & W).
  rewrite E.
  assert (P1 : 0 <= (message_int hash * w) mod curveN) by (apply Z.mod_pos_bound; exact N_pos).
  assert (P2 : 0 <= (r * w) mod curveN) by (apply Z.mod_pos_bound; exact N_pos).
  rewrite (base_mult_big _ P1). cbn [rbind].
  destruct (enc (gmul ((message_int hash * w) mod curveN) gG)) as [x1 y1] eqn:E1.
  rewrite (mult_big a _ P2). cbn [rbind].
  destruct (enc (gmul ((r * w) mod curveN) a)) as [x2 y2] eqn:E2.
  pose proof (curveAdd_ok (gmul ((message_int hash * w) mod curveN) gG)
                (gmul ((r * w) mod curveN) a)) as CA.
  rewrite E1, E2 in CA. cbn [fst snd] in CA. rewrite CA. cbn [rbind].
  change (gadd (gmul ((message_int hash * w) mod curveN) gG) (gmul ((r * w) mod curveN) a))
    with (vpoint a (message_int hash) r w).
  pose proof (enc_zero (vpoint a (message_int hash) r w)) as EZ.
  assert (U : forall w', (s * w') mod curveN = 1 ->
                vpoint a (message_int hash) r w' = vpoint a (message_int hash) r w).
  { intros w' W'.
    assert (EQ : w' mod curveN = w mod curveN).
    { assert (X : (w' * (s * w)) mod curveN = (w * (s * w')) mod curveN) by (f_equal; ring).
      rewrite <- (Zmult_mod_idemp_r (s * w)), W, <- (Zmult_mod_idemp_r (s * w')), W', !Z.mul_1_r in X.
      exact X. }
    unfold vpoint. rewrite <- (Zmult_mod_idemp_r w'), <- (Zmult_mod_idemp_r w' r), EQ,
      !Zmult_mod_idemp_r. reflexivity. }
  destruct (enc (vpoint a (message_int hash) r w)) as [x y] eqn:E3. cbn [fst snd] in EZ.
  destruct ((x =? 0) && (y =? 0)) eqn:Z0.
  - exists false. split; [reflexivity | ]. split; [discriminate | ].
    intros (_ & _ & w' & W' & NZ & _). exfalso. apply NZ. rewrite (U w' W'). apply EZ. reflexivity.
  - exists (x mod curveN =? r). split; [reflexivity | ]. rewrite Z.eqb_eq. split.
    + intro X. split; [lia | ]. split; [lia | ]. exists w. split; [exact W | ].
      split; [intro G; apply EZ in G; discriminate G | ]. rewrite E3. exact X.
    + intros (_ & _ & w' & W' & _ & X). rewrite (U w' W'), E3 in X. exact X.
Qed.

(** The group statement and the statement in points. *)
Lemma valid_group : forall Q a e r s, gof Q a ->
  (ecdsa_valid Q e r s <->
   1 <= r < curveN /\ 1 <= s < curveN /\
   exists w, (s * w) mod curveN = 1 /\ vpoint a e r w <> g0 /\
     fst (enc (vpoint a e r w)) mod curveN = r).
Proof.
  intros Q a e r s HQ. unfold ecdsa_valid. rewrite order_n_eq.
  assert (P1 : forall z, 0 <= z mod curveN) by (intro z; apply Z.mod_pos_bound; exact N_pos).
  split; intros (R & S & w & H); (split; [exact R | split; [exact S | exists w]]).
  - destruct H as (U & V & T & W & MU & MV & ST & NT & X).
    apply (gof_multiple _ _ _ _ gof_base (P1 _)) in MU.
    apply (gof_multiple _ _ _ _ HQ (P1 _)) in MV.
    apply (gof_sum _ _ _ _ _ MU MV) in ST. unfold vpoint.
    split; [exact W | ]. split.
    + intro G. apply NT. rewrite G in ST. exact (gof_inj _ _ _ ST gof_inf).
    + rewrite (gof_enc _ _ ST). exact X.
  - destruct H as (W & NT & X).
    destruct (gof_ex (gmul ((e * w) mod curveN) gG)) as (U & MU).
    destruct (gof_ex (gmul ((r * w) mod curveN) a)) as (V & MV).
    destruct (gof_ex (vpoint a e r w)) as (T & ST). exists U, V, T.
    split; [exact W | ].
    split; [apply (gof_multiple _ _ _ _ gof_base (P1 _)); exact MU | ].
    split; [apply (gof_multiple _ _ _ _ HQ (P1 _)); exact MV | ].
    split; [apply (gof_sum _ _ _ _ _ MU MV); exact ST | ]. split.
    + intros ->. apply NT. exact (gof_fun _ _ _ ST gof_inf).
    + rewrite (gof_enc _ _ ST) in X. exact X.
Qed.

(** Opposite points have the same x. *)
Lemma enc_opp_x : forall a, fst (enc (gopp a)) = fst (enc a).
Proof.
  intro a. unfold enc, gopp. cbn. destruct (gpt a) as [ | x y]; reflexivity.
Qed.

Lemma gopp_0 : forall a, gopp a = g0 <-> a = g0.
Proof.
  intro a. split; intro H.
  - pose proof (gadd_opp a) as E. rewrite H, gadd_0_r in E. exact E.
  - subst a. rewrite <- (gadd_0_l (gopp g0)). apply gadd_opp.
Qed.

Lemma vpoint_opp : forall a e r w, vpoint a e r (- w) = gopp (vpoint a e r w).
Proof.
  intros a e r w. unfold vpoint. rewrite !gmul_any_mod.
  replace (e * - w) with (- (e * w)) by ring. replace (r * - w) with (- (r * w)) by ring.
  rewrite !gmul_opp. set (u := gmul (e * w) gG). set (v := gmul (r * w) a).
  replace (gadd (gopp u) (gopp v)) with (gmul (-1) (gadd u v)).
  - change (-1) with (- (1)). rewrite gmul_opp, gmul_1. reflexivity.
  - rewrite gmul_dist. change (-1) with (- (1)). rewrite !gmul_opp, !gmul_1. reflexivity.
Qed.

(** The point the verifier reaches with a signature made with nonce k. *)
Lemma vpoint_sign : forall D e r w s k, (s * w) mod curveN = 1 -> k mod curveN <> 0 ->
  (s * k) mod curveN = (e + D * r) mod curveN ->
  vpoint (gmul D gG) e r w = gmul k gG.
Proof.
  intros D e r w s k W Hk E. unfold vpoint. rewrite !gmul_any_mod, <- gmul_mul, <- gmul_add.
  rewrite <- gmul_N. rewrite <- (gmul_N k). f_equal.
  replace (e * w + r * w * D) with (w * (e + D * r)) by ring.
  rewrite <- Zmult_mod_idemp_r, <- E, Zmult_mod_idemp_r.
  replace (w * (s * k)) with (k * (s * w)) by ring.
  rewrite <- Zmult_mod_idemp_r, W, Z.mul_1_r. reflexivity.
Qed.

Lemma half_N : Z.shiftr curveN 1 = curveN / 2.
Proof. reflexivity. Qed.

Lemma lowS_range : forall s, 0 <= s < curveN -> 0 <= lowS s <= curveN / 2.
Proof.
  intros s H. unfold lowS. rewrite half_N. pose proof curveN_odd as O.
  pose proof (Z.div_mod curveN 2 ltac:(lia)).
  destruct (curveN / 2 <? s) eqn:A; [apply Z.ltb_lt in A | apply Z.ltb_ge in A]; lia.
Qed.

Lemma lowS_sign : forall s, lowS s = s \/ lowS s = curveN - s.
Proof. intro s. unfold lowS. destruct (_ <? s); [right | left]; reflexivity. Qed.

(** What signing with a given nonce does. *)
Lemma SignWith_ok : forall D k hash, bytes_ok hash -> 1 <= k < curveN ->
  (exists e, SignWith D k hash = Err e /\
     (fst (enc (gmul k gG)) mod curveN = 0 \/
      (message_int hash + D * (fst (enc (gmul k gG)) mod curveN)) mod curveN = 0)) \/
  (exists r s, SignWith D k hash = Ok (r, s) /\
     r = fst (enc (gmul k gG)) mod curveN /\ 1 <= r < curveN /\ 1 <= s <= curveN / 2 /\
     ((s * k) mod curveN = (message_int hash + D * r) mod curveN \/
      ((curveN - s) * k) mod curveN = (message_int hash + D * r) mod curveN)).
Proof.
  intros D k hash Hh Hk. unfold SignWith. rewrite message_int_ok by exact Hh.
  rewrite base_mult_big by lia. cbn [rbind].
  destruct (enc (gmul k gG)) as [x y] eqn:EX. cbn [fst].
  pose proof (Z.mod_pos_bound x curveN N_pos) as RX.
  destruct (x mod curveN =? 0) eqn:Z0.
  { left. eexists. split; [reflexivity | left]. apply Z.eqb_eq. exact Z0. }
  apply Z.eqb_neq in Z0.
  destruct (mod_inverse_prime curveN k curveN_prime (small_mod k Hk)) as (ki & E & Rk & K).
  rewrite E. set (r := x mod curveN) in *. set (e := message_int hash).
  set (s0 := ((D * r + e) * ki) mod curveN).
  assert (R0 : 0 <= s0 < curveN) by (apply Z.mod_pos_bound; exact N_pos).
  assert (EQ : (s0 * k) mod curveN = (e + D * r) mod curveN).
  { unfold s0. rewrite Zmult_mod_idemp_l.
    replace ((D * r + e) * ki * k) with ((e + D * r) * (k * ki)) by ring.
    rewrite <- Zmult_mod_idemp_r, K, Z.mul_1_r. reflexivity. }
  pose proof (lowS_range s0 R0) as LR.
  assert (EZ : lowS s0 = 0 <-> s0 = 0).
  { unfold lowS. rewrite half_N. clear - R0 LR. destruct (curveN / 2 <? s0) eqn:A;
      [apply Z.ltb_lt in A | apply Z.ltb_ge in A]; lia. }
  destruct (lowS s0 =? 0) eqn:Z1.
  - left. eexists. split; [reflexivity | right]. apply Z.eqb_eq in Z1. apply EZ in Z1.
    rewrite <- EQ, Z1. reflexivity.
  - right. apply Z.eqb_neq in Z1. exists r, (lowS s0). split; [reflexivity | ].
    split; [reflexivity | ]. split; [lia | ]. split; [lia | ].
    destruct (lowS_sign s0) as [-> | ->]; [left; exact EQ | right].
    replace (curveN - (curveN - s0)) with s0 by ring. exact EQ.
Qed.

Lemma SignWith_valid : forall D k hash r s, bytes_ok hash -> 1 <= k < curveN ->
  SignWith D k hash = Ok (r, s) ->
  1 <= r < curveN /\ 1 <= s < curveN /\
  exists w, (s * w) mod curveN = 1 /\ vpoint (gmul D gG) (message_int hash) r w <> g0 /\
    fst (enc (vpoint (gmul D gG) (message_int hash) r w)) mod curveN = r.
Proof.
  intros D k hash r s Hh Hk H.
  destruct (SignWith_ok D k hash Hh Hk) as [(e & E & _) | (r' & s' & E & ER & Rr & Rs & EQ)];
    rewrite E in H; [discriminate H | ].
  assert (Q1 : r' = r) by congruence. assert (Q2 : s' = s) by congruence.
  rewrite Q1 in ER, Rr, EQ. rewrite Q2 in Rs, EQ. clear Q1 Q2 E H.
  assert (HN : curveN / 2 < curveN) by reflexivity.
  split; [clear - Rr HN; lia | ]. split; [clear - Rs HN; lia | ].
  destruct (mod_inverse_prime curveN s curveN_prime (small_mod s ltac:(lia))) as (w & _ & _ & W).
  exists w. split; [exact W | ].
  assert (NZ : gmul k gG <> g0).
  { intro G. apply gmul_G_0 in G. apply (small_mod k Hk). exact G. }
  assert (X : vpoint (gmul D gG) (message_int hash) r w = gmul k gG \/
              vpoint (gmul D gG) (message_int hash) r w = gopp (gmul k gG)).
  { destruct EQ as [EQ | EQ].
    - left. apply (vpoint_sign D _ r w s k W (small_mod k Hk) EQ).
    - right. rewrite <- gmul_opp.
      apply (vpoint_sign D _ r w s (- k) W).
      + intro Z. apply (small_mod k Hk). apply Zmod_divide in Z; [ | discriminate].
        apply Zdivide_mod. apply Z.divide_opp_r. exact Z.
      + rewrite <- EQ. apply eqm_sub; [exact N_pos | ]. exists (- k). ring. }
  destruct X as [-> | ->].
  - split; [exact NZ | ]. symmetry. exact ER.
  - split; [intro G; apply NZ; apply gopp_0; exact G | ].
    rewrite enc_opp_x. symmetry. exact ER.
Qed.

Lemma nonce_range : forall H fuel q x hash k,
  NonceRFC6979 H fuel q x hash = Some k -> 1 <= k < q.
Proof. intros H fuel q x hash k E. apply (stepH_range _ _ _ _ _ _ _ E). Qed.
