(** Paillier: decryption inverts encryption, and the homomorphisms. *)

From Coq Require Import Znumtheory.
From Verif Require Import GoBase NumTheory BigMod PaillierModel.
Local Open Scope Z_scope.

(** ** Congruences *)

Definition cong (n a b : Z) : Prop := a mod n = b mod n.

Lemma cong_mul : forall n a b c d, n <> 0 -> cong n a b -> cong n c d -> cong n (a * c) (b * d).
Proof. intros n a b c d Hn H1 H2. unfold cong in *. rewrite Z.mul_mod, H1, H2, <- Z.mul_mod by exact Hn. reflexivity. Qed.
Lemma cong_pow : forall n a b k, 0 < n -> 0 <= k -> cong n a b -> cong n (a ^ k) (b ^ k).
Proof.
  intros n a b k Hn Hk H. unfold cong in *. rewrite <- (pow_mod_base a), <- (pow_mod_base b) by assumption. rewrite H. reflexivity.
Qed.
Lemma cong_multiple : forall n a b t, n <> 0 -> a = b + t * n -> cong n a b.
Proof. intros n a b t Hn ->. unfold cong. apply Z_mod_plus_full. Qed.
Lemma cong_mod : forall n a, n <> 0 -> cong n (a mod n) a.
Proof. intros n a Hn. unfold cong. apply Z.mod_mod. exact Hn. Qed.
Lemma cong_down : forall n a b, 0 < n -> cong (n * n) a b -> cong n a b.
Proof.
  intros n a b Hn H. apply eqm_div in H; [ | nia]. apply eqm_sub; [exact Hn | ].
  apply Z.divide_trans with (n * n); [apply Z.divide_factor_l | exact H].
Qed.

Lemma big_exp_nonneg : forall x y m, 0 < m -> 0 <= y -> big_exp x y m = Some (x ^ y mod m).
Proof.
  intros x y m Hm Hy. destruct y as [ | e | e]; [reflexivity | | lia].
  unfold big_exp. rewrite powm_spec by exact Hm. reflexivity.
Qed.

(** (1 + tN)^k = 1 + ktN modulo N^2. *)
Lemma binom : forall n t k, 0 < n -> 0 <= k -> cong (n * n) ((1 + t * n) ^ k) (1 + k * t * n).
Proof.
  intros n t k Hn Hk. pattern k. apply natlike_ind; [ | | exact Hk].
  - unfold cong. f_equal; ring.
  - clear k Hk. intros k Hk IH. rewrite Z.pow_succ_r by exact Hk.
    unfold cong in *. rewrite Z.mul_mod, IH, <- Z.mul_mod by nia.
    apply (cong_multiple (n * n) _ _ (k * t * t)); [nia | ]. unfold Z.succ. ring.
Qed.

Lemma gcd_mul_1 : forall a b n, Z.gcd a n = 1 -> Z.gcd b n = 1 -> Z.gcd (a * b) n = 1.
Proof.
  intros a b n Ha Hb. apply Zgcd_1_rel_prime. apply rel_prime_sym, rel_prime_mult; apply rel_prime_sym, Zgcd_1_rel_prime; assumption.
Qed.
Lemma gcd_pow_1 : forall a n k, 0 <= k -> Z.gcd a n = 1 -> Z.gcd (a ^ k) n = 1.
Proof.
  intros a n k Hk Ha. pattern k. apply natlike_ind; [ | | exact Hk].
  - apply Z.gcd_1_l.
  - intros x Hx IH. rewrite Z.pow_succ_r by exact Hx. apply gcd_mul_1; assumption.
Qed.
Lemma gcd_square : forall a n, Z.gcd a n = 1 -> Z.gcd a (n * n) = 1.
Proof. intros a n H. rewrite Z.gcd_comm. apply gcd_mul_1; rewrite Z.gcd_comm; exact H. Qed.
Lemma gcd_cong : forall a b n, 0 < n -> cong n a b -> Z.gcd a n = 1 -> Z.gcd b n = 1.
Proof.
  intros a b n Hn H G. rewrite Z.gcd_comm, <- Z.gcd_mod, Z.gcd_comm in G by lia. rewrite Z.gcd_comm, <- Z.gcd_mod, Z.gcd_comm by lia.
  unfold cong in H. rewrite <- H. rewrite Z.gcd_comm. rewrite Z.gcd_comm in G. exact G.
Qed.

(** ** Keys *)

(** Euler's theorem for a product of two different primes. *)
Lemma euler_pq : forall p q a, prime p -> prime q -> p <> q -> Z.gcd a (p * q) = 1 ->
  a ^ ((p - 1) * (q - 1)) mod (p * q) = 1.
Proof.
  intros p q a Hp Hq D G. pose proof (prime_ge_2 _ Hp). pose proof (prime_ge_2 _ Hq).
  assert (Rp : rel_prime p a).
  { apply Zgcd_1_rel_prime. apply Z.bezout_1_gcd. apply Z.gcd_bezout in G. destruct G as (u & v & E). exists (v * q), u. nia. }
  assert (Rq : rel_prime q a).
  { apply Zgcd_1_rel_prime. apply Z.bezout_1_gcd. apply Z.gcd_bezout in G. destruct G as (u & v & E). exists (v * p), u. nia. }
  set (x := a ^ ((p - 1) * (q - 1))).
  assert (Xp : x mod p = 1).
  { unfold x. rewrite Z.pow_mul_r by lia. apply pow_eq_one; [lia | lia | ]. apply fermat; assumption. }
  assert (Xq : x mod q = 1).
  { unfold x. rewrite (Z.mul_comm (p - 1)), Z.pow_mul_r by lia. apply pow_eq_one; [lia | lia | ]. apply fermat; assumption. }
  assert (Dp : (p | x - 1)) by (apply eqm_div; [lia | rewrite Xp, Z.mod_1_l; lia]).
  assert (Dq : (q | x - 1)) by (apply eqm_div; [lia | rewrite Xq, Z.mod_1_l; lia]).
  assert (PQ : rel_prime p q).
  { apply prime_rel_prime; [exact Hp | ]. intro C. apply D. apply prime_div_prime; assumption. }
  assert (DD : (p * q | x - 1)).
  { destruct Dp as [u U]. rewrite U in Dq. assert (E := Gauss q p u).
    rewrite (Z.mul_comm u) in Dq. specialize (E Dq (rel_prime_sym _ _ PQ)). destruct E as [w W].
    exists w. rewrite U, W. ring. }
  assert (E := eqm_sub (p * q) x 1 ltac:(nia) DD). rewrite E. apply Z.mod_1_l. nia.
Qed.

(** Distinct primes of the same length of at least three bits. *)
Lemma phi_coprime : forall p q k, prime p -> prime q -> p <> q -> 3 <= k ->
  2 ^ (k - 1) <= p < 2 ^ k -> 2 ^ (k - 1) <= q < 2 ^ k -> Z.gcd (phi p q) (p * q) = 1.
Proof.
  intros p q k Hp Hq D Hk Bp Bq.
  assert (P4 : 4 <= 2 ^ (k - 1)) by (change 4 with (2 ^ 2); apply Z.pow_le_mono_r; lia).
  assert (K2 : 2 ^ k = 2 * 2 ^ (k - 1)).
  { replace k with (Z.succ (k - 1)) at 1 by lia. apply Z.pow_succ_r. lia. }
  assert (Odd : forall r, prime r -> 4 <= r -> Z.odd r = true).
  { intros r Hr R4. destruct (Z.odd r) eqn:E; [reflexivity | exfalso].
    rewrite <- Z.negb_even in E. apply negb_false_iff in E. apply Z.even_spec in E. destruct E as [w E].
    assert (X : (2 | r)) by (exists w; lia). apply (prime_div_prime 2 r prime_2 Hr) in X. lia. }
  assert (Rel : forall a b, prime a -> prime b -> a <> b -> 2 ^ (k - 1) <= a < 2 ^ k -> 2 ^ (k - 1) <= b < 2 ^ k -> rel_prime a (b - 1)).
  { intros a b Ha Hb AB Ba Bb. apply prime_rel_prime; [exact Ha | ]. intros [t T].
    assert (t = 1) by nia. subst t. assert (E : b = a + 1) by lia.
    pose proof (Odd a Ha ltac:(lia)) as Oa. pose proof (Odd b Hb ltac:(lia)) as Ob. rewrite E in Ob.
    rewrite Z.odd_add, Oa in Ob. discriminate Ob. }
  assert (Self : forall a, prime a -> rel_prime a (a - 1)).
  { intros a Ha. apply prime_rel_prime; [exact Ha | ]. intros [t T]. pose proof (prime_ge_2 _ Ha).
    assert (t <= 0 \/ 1 <= t) by lia. nia. }
  unfold phi. apply gcd_mul_1; rewrite Z.gcd_comm; apply gcd_mul_1; apply Zgcd_1_rel_prime.
  - apply Self. exact Hp.
  - apply Rel; auto.
  - apply Rel; auto.
  - apply Self. exact Hq.
Qed.

Section Key.
Variables p q : Z.
Hypothesis Hp : prime p.
Hypothesis Hq : prime q.
Hypothesis Hpq : p <> q.

Let N := p * q.
Let NN := N * N.
Let lam := phi p q.

#[local] Set Default Proof Using "Hp Hq Hpq".

Lemma N_big : 4 <= N.
Proof. pose proof (prime_ge_2 _ Hp). pose proof (prime_ge_2 _ Hq). unfold N. nia. Qed.
Lemma NN_pos : 0 < NN.
Proof. pose proof N_big. unfold NN. nia. Qed.
Lemma lam_pos : 1 <= lam.
Proof. pose proof (prime_ge_2 _ Hp). pose proof (prime_ge_2 _ Hq). unfold lam, phi. nia. Qed.

(** c decrypts to m (any representative modulo N). *)
Definition dec (c m : Z) : Prop := cong NN (c ^ lam) (1 + m * lam * N).

Lemma dec_cong : forall c c' m, cong NN c c' -> dec c m -> dec c' m.
Proof.
  intros c c' m H D. unfold dec in *. pose proof lam_pos. pose proof NN_pos.
  pose proof (cong_pow NN c c' lam ltac:(lia) ltac:(lia) H) as E. unfold cong in *. congruence.
Qed.

Lemma dec_mul : forall c1 c2 m1 m2, dec c1 m1 -> dec c2 m2 -> dec (c1 * c2) (m1 + m2).
Proof.
  intros c1 c2 m1 m2 D1 D2. unfold dec in *. pose proof NN_pos. rewrite Z.pow_mul_l.
  pose proof (cong_mul NN _ _ _ _ ltac:(lia) D1 D2) as E. unfold cong in *. rewrite E.
  apply (cong_multiple NN _ _ (m1 * lam * (m2 * lam))); [lia | ]. unfold NN. ring.
Qed.

Lemma dec_pow : forall c m k, 0 <= k -> dec c m -> dec (c ^ k) (k * m).
Proof.
  intros c m k Hk D. unfold dec in *. pose proof NN_pos. pose proof lam_pos. pose proof N_big.
  rewrite <- Z.pow_mul_r, (Z.mul_comm k), Z.pow_mul_r by lia.
  pose proof (cong_pow NN _ _ k ltac:(lia) Hk D) as E.
  pose proof (binom N (m * lam) k ltac:(lia) Hk) as B. fold NN in B. unfold cong in *. rewrite E, B. f_equal. ring.
Qed.

Lemma dec_gen : dec (N + 1) 1.
Proof.
  unfold dec. pose proof N_big. pose proof lam_pos. pose proof (binom N 1 lam ltac:(lia) ltac:(lia)) as B. fold NN in B.
  unfold cong in *. replace (N + 1) with (1 + 1 * N) by ring. rewrite B. f_equal. ring.
Qed.

Lemma dec_blind : forall r, Z.gcd r N = 1 -> dec (r ^ N) 0.
Proof.
  intros r G. unfold dec. pose proof N_big. pose proof lam_pos. pose proof NN_pos.
  rewrite <- Z.pow_mul_r, Z.mul_comm, Z.pow_mul_r by lia.
  assert (E : r ^ lam = 1 + (r ^ lam / N) * N).
  { pose proof (Z.div_mod (r ^ lam) N ltac:(lia)). assert (X : r ^ lam mod N = 1) by (apply euler_pq; assumption). lia. }
  rewrite E. pose proof (binom N (r ^ lam / N) N ltac:(lia) ltac:(lia)) as B. fold NN in B. unfold cong in *. rewrite B.
  apply (cong_multiple NN _ _ (r ^ lam / N)); [lia | ]. unfold NN. ring.
Qed.

Lemma dec_inv : forall c i m, cong NN (c * i) 1 -> dec c m -> dec i (- m).
Proof.
  intros c i m I D. unfold dec in *. pose proof NN_pos. pose proof lam_pos.
  pose proof (cong_pow NN _ _ lam ltac:(lia) ltac:(lia) I) as E. rewrite Z.pow_1_l, Z.pow_mul_l in E by lia.
  assert (A : cong NN (i ^ lam * (c ^ lam * i ^ lam)) (i ^ lam)).
  { pose proof (cong_mul NN (i ^ lam) (i ^ lam) _ _ ltac:(lia) eq_refl E) as X. rewrite Z.mul_1_r in X. exact X. }
  set (x := i ^ lam) in *. set (y := c ^ lam) in *.
  assert (U : cong NN (y * (1 + - m * lam * N)) 1).
  { pose proof (cong_mul NN y _ (1 + - m * lam * N) _ ltac:(lia) D eq_refl) as X. unfold cong in *. rewrite X.
    apply (cong_multiple NN _ _ (- (m * lam * (m * lam)))); [lia | ]. unfold NN. ring. }
  pose proof (cong_mul NN x x _ _ ltac:(lia) eq_refl U) as V1. rewrite Z.mul_1_r in V1.
  pose proof (cong_mul NN _ _ (1 + - m * lam * N) _ ltac:(lia) E eq_refl) as V2. rewrite Z.mul_1_l in V2.
  unfold cong in *. rewrite <- V1, <- V2. f_equal. ring.
Qed.

Let pk := fst (GenerateKeyPair p q).
Let sk := snd (GenerateKeyPair p q).

Lemma unit_mod : forall x, Z.gcd x N = 1 -> 0 < x mod NN /\ Z.gcd (x mod NN) N = 1.
Proof.
  intros x G. pose proof NN_pos. pose proof N_big. pose proof (Z.mod_pos_bound x NN ltac:(lia)) as B.
  assert (G' : Z.gcd (x mod NN) N = 1).
  { apply (gcd_cong x); [lia | | exact G]. apply cong_down; [lia | ]. symmetry. apply cong_mod. lia. }
  split; [ | exact G']. destruct (Z.eq_dec (x mod NN) 0) as [Z0 | NZ]; [ | lia].
  rewrite Z0, Z.gcd_0_l in G'. lia.
Qed.

Lemma dec_mod : forall x m, dec x m -> dec (x mod NN) m.
Proof. intros x m D. apply (dec_cong x); [ | exact D]. symmetry. apply cong_mod. pose proof NN_pos. lia. Qed.

Lemma gen_unit : Z.gcd (N + 1) N = 1.
Proof. apply Z.bezout_1_gcd. exists 1, (-1). lia. Qed.

Lemma Encrypt_dec : forall r m, Z.gcd r N = 1 -> 0 <= m < N ->
  exists c, Encrypt pk r m = Ok c /\ 0 < c < NN /\ Z.gcd c N = 1 /\ dec c m.
Proof.
  intros r m G R. unfold Encrypt. change (ppN pk) with N. change (ppNN pk) with NN. change (ppG pk) with (N + 1).
  pose proof N_big. pose proof NN_pos.
  rewrite (proj2 (Z.ltb_ge m 0)), (proj2 (Z.leb_gt N m)) by lia. cbn [orb].
  rewrite !big_exp_nonneg by lia. cbn [deref rbind].
  rewrite <- Z.mul_mod by lia. set (x := (N + 1) ^ m * r ^ N).
  assert (Gx : Z.gcd x N = 1).
  { apply gcd_mul_1; (apply gcd_pow_1; [lia | ]); [apply gen_unit | exact G]. }
  destruct (unit_mod x Gx) as [P U]. exists (x mod NN). split; [reflexivity | ].
  split; [pose proof (Z.mod_pos_bound x NN ltac:(lia)); lia | ]. split; [exact U | ].
  apply dec_mod. unfold x. replace m with (m * 1 + 0) at 2 by ring. apply dec_mul; [apply dec_pow; [lia | apply dec_gen] | apply dec_blind; exact G].
Qed.

(** Exp for any integer exponent. *)
Lemma exp_dec : forall c m k, Z.gcd c N = 1 -> dec c m ->
  exists c', big_exp c k NN = Some c' /\ 0 < c' < NN /\ Z.gcd c' N = 1 /\ dec c' (k * m).
Proof.
  intros c m k G D. pose proof NN_pos. pose proof N_big. destruct (Z_le_gt_dec 0 k) as [K | K].
  - rewrite big_exp_nonneg by lia. exists (c ^ k mod NN). split; [reflexivity | ].
    destruct (unit_mod (c ^ k) (gcd_pow_1 c N k K G)) as [P U].
    split; [pose proof (Z.mod_pos_bound (c ^ k) NN ltac:(lia)); lia | ]. split; [exact U | ].
    apply dec_mod, dec_pow; assumption.
  - destruct k as [ | e | e]; try lia. cbn [big_exp].
    assert (N1 : 1 < NN) by (unfold NN; nia).
    destruct (mod_inverse_coprime c NN N1 (gcd_square c N G)) as (i & E). rewrite E.
    destruct (mod_inverse_some c NN i N1 E) as [Bi Ei].
    assert (Gi : Z.gcd i N = 1).
    { apply Z.bezout_1_gcd. pose proof (Z.div_mod (c * i) NN ltac:(lia)) as X. rewrite Ei in X.
      exists c, (- (N * (c * i / NN))). rewrite X at 1. unfold NN at 1. ring. }
    assert (Di : dec i (- m)).
    { apply (dec_inv c); [ | exact D]. unfold cong. rewrite Ei, Z.mod_1_l by lia. reflexivity. }
    rewrite powm_spec by lia. exists (i ^ Zpos e mod NN). split; [reflexivity | ].
    destruct (unit_mod (i ^ Zpos e) (gcd_pow_1 i N (Zpos e) ltac:(lia) Gi)) as [P U].
    split; [pose proof (Z.mod_pos_bound (i ^ Zpos e) NN ltac:(lia)); lia | ]. split; [exact U | ].
    apply dec_mod. replace (Zneg e * m) with (Zpos e * - m) by lia. apply dec_pow; [lia | exact Di].
Qed.

Lemma inv_dec : forall c m i, Z.gcd c N = 1 -> dec c m -> mod_inverse c NN = Some i -> Z.gcd i N = 1 /\ dec i (- m).
Proof.
  intros c m i G D E. pose proof NN_pos. pose proof N_big. assert (N1 : 1 < NN) by (unfold NN; nia).
  destruct (mod_inverse_some c NN i N1 E) as [Bi Ei]. split.
  - apply Z.bezout_1_gcd. pose proof (Z.div_mod (c * i) NN ltac:(lia)) as X. rewrite Ei in X.
    exists c, (- (N * (c * i / NN))). rewrite X at 1. unfold NN at 1. ring.
  - apply (dec_inv c); [ | exact D]. unfold cong. rewrite Ei, Z.mod_1_l by lia. reflexivity.
Qed.

Hypothesis Hphi : Z.gcd (phi p q) (p * q) = 1.
#[local] Set Default Proof Using "Hp Hq Hpq Hphi".

Lemma mu_ex : exists mu, skmu sk = Some mu /\ (lam * mu) mod N = 1.
Proof.
  pose proof N_big. destruct (mod_inverse_coprime lam N ltac:(lia) Hphi) as (mu & E).
  exists mu. split; [exact E | ]. destruct (mod_inverse_some lam N mu ltac:(lia) E) as [_ X]. exact X.
Qed.

Lemma Decrypt_dec : forall c m, 0 < c -> dec c m -> Decrypt sk (Some c) = Ok (m mod N).
Proof.
  intros c m Hc D. unfold Decrypt, usable. rewrite (proj2 (Z.ltb_lt 0 c) Hc).
  pose proof N_big. pose proof NN_pos. pose proof lam_pos. change (sklambda sk) with lam. change (ppNN (skpk sk)) with NN.
  change (ppN (skpk sk)) with N. rewrite big_exp_nonneg by lia. cbn [deref rbind].
  destruct mu_ex as (mu & E & M). rewrite E. cbn [deref rbind]. f_equal.
  unfold dec, cong in D. rewrite D. clear D. unfold lfun.
  assert (V : (1 + m * lam * N) mod NN = 1 + (m * lam) mod N * N).
  { symmetry. apply (Z.mod_unique _ _ (m * lam / N)).
    - left. pose proof (Z.mod_pos_bound (m * lam) N ltac:(lia)). unfold NN. nia.
    - pose proof (Z.div_mod (m * lam) N ltac:(lia)). unfold NN. nia. }
  rewrite V. replace (1 + (m * lam) mod N * N - 1) with ((m * lam) mod N * N) by ring. rewrite Z.div_mul by lia.
  rewrite Zmult_mod_idemp_l. replace (m * lam * mu) with (m * (lam * mu)) by ring.
  rewrite <- Zmult_mod_idemp_r, M, Z.mul_1_r. reflexivity.
Qed.

Lemma dec_any : forall c, Z.gcd c N = 1 -> exists m, 0 <= m < N /\ dec c m.
Proof.
  intros c G. pose proof N_big. pose proof NN_pos. destruct mu_ex as (mu & _ & M).
  assert (X : c ^ lam mod N = 1) by (apply euler_pq; assumption).
  set (t := c ^ lam / N). exists ((t * mu) mod N). split; [apply Z.mod_pos_bound; lia | ].
  unfold dec. assert (E : c ^ lam = 1 + t * N) by (pose proof (Z.div_mod (c ^ lam) N ltac:(lia)); unfold t; lia).
  rewrite E. apply eqm_sub; [exact NN_pos | ].
  assert (Y : cong N t ((t * mu) mod N * lam)).
  { unfold cong. rewrite Zmult_mod_idemp_l. replace (t * mu * lam) with (t * (lam * mu)) by ring.
    rewrite <- (Zmult_mod_idemp_r (lam * mu)), M, Z.mul_1_r. reflexivity. }
  apply eqm_div in Y; [ | lia]. destruct Y as [w W]. exists w. unfold NN.
  replace (1 + t * N - (1 + (t * mu) mod N * lam * N)) with ((t - (t * mu) mod N * lam) * N) by ring. rewrite W. ring.
Qed.

(** For a ciphertext coprime to N, to decrypt to m is dec. *)
Lemma Decrypt_exact : forall c m, 0 < c -> Z.gcd c N = 1 -> Decrypt sk (Some c) = Ok m -> 0 <= m < N /\ dec c m.
Proof.
  intros c m Hc G E. destruct (dec_any c G) as (m' & R & D). rewrite (Decrypt_dec c m' Hc D) in E.
  assert (m = m') by (rewrite Z.mod_small in E by exact R; congruence). subst m'. tauto.
Qed.

End Key.
