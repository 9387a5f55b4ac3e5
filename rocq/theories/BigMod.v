(** Modular operations of math/big, as the crypto packages use them:
    ModInverse, Exp with a modulus and ModSqrt.  math/big itself is part of
    the trusted base; these are executable statements of its documented
    behaviour:
      - ModInverse(g, n) is the inverse in [0, n), or nil when g and n are not
        coprime;
      - Exp(x, y, m) is x^y mod m, and for y < 0 the power of the inverse of x
        (nil when there is none);
      - ModSqrt(x, p) for a prime p = 3 mod 4 is x^((p+1)/4) mod p when that
        squares to x, nil otherwise. *)

From Coq Require Import ZArith Znumtheory Lia Bool.
From Verif Require Import NumTheory.
Local Open Scope Z_scope.

(** Extended Euclid: (g, u) with g = gcd a b and u * a = g modulo b. *)
Fixpoint egcd (fuel : nat) (a b : Z) : Z * Z * Z :=
  match fuel with
  | O => (a, 1, 0)
  | S f =>
      if b =? 0 then (a, 1, 0)
      else let '(g, u, v) := egcd f b (a mod b) in (g, v, u - (a / b) * v)
  end.

Definition egcd_fuel (b : Z) : nat := S (S (2 * Z.to_nat (Z.log2 b) + 2)).

(** math/big Int.ModInverse. *)
Definition mod_inverse (g n : Z) : option Z :=
  let a := g mod n in
  let '(d, _, v) := egcd (egcd_fuel n) n a in
  if d =? 1 then Some (v mod n) else None.

(** math/big Int.Exp with a modulus m > 0. *)
Definition big_exp (x y m : Z) : option Z :=
  match y with
  | Z0 => Some (1 mod m)
  | Zpos e => Some (powm x e m)
  | Zneg e => match mod_inverse x m with
              | Some i => Some (powm i e m)
              | None => None
              end
  end.

(** math/big Int.ModSqrt for a prime p = 3 mod 4. *)
Definition mod_sqrt (x p : Z) : option Z :=
  let r := powm x (Z.to_pos ((p + 1) / 4)) p in
  if (r * r) mod p =? x mod p then Some r else None.

Lemma egcd_bezout : forall fuel a b g u v,
  egcd fuel a b = (g, u, v) -> u * a + v * b = g.
Proof.
  induction fuel as [ | f IH]; intros a b g u v H; cbn [egcd] in H.
  - injection H as <- <- <-. ring.
  - destruct (b =? 0) eqn:E; [injection H as <- <- <-; ring | ].
    destruct (egcd f b (a mod b)) as [[g' u'] v'] eqn:R.
    injection H as <- <- <-. apply IH in R. apply Z.eqb_neq in E.
    pose proof (Z.div_mod a b E). nia.
Qed.

Lemma mod_half : forall b r, 0 < r <= b -> 2 * (b mod r) < b + 0 \/ b = 0.
Proof.
  intros b r H. left. pose proof (Z.mod_pos_bound b r ltac:(lia)).
  pose proof (Z.div_mod b r ltac:(lia)).
  assert (1 <= b / r) by (apply Z.div_le_lower_bound; lia). nia.
Qed.

Lemma egcd_gcd : forall k fuel a b g u v,
  0 <= b -> 0 <= a -> b < 2 ^ Z.of_nat k -> (2 * k + 1 <= fuel)%nat ->
  egcd fuel a b = (g, u, v) -> g = Z.gcd a b.
Proof.
  induction k as [ | k IH]; intros fuel a b g u v Hb Ha Hk Hf H.
  - assert (b = 0) by (cbn in Hk; lia). subst b.
    rewrite Z.gcd_0_r, Z.abs_eq by lia.
    destruct fuel; cbn [egcd] in H; injection H as <- <- <-; reflexivity.
  - destruct fuel as [ | [ | f]]; [lia | lia | ]. cbn [egcd] in H.
    destruct (b =? 0) eqn:E.
    { apply Z.eqb_eq in E. subst b. injection H as <- <- <-.
      rewrite Z.gcd_0_r, Z.abs_eq by lia. reflexivity. }
    apply Z.eqb_neq in E. pose proof (Z.mod_pos_bound a b ltac:(lia)) as B.
    assert (G1 : Z.gcd a b = Z.gcd b (a mod b)).
    { rewrite (Z.gcd_comm b), Z.gcd_mod, Z.gcd_comm by lia. reflexivity. }
    destruct (a mod b =? 0) eqn:F.
    { apply Z.eqb_eq in F. rewrite F in G1. rewrite Z.gcd_0_r, Z.abs_eq in G1 by lia.
      injection H as <- <- <-. symmetry. exact G1. }
    apply Z.eqb_neq in F.
    destruct (egcd f (a mod b) (b mod (a mod b))) as [[g' u'] v'] eqn:R.
    injection H as <- <- <-.
    pose proof (Z.mod_pos_bound b (a mod b) ltac:(lia)) as B2.
    rewrite G1. rewrite <- (Z.gcd_comm (a mod b)), <- Z.gcd_mod, (Z.gcd_comm (b mod _)) by lia.
    apply (IH f _ _ g' u' v'); try lia; [ | exact R].
    destruct (mod_half b (a mod b) ltac:(lia)); [ | lia].
    rewrite Nat2Z.inj_succ, Z.pow_succ_r in Hk by lia. lia.
Qed.

Lemma egcd_fuel_ok : forall n a g u v, 0 < n -> 0 <= a < n ->
  egcd (egcd_fuel n) n a = (g, u, v) -> g = Z.gcd n a.
Proof.
  intros n a g u v Hn Ha H.
  apply (egcd_gcd (S (Z.to_nat (Z.log2 n))) (egcd_fuel n) n a g u v); try lia.
  - pose proof (Z.log2_spec n Hn) as [_ L]. pose proof (Z.log2_nonneg n).
    rewrite Nat2Z.inj_succ, Z2Nat.id by lia. lia.
  - unfold egcd_fuel. lia.
  - exact H.
Qed.

Theorem mod_inverse_some : forall g n i, 1 < n ->
  mod_inverse g n = Some i -> 0 <= i < n /\ (g * i) mod n = 1.
Proof.
  intros g n i Hn H. unfold mod_inverse in H.
  destruct (egcd (egcd_fuel n) n (g mod n)) as [[d u] v] eqn:E.
  destruct (d =? 1) eqn:D; [ | discriminate]. injection H as <-.
  apply Z.eqb_eq in D. subst d.
  split; [apply Z.mod_pos_bound; lia | ].
  apply egcd_bezout in E.
  rewrite Zmult_mod_idemp_r, <- Zmult_mod_idemp_l.
  replace (g mod n * v) with (1 + (- u) * n) by (rewrite <- E; ring).
  rewrite Z_mod_plus_full. apply Z.mod_1_l. exact Hn.
Qed.

Theorem mod_inverse_none : forall g n, 1 < n ->
  mod_inverse g n = None -> Z.gcd g n <> 1.
Proof.
  intros g n Hn H G. unfold mod_inverse in H.
  destruct (egcd (egcd_fuel n) n (g mod n)) as [[d u] v] eqn:E.
  destruct (d =? 1) eqn:D; [discriminate | ]. apply Z.eqb_neq in D.
  apply D. pose proof (Z.mod_pos_bound g n ltac:(lia)).
  assert (N0 : 0 < n) by lia.
  rewrite (egcd_fuel_ok _ _ _ _ _ N0 H0 E).
  rewrite Z.gcd_comm, Z.gcd_mod, Z.gcd_comm by lia. exact G.
Qed.

Corollary mod_inverse_coprime : forall g n, 1 < n -> Z.gcd g n = 1 ->
  exists i, mod_inverse g n = Some i.
Proof.
  intros g n Hn G. destruct (mod_inverse g n) as [i | ] eqn:E; [exists i; reflexivity | ].
  exfalso. exact (mod_inverse_none g n Hn E G).
Qed.

Lemma prime_gcd : forall p g, prime p -> g mod p <> 0 -> Z.gcd g p = 1.
Proof.
  intros p g Hp H. rewrite Z.gcd_comm. apply Zgcd_1_rel_prime, mod_nz_rel; assumption.
Qed.

Corollary mod_inverse_prime : forall p g, prime p -> g mod p <> 0 ->
  exists i, mod_inverse g p = Some i /\ 0 <= i < p /\ (g * i) mod p = 1.
Proof.
  intros p g Hp H. pose proof (prime_ge_2 _ Hp).
  destruct (mod_inverse_coprime g p ltac:(lia) (prime_gcd p g Hp H)) as (i & E).
  exists i. split; [exact E | ]. apply mod_inverse_some; [lia | exact E].
Qed.

(** ModInverse is a function of the residue, and finds the inverse. *)
Lemma mod_inverse_eq : forall g n i, 1 < n -> 0 <= i < n -> (g * i) mod n = 1 ->
  mod_inverse g n = Some i.
Proof.
  intros g n i Hn Hi E.
  assert (G : Z.gcd g n = 1).
  { apply Z.bezout_1_gcd. exists i, (- (g * i / n)).
    pose proof (Z.div_mod (g * i) n ltac:(lia)). lia. }
  destruct (mod_inverse_coprime g n Hn G) as (j & Ej).
  destruct (mod_inverse_some g n j Hn Ej) as (Hj & Hm).
  rewrite Ej. f_equal. apply (inv_unique n g); assumption.
Qed.

Theorem mod_sqrt_some : forall x p r, 0 < p -> mod_sqrt x p = Some r ->
  0 <= r < p /\ (r * r) mod p = x mod p.
Proof.
  intros x p r Hp H. unfold mod_sqrt in H.
  destruct (_ =? _) eqn:E; [ | discriminate]. injection H as <-.
  apply Z.eqb_eq in E. split; [ | exact E].
  rewrite powm_spec by exact Hp. apply Z.mod_pos_bound. exact Hp.
Qed.

(** For a prime p = 3 mod 4 it finds a root whenever there is one. *)
Theorem mod_sqrt_complete : forall x y p, prime p -> p mod 4 = 3 ->
  (y * y) mod p = x mod p -> exists r, mod_sqrt x p = Some r.
Proof.
  intros x y p Hp H4 H. pose proof (prime_ge_2 _ Hp) as H2.
  unfold mod_sqrt. set (r := powm x (Z.to_pos ((p + 1) / 4)) p).
  assert (E : (r * r) mod p = x mod p).
  { unfold r. rewrite powm_spec by lia.
    pose proof (Z.div_mod p 4 ltac:(lia)) as D. rewrite H4 in D.
    set (q := p / 4) in *.
    assert (Q : (p + 1) / 4 = q + 1).
    { rewrite D. replace (4 * q + 3 + 1) with ((q + 1) * 4) by ring.
      apply Z.div_mul. lia. }
    assert (0 <= q) by lia.
    rewrite Q, Z2Pos.id by lia.
    rewrite <- Zmult_mod, <- Z.pow_add_r by lia.
    destruct (Z.eq_dec (y mod p) 0) as [Y0 | Y0].
    - assert (X0 : x mod p = 0).
      { rewrite <- H, Zmult_mod, Y0. reflexivity. }
      rewrite <- pow_mod_base by lia. rewrite X0, Z.pow_0_l by lia. apply Zmod_0_l.
    - rewrite <- pow_mod_base by lia. rewrite <- H, pow_mod_base by lia.
      replace (y * y) with (y ^ 2) by ring. rewrite <- Z.pow_mul_r by lia.
      replace (2 * (q + 1 + (q + 1))) with ((p - 1) + 2) by lia.
      rewrite Z.pow_add_r by lia. rewrite <- Zmult_mod_idemp_l.
      rewrite fermat; [rewrite Z.mul_1_l; reflexivity | exact Hp | ].
      apply mod_nz_rel; assumption. }
  apply Z.eqb_eq in E. rewrite E. exists r. reflexivity.
Qed.
