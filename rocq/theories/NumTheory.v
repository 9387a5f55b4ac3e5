(** Number theory used by the curve and the Paillier developments: Fermat's
    little theorem, inverses modulo a prime, and Pocklington's criterion with
    a checker that can be run. Nothing here models the Go program. *)

From Coq Require Import ZArith Znumtheory List Permutation Lia Bool.
Import ListNotations.
Local Open Scope Z_scope.

(** ** Fermat's little theorem *)

Definition prodz (l : list Z) : Z := fold_right Z.mul 1 l.

Lemma prodz_perm : forall l l', Permutation l l' -> prodz l = prodz l'.
Proof.
  unfold prodz. induction 1; cbn; [reflexivity | now rewrite IHPermutation | lia | congruence].
Qed.

Definition residues (p : Z) : list Z := map Z.of_nat (seq 1 (Z.to_nat (p - 1))).

Lemma residues_in : forall p x, In x (residues p) <-> 0 < x < p.
Proof.
  intros p x. unfold residues. rewrite in_map_iff. split.
  - intros (n & <- & H). apply in_seq in H. lia.
  - intros H. exists (Z.to_nat x). split; [lia | ]. apply in_seq. lia.
Qed.

Lemma residues_nodup : forall p, NoDup (residues p).
Proof.
  intros p. unfold residues. apply FinFun.Injective_map_NoDup.
  - intros x y H. lia.
  - apply seq_NoDup.
Qed.

Lemma prime_small_rel : forall p x, prime p -> 0 < x < p -> rel_prime p x.
Proof.
  intros p x Hp Hx. apply rel_prime_sym, rel_prime_le_prime; [exact Hp | lia].
Qed.

Lemma prodz_rel_prime : forall p l, prime p ->
  Forall (fun x => 0 < x < p) l -> rel_prime p (prodz l).
Proof.
  intros p l Hp H. induction H as [ | x l Hx Hl IH]; cbn.
  - apply rel_prime_sym, rel_prime_1.
  - apply rel_prime_mult; [apply prime_small_rel; assumption | exact IH].
Qed.

Lemma prodz_mulmod : forall p a l, p <> 0 ->
  prodz (map (fun i => (a * i) mod p) l) mod p
  = (a ^ Z.of_nat (length l) * prodz l) mod p.
Proof.
  intros p a l Hp. induction l as [ | x l IH].
  - cbn. reflexivity.
  - cbn [map length prodz fold_right]. fold (prodz l).
    fold (prodz (map (fun i => (a * i) mod p) l)).
    rewrite Z.mul_mod, IH by exact Hp.
    rewrite Z.mod_mod by exact Hp.
    rewrite <- Z.mul_mod by exact Hp.
    f_equal. rewrite Nat2Z.inj_succ, Z.pow_succ_r by lia. ring.
Qed.

Lemma prime_div_or : forall p a, prime p -> (p | a) \/ rel_prime p a.
Proof.
  intros p a Hp. destruct (Zdivide_dec p a) as [H | H]; [left; exact H | right].
  apply prime_rel_prime; assumption.
Qed.

Lemma mod_nz_rel : forall p a, prime p -> a mod p <> 0 -> rel_prime p a.
Proof.
  intros p a Hp H. destruct (prime_div_or p a Hp) as [D | D]; [ | exact D].
  exfalso. apply H. apply Zdivide_mod. exact D.
Qed.

Lemma eqm_sub : forall p a c, 0 < p -> (p | a - c) -> a mod p = c mod p.
Proof.
  intros p a c Hp [k Hk]. replace a with (c + k * p) by lia.
  apply Z_mod_plus_full.
Qed.

Lemma eqm_div : forall p a c, 0 < p -> a mod p = c mod p -> (p | a - c).
Proof.
  intros p a c Hp H. apply Zmod_divide; [lia | ].
  rewrite Zminus_mod, H, Z.sub_diag. apply Zmod_0_l.
Qed.

Theorem fermat : forall p a, prime p -> rel_prime p a -> a ^ (p - 1) mod p = 1.
Proof.
  intros p a Hp Ha. pose proof (prime_ge_2 _ Hp) as H2.
  assert (Hperm : Permutation (map (fun i => (a * i) mod p) (residues p)) (residues p)).
  { apply NoDup_Permutation_bis.
    - apply (NoDup_map_inv (fun x => x)). rewrite map_id.
      assert (G : forall l, NoDup l -> (forall x, In x l -> 0 < x < p) ->
                  NoDup (map (fun i => (a * i) mod p) l)).
      { induction l as [ | x l IH]; intros Hn Hr; cbn; [constructor | ].
        inversion Hn as [ | x' l' Hx Hl]; subst. constructor.
        - intro Hin. apply in_map_iff in Hin. destruct Hin as (y & Hy & Hyl).
          assert (D : (p | a * y - a * x)) by (apply eqm_div; [lia | exact Hy]).
          replace (a * y - a * x) with (a * (y - x)) in D by ring.
          apply Gauss in D; [ | exact Ha].
          destruct D as [k Hk].
          pose proof (Hr x (or_introl eq_refl)). pose proof (Hr y (or_intror Hyl)).
          assert (k = 0) by nia. assert (y = x) by lia. subst y. contradiction.
        - apply IH; [exact Hl | ]. intros y Hy. apply Hr. right. exact Hy. }
      apply G; [apply residues_nodup | ]. intros x Hx. apply residues_in, Hx.
    - rewrite map_length. lia.
    - intros x Hx. apply in_map_iff in Hx. destruct Hx as (y & <- & Hy).
      apply residues_in in Hy. apply residues_in.
      pose proof (Z.mod_pos_bound (a * y) p ltac:(lia)) as B.
      assert ((a * y) mod p <> 0); [ | lia].
      intro E. apply Zmod_divide in E; [ | lia].
      apply Gauss in E; [ | exact Ha].
      destruct E as [k Hk]. clear - Hk Hy.
      destruct (Z_le_gt_dec k 0); nia. }
  pose proof (prodz_mulmod p a (residues p) ltac:(lia)) as H.
  rewrite (prodz_perm _ _ Hperm) in H.
  unfold residues in H at 2. rewrite map_length, seq_length in H.
  rewrite Z2Nat.id in H by lia.
  assert (D : (p | a ^ (p - 1) * prodz (residues p) - prodz (residues p))).
  { apply eqm_div; [lia | ]. symmetry. exact H. }
  replace (a ^ (p - 1) * prodz (residues p) - prodz (residues p))
    with (prodz (residues p) * (a ^ (p - 1) - 1)) in D by ring.
  apply Gauss in D.
  - apply eqm_sub in D; [ | lia]. rewrite D. apply Z.mod_1_l. lia.
  - apply prodz_rel_prime; [exact Hp | ]. apply Forall_forall.
    intros x Hx. apply residues_in, Hx.
Qed.

(** ** Powers modulo n *)

(** Left-to-right square and multiply; the base stays small. *)
Fixpoint powm (a : Z) (e : positive) (n : Z) : Z :=
  match e with
  | xH => a mod n
  | xO e' => let r := powm a e' n in (r * r) mod n
  | xI e' => let r := powm a e' n in (a * (r * r)) mod n
  end.

Lemma powm_spec : forall a e n, 0 < n -> powm a e n = a ^ Zpos e mod n.
Proof.
  intros a e n Hn. induction e as [e IH | e IH | ]; cbn [powm].
  - rewrite IH. rewrite Pos2Z.inj_xI.
    rewrite <- Zmult_mod_idemp_r, <- Zmult_mod, Zmult_mod_idemp_r.
    f_equal. rewrite Z.pow_add_r, Z.pow_1_r by lia.
    replace (2 * Zpos e) with (Zpos e + Zpos e) by lia.
    rewrite Z.pow_add_r by lia. ring.
  - rewrite IH. rewrite Pos2Z.inj_xO.
    rewrite <- Zmult_mod. f_equal.
    replace (2 * Zpos e) with (Zpos e + Zpos e) by lia.
    rewrite Z.pow_add_r by lia. reflexivity.
  - rewrite Z.pow_1_r. reflexivity.
Qed.

Lemma pow_mod_base : forall a e n, 0 < n -> 0 <= e -> (a mod n) ^ e mod n = a ^ e mod n.
Proof.
  intros a e n Hn He. pattern e. apply natlike_ind; [reflexivity | | exact He].
  intros x Hx IH. rewrite !Z.pow_succ_r by exact Hx.
  rewrite Zmult_mod_idemp_l, <- Zmult_mod_idemp_r, IH.
  apply Zmult_mod_idemp_r.
Qed.

Lemma pow_eq_one : forall b d n, 1 < n -> 0 <= d -> b mod n = 1 -> b ^ d mod n = 1.
Proof.
  intros b d n Hn Hd H. rewrite <- pow_mod_base by lia. rewrite H.
  rewrite Z.pow_1_l by lia. apply Z.mod_1_l. lia.
Qed.

(** If b^x = 1 and b^y = 1 modulo n then b^gcd(x, y) = 1. *)
Lemma pow_gcd_one : forall b x y n, 1 < n -> 0 <= x -> 0 <= y ->
  b ^ x mod n = 1 -> b ^ y mod n = 1 -> Z.gcd x y = 1 -> b mod n = 1.
Proof.
  intros b x y n Hn Hx Hy Ex Ey Hg.
  destruct (Z.gcd_bezout x y 1 Hg) as (u & v & Huv).
  (* shift u and v to be able to use non-negative exponents *)
  assert (Hex : exists s t, 0 <= s /\ 0 <= t /\ (s * x = t * y + 1 \/ t * y = s * x + 1)).
  { destruct (Z.eq_dec x 0) as [X0 | X0].
    { subst x. exists 0, v. nia. }
    destruct (Z.eq_dec y 0) as [Y0 | Y0].
    { subst y. exists u, 0. nia. }
    destruct (Z_le_gt_dec 0 u) as [Hu | Hu].
    - destruct (Z_le_gt_dec v 0) as [Hv | Hv].
      + exists u, (- v). nia.
      + exists 0, v. assert (u = 0) by nia. subst u. nia.
    - exists (- u), v. nia. }
  destruct Hex as (s & t & Hs & Ht & [H | H]).
  - assert (A : b ^ (s * x) mod n = 1).
    { rewrite Z.mul_comm, Z.pow_mul_r by lia. apply pow_eq_one; assumption. }
    rewrite H, Z.pow_add_r, Z.pow_1_r in A by nia.
    rewrite <- Zmult_mod_idemp_l in A.
    rewrite (Z.mul_comm t y), Z.pow_mul_r, pow_eq_one, Z.mul_1_l in A by assumption.
    exact A.
  - assert (A : b ^ (t * y) mod n = 1).
    { rewrite Z.mul_comm, Z.pow_mul_r by lia. apply pow_eq_one; assumption. }
    rewrite H, Z.pow_add_r, Z.pow_1_r in A by nia.
    rewrite <- Zmult_mod_idemp_l in A.
    rewrite (Z.mul_comm s x), Z.pow_mul_r, pow_eq_one, Z.mul_1_l in A by assumption.
    exact A.
Qed.

(** ** Pocklington's criterion *)

Lemma prime_divisor : forall n, 1 < n -> exists p, prime p /\ (p | n).
Proof.
  intros n Hn. assert (H0 : 0 <= n) by lia. revert Hn. pattern n.
  apply Zlt_0_rec; [ | exact H0]. clear n H0.
  intros n IH _ Hn. destruct (prime_dec n) as [H | H].
  - exists n. split; [exact H | apply Z.divide_refl].
  - destruct (not_prime_divide n Hn H) as (m & Hm & D).
    destruct (IH m) as (p & Hp & Dp); [lia | lia | ].
    exists p. split; [exact Hp | ]. eapply Z.divide_trans; eassumption.
Qed.

Lemma small_prime_divisor : forall n, 1 < n -> ~ prime n ->
  exists p, prime p /\ (p | n) /\ p * p <= n.
Proof.
  intros n Hn H. destruct (not_prime_divide n Hn H) as (m & Hm & [k Hk]).
  assert (Hk1 : 1 < k) by nia.
  destruct (Z_le_gt_dec (m * m) n) as [L | L].
  - destruct (prime_divisor m ltac:(lia)) as (p & Hp & D).
    exists p. split; [exact Hp | ]. split.
    + eapply Z.divide_trans; [exact D | ]. exists k. exact Hk.
    + pose proof (Z.divide_pos_le p m ltac:(lia) D).
      pose proof (prime_ge_2 _ Hp). nia.
  - destruct (prime_divisor k Hk1) as (p & Hp & D).
    exists p. split; [exact Hp | ]. split.
    + eapply Z.divide_trans; [exact D | ]. exists m. lia.
    + pose proof (Z.divide_pos_le p k ltac:(lia) D) as Lp.
      pose proof (prime_ge_2 _ Hp) as Lp2. assert (Lk : k < m) by nia.
      clear - Lp Lp2 Lk Hk. assert (p * p <= k * k) by nia. nia.
Qed.

Lemma mod_of_mod : forall a n p, 0 < p -> 0 < n -> (p | n) -> a mod n = 1 -> 1 < p -> a mod p = 1.
Proof.
  intros a n p Hp Hn D H H1.
  rewrite (Zmod_div_mod p n a) by assumption. rewrite H. apply Z.mod_1_l. exact H1.
Qed.

(** Product of pairwise distinct primes each dividing m. *)
Lemma prodz_primes_divide : forall qs m,
  Forall prime qs -> NoDup qs -> Forall (fun q => (q | m)) qs -> (prodz qs | m).
Proof.
  intros qs m Hp Hn Hd. induction qs as [ | q qs IH]; cbn.
  - apply Z.divide_1_l.
  - inversion Hp; inversion Hn; inversion Hd; subst.
    destruct (IH ltac:(assumption) ltac:(assumption) ltac:(assumption)) as [k Hk].
    fold (prodz qs). assert (Hr : rel_prime q (prodz qs)).
    { match goal with H : ~ In q qs |- _ => revert H end.
      match goal with H : Forall prime qs |- _ => revert H end.
      match goal with H : prime q |- _ => revert H end.
      clear. intros Hq Hqs Hin. induction qs as [ | r qs IH]; cbn.
      - apply rel_prime_sym, rel_prime_1.
      - inversion Hqs; subst. apply rel_prime_mult.
        + destruct (prime_div_or q r Hq) as [D | D]; [ | exact D].
          exfalso. apply Hin. left. symmetry.
          apply prime_div_prime; assumption.
        + apply IH; [assumption | ]. intro. apply Hin. right. assumption. }
    match goal with H : (q | m) |- _ => rename H into Dq end.
    rewrite Hk in Dq. rewrite Z.mul_comm in Dq. apply Gauss in Dq; [ | exact Hr].
    destruct Dq as [j Hj]. exists j. rewrite Hk, Hj. ring.
Qed.

Theorem pocklington : forall n a qs,
  1 < n -> Forall prime qs -> NoDup qs -> 
  Forall (fun q => (q | n - 1)) qs ->
  n < (prodz qs + 1) * (prodz qs + 1) ->
  a ^ (n - 1) mod n = 1 ->
  Forall (fun q => Z.gcd (a ^ ((n - 1) / q) - 1) n = 1) qs ->
  prime n.
Proof.
  intros n a qs Hn Hqs Hnd Hdiv Hbig Ha Hg.
  destruct (prime_dec n) as [H | H]; [exact H | exfalso].
  destruct (small_prime_divisor n Hn H) as (p & Hp & D & Hsq).
  pose proof (prime_ge_2 _ Hp) as Hp2.
  assert (Hap : a ^ (n - 1) mod p = 1) by (apply (mod_of_mod _ n); lia || assumption).
  assert (Hra : rel_prime p a).
  { destruct (prime_div_or p a Hp) as [E | E]; [exfalso | exact E].
    apply Zdivide_mod in E.
    rewrite <- pow_mod_base in Hap by lia. rewrite E, Z.pow_0_l in Hap by lia.
    rewrite Zmod_0_l in Hap. discriminate. }
  assert (Hall : Forall (fun q => (q | p - 1)) qs).
  { rewrite Forall_forall in *. intros q Hq.
    pose proof (Hqs q Hq) as Pq. pose proof (prime_ge_2 _ Pq) as Hq2.
    destruct (Hdiv q Hq) as [k Hk].
    pose proof (Hg q Hq) as G. rewrite Hk, Z.div_mul in G by lia.
    destruct (prime_div_or q (p - 1) Pq) as [E | E]; [exact E | exfalso].
    assert (Hk0 : 0 <= k) by nia.
    assert (Hone : a ^ k mod p = 1).
    { apply (pow_gcd_one (a ^ k) q (p - 1) p); try lia.
      - rewrite <- Z.pow_mul_r by lia. rewrite <- Hk. exact Hap.
      - rewrite <- Z.pow_mul_r by lia. rewrite Z.mul_comm, Z.pow_mul_r by lia.
        apply pow_eq_one; [lia | exact Hk0 | ]. apply fermat; assumption.
      - apply Zgcd_1_rel_prime. exact E. }
    assert (Dp : (p | a ^ k - 1)).
    { apply eqm_div; [lia | ]. rewrite Hone. symmetry. apply Z.mod_1_l. lia. }
    assert (D1 : (p | 1)).
    { rewrite <- G. apply Z.gcd_greatest; assumption. }
    apply Z.divide_1_r in D1. lia. }
  pose proof (prodz_primes_divide qs (p - 1) Hqs Hnd Hall) as DF.
  apply Z.divide_pos_le in DF; [ | lia].
  assert (0 <= prodz qs).
  { assert (G : forall l, Forall prime l -> 0 <= prodz l).
    { induction 1 as [ | x l Hx Hl IH]; cbn; [lia | ].
      pose proof (prime_ge_2 _ Hx). fold (prodz l). nia. }
    apply G. exact Hqs. }
  nia.
Qed.

(** The criterion as a computation.  [pw e] is some representative of a^e
    modulo n: [powm], or the variant below for n = 2^k - c. *)
Definition pock_check (n : Z) (pw : positive -> Z) (qs : list Z) : bool :=
  (1 <? n)
  && forallb (fun q => (n - 1) mod q =? 0) qs
  && (n <? (prodz qs + 1) * (prodz qs + 1))
  && (pw (Z.to_pos (n - 1)) mod n =? 1)
  && forallb (fun q => Z.gcd (pw (Z.to_pos ((n - 1) / q)) - 1) n =? 1) qs.

Theorem pock_check_prime : forall n a pw qs,
  (forall e, pw e mod n = a ^ Zpos e mod n) ->
  Forall prime qs -> NoDup qs -> pock_check n pw qs = true -> prime n.
Proof.
  intros n a pw qs Hpw Hp Hn H. unfold pock_check in H.
  rewrite !andb_true_iff in H. destruct H as ((((H1 & H2) & H3) & H4) & H5).
  apply Z.ltb_lt in H1, H3. apply Z.eqb_eq in H4.
  rewrite forallb_forall in H2, H5. rewrite Forall_forall in Hp.
  apply (pocklington n a qs); try assumption.
  - apply Forall_forall. exact Hp.
  - apply Forall_forall. intros q Hq. pose proof (prime_ge_2 _ (Hp q Hq)).
    apply Zmod_divide; [lia | ]. apply Z.eqb_eq. apply H2. exact Hq.
  - rewrite Hpw in H4. rewrite Z2Pos.id in H4 by lia. exact H4.
  - apply Forall_forall. intros q Hq. pose proof (prime_ge_2 _ (Hp q Hq)) as Hq2.
    pose proof (H2 q Hq) as D. apply Z.eqb_eq in D.
    apply Zmod_divide in D; [ | lia]. destruct D as [k Hk].
    pose proof (H5 q Hq) as G. apply Z.eqb_eq in G.
    rewrite Hk, Z.div_mul in G |- * by lia.
    assert (0 < k) by nia.
    pose proof (Hpw (Z.to_pos k)) as E. rewrite Z2Pos.id in E by lia.
    set (t := pw (Z.to_pos k)) in *.
    rewrite Z.gcd_comm. rewrite Z.gcd_comm in G.
    apply Z.bezout_1_gcd. apply Z.gcd_bezout in G. destruct G as (u & v & G).
    destruct (eqm_div n t (a ^ k) ltac:(lia) E) as [j Hj].
    exists (u + v * j), v. nia.
Qed.

Lemma powm_mod : forall a n, 0 < n -> forall e, powm a e n mod n = a ^ Zpos e mod n.
Proof. intros a n Hn e. rewrite powm_spec, Zmod_mod by exact Hn. reflexivity. Qed.

(** Reduction modulo 2^k - c by folding the high part; it does not have to
    reduce completely. *)
Definition fold2 (k c x : Z) : Z :=
  let h := Z.shiftr x k in c * h + (x - Z.shiftl h k).

Lemma fold2_mod : forall k c x, 0 <= k -> fold2 k c x mod (2 ^ k - c) = x mod (2 ^ k - c).
Proof.
  intros k c x Hk. unfold fold2. rewrite Z.shiftl_mul_pow2 by exact Hk.
  set (h := Z.shiftr x k).
  replace (c * h + (x - h * 2 ^ k)) with (x + (- h) * (2 ^ k - c)) by ring.
  apply Z_mod_plus_full.
Qed.

Fixpoint powf (a : Z) (e : positive) (k c : Z) : Z :=
  match e with
  | xH => a
  | xO e' => let r := powf a e' k c in fold2 k c (fold2 k c (fold2 k c (r * r)))
  | xI e' => let r := powf a e' k c in fold2 k c (fold2 k c (fold2 k c (a * (r * r))))
  end.

Lemma powf_mod : forall a k c n, 0 <= k -> n = 2 ^ k - c ->
  forall e, powf a e k c mod n = a ^ Zpos e mod n.
Proof.
  intros a k c n Hk ->. induction e as [e IH | e IH | ]; cbn [powf]; cbv zeta.
  - rewrite !fold2_mod by exact Hk.
    rewrite <- Zmult_mod_idemp_r, (Zmult_mod (powf a e k c)), IH.
    rewrite <- Zmult_mod, Zmult_mod_idemp_r.
    f_equal. rewrite Pos2Z.inj_xI.
    replace (2 * Zpos e + 1) with (Zpos e + Zpos e + 1) by lia.
    rewrite !Z.pow_add_r, Z.pow_1_r by lia. ring.
  - rewrite !fold2_mod by exact Hk.
    rewrite Zmult_mod, IH, <- Zmult_mod. f_equal. rewrite Pos2Z.inj_xO.
    replace (2 * Zpos e) with (Zpos e + Zpos e) by lia.
    rewrite Z.pow_add_r by lia. reflexivity.
  - rewrite Z.pow_1_r. reflexivity.
Qed.

(** Trial division, for the leaves of a certificate. *)
Fixpoint no_divisor (n d : Z) (fuel : nat) : bool :=
  match fuel with
  | O => n <? d * d
  | S f => if n <? d * d then true
           else if n mod d =? 0 then false else no_divisor n (d + 1) f
  end.

Lemma no_divisor_spec : forall fuel n d, 2 <= d -> no_divisor n d fuel = true ->
  forall m, d <= m -> m * m <= n -> ~ (m | n).
Proof.
  induction fuel as [ | f IH]; intros n d Hd H m Hm Hs D; cbn in H.
  - apply Z.ltb_lt in H. nia.
  - destruct (n <? d * d) eqn:E; [apply Z.ltb_lt in E; nia | ].
    destruct (n mod d =? 0) eqn:F; [discriminate | ].
    apply Z.eqb_neq in F. destruct (Z.eq_dec m d) as [ | Hne].
    + subst m. apply F. apply Zdivide_mod. exact D.
    + apply (IH n (d + 1) ltac:(lia) H m); try assumption; lia.
Qed.

Theorem no_divisor_prime : forall n fuel, 1 < n -> no_divisor n 2 fuel = true -> prime n.
Proof.
  intros n fuel Hn H. destruct (prime_dec n) as [P | P]; [exact P | exfalso].
  destruct (small_prime_divisor n Hn P) as (p & Hp & D & Hs).
  pose proof (prime_ge_2 _ Hp).
  exact (no_divisor_spec fuel n 2 ltac:(lia) H p ltac:(lia) Hs D).
Qed.

(** ** Inverses modulo a prime *)

(** The inverse of a modulo n: what [Znumtheory]'s extended gcd gives. *)
Lemma inv_exists : forall p a, prime p -> a mod p <> 0 ->
  exists i, 0 <= i < p /\ (a * i) mod p = 1.
Proof.
  intros p a Hp Ha. pose proof (prime_ge_2 _ Hp).
  exists (a ^ (p - 2) mod p). split; [apply Z.mod_pos_bound; lia | ].
  rewrite Zmult_mod_idemp_r.
  replace (a * a ^ (p - 2)) with (a ^ (p - 1)).
  - apply fermat; [exact Hp | ]. apply mod_nz_rel; assumption.
  - replace (p - 1) with (Z.succ (p - 2)) by lia. rewrite Z.pow_succ_r by lia.
    reflexivity.
Qed.

Lemma inv_unique : forall n a i j, 1 < n -> 0 <= i < n -> 0 <= j < n ->
  (a * i) mod n = 1 -> (a * j) mod n = 1 -> i = j.
Proof.
  intros n a i j Hn Hi Hj Ei Ej.
  assert (A : i mod n = j mod n).
  { transitivity ((i * (a * j)) mod n).
    - rewrite <- Zmult_mod_idemp_r, Ej, Z.mul_1_r. reflexivity.
    - replace (i * (a * j)) with (j * (a * i)) by ring.
      rewrite <- Zmult_mod_idemp_r, Ei, Z.mul_1_r. reflexivity. }
  rewrite !Z.mod_small in A by assumption. exact A.
Qed.
