(** C60, C61: the Paillier cryptosystem. *)

From Coq Require Import Znumtheory.
From Verif Require Import GoBase NumTheory BigMod PaillierModel PaillierProofs.
Local Open Scope Z_scope.

(** Two distinct primes of the same length of at least three bits, and the
    keys made of them. *)
Definition key_pair (p q : Z) (pk : ppub) (sk : pprv) : Prop :=
  prime p /\ prime q /\ p <> q /\
  (exists k, 3 <= k /\ 2 ^ (k - 1) <= p < 2 ^ k /\ 2 ^ (k - 1) <= q < 2 ^ k) /\
  GenerateKeyPair p q = (pk, sk).

(** ** C60 *)

Theorem C60_roundtrip : forall p q pk sk r m, key_pair p q pk sk ->
  Z.gcd r (p * q) = 1 -> 0 <= m < p * q ->
  exists c, Encrypt pk r m = Ok c /\ Decrypt sk (Some c) = Ok m.
Proof.
  intros p q pk sk r m (Hp & Hq & D & (k & Hk & Bp & Bq) & E) G R.
  assert (P := phi_coprime p q k Hp Hq D Hk Bp Bq).
  destruct (Encrypt_dec p q Hp Hq D r m G R) as (c & EC & Bc & Gc & Dc). rewrite E in EC. exists c. split; [exact EC | ].
  pose proof (Decrypt_dec p q Hp Hq D P c m ltac:(lia) Dc) as X. rewrite E in X. cbn [snd] in X.
  rewrite X, Z.mod_small by exact R. reflexivity.
Qed.
Print Assumptions C60_roundtrip.

(** The same for any two distinct primes for which the key has a mu; without
    one every decryption of a positive number panics. *)
Theorem C60_roundtrip_mu : forall p q pk sk r m, prime p -> prime q -> p <> q -> GenerateKeyPair p q = (pk, sk) ->
  Z.gcd r (p * q) = 1 -> 0 <= m < p * q ->
  exists c, Encrypt pk r m = Ok c /\
    Decrypt sk (Some c) = match skmu sk with Some _ => Ok m | None => Panic end.
Proof.
  intros p q pk sk r m Hp Hq D E G R. pose proof (prime_ge_2 _ Hp). pose proof (prime_ge_2 _ Hq).
  destruct (Encrypt_dec p q Hp Hq D r m G R) as (c & EC & Bc & Gc & Dc). rewrite E in EC. exists c. split; [exact EC | ].
  assert (ES : sk = snd (GenerateKeyPair p q)) by (rewrite E; reflexivity).
  assert (EM : skmu sk = mod_inverse (phi p q) (p * q)) by (rewrite ES; reflexivity).
  destruct (skmu sk) as [mu | ] eqn:M.
  - symmetry in EM. assert (N1 : 1 < p * q) by nia. destruct (mod_inverse_some _ _ _ N1 EM) as [_ X].
    assert (P : Z.gcd (phi p q) (p * q) = 1).
    { apply Z.bezout_1_gcd. exists mu, (- (phi p q * mu / (p * q))).
      pose proof (Z.div_mod (phi p q * mu) (p * q) ltac:(nia)). lia. }
    rewrite ES, (Decrypt_dec p q Hp Hq D P c m ltac:(lia) Dc), Z.mod_small by exact R. reflexivity.
  - unfold Decrypt, usable. rewrite (proj2 (Z.ltb_lt 0 c)) by lia.
    replace (sklambda sk) with (phi p q) by (rewrite ES; reflexivity).
    replace (ppNN (skpk sk)) with (p * q * (p * q)) by (rewrite ES; reflexivity).
    rewrite big_exp_nonneg by (unfold phi; nia). cbn [deref rbind]. rewrite M. reflexivity.
Qed.
Print Assumptions C60_roundtrip_mu.

(** The hypotheses are needed: the two primes of two bits, equal primes, and a
    blinding factor with a factor of N, which getRandom can return. *)
Theorem C60_refuted : exists p q pk sk r m c, prime p /\ prime q /\ p <> q /\
  GenerateKeyPair p q = (pk, sk) /\ 0 <= r < p * q /\ 0 <= m < p * q /\
  (exists k, 2 ^ (k - 1) <= p < 2 ^ k /\ 2 ^ (k - 1) <= q < 2 ^ k) /\
  Encrypt pk r m = Ok c /\ Decrypt sk (Some c) <> Ok m.
Proof.
  exists 5, 7, (fst (GenerateKeyPair 5 7)), (snd (GenerateKeyPair 5 7)), 14, 3, 294.
  split; [apply prime_intro; [lia | intros n Hn; apply Zgcd_1_rel_prime;
    assert (C : n = 1 \/ n = 2 \/ n = 3 \/ n = 4) by lia; destruct C as [-> | [-> | [-> | ->]]]; reflexivity] | ].
  split; [apply prime_intro; [lia | intros n Hn; apply Zgcd_1_rel_prime;
    assert (C : n = 1 \/ n = 2 \/ n = 3 \/ n = 4 \/ n = 5 \/ n = 6) by lia;
    destruct C as [-> | [-> | [-> | [-> | [-> | ->]]]]]; reflexivity] | ].
  split; [discriminate | ]. split; [reflexivity | ]. split; [lia | ]. split; [lia | ].
  split; [exists 3; lia | ]. split; [vm_compute; reflexivity | ]. vm_compute. discriminate.
Qed.
Print Assumptions C60_refuted.

Example ex_equal_primes : exists c, Encrypt (fst (GenerateKeyPair 5 5)) 2 3 = Ok c /\
  Decrypt (snd (GenerateKeyPair 5 5)) (Some c) <> Ok 3.
Proof. eexists. split; [vm_compute; reflexivity | vm_compute; discriminate]. Qed.
Example ex_two_bits : skmu (snd (GenerateKeyPair 2 3)) = None.
Proof. reflexivity. Qed.
Example ex_blind_zero : exists c, Encrypt (fst (GenerateKeyPair 5 7)) 0 3 = Ok c /\
  Decrypt (snd (GenerateKeyPair 5 7)) (Some c) = Err "ciphertext.invalid".
Proof. eexists. split; vm_compute; reflexivity. Qed.

(** ** C61

    For ciphertexts coprime to N, which all encryptions with a coprime blinding
    factor and all results below are. *)

Definition good_ct (p q c : Z) : Prop := 0 < c /\ Z.gcd c (p * q) = 1.

Theorem C61_encrypt_good : forall p q pk sk r m c, key_pair p q pk sk ->
  Z.gcd r (p * q) = 1 -> 0 <= m < p * q -> Encrypt pk r m = Ok c -> good_ct p q c.
Proof.
  intros p q pk sk r m c (Hp & Hq & D & (k & Hk & Bp & Bq) & E) G R EC.
  destruct (Encrypt_dec p q Hp Hq D r m G R) as (c' & EC' & Bc & Gc & Dc). rewrite E in EC'. cbn [fst] in EC'.
  assert (c = c') by congruence. subst c'. split; [lia | exact Gc].
Qed.
Print Assumptions C61_encrypt_good.

(** Every such ciphertext decrypts. *)
Theorem C61_decrypt_total : forall p q pk sk c, key_pair p q pk sk -> good_ct p q c ->
  exists m, 0 <= m < p * q /\ Decrypt sk (Some c) = Ok m.
Proof.
  intros p q pk sk c (Hp & Hq & D & (k & Hk & Bp & Bq) & E) [P G].
  assert (Q := phi_coprime p q k Hp Hq D Hk Bp Bq). destruct (dec_any p q Hp Hq D Q c G) as (m & R & Dm).
  exists m. split; [exact R | ]. pose proof (Decrypt_dec p q Hp Hq D Q c m P Dm) as X. rewrite E in X. cbn [snd] in X.
  rewrite X, Z.mod_small by exact R. reflexivity.
Qed.
Print Assumptions C61_decrypt_total.

Section Hom.
Variables (p q : Z) (pk : ppub) (sk : pprv).
Hypothesis K : key_pair p q pk sk.

Lemma hom_in : forall c m, good_ct p q c -> Decrypt sk (Some c) = Ok m -> dec p q c m.
Proof.
  intros c m [P G] E. destruct K as (Hp & Hq & D & (k & Hk & Bp & Bq) & EK).
  assert (Q := phi_coprime p q k Hp Hq D Hk Bp Bq).
  apply (Decrypt_exact p q Hp Hq D Q c m P G). rewrite EK. exact E.
Qed.
Lemma hom_out : forall c m, 0 < c -> dec p q c m -> Decrypt sk (Some c) = Ok (m mod (p * q)).
Proof.
  intros c m P Dc. destruct K as (Hp & Hq & D & (k & Hk & Bp & Bq) & EK).
  assert (Q := phi_coprime p q k Hp Hq D Hk Bp Bq). pose proof (Decrypt_dec p q Hp Hq D Q c m P Dc) as X. rewrite EK in X. exact X.
Qed.
Lemma key_fields : ppN pk = p * q /\ ppNN pk = p * q * (p * q) /\ ppG pk = p * q + 1 /\ prime p /\ prime q /\ p <> q.
Proof.
  destruct K as (Hp & Hq & D & _ & EK). assert (EP : pk = fst (GenerateKeyPair p q)) by (rewrite EK; reflexivity).
  rewrite EP. split; [reflexivity | ]. split; [reflexivity | ]. split; [reflexivity | ]. tauto.
Qed.
Lemma usable_good : forall c, good_ct p q c -> usable (Some c) = Some c.
Proof. intros c [P _]. unfold usable. rewrite (proj2 (Z.ltb_lt 0 c) P). reflexivity. Qed.

Lemma mul_dec : forall c1 c2 m1 m2, Z.gcd c1 (p * q) = 1 -> Z.gcd c2 (p * q) = 1 -> dec p q c1 m1 -> dec p q c2 m2 ->
  good_ct p q ((c1 * c2) mod (p * q * (p * q))) /\ dec p q ((c1 * c2) mod (p * q * (p * q))) (m1 + m2).
Proof.
  intros c1 c2 m1 m2 G1 G2 D1 D2. destruct key_fields as (_ & _ & _ & Hp & Hq & PQ).
  split; [ | apply dec_mod; [exact Hp | exact Hq | exact PQ | ]; apply dec_mul; assumption].
  apply (unit_mod p q Hp Hq PQ). apply gcd_mul_1; assumption.
Qed.
End Hom.

Theorem C61_add : forall p q pk sk c1 c2 m1 m2, key_pair p q pk sk -> good_ct p q c1 -> good_ct p q c2 ->
  Decrypt sk (Some c1) = Ok m1 -> Decrypt sk (Some c2) = Ok m2 ->
  exists c3, PAdd pk (Some c1) (Some c2) = Ok (Some c3) /\ good_ct p q c3 /\
    Decrypt sk (Some c3) = Ok ((m1 + m2) mod (p * q)).
Proof.
  intros p q pk sk c1 c2 m1 m2 K G1 G2 E1 E2. destruct (key_fields _ _ _ _ K) as (_ & ENN & _ & Hp & Hq & PQ).
  unfold PAdd. rewrite (usable_good _ _ _ G1), (usable_good _ _ _ G2), ENN.
  pose proof (hom_in _ _ _ _ K _ _ G1 E1) as D1. pose proof (hom_in _ _ _ _ K _ _ G2 E2) as D2.
  destruct (mul_dec _ _ _ _ K c1 c2 m1 m2 (proj2 G1) (proj2 G2) D1 D2) as [G3 D3].
  eexists. split; [reflexivity | ]. split; [exact G3 | ]. apply (hom_out _ _ _ _ K); [exact (proj1 G3) | exact D3].
Qed.
Print Assumptions C61_add.

Theorem C61_add_plaintext : forall p q pk sk c m k, key_pair p q pk sk -> good_ct p q c ->
  Decrypt sk (Some c) = Ok m ->
  exists c3, AddPlaintext pk (Some c) k = Ok (Some c3) /\ good_ct p q c3 /\
    Decrypt sk (Some c3) = Ok ((m + k) mod (p * q)).
Proof.
  intros p q pk sk c m k K G E. destruct (key_fields _ _ _ _ K) as (_ & ENN & EG & Hp & Hq & PQ).
  unfold AddPlaintext. rewrite (usable_good _ _ _ G), ENN, EG.
  destruct (exp_dec p q Hp Hq PQ (p * q + 1) 1 k (gen_unit p q Hp Hq PQ) (dec_gen p q Hp Hq PQ)) as (g & Eg & Bg & Gg & Dg).
  rewrite Eg. cbn [deref rbind]. pose proof (hom_in _ _ _ _ K _ _ G E) as D.
  destruct (mul_dec _ _ _ _ K c g m (k * 1) (proj2 G) Gg D Dg) as [G3 D3]. rewrite Z.mul_1_r in D3.
  eexists. split; [reflexivity | ]. split; [exact G3 | ]. apply (hom_out _ _ _ _ K); [exact (proj1 G3) | exact D3].
Qed.
Print Assumptions C61_add_plaintext.

Theorem C61_mult_plaintext : forall p q pk sk c m k, key_pair p q pk sk -> good_ct p q c ->
  Decrypt sk (Some c) = Ok m ->
  exists c3, MultPlaintext pk (Some c) k = Ok (Some c3) /\ good_ct p q c3 /\
    Decrypt sk (Some c3) = Ok ((k * m) mod (p * q)).
Proof.
  intros p q pk sk c m k K G E. destruct (key_fields _ _ _ _ K) as (_ & ENN & EG & Hp & Hq & PQ).
  unfold MultPlaintext. rewrite (usable_good _ _ _ G), ENN. pose proof (hom_in _ _ _ _ K _ _ G E) as D.
  destruct (exp_dec p q Hp Hq PQ c m k (proj2 G) D) as (g & Eg & Bg & Gg & Dg). rewrite Eg.
  exists g. split; [reflexivity | ]. split; [split; [lia | exact Gg] | ]. apply (hom_out _ _ _ _ K); [lia | exact Dg].
Qed.
Print Assumptions C61_mult_plaintext.

Theorem C61_sub : forall p q pk sk c1 c2 m1 m2, key_pair p q pk sk -> good_ct p q c1 -> good_ct p q c2 ->
  Decrypt sk (Some c1) = Ok m1 -> Decrypt sk (Some c2) = Ok m2 ->
  exists c3, PSub pk c1 c2 = Ok c3 /\ good_ct p q c3 /\ Decrypt sk (Some c3) = Ok ((m1 - m2) mod (p * q)).
Proof.
  intros p q pk sk c1 c2 m1 m2 K G1 G2 E1 E2. destruct (key_fields _ _ _ _ K) as (_ & ENN & _ & Hp & Hq & PQ).
  pose proof (hom_in _ _ _ _ K _ _ G1 E1) as D1. pose proof (hom_in _ _ _ _ K _ _ G2 E2) as D2.
  unfold PSub. rewrite ENN. pose proof (N_big p q Hp Hq PQ). assert (1 < p * q * (p * q)) by nia.
  destruct (mod_inverse_coprime c2 (p * q * (p * q)) ltac:(lia) (gcd_square _ _ (proj2 G2))) as (i & Ei). rewrite Ei. cbn [deref rbind].
  destruct (inv_dec p q Hp Hq PQ c2 m2 i (proj2 G2) D2 Ei) as [Gi Di].
  destruct (mul_dec _ _ _ _ K c1 i m1 (- m2) (proj2 G1) Gi D1 Di) as [G3 D3].
  eexists. split; [reflexivity | ]. split; [exact G3 | ]. apply (hom_out _ _ _ _ K); [exact (proj1 G3) | exact D3].
Qed.
Print Assumptions C61_sub.

(** Division is by the inverse modulo N, and panics when there is none. *)
Theorem C61_div_plaintext : forall p q pk sk c m k, key_pair p q pk sk -> good_ct p q c ->
  Decrypt sk (Some c) = Ok m ->
  (Z.gcd k (p * q) = 1 -> exists c3 x, DivPlaintext pk (Some c) k = Ok (Some c3) /\ good_ct p q c3 /\
     Decrypt sk (Some c3) = Ok x /\ (k * x) mod (p * q) = m) /\
  (Z.gcd k (p * q) <> 1 -> DivPlaintext pk (Some c) k = Panic).
Proof.
  intros p q pk sk c m k K G E. destruct (key_fields _ _ _ _ K) as (_ & ENN & EG & Hp & Hq & PQ).
  unfold DivPlaintext. rewrite (usable_good _ _ _ G), ENN. pose proof (N_big p q Hp Hq PQ). assert (N1 : 1 < p * q * (p * q)) by nia.
  split; intro GK.
  - destruct (mod_inverse_coprime k (p * q * (p * q)) N1 (gcd_square _ _ GK)) as (i & Ei). rewrite Ei. cbn [deref rbind].
    destruct (mod_inverse_some _ _ _ N1 Ei) as [_ Mi].
    pose proof (hom_in _ _ _ _ K _ _ G E) as D.
    destruct (exp_dec p q Hp Hq PQ c m i (proj2 G) D) as (g & Eg & Bg & Gg & Dg). rewrite Eg.
    exists g, ((i * m) mod (p * q)). split; [reflexivity | ]. split; [split; [lia | exact Gg] | ].
    split; [apply (hom_out _ _ _ _ K); [lia | exact Dg] | ].
    rewrite Zmult_mod_idemp_r, Z.mul_assoc.
    assert (X : cong (p * q) (k * i) 1).
    { apply cong_down; [lia | ]. unfold cong. rewrite Mi, Z.mod_1_l by lia. reflexivity. }
    unfold cong in X. rewrite <- Zmult_mod_idemp_l, X, Zmult_mod_idemp_l, Z.mul_1_l.
    destruct K as (_ & _ & _ & (kk & Hk & Bp & Bq) & EK).
    destruct (Decrypt_exact p q Hp Hq PQ (phi_coprime p q kk Hp Hq PQ Hk Bp Bq) c m (proj1 G) (proj2 G)) as [R _];
      [rewrite EK; exact E | ]. apply Z.mod_small. exact R.
  - destruct (mod_inverse k (p * q * (p * q))) as [i | ] eqn:Ei; [exfalso | reflexivity].
    destruct (mod_inverse_some _ _ _ N1 Ei) as [_ Mi]. apply GK. apply Z.bezout_1_gcd.
    exists i, (- (p * q * (k * i / (p * q * (p * q))))). pose proof (Z.div_mod (k * i) (p * q * (p * q)) ltac:(lia)) as X.
    rewrite Mi in X. rewrite (Z.mul_comm i k). rewrite X at 1. ring.
Qed.
Print Assumptions C61_div_plaintext.

(** For two numbers which are not coprime to N the sum is lost. *)
Theorem C61_any_ciphertext_refuted : exists p q pk sk c1 c2 m1 m2 c3, key_pair p q pk sk /\ 0 < c1 /\ 0 < c2 /\
  Decrypt sk (Some c1) = Ok m1 /\ Decrypt sk (Some c2) = Ok m2 /\
  PAdd pk (Some c1) (Some c2) = Ok (Some c3) /\ Decrypt sk (Some c3) <> Ok ((m1 + m2) mod (p * q)).
Proof.
  exists 5, 7, (fst (GenerateKeyPair 5 7)), (snd (GenerateKeyPair 5 7)), 5, 5, 29, 29, 25.
  split.
  { split; [apply prime_intro; [lia | intros n Hn; apply Zgcd_1_rel_prime;
      assert (C : n = 1 \/ n = 2 \/ n = 3 \/ n = 4) by lia; destruct C as [-> | [-> | [-> | ->]]]; reflexivity] | ].
    split; [apply prime_intro; [lia | intros n Hn; apply Zgcd_1_rel_prime;
      assert (C : n = 1 \/ n = 2 \/ n = 3 \/ n = 4 \/ n = 5 \/ n = 6) by lia;
      destruct C as [-> | [-> | [-> | [-> | [-> | ->]]]]]; reflexivity] | ].
    split; [discriminate | ]. split; [exists 3; lia | reflexivity]. }
  split; [reflexivity | ]. split; [reflexivity | ].
  split; [vm_compute; reflexivity | ]. split; [vm_compute; reflexivity | ]. split; [vm_compute; reflexivity | ].
  vm_compute. discriminate.
Qed.
Print Assumptions C61_any_ciphertext_refuted.

(** The hypotheses hold: the keys of 5 and 7, an encryption of 4 and one of 33. *)
Example ex_paillier : let (pk, sk) := GenerateKeyPair 5 7 in
  Encrypt pk 2 4 = Ok 88 /\ Encrypt pk 3 33 = Ok 992 /\
  PAdd pk (Some 88) (Some 992) = Ok (Some 321) /\ Decrypt sk (Some 321) = Ok 2.
Proof. vm_compute. repeat split. Qed.
