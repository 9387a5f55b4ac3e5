(** C155: what Paillier decryption and the operations on ciphertexts do with whatever they are given. *)
From Verif Require Import GoBase NumTheory BigMod PaillierModel PaillierProofs PaillierProps.
From Coq Require Import Znumtheory ZArith Lia.
Local Open Scope Z_scope.

(** No ciphertext: no number, or none above zero. *)
Definition no_ciphertext (ct : option Z) : Prop := ct = None \/ exists c, ct = Some c /\ c <= 0.

Lemma no_usable ct : no_ciphertext ct -> usable ct = None.
Proof. intros [->|(c & -> & H)]; [reflexivity|]. unfold usable. destruct (Z.ltb_spec 0 c); [lia|reflexivity]. Qed.
Lemma is_usable c : 0 < c -> usable (Some c) = Some c.
Proof. intros P. unfold usable. rewrite (proj2 (Z.ltb_lt 0 c) P). reflexivity. Qed.
Lemma inverse_none k n : 1 < n * n -> (mod_inverse k (n * n) = None <-> Z.gcd k n <> 1).
Proof.
  intros N1. split.
  - intros E G. destruct (mod_inverse_coprime k (n * n) N1 (gcd_square _ _ G)) as (i & Ei). congruence.
  - intros GK. destruct (mod_inverse k (n * n)) as [i|] eqn:Ei; [exfalso|reflexivity]. destruct (mod_inverse_some _ _ _ N1 Ei) as [_ Mi]. apply GK. apply Z.bezout_1_gcd.
    exists i, (- (n * (k * i / (n * n)))). pose proof (Z.div_mod (k * i) (n * n) ltac:(lia)) as X. rewrite Mi in X. rewrite (Z.mul_comm i k). rewrite X at 1. ring.
Qed.
Lemma exp_none c k n : 1 < n * n -> (big_exp c k (n * n) = None <-> k < 0 /\ Z.gcd c n <> 1).
Proof.
  intros N1. rewrite <- (inverse_none c n N1). unfold big_exp. destruct k as [|e|e]; [split; [discriminate|lia]|split; [discriminate|lia]|]. destruct (mod_inverse c (n * n)); split; try discriminate; [intros (_ & X); discriminate X|intros _; split; [reflexivity|reflexivity]|reflexivity].
Qed.

(** C155: an error for what is no ciphertext, and an answer for everything else.  False as it stands: see below.  What does hold, exactly. *)
Theorem C155_answers_partial : forall p q pk sk ct k, key_pair p q pk sk ->
  (no_ciphertext ct -> Decrypt sk ct = Err "ciphertext.invalid" /\ MultPlaintext pk ct k = Err "input.invalid" /\ AddPlaintext pk ct k = Err "input.invalid" /\
     DivPlaintext pk ct k = Err "input.invalid" /\ forall ct', PAdd pk ct ct' = Err "input.invalid" /\ PAdd pk ct' ct = Err "input.invalid") /\
  (forall c, ct = Some c -> 0 < c ->
     (exists m, Decrypt sk ct = Ok m /\ 0 <= m < p * q) /\
     (exists c', AddPlaintext pk ct k = Ok (Some c') /\ 0 <= c' < p * q * (p * q)) /\
     (forall d, 0 < d -> exists c', PAdd pk ct (Some d) = Ok (Some c') /\ 0 <= c' < p * q * (p * q)) /\
     (exists o, MultPlaintext pk ct k = Ok o /\ (o = None <-> k < 0 /\ Z.gcd c (p * q) <> 1)) /\
     (Z.gcd k (p * q) <> 1 <-> DivPlaintext pk ct k = Panic) /\ (Z.gcd k (p * q) = 1 -> exists c', DivPlaintext pk ct k = Ok (Some c'))).
Proof.
  intros p q pk sk ct k K. destruct (key_fields _ _ _ _ K) as (EN & ENN & EG & Hp & Hq & PQ). pose proof (N_big p q Hp Hq PQ) as B. assert (N1 : 1 < p * q * (p * q)) by nia. split.
  - intros U. apply no_usable in U. unfold Decrypt, MultPlaintext, AddPlaintext, DivPlaintext, PAdd. rewrite U. repeat (split; [reflexivity|]). now destruct (usable ct').
  - intros c -> P. pose proof (is_usable c P) as U. pose proof K as K0. destruct K0 as (_ & _ & _ & (j & Hj & Bp & Bq) & E). assert (Q := phi_coprime p q j Hp Hq PQ Hj Bp Bq).
    split.
    { unfold Decrypt. rewrite U. assert (ES : sk = snd (GenerateKeyPair p q)) by (rewrite E; reflexivity). rewrite ES. cbn [GenerateKeyPair snd skpk sklambda skmu ppNN ppN].
      assert (0 < phi p q) by (unfold phi; pose proof (prime_ge_2 _ Hp); pose proof (prime_ge_2 _ Hq); nia).
      rewrite big_exp_nonneg by lia. cbn [deref rbind]. destruct (mod_inverse_coprime (phi p q) (p * q) ltac:(lia) Q) as (i & Ei). rewrite Ei. cbn [deref rbind]. eexists. split; [reflexivity|]. apply Z.mod_pos_bound. lia. }
    split.
    { unfold AddPlaintext. rewrite U, ENN, EG. destruct (exp_dec p q Hp Hq PQ (p * q + 1) 1 k (gen_unit p q Hp Hq PQ) (dec_gen p q Hp Hq PQ)) as (g & Eg & _). rewrite Eg. cbn [deref rbind]. eexists. split; [reflexivity|]. apply Z.mod_pos_bound. lia. }
    split. { intros d Pd. unfold PAdd. rewrite U, (is_usable d Pd), ENN. eexists. split; [reflexivity|]. apply Z.mod_pos_bound. lia. }
    split. { unfold MultPlaintext. rewrite U, ENN. eexists. split; [reflexivity|]. apply exp_none. exact N1. }
    unfold DivPlaintext. rewrite U, ENN. pose proof (inverse_none k (p * q) N1) as I. destruct (mod_inverse k (p * q * (p * q))) as [i|] eqn:Ei; cbn [deref rbind].
    + destruct (mod_inverse_some _ _ _ N1 Ei) as [Ri _]. split; [split; [intros G; apply I in G; discriminate G|discriminate]|]. intros _. rewrite big_exp_nonneg by lia. eexists. reflexivity.
    + split; [split; [reflexivity|intros _; now apply I]|]. intros G. exfalso. now apply (proj1 I).
Qed.
Print Assumptions C155_answers_partial.

(** Sub looks at nothing and panics, a product by a negative number is nil without an error, a division panics, and a sum of two ciphertexts may be none. *)
Theorem C155_answers_refuted : exists p q pk sk, key_pair p q pk sk /\
  (exists c, 0 < c < p * q /\ PSub pk 1 c = Panic) /\ (exists c, PSub pk (-1) 1 = Ok c) /\ (exists c, 0 < c /\ MultPlaintext pk (Some c) (-1) = Ok None) /\
  (exists c k, good_ct p q c /\ 0 < k < p * q /\ DivPlaintext pk (Some c) k = Panic) /\
  (exists c d, 0 < c < p * q * (p * q) /\ 0 < d < p * q * (p * q) /\ PAdd pk (Some c) (Some d) = Ok (Some 0) /\ no_ciphertext (Some 0)).
Proof.
  exists 5, 7, (fst (GenerateKeyPair 5 7)), (snd (GenerateKeyPair 5 7)). split.
  { split; [apply prime_intro; [lia | intros n Hn; apply Zgcd_1_rel_prime;
      assert (C : n = 1 \/ n = 2 \/ n = 3 \/ n = 4) by lia; destruct C as [-> | [-> | [-> | ->]]]; reflexivity] | ].
    split; [apply prime_intro; [lia | intros n Hn; apply Zgcd_1_rel_prime;
      assert (C : n = 1 \/ n = 2 \/ n = 3 \/ n = 4 \/ n = 5 \/ n = 6) by lia;
      destruct C as [-> | [-> | [-> | [-> | [-> | ->]]]]]; reflexivity] | ].
    split; [discriminate | ]. split; [exists 3; lia | reflexivity]. }
  split; [exists 5; split; [lia|vm_compute; reflexivity]|]. split; [eexists; vm_compute; reflexivity|]. split; [exists 5; split; [lia|vm_compute; reflexivity]|].
  split; [exists 88, 5; split; [split; [lia|reflexivity]|split; [lia|vm_compute; reflexivity]]|].
  exists 35, 35. split; [lia|]. split; [lia|]. split; [vm_compute; reflexivity|]. right. exists 0. split; [reflexivity|lia].
Qed.
Print Assumptions C155_answers_refuted.
