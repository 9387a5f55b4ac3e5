(** The field of integers modulo a prime, with Leibniz equality, and the
    reduction map from Z. Specification side only. *)

From Coq Require Import ZArith Znumtheory Lia Bool Eqdep_dec Field_theory.
From Verif Require Import NumTheory.
Local Open Scope Z_scope.

Definition fp (p : Z) : Type := {z : Z | (z mod p =? z) = true}.

Definition fval {p : Z} (a : fp p) : Z := proj1_sig a.

Lemma fof_ok : forall p z, (((z mod p) mod p =? z mod p) = true).
Proof. intros p z. apply Z.eqb_eq. apply Zmod_mod. Qed.

(** Reduction modulo p. *)
Definition fof (p z : Z) : fp p := exist _ (z mod p) (fof_ok p z).

Definition fadd {p} (a b : fp p) : fp p := fof p (fval a + fval b).
Definition fsub {p} (a b : fp p) : fp p := fof p (fval a - fval b).
Definition fmul {p} (a b : fp p) : fp p := fof p (fval a * fval b).
Definition fopp {p} (a : fp p) : fp p := fof p (- fval a).
Definition finv {p} (a : fp p) : fp p := fof p (fval a ^ (p - 2)).
Definition fdiv {p} (a b : fp p) : fp p := fmul a (finv b).

Lemma fval_eq : forall p (a b : fp p), fval a = fval b -> a = b.
Proof.
  intros p [x Hx] [y Hy] H. cbn in H. subst y. f_equal.
  apply UIP_dec. apply bool_dec.
Qed.

Lemma fval_mod : forall p (a : fp p), fval a mod p = fval a.
Proof. intros p [x Hx]. cbn. apply Z.eqb_eq. exact Hx. Qed.

Lemma fof_fval : forall p (a : fp p), fof p (fval a) = a.
Proof. intros p a. apply fval_eq. cbn. apply fval_mod. Qed.

Lemma fval_fof : forall p z, fval (fof p z) = z mod p.
Proof. reflexivity. Qed.

Lemma fof_eq : forall p x y, fof p x = fof p y <-> x mod p = y mod p.
Proof.
  intros p x y. split; intro H.
  - apply (f_equal fval) in H. exact H.
  - apply fval_eq. exact H.
Qed.

Lemma fof_mod : forall p x, fof p (x mod p) = fof p x.
Proof. intros p x. apply fof_eq. apply Zmod_mod. Qed.

Lemma fof_add : forall p x y, fof p (x + y) = fadd (fof p x) (fof p y).
Proof. intros. apply fval_eq. cbn. apply Zplus_mod. Qed.
Lemma fof_sub : forall p x y, fof p (x - y) = fsub (fof p x) (fof p y).
Proof. intros. apply fval_eq. cbn. apply Zminus_mod. Qed.
Lemma fof_mul : forall p x y, fof p (x * y) = fmul (fof p x) (fof p y).
Proof. intros. apply fval_eq. cbn. apply Zmult_mod. Qed.
Lemma fof_opp : forall p x, fof p (- x) = fopp (fof p x).
Proof.
  intros. apply fval_eq. cbn. rewrite <- !Z.sub_0_l.
  rewrite (Zminus_mod 0 (x mod p)), Zmod_mod, <- Zminus_mod. reflexivity.
Qed.

Lemma fp_dec : forall p (a b : fp p), {a = b} + {a <> b}.
Proof.
  intros p a b. destruct (Z.eq_dec (fval a) (fval b)) as [H | H].
  - left. apply fval_eq. exact H.
  - right. intro E. apply H. rewrite E. reflexivity.
Qed.

Lemma fp_field : forall p, prime p ->
  field_theory (fof p 0) (fof p 1) fadd fmul fsub fopp fdiv finv (@eq (fp p)).
Proof.
  intros p Hp. pose proof (prime_ge_2 _ Hp) as H2.
  assert (W : forall a : fp p, exists x, a = fof p x).
  { intros a. exists (fval a). symmetry. apply fof_fval. }
  constructor.
  - constructor; intros;
      repeat match goal with a : fp p |- _ => destruct (W a) as [? ->]; clear a end;
      rewrite <- ?fof_opp, <- ?fof_sub, <- ?fof_add, <- ?fof_mul;
      rewrite <- ?fof_add, <- ?fof_mul; f_equal; ring.
  - intro E. apply fof_eq in E. rewrite Z.mod_1_l, Zmod_0_l in E by lia. discriminate.
  - reflexivity.
  - intros a Ha. destruct (W a) as [x Hx].
    apply fval_eq. unfold finv, fmul. rewrite !fval_fof.
    assert (Hnz : fval a mod p <> 0).
    { rewrite fval_mod. intro E. apply Ha. apply fval_eq. rewrite E, fval_fof, Zmod_0_l. reflexivity. }
    rewrite Zmult_mod_idemp_l, Z.mul_comm.
    rewrite <- Z.pow_succ_r by lia. replace (Z.succ (p - 2)) with (p - 1) by lia.
    rewrite fermat; [symmetry; apply Z.mod_1_l; lia | exact Hp | ].
    apply mod_nz_rel; assumption.
Qed.

Lemma fof_0 : forall p x, 0 < p -> (fof p x = fof p 0 <-> x mod p = 0).
Proof. intros p x Hp. rewrite fof_eq, Zmod_0_l. reflexivity. Qed.

(** A product of an inverse: what ModInverse gives is the field inverse. *)
Lemma fof_inv : forall p x i, prime p -> (x * i) mod p = 1 -> fof p i = finv (fof p x).
Proof.
  intros p x i Hp H. pose proof (prime_ge_2 _ Hp) as H2.
  destruct (fp_field p Hp) as [R _ _ Hinv].
  assert (Hx : fof p x <> fof p 0).
  { intro E. apply fof_0 in E; [ | lia]. rewrite Zmult_mod, E, Z.mul_0_l, Zmod_0_l in H.
    discriminate. }
  assert (A : fmul (fof p x) (fof p i) = fof p 1).
  { rewrite <- fof_mul. apply fof_eq. rewrite H. symmetry. apply Z.mod_1_l. lia. }
  pose proof (Hinv _ Hx) as B.
  transitivity (fmul (fmul (finv (fof p x)) (fof p x)) (fof p i)).
  - rewrite B. symmetry. apply (Rmul_1_l R).
  - rewrite <- (Rmul_assoc R), A, (Rmul_comm R). apply (Rmul_1_l R).
Qed.
