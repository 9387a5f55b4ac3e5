(** The points of secp256k1 as an abelian group (specification side). *)

From Coq Require Import ZArith Znumtheory Lia Bool Eqdep_dec.
From Verif Require Import NumTheory SecpPrimes Fp EcGroup AbGroup SecpModel.
Local Open Scope Z_scope.

Lemma curveP_prime : prime curveP.
Proof. exact prime_P. Qed.
Lemma curveN_prime : prime curveN.
Proof. exact prime_N. Qed.
Lemma curveP_gt : 2 < curveP.
Proof. reflexivity. Qed.
Lemma curveN_gt : 2 < curveN.
Proof. reflexivity. Qed.

(** The field and the curve y^2 = x^3 + 7 over it. *)
Notation K := (fp curveP).
Definition fk (z : Z) : K := fof curveP z.
Definition K_field := fp_field curveP curveP_prime.
Definition K_dec := fp_dec curveP.

Definition spt : Type := pt K.
Definition s_on (P : spt) : Prop := on K fadd fmul (fk 7) P.
Definition s_add : spt -> spt -> spt :=
  padd K (fof curveP 1) fadd fmul fsub fdiv fopp K_dec.
Definition s_neg : spt -> spt := neg K fopp.

Lemma K_two_nz : fadd (fof curveP 1) (fof curveP 1) <> fof curveP 0.
Proof.
  rewrite <- fof_add. intro E. apply fof_0 in E; [ | reflexivity]. discriminate E.
Qed.

(** -7 is not a cube modulo P, so no point has y = 0. *)
Lemma no_cube : forall p e f z, prime p -> p - 1 = 3 * e -> e = 2 * f -> 0 <= f ->
  7 < p -> 7 ^ e mod p <> 1 -> (z * z * z + 7) mod p <> 0.
Proof.
  intros p e f z Hp E3 Ef Hf H7 T H. apply T. clear T.
  assert (Hz : rel_prime p z).
  { apply mod_nz_rel; [exact Hp | ]. intro E.
    assert (D : (p | z)) by (apply Zmod_divide; [lia | exact E]).
    destruct D as [k Hk]. rewrite Hk in H.
    replace (k * p * (k * p) * (k * p) + 7)
      with (7 + (k * k * k * p * p) * p) in H by ring.
    rewrite Z_mod_plus_full, Z.mod_small in H by lia. discriminate H. }
  pose proof (fermat p z Hp Hz) as F.
  rewrite E3, Z.pow_mul_r in F by lia.
  rewrite <- pow_mod_base in F by lia.
  assert (C : z ^ 3 mod p = (-7) mod p).
  { apply eqm_sub; [lia | ]. apply Zmod_divide; [lia | ].
    replace (z ^ 3 - -7) with (z * z * z + 7) by ring. exact H. }
  rewrite C, pow_mod_base in F by lia.
  rewrite Ef, Z.pow_mul_r in F |- * by lia.
  change ((-7) ^ 2) with (7 ^ 2) in F. exact F.
Qed.

Definition third_exp : positive :=
  Eval vm_compute in Z.to_pos ((curveP - 1) / 3).

Lemma third_pow_false : (powf 7 third_exp 256 4294968273 mod curveP =? 1) = false.
Proof. vm_cast_no_check (eq_refl false). Qed.

Lemma third_pow_ne : 7 ^ Zpos third_exp mod curveP <> 1.
Proof.
  rewrite <- (powf_mod 7 256 4294968273 curveP ltac:(lia) eq_refl).
  apply Z.eqb_neq. exact third_pow_false.
Qed.

Lemma curve_no_cube : forall z, (z * z * z + 7) mod curveP <> 0.
Proof.
  intros z. apply (no_cube curveP (Zpos third_exp) (Zpos third_exp / 2)).
  - apply curveP_prime.
  - vm_compute. reflexivity.
  - vm_compute. reflexivity.
  - vm_compute. discriminate.
  - reflexivity.
  - apply third_pow_ne.
Qed.

Lemma K_no_y0 : forall x : K, fadd (fmul (fmul x x) x) (fk 7) <> fof curveP 0.
Proof.
  intros x H. pose proof curveP_gt as GP.
  rewrite <- (fof_fval _ x) in H. unfold fk in H.
  rewrite <- !fof_mul, <- fof_add in H. apply fof_0 in H; [ | lia].
  exact (curve_no_cube _ H).
Qed.

Definition s_assoc P Q R HP HQ HR : s_add (s_add P Q) R = s_add P (s_add Q R) :=
  padd_assoc K _ _ _ _ _ _ _ _ K_field K_dec (fk 7) K_two_nz K_no_y0 P Q R HP HQ HR.
Definition s_comm P Q HP HQ : s_add P Q = s_add Q P :=
  padd_comm K _ _ _ _ _ _ _ _ K_field K_dec (fk 7) K_two_nz K_no_y0 P Q HP HQ.
Definition s_add_on P Q HP HQ : s_on (s_add P Q) :=
  padd_on K _ _ _ _ _ _ _ _ K_field K_dec (fk 7) K_two_nz K_no_y0 P Q HP HQ.
Definition s_neg_on P HP : s_on (s_neg P) :=
  neg_on K _ _ _ _ _ _ _ _ K_field (fk 7) P HP.
Definition s_neg_r P : s_add P (s_neg P) = Inf :=
  padd_neg_r K _ _ _ _ _ _ _ _ K_field K_dec P.

(** ** Points of the curve as a type with Leibniz equality *)

Definition s_onb (P : spt) : bool :=
  match P with
  | Inf => true
  | Aff x y => (fval y * fval y) mod curveP =? (fval x * fval x * fval x + 7) mod curveP
  end.

Lemma s_onb_on : forall P, s_onb P = true <-> s_on P.
Proof.
  intros [ | x y]; cbn; [tauto | ]. rewrite Z.eqb_eq.
  assert (E1 : fmul y y = fof curveP (fval y * fval y)) by reflexivity.
  assert (E2 : fadd (fmul (fmul x x) x) (fk 7)
               = fof curveP (fval x * fval x * fval x + 7)).
  { rewrite fof_add, !fof_mul, !fof_fval. reflexivity. }
  rewrite E1, E2. symmetry. apply (fof_eq curveP).
Qed.

Definition gp : Type := {P : spt | s_onb P = true}.
Definition gpt (a : gp) : spt := proj1_sig a.

Lemma gp_eq : forall a b : gp, gpt a = gpt b -> a = b.
Proof.
  intros [P HP] [Q HQ] H. cbn in H. subst Q. f_equal. apply UIP_dec. apply bool_dec.
Qed.

Lemma gp_on : forall a, s_on (gpt a).
Proof. intros [P HP]. apply s_onb_on. exact HP. Qed.

Definition gmk (P : spt) (H : s_on P) : gp := exist _ P (proj2 (s_onb_on P) H).

Definition g0 : gp := gmk Inf I.
Definition gadd (a b : gp) : gp := gmk (s_add (gpt a) (gpt b)) (s_add_on _ _ (gp_on a) (gp_on b)).
Definition gopp (a : gp) : gp := gmk (s_neg (gpt a)) (s_neg_on _ (gp_on a)).

Lemma gadd_assoc : forall a b c, gadd (gadd a b) c = gadd a (gadd b c).
Proof. intros. apply gp_eq. cbn. apply s_assoc; apply gp_on. Qed.
Lemma gadd_comm : forall a b, gadd a b = gadd b a.
Proof. intros. apply gp_eq. cbn. apply s_comm; apply gp_on. Qed.
Lemma gadd_0_l : forall a, gadd g0 a = a.
Proof. intros. apply gp_eq. cbn. destruct (gpt a); reflexivity. Qed.
Lemma gadd_opp : forall a, gadd a (gopp a) = g0.
Proof. intros. apply gp_eq. cbn. apply s_neg_r. Qed.

Lemma gp_dec : forall a b : gp, {a = b} + {a <> b}.
Proof.
  intros a b.
  assert (D : {gpt a = gpt b} + {gpt a <> gpt b}).
  { destruct (gpt a) as [ | x y], (gpt b) as [ | x' y'];
      [left; reflexivity | right; discriminate | right; discriminate | ].
    destruct (K_dec x x') as [Ex | Ex]; [ | right; congruence].
    destruct (K_dec y y') as [Ey | Ey]; [left; congruence | right; congruence]. }
  destruct D as [D | D]; [left; apply gp_eq; exact D | right; congruence].
Qed.

(** k-fold sums. *)
Definition gmul : Z -> gp -> gp := zmul gp gadd g0 gopp.

Definition gmul_add j k a : gmul (j + k) a = gadd (gmul j a) (gmul k a) :=
  zmul_add gp gadd g0 gopp gadd_assoc gadd_comm gadd_0_l gadd_opp j k a.
Definition gmul_mul j k a : gmul (j * k) a = gmul j (gmul k a) :=
  zmul_mul gp gadd g0 gopp gadd_assoc gadd_comm gadd_0_l gadd_opp j k a.
Definition gmul_dist k a b : gmul k (gadd a b) = gadd (gmul k a) (gmul k b) :=
  zmul_dist gp gadd g0 gopp gadd_assoc gadd_comm gadd_0_l gadd_opp k a b.
Definition gmul_opp k a : gmul (- k) a = gopp (gmul k a) :=
  zmul_opp gp gadd g0 gopp gadd_assoc gadd_comm gadd_0_l gadd_opp k a.
Definition gmul_1 a : gmul 1 a = a :=
  zmul_1 gp gadd g0 gopp gadd_comm gadd_0_l a.
Definition gmul_0 a : gmul 0 a = g0 := eq_refl.
Definition gmul_g0 k : gmul k g0 = g0 :=
  zmul_zero gp gadd g0 gopp gadd_assoc gadd_comm gadd_0_l gadd_opp k.
Definition gmul_mod n k a : n <> 0 -> gmul n a = g0 -> gmul (k mod n) a = gmul k a :=
  zmul_mod gp gadd g0 gopp gadd_assoc gadd_comm gadd_0_l gadd_opp n k a.
Definition gadd_0_r a : gadd a g0 = a :=
  add_0_r gp gadd g0 gadd_comm gadd_0_l a.
