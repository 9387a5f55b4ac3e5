(** The integer specification and the group of [SecpGroup]. *)

From Coq Require Import ZArith Znumtheory Lia Bool List Field Ring.
From Verif Require Import GoBase BaseLemmas BigInt BigIntProofs NumTheory BigMod Fp EcGroup AbGroup SecpModel SecpGroup SecpOrder SecpOrderN SecpProofs SecpSpec.
Import ListNotations.
Local Open Scope Z_scope.

Add Field KF3 : K_field.

Lemma prime_p_eq : prime_p = curveP.
Proof. reflexivity. Qed.
Lemma order_n_eq : order_n = curveN.
Proof. reflexivity. Qed.

Definition toS (P : point) : spt :=
  match P with None => Inf | Some (x, y) => Aff (fk x) (fk y) end.

Lemma eqp_fk : forall a b, eqp a b <-> fk a = fk b.
Proof.
  intros a b. unfold eqp. rewrite prime_p_eq, fk_eq. split; intro H.
  - apply eqm_sub; [reflexivity | ]. apply Zmod_divide; [discriminate | exact H].
  - rewrite Zminus_mod, H, Z.sub_diag. apply Zmod_0_l.
Qed.

Lemma good_on : forall P, good P -> s_on (toS P).
Proof.
  intros [[x y] | ] H; [ | exact I]. destruct H as (Hx & Hy & H).
  apply eqp_fk in H. rewrite fk_add, !fk_mul in H. exact H.
Qed.

(** The group element of a good point. *)
Lemma good_gp : forall P, good P ->
  exists a : gp, gpt a = toS P /\ enc a = (px P, py P).
Proof.
  intros P H. exists (gmk _ (good_on P H)). split; [reflexivity | ].
  unfold enc. destruct P as [[x y] | ]; [ | reflexivity].
  pose proof H as (Hx & Hy & _). rewrite prime_p_eq in Hx, Hy. cbn.
  rewrite (Z.mod_small x), (Z.mod_small y) by assumption. reflexivity.
Qed.

Definition fromS (P : spt) : point :=
  match P with Inf => None | Aff x y => Some (fval x, fval y) end.

Lemma fval_range : forall a : K, 0 <= fval a < curveP.
Proof. intros a. rewrite <- fval_mod. apply mod_range. Qed.

Lemma fromS_good : forall P, s_on P -> good (fromS P).
Proof.
  intros [ | x y] H; [exact I | ]. cbn. rewrite prime_p_eq.
  split; [apply fval_range | ]. split; [apply fval_range | ].
  apply eqp_fk. rewrite fk_add, !fk_mul, !fk_pos. exact H.
Qed.

Lemma toS_fromS : forall P, toS (fromS P) = P.
Proof. intros [ | x y]; [reflexivity | ]. cbn. rewrite !fk_pos. reflexivity. Qed.

Definition reduced (P : point) : Prop :=
  match P with None => True | Some (x, y) => 0 <= x < prime_p /\ 0 <= y < prime_p end.

Lemma good_reduced : forall P, good P -> reduced P.
Proof. intros [[x y] | ] H; [ | exact I]. destruct H as (? & ? & _). split; assumption. Qed.

Lemma fromS_toS : forall P, reduced P -> fromS (toS P) = P.
Proof.
  intros [[x y] | ] H; [ | reflexivity]. destruct H as (Hx & Hy).
  rewrite prime_p_eq in Hx, Hy. cbn.
  rewrite (Z.mod_small x), (Z.mod_small y) by assumption. reflexivity.
Qed.

Lemma fk_inj : forall x y, 0 <= x < curveP -> 0 <= y < curveP -> fk x = fk y -> x = y.
Proof.
  intros x y Hx Hy H. apply fk_eq in H. rewrite !Z.mod_small in H by assumption. exact H.
Qed.

Lemma line_third : forall l x1 y1 x2 R, line l x1 y1 x2 R <->
  R = fromS (third K fmul fsub (fk l) (fk x1) (fk y1) (fk x2)).
Proof.
  intros l x1 y1 x2 R. unfold line. split.
  - intros (x3 & y3 & -> & Hx & Hy & Ex & Ey). apply eqp_fk in Ex, Ey.
    unfold third. rewrite <- (fromS_toS (Some (x3, y3))) by (split; assumption).
    f_equal. cbn. rewrite !fk_sub, fk_mul in Ex.
    rewrite !fk_sub, fk_mul, fk_sub, Ex in Ey. rewrite Ex, Ey. reflexivity.
  - intros ->. unfold third. cbv zeta.
    set (X3 := fsub (fsub (fmul (fk l) (fk l)) (fk x1)) (fk x2)).
    set (Y3 := fsub (fmul (fk l) (fsub (fk x1) X3)) (fk y1)).
    exists (fval X3), (fval Y3). split; [reflexivity | ]. rewrite prime_p_eq.
    split; [apply fval_range | ]. split; [apply fval_range | ].
    rewrite !eqp_fk, !fk_sub, !fk_mul, !fk_sub, !fk_pos. split; reflexivity.
Qed.

Lemma slope_mul : forall a b c : K, b <> fof curveP 0 -> a = fdiv c b -> fmul a b = c.
Proof. intros a b c Hb ->. field. exact Hb. Qed.

Lemma fopp_add0 : forall a b : K, a = fopp b <-> fadd a b = fof curveP 0.
Proof.
  intros a b. split; intro H.
  - rewrite H. ring.
  - apply (sub_eq0 _ _ _ _ _ _ _ _ _ K_field). rewrite <- H. ring.
Qed.

Theorem sum_of_s : forall P Q R, good P -> good Q ->
  (sum_of P Q R <-> reduced R /\ toS R = s_add (toS P) (toS Q)).
Proof.
  intros P Q R HP HQ.
  assert (W : R = fromS (s_add (toS P) (toS Q)) <->
              reduced R /\ toS R = s_add (toS P) (toS Q)).
  { split.
    - intros ->. split; [ | apply toS_fromS]. apply good_reduced, fromS_good.
      apply s_add_on; apply good_on; assumption.
    - intros [Hr E]. rewrite <- E. symmetry. apply fromS_toS. exact Hr. }
  rewrite <- W. clear W.
  destruct P as [[x1 y1] | ]; [ | cbn; destruct Q as [[x2 y2] | ]; cbn;
    [destruct HQ as (Hx & Hy & _); rewrite prime_p_eq in Hx, Hy;
     rewrite (Z.mod_small x2), (Z.mod_small y2) by assumption | ]; reflexivity].
  destruct Q as [[x2 y2] | ];
    [ | cbn; destruct HP as (Hx & Hy & _); rewrite prime_p_eq in Hx, Hy;
     rewrite (Z.mod_small x1), (Z.mod_small y1) by assumption; reflexivity].
  pose proof (good_on _ HP) as OP. pose proof (good_on _ HQ) as OQ. cbn [toS] in OP, OQ.
  destruct HP as (Hx1 & Hy1 & _), HQ as (Hx2 & Hy2 & _).
  rewrite prime_p_eq in *. unfold sum_of. cbn [toS s_add]. unfold s_add. cbn [padd].
  pose proof (on_y_nz _ _ _ _ _ _ _ _ _ K_field _ K_no_y0 _ _ OP) as Ny.
  assert (N0 : eqp (y1 + y2) 0 <-> fk y1 = fopp (fk y2)).
  { rewrite eqp_fk, fk_add, fopp_add0. reflexivity. }
  destruct (K_dec (fk x1) (fk x2)) as [Ex | Ex].
  - assert (x1 = x2) by (apply fk_inj; assumption). subst x2.
    destruct (K_dec (fk y1) (fopp (fk y2))) as [Ey | Ey].
    + split; [ | intro; left; split; [reflexivity | ]; split; [apply N0; exact Ey | assumption]].
      intros [(_ & _ & H) | [(_ & C & _) | (C & _)]]; [exact H | | congruence].
      exfalso. apply C. apply N0. exact Ey.
    + assert (Nd : fmul (fadd (fof curveP 1) (fof curveP 1)) (fk y1) <> fof curveP 0).
      { apply (mul_nz _ _ _ _ _ _ _ _ _ K_field K_dec); [exact K_two_nz | exact Ny]. }
      set (L := fdiv (fmul (fmul (fadd (fadd (fof curveP 1) (fof curveP 1)) (fof curveP 1))
                     (fk x1)) (fk x1)) (fmul (fadd (fof curveP 1) (fof curveP 1)) (fk y1))).
      assert (SL : forall l, eqp (l * (2 * y1)) (3 * x1 * x1) <-> fk l = L).
      { intros l. rewrite eqp_fk, !fk_mul, fk_2, fk_3. unfold L. split; intro H.
        - symmetry. apply slope_div; [exact Nd | exact H].
        - apply slope_mul; [exact Nd | exact H]. }
      split.
      * intros [(_ & C & _) | [(_ & _ & l & Hl & HR) | (C & _)]]; [ | | congruence].
        { exfalso. apply Ey. apply N0. exact C. }
        apply line_third in HR. apply SL in Hl. rewrite HR, Hl. reflexivity.
      * intros ->. right. left. split; [reflexivity | ].
        split; [intro C; apply Ey, N0, C | ].
        exists (fval L). split; [apply SL; apply fk_pos | ].
        apply line_third. rewrite fk_pos. reflexivity.
  - assert (Hne : x1 <> x2) by (intro C; subst x2; contradiction).
    set (L := fdiv (fsub (fk y2) (fk y1)) (fsub (fk x2) (fk x1))).
    assert (Nd : fsub (fk x2) (fk x1) <> fof curveP 0).
    { apply (sub_nz _ _ _ _ _ _ _ _ _ K_field). intro C. apply Ex. symmetry. exact C. }
    assert (SL : forall l, eqp (l * (x2 - x1)) (y2 - y1) <-> fk l = L).
    { intros l. rewrite eqp_fk, fk_mul, !fk_sub. unfold L. split; intro H.
      - symmetry. apply slope_div; [exact Nd | exact H].
      - apply slope_mul; [exact Nd | exact H]. }
    split.
    + intros [(C & _) | [(C & _) | (_ & l & Hl & HR)]]; [congruence | congruence | ].
      apply line_third in HR. apply SL in Hl. rewrite HR, Hl. reflexivity.
    + intros ->. right. right. split; [exact Hne | ].
      exists (fval L). split; [apply SL; apply fk_pos | ].
      apply line_third. rewrite fk_pos. reflexivity.
Qed.

(** In terms of group elements. *)
Definition gof (P : point) (a : gp) : Prop := reduced P /\ gpt a = toS P.

Lemma gof_good : forall P, good P -> exists a, gof P a.
Proof.
  intros P H. destruct (good_gp P H) as (a & E & _). exists a.
  split; [apply good_reduced; exact H | exact E].
Qed.

Lemma gof_is_good : forall P a, gof P a -> good P.
Proof.
  intros P a [Hr E]. rewrite <- (fromS_toS P Hr), <- E. apply fromS_good, gp_on.
Qed.

Lemma gof_enc : forall P a, gof P a -> enc a = (px P, py P).
Proof.
  intros P a [Hr E]. unfold enc. rewrite E. destruct P as [[x y] | ]; [ | reflexivity].
  destruct Hr as (Hx & Hy). rewrite prime_p_eq in Hx, Hy. cbn.
  rewrite (Z.mod_small x), (Z.mod_small y) by assumption. reflexivity.
Qed.

Lemma gof_ex : forall a, exists P, gof P a.
Proof.
  intros a. exists (fromS (gpt a)). split.
  - apply good_reduced, fromS_good, gp_on.
  - symmetry. apply toS_fromS.
Qed.

Lemma gof_fun : forall P a b, gof P a -> gof P b -> a = b.
Proof. intros P a b [_ Ea] [_ Eb]. apply gp_eq. congruence. Qed.

Lemma gof_inj : forall P Q a, gof P a -> gof Q a -> P = Q.
Proof.
  intros P Q a [Hp Ep] [Hq Eq_].
  rewrite <- (fromS_toS P Hp), <- (fromS_toS Q Hq). congruence.
Qed.

Lemma gof_sum : forall P Q R a b, gof P a -> gof Q b ->
  (sum_of P Q R <-> gof R (gadd a b)).
Proof.
  intros P Q R a b HP HQ.
  rewrite (sum_of_s P Q R (gof_is_good _ _ HP) (gof_is_good _ _ HQ)).
  destruct HP as [_ EP], HQ as [_ EQ]. unfold gof. cbn [gadd gmk gpt proj1_sig].
  change (proj1_sig a) with (gpt a). change (proj1_sig b) with (gpt b).
  rewrite EP, EQ. split; intros [H E]; (split; [exact H | symmetry; exact E]).
Qed.

Lemma gof_inf : gof None g0.
Proof. split; [exact I | reflexivity]. Qed.

Lemma multiple_nonneg : forall P k R, multiple P k R -> 0 <= k.
Proof. induction 1; lia. Qed.

Lemma gof_multiple : forall P a k R, gof P a -> 0 <= k ->
  (multiple P k R <-> gof R (gmul k a)).
Proof.
  intros P a k R HP Hk. split.
  - intro H. clear Hk. revert R H. 
    assert (G : forall k R, multiple P k R -> gof R (gmul k a)).
    { induction 1 as [ | k' R R' Hk' Hm IH Hs]; [exact gof_inf | ].
      rewrite Z.add_comm, gmul_add, gmul_1. apply (gof_sum P R); assumption. }
    apply G.
  - revert R. pattern k. apply natlike_ind; [ | | exact Hk].
    + intros R H. rewrite gmul_0 in H. rewrite (gof_inj _ _ _ H gof_inf). constructor.
    + intros x Hx IH R H. unfold Z.succ in *.
      destruct (gof_ex (gmul x a)) as (R0 & H0).
      apply (mult_S P x R0); [exact Hx | apply IH; exact H0 | ].
      apply (gof_sum P R0 R a (gmul x a)); [assumption | assumption | ].
      rewrite Z.add_comm, gmul_add, gmul_1 in H. exact H.
Qed.

Lemma be_set_bytes : forall k, be k = set_bytes k.
Proof.
  induction k as [ | b k IH]; [reflexivity | ].
  rewrite set_bytes_cons. cbn [be]. rewrite IH. reflexivity.
Qed.

Lemma gof_base : gof base gG.
Proof.
  split; [split; split; (discriminate || reflexivity) | reflexivity].
Qed.

Lemma gof_opp : forall P a, gof P a -> gof (opposite P) (gopp a).
Proof.
  intros P a [Hr E]. destruct P as [[x y] | ].
  - split.
    + destruct Hr as [Hx Hy]. split; [exact Hx | ]. rewrite prime_p_eq. apply mod_range.
    + cbn [gopp gmk gpt proj1_sig]. change (proj1_sig a) with (gpt a). rewrite E.
      cbn. rewrite prime_p_eq, fk_mod. f_equal. symmetry. apply fof_opp.
  - split; [exact I | ]. cbn [gopp gmk gpt proj1_sig].
    change (proj1_sig a) with (gpt a). rewrite E. reflexivity.
Qed.
