(** Every point of the curve is a multiple of the base point: the points are a
    cyclic group of prime order N.

    There are at most 2P + 1 points, fewer than three cosets of the multiples of
    the base point; and no point is its own opposite except infinity. *)

From Coq Require Import Znumtheory.
From Verif Require Import GoBase NumTheory BigMod Fp EcGroup AbGroup SecpModel SecpGroup SecpOrder SecpOrderN SecpProofs.
Local Open Scope Z_scope.

Lemma pigeon : forall (n m : Z) (f : Z -> Z), 0 <= n -> 0 <= m ->
  (forall i, 0 <= i < n -> 0 <= f i < m) ->
  (forall i j, 0 <= i < n -> 0 <= j < n -> f i = f j -> i = j) -> n <= m.
Proof.
  intros n m f Hn Hm Hr Hi.
  set (dom := map Z.of_nat (seq 0 (Z.to_nat n))).
  set (cod := map Z.of_nat (seq 0 (Z.to_nat m))).
  assert (D : forall i, In i dom <-> 0 <= i < n).
  { intro i. unfold dom. rewrite in_map_iff. split.
    - intros (k & <- & Hk). apply in_seq in Hk. lia.
    - intro H. exists (Z.to_nat i). split; [lia | ]. apply in_seq. lia. }
  assert (C : forall i, In i cod <-> 0 <= i < m).
  { intro i. unfold cod. rewrite in_map_iff. split.
    - intros (k & <- & Hk). apply in_seq in Hk. lia.
    - intro H. exists (Z.to_nat i). split; [lia | ]. apply in_seq. lia. }
  assert (ND : NoDup dom).
  { apply FinFun.Injective_map_NoDup; [intros x y; lia | apply seq_NoDup]. }
  assert (NF : NoDup (map f dom)).
  { clearbody dom. clear C cod. 
    assert (W : forall l, NoDup l -> (forall i, In i l -> 0 <= i < n) -> NoDup (map f l)).
    { induction l as [ | x l IH]; intros N R; cbn; [constructor | ].
      inversion N as [ | ? ? N1 N2]; subst. constructor.
      - intro I. apply in_map_iff in I. destruct I as (y & E & Iy). apply N1.
        rewrite (Hi x y); [exact Iy | | | congruence].
        + apply R. left. reflexivity.
        + apply R. right. exact Iy.
      - apply IH; [exact N2 | ]. intros i I. apply R. right. exact I. }
    apply W; [exact ND | ]. intros i I. apply D. exact I. }
  assert (IN : incl (map f dom) cod).
  { intros x I. apply in_map_iff in I. destruct I as (y & <- & Iy). apply C, Hr, D, Iy. }
  pose proof (NoDup_incl_length NF IN) as L. unfold dom, cod in L.
  rewrite !map_length, !seq_length in L. apply Z2Nat.inj_le in L; assumption.
Qed.

(** A number for each point, below 2P + 1. *)
Definition code (a : gp) : Z :=
  match gpt a with
  | Inf => 2 * curveP
  | Aff x y => 2 * fval x + fval y mod 2
  end.

Lemma fval_rng : forall a : K, 0 <= fval a < curveP.
Proof. intro a. rewrite <- (fk_pos a), fval_fk. apply mod_range. Qed.

Lemma code_range : forall a, 0 <= code a < 2 * curveP + 1.
Proof.
  intro a. unfold code. pose proof curveP_gt. destruct (gpt a) as [ | x y]; [lia | ].
  pose proof (fval_rng x). pose proof (Z.mod_pos_bound (fval y) 2 ltac:(lia)). lia.
Qed.

Lemma root_parity : forall p y z, prime p -> p mod 2 = 1 -> 0 < y < p -> 0 < z < p ->
  (y * y) mod p = (z * z) mod p -> y mod 2 = z mod 2 -> y = z.
Proof.
  intros p y z Hp Ho Hy Hz E Ep.
  assert (D : (p | (y - z) * (y + z))).
  { replace ((y - z) * (y + z)) with (y * y - z * z) by ring. apply eqm_div; [lia | exact E]. }
  destruct (prime_mult p Hp _ _ D) as [[k Hk] | [k Hk]].
  - assert (k = 0) by (destruct (Z.lt_trichotomy k 0) as [N | [N | N]]; [| exact N |]; exfalso;
      [pose proof (Z.mul_le_mono_nonneg_r k (-1) p ltac:(lia) ltac:(lia)) | pose proof (Z.mul_le_mono_nonneg_r 1 k p ltac:(lia) ltac:(lia))]; lia).
    subst k. lia.
  - assert (k = 1) by (destruct (Z.lt_trichotomy k 1) as [N | [N | N]]; [| exact N |]; exfalso;
      [pose proof (Z.mul_le_mono_nonneg_r k 0 p ltac:(lia) ltac:(lia)) | pose proof (Z.mul_le_mono_nonneg_r 2 k p ltac:(lia) ltac:(lia))]; lia).
    subst k. exfalso.
    pose proof (Z.div_mod p 2 ltac:(lia)). pose proof (Z.div_mod y 2 ltac:(lia)).
    pose proof (Z.div_mod z 2 ltac:(lia)). lia.
Qed.

Lemma curveP_odd : curveP mod 2 = 1.
Proof. reflexivity. Qed.

Lemma y_range : forall x y, s_on (Aff x y) -> 0 < fval y < curveP.
Proof.
  intros x y H.
  pose proof (on_y_nz _ _ _ _ _ _ _ _ _ K_field _ K_no_y0 _ _ H) as N.
  pose proof (fval_rng y). destruct (Z.eq_dec (fval y) 0) as [E | E]; [ | lia].
  exfalso. apply N. rewrite <- (fk_pos y), E. reflexivity.
Qed.

Lemma on_int : forall x y, s_on (Aff x y) ->
  (fval y * fval y) mod curveP = (fval x * fval x * fval x + 7) mod curveP.
Proof.
  intros x y H. apply fk_eq. rewrite fk_add, !fk_mul, !fk_pos. exact H.
Qed.

Lemma code_inj : forall a b, code a = code b -> a = b.
Proof.
  intros a b H. apply gp_eq. unfold code in H.
  pose proof (gp_on a) as Ha. pose proof (gp_on b) as Hb.
  destruct (gpt a) as [ | x y], (gpt b) as [ | x' y']; [reflexivity | exfalso | exfalso | ].
  - pose proof (fval_rng x'). pose proof (Z.mod_pos_bound (fval y') 2 ltac:(lia)). lia.
  - pose proof (fval_rng x). pose proof (Z.mod_pos_bound (fval y) 2 ltac:(lia)). lia.
  - pose proof (Z.mod_pos_bound (fval y) 2 ltac:(lia)).
    pose proof (Z.mod_pos_bound (fval y') 2 ltac:(lia)).
    assert (Ex : fval x = fval x') by lia. assert (Ep : fval y mod 2 = fval y' mod 2) by lia.
    assert (Ey : fval y = fval y').
    { apply (root_parity curveP); [exact curveP_prime | exact curveP_odd | | | | exact Ep].
      - exact (y_range _ _ Ha).
      - exact (y_range _ _ Hb).
      - rewrite (on_int _ _ Ha), (on_int _ _ Hb), Ex. reflexivity. }
    rewrite <- (fk_pos x), <- (fk_pos y), Ex, Ey, !fk_pos. reflexivity.
Qed.

(** No point of order two. *)
Lemma no_order_2 : forall a, gadd a a = g0 -> a = g0.
Proof.
  intros a H. assert (E : a = gopp a).
  { rewrite <- (gadd_0_r a), <- (gadd_opp a) at 1.
    rewrite <- gadd_assoc, H, gadd_0_l. reflexivity. }
  apply gp_eq. apply (f_equal gpt) in E. pose proof (gp_on a) as Ha.
  change (gpt (gopp a)) with (s_neg (gpt a)) in E.
  destruct (gpt a) as [ | x y]; [reflexivity | exfalso].
  cbn in E. assert (Ey : y = fopp y) by congruence.
  pose proof (y_range _ _ Ha) as R.
  assert (E2 : fk (2 * fval y) = fk 0).
  { replace (2 * fval y) with (fval y + fval y) by lia.
    rewrite fk_add, fk_pos. rewrite Ey at 2. 
    exact (Field_theory.F_R K_field).(Ring_theory.Ropp_def) || apply (Ring_theory.Ropp_def (Field_theory.F_R K_field)). }
  apply fk_eq in E2. rewrite Zmod_0_l in E2. apply Zmod_divide in E2; [ | discriminate].
  destruct E2 as (k & Hk). pose proof curveP_odd as O.
  pose proof (Z.div_mod curveP 2 ltac:(lia)).
  assert (k = 1) by nia. subst k. lia.
Qed.

Lemma coset_inj : forall a q1 r1 q2 r2,
  (forall j, a <> gmul j gG) -> (forall j, gmul 2 a <> gmul j gG) ->
  0 <= q1 < 3 -> 0 <= q2 < 3 -> 0 <= r1 < curveN -> 0 <= r2 < curveN ->
  gadd (gmul q1 a) (gmul r1 gG) = gadd (gmul q2 a) (gmul r2 gG) -> q1 = q2 /\ r1 = r2.
Proof.
  intros a q1 r1 q2 r2 H1 H2 Hq1 Hq2 Hr1 Hr2 E.
  assert (D : gmul (q1 - q2) a = gmul (r2 - r1) gG).
  { replace (q1 - q2) with (- q2 + q1) by lia. rewrite gmul_add, gmul_opp.
    replace (r2 - r1) with (r2 + - r1) by lia. rewrite gmul_add, gmul_opp.
    assert (E' : gmul q1 a = gadd (gadd (gmul q2 a) (gmul r2 gG)) (gopp (gmul r1 gG))).
    { rewrite <- E, gadd_assoc, gadd_opp, gadd_0_r. reflexivity. }
    rewrite E', <- !gadd_assoc, (gadd_comm (gopp _)), gadd_opp, gadd_0_l. reflexivity. }
  assert (D' : gmul (q2 - q1) a = gmul (r1 - r2) gG).
  { replace (q2 - q1) with (- (q1 - q2)) by lia. rewrite gmul_opp, D, <- gmul_opp.
    f_equal. lia. }
  assert (C : q1 - q2 = 0 \/ q1 - q2 = 1 \/ q1 - q2 = 2 \/ q2 - q1 = 1 \/ q2 - q1 = 2) by lia.
  destruct C as [C | [C | [C | [C | C]]]].
  - split; [lia | ]. rewrite C in D. change (gmul 0 a) with g0 in D. symmetry in D.
    apply gmul_G_0 in D. apply Zmod_divide in D; [ | discriminate].
    destruct D as (k & Hk). assert (k = 0) by nia. lia.
  - exfalso. rewrite C, gmul_1 in D. exact (H1 _ D).
  - exfalso. rewrite C in D. exact (H2 _ D).
  - exfalso. rewrite C, gmul_1 in D'. exact (H1 _ D').
  - exfalso. rewrite C in D'. exact (H2 _ D').
Qed.

(** Membership in the multiples of the base point can be decided. *)
Lemma in_base_dec : forall a, (exists j, a = gmul j gG) \/ (forall j, a <> gmul j gG).
Proof.
  intro a.
  assert (W : forall n, (exists j, 0 <= j < Z.of_nat n /\ a = gmul j gG)
                        \/ (forall j, 0 <= j < Z.of_nat n -> a <> gmul j gG)).
  { induction n as [ | n IH]; [right; intros j Hj; lia | ].
    destruct IH as [(j & Hj & E) | IH]; [left; exists j; split; [lia | exact E] | ].
    destruct (gp_dec a (gmul (Z.of_nat n) gG)) as [E | E].
    - left. exists (Z.of_nat n). split; [lia | exact E].
    - right. intros j Hj. destruct (Z.eq_dec j (Z.of_nat n)) as [-> | F]; [exact E | ].
      apply IH. lia. }
  destruct (W (Z.to_nat curveN)) as [(j & _ & E) | H]; [left; exists j; exact E | right].
  intros j E. apply (H (j mod curveN)); [ | rewrite gmul_N; exact E].
  rewrite Z2Nat.id by discriminate. apply Z.mod_pos_bound. reflexivity.
Qed.

Lemma three_cosets : 2 * curveP + 1 < 3 * curveN.
Proof. reflexivity. Qed.

Lemma curveN_pos : 0 < curveN. Proof. reflexivity. Qed.
Lemma curveN_odd : curveN mod 2 = 1. Proof. reflexivity. Qed.

Theorem cyclic : forall a : gp, exists k, 0 <= k < curveN /\ a = gmul k gG.
Proof.
  intro a. assert (M : exists j, a = gmul j gG).
  { destruct (in_base_dec a) as [M | H1]; [exact M | exfalso].
    destruct (in_base_dec (gmul 2 a)) as [(j & E) | H2].
    - (* 2a = jG with j even after adding N: a - (j/2) G has order two *)
      assert (J : exists h, gmul j gG = gmul (2 * h) gG).
      { destruct (Z.eq_dec (j mod 2) 0) as [P | P].
        - exists (j / 2). f_equal. pose proof (Z.div_mod j 2 ltac:(lia)). lia.
        - exists ((j + curveN) / 2).
          assert (X : 2 * ((j + curveN) / 2) = j + curveN).
          { pose proof curveN_odd as O.
            pose proof (Z.div_mod (j + curveN) 2 ltac:(lia)).
            assert ((j + curveN) mod 2 = 0).
            { rewrite Zplus_mod, O. pose proof (Z.mod_pos_bound j 2 ltac:(lia)).
              assert (Q : j mod 2 = 1) by lia. rewrite Q. reflexivity. }
            lia. }
          rewrite X, gmul_add, G_order, gadd_0_r. reflexivity. }
      destruct J as (h & J). rewrite J in E.
      apply (H1 h).
      assert (Z0 : gadd a (gopp (gmul h gG)) = g0).
      { apply no_order_2. set (b := gadd a (gopp (gmul h gG))).
        assert (B : gadd b b = gmul 2 b).
        { replace 2 with (1 + 1) by lia. rewrite gmul_add, gmul_1. reflexivity. }
        rewrite B. unfold b. rewrite gmul_dist, E, <- gmul_opp, <- gmul_mul, <- gmul_add.
        replace (2 * h + 2 * - h) with 0 by ring. reflexivity. }
      rewrite <- (gadd_0_r a), <- (gadd_opp (gmul h gG)), (gadd_comm (gmul h gG)),
        <- gadd_assoc, Z0, gadd_0_l. reflexivity.
    - (* three cosets are too many *)
      pose proof three_cosets as T. pose proof curveN_pos as NP. pose proof curveP_gt as PP.
      assert (L : 3 * curveN <= 2 * curveP + 1).
      { apply (pigeon (3 * curveN) (2 * curveP + 1)
                 (fun i => code (gadd (gmul (i / curveN) a) (gmul (i mod curveN) gG)))).
        - lia.
        - lia.
        - intros i _. apply code_range.
        - intros i j Hi Hj EC. apply code_inj in EC.
          apply coset_inj in EC; try assumption; try (apply Z.mod_pos_bound; exact NP).
          + pose proof (Z.div_mod i curveN ltac:(lia)). pose proof (Z.div_mod j curveN ltac:(lia)).
            destruct EC as [-> ->] || (destruct EC as [E1 E2]; rewrite E1, E2 in *; lia).
          + split; [apply Z.div_pos; lia | apply Z.div_lt_upper_bound; lia].
          + split; [apply Z.div_pos; lia | apply Z.div_lt_upper_bound; lia]. }
      lia. }
  destruct M as (j & E). exists (j mod curveN). split; [ | rewrite gmul_N; exact E].
  apply Z.mod_pos_bound. reflexivity.
Qed.

Corollary gmul_any_mod : forall k a, gmul (k mod curveN) a = gmul k a.
Proof.
  intros k a. apply gmul_mod; [discriminate | ].
  destruct (cyclic a) as (j & _ & ->). rewrite <- gmul_mul.
  apply gmul_G_0. rewrite Z.mul_comm. apply Z.mod_mul. discriminate.
Qed.
