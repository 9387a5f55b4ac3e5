(** The generator has order N: N * G = 0, by a chain of doublings and
    additions of +-G whose slopes are given (specification side). *)

From Coq Require Import ZArith Znumtheory Lia Bool List Field Ring.
From Verif Require Import NumTheory Fp EcGroup AbGroup SecpModel SecpGroup.
Import ListNotations.
Local Open Scope Z_scope.

Definition redP (x : Z) : Z := fold2 256 4294968273 (fold2 256 4294968273 x).

Lemma fk_redP : forall x, fk (redP x) = fk x.
Proof.
  intros x. unfold fk, redP. apply fof_eq.
  change curveP with (2 ^ 256 - 4294968273).
  rewrite !fold2_mod by lia. reflexivity.
Qed.

Inductive step := D (l : Z) | A (n : bool) (l : Z).

(** One step: (m, x, y), meaning m * G = (x, y), to the next triple. *)
Definition run1 (s : step) (st : Z * Z * Z) : option (Z * Z * Z) :=
  let '(m, x, y) := st in
  match s with
  | D l =>
      if redP (l * (2 * y) - 3 * (x * x)) mod curveP =? 0 then
        let x3 := redP (l * l - x - x) in
        let y3 := redP (l * (x - x3) - y) in
        Some (2 * m, x3, y3)
      else None
  | A n l =>
      let gy := if n then - curveGy else curveGy in
      if (redP (l * (curveGx - x) - (gy - y)) mod curveP =? 0)
         && negb ((curveGx - x) mod curveP =? 0) then
        let x3 := redP (l * l - x - curveGx) in
        let y3 := redP (l * (x - x3) - y) in
        Some (if n then m - 1 else m + 1, x3, y3)
      else None
  end.

Fixpoint run (ss : list step) (st : Z * Z * Z) : option (Z * Z * Z) :=
  match ss with
  | [] => Some st
  | s :: ss' => match run1 s st with Some st' => run ss' st' | None => None end
  end.

Definition chain_ok (ss : list step) : bool :=
  match run ss (1, curveGx, curveGy) with
  | Some (m, x, y) =>
      (m =? curveN - 1) && ((x - curveGx) mod curveP =? 0) && ((y + curveGy) mod curveP =? 0)
  | None => false
  end.

Lemma G_on : s_on (Aff (fk curveGx) (fk curveGy)).
Proof. apply s_onb_on. vm_compute. reflexivity. Qed.

Definition gG : gp := gmk _ G_on.

Definition stands (st : Z * Z * Z) : Prop :=
  let '(m, x, y) := st in gpt (gmul m gG) = Aff (fk x) (fk y).

Lemma fk_0 : forall x, x mod curveP = 0 -> fk x = fof curveP 0.
Proof. intros x H. apply fof_0; [reflexivity | exact H]. Qed.

(** Field arithmetic in K. *)
Add Field KF : K_field.

Lemma fk_third : forall l x y x2,
  third K fmul fsub (fk l) (fk x) (fk y) (fk x2)
  = Aff (fk (redP (l * l - x - x2))) (fk (redP (l * (x - redP (l * l - x - x2)) - y))).
Proof.
  intros l x y x2. unfold third. rewrite !fk_redP. unfold fk.
  rewrite (fof_sub _ (l * _)), (fof_mul _ l (x - _)), (fof_sub _ x (redP _)).
  assert (E : fof curveP (redP (l * l - x - x2))
              = fsub (fsub (fmul (fof curveP l) (fof curveP l)) (fof curveP x)) (fof curveP x2)).
  { change (fk (redP (l * l - x - x2))
            = fsub (fsub (fmul (fof curveP l) (fof curveP l)) (fof curveP x)) (fof curveP x2)).
    rewrite fk_redP. unfold fk. rewrite !fof_sub, fof_mul. reflexivity. }
  rewrite E, !fof_sub, fof_mul. reflexivity.
Qed.

Lemma slope_div : forall a b c : K, b <> fof curveP 0 -> fmul a b = c -> fdiv c b = a.
Proof. intros a b c Hb <-. field. exact Hb. Qed.

Lemma Some_eq : forall (T : Type) (a b : T), Some a = Some b -> b = a.
Proof. congruence. Qed.

Lemma run1_sound : forall s st st', stands st -> run1 s st = Some st' -> stands st'.
Proof.
  intros s [[m x] y] st' H R. unfold stands in H. cbn [run1] in R.
  pose proof (gp_on (gmul m gG)) as Hon. rewrite H in Hon.
  destruct s as [l | n l].
  - destruct (_ =? 0) eqn:E; [ | discriminate]. apply Some_eq in R. subst st'.
    apply Z.eqb_eq in E. apply fk_0 in E. rewrite fk_redP in E.
    unfold stands. replace (2 * m) with (m + m) by lia.
    rewrite gmul_add. cbn [gadd gmk gpt proj1_sig].
    change (proj1_sig (gmul m gG)) with (gpt (gmul m gG)). rewrite H.
    pose proof (on_y_nz _ _ _ _ _ _ _ _ _ K_field _ K_no_y0 _ _ Hon) as Hy.
    rewrite <- fk_third. unfold s_add. cbn [padd].
    destruct (K_dec (fk x) (fk x)) as [_ | C]; [ | contradiction].
    destruct (K_dec (fk y) (fopp (fk y))) as [C | _].
    { exfalso. exact (opp_ne _ _ _ _ _ _ _ _ _ K_field K_dec K_two_nz _ Hy C). }
    f_equal. apply slope_div.
    + apply (mul_nz _ _ _ _ _ _ _ _ _ K_field K_dec); [exact K_two_nz | exact Hy].
    + apply (sub_eq0 _ _ _ _ _ _ _ _ _ K_field).
      rewrite <- E. unfold fk. rewrite fof_sub, !fof_mul.
      change (fof curveP 3) with (fof curveP (1 + 1 + 1)).
      change (fof curveP 2) with (fof curveP (1 + 1)).
      rewrite !fof_add. ring.
  - set (gy := if n then - curveGy else curveGy) in *.
    destruct (_ && _) eqn:E; [ | discriminate]. apply Some_eq in R. subst st'.
    apply andb_true_iff in E. destruct E as [E F].
    apply Z.eqb_eq in E. apply fk_0 in E. rewrite fk_redP in E.
    apply negb_true_iff, Z.eqb_neq in F.
    assert (Hd : fk curveGx <> fk x).
    { intro C. apply F. unfold fk in C. apply fof_eq in C.
      rewrite Zminus_mod, C, Z.sub_diag. apply Zmod_0_l. }
    assert (Q : gpt (if n then gopp gG else gG) = Aff (fk curveGx) (fk gy)).
    { destruct n; [ | reflexivity]. unfold gy.
      change (gpt (gopp gG)) with (Aff (fk curveGx) (fopp (fk curveGy))).
      unfold fk. rewrite <- fof_opp. reflexivity. }
    unfold stands.
    assert (G : gmul (if n then m - 1 else m + 1) gG
                = gadd (gmul m gG) (if n then gopp gG else gG)).
    { destruct n.
      - replace (m - 1) with (m + - (1)) by lia.
        rewrite gmul_add, gmul_opp, gmul_1. reflexivity.
      - rewrite gmul_add, gmul_1. reflexivity. }
    rewrite G. cbn [gadd gmk gpt proj1_sig].
    change (proj1_sig (gmul m gG)) with (gpt (gmul m gG)).
    change (proj1_sig (if n then gopp gG else gG)) with (gpt (if n then gopp gG else gG)).
    rewrite H, Q, <- fk_third. unfold s_add. cbn [padd].
    destruct (K_dec (fk x) (fk curveGx)) as [C | _]; [exfalso; apply Hd; symmetry; exact C | ].
    f_equal. apply slope_div.
    + apply (sub_nz _ _ _ _ _ _ _ _ _ K_field). exact Hd.
    + apply (sub_eq0 _ _ _ _ _ _ _ _ _ K_field).
      rewrite <- E. unfold fk. rewrite fof_sub, fof_mul, !fof_sub. reflexivity.
Qed.

Lemma run_sound : forall ss st st', stands st -> run ss st = Some st' -> stands st'.
Proof.
  induction ss as [ | s ss IH]; intros st st' H R; cbn in R.
  - injection R as <-. exact H.
  - destruct (run1 s st) as [st1 | ] eqn:E; [ | discriminate].
    exact (IH st1 st' (run1_sound s st st1 H E) R).
Qed.

Lemma chain_order : forall ss, chain_ok ss = true -> gmul curveN gG = g0.
Proof.
  intros ss H. unfold chain_ok in H.
  destruct (run ss (1, curveGx, curveGy)) as [[[m x] y] | ] eqn:R; [ | discriminate].
  apply run_sound in R; [ | unfold stands; rewrite gmul_1; reflexivity].
  rewrite !andb_true_iff, !Z.eqb_eq in H. destruct H as ((Hm & Hx) & Hy). subst m.
  replace curveN with (curveN - 1 + 1) by lia. rewrite gmul_add, gmul_1.
  apply gp_eq. cbn [gadd gmk gpt proj1_sig].
  change (proj1_sig (gmul (curveN - 1) gG)) with (gpt (gmul (curveN - 1) gG)).
  unfold stands in R. rewrite R. unfold s_add. cbn [padd gpt proj1_sig gG gmk].
  assert (Ex : fk x = fk curveGx).
  { apply (sub_eq0 _ _ _ _ _ _ _ _ _ K_field). unfold fk. rewrite <- fof_sub.
    apply fk_0. exact Hx. }
  assert (Ey : fk y = fopp (fk curveGy)).
  { apply (sub_eq0 _ _ _ _ _ _ _ _ _ K_field). unfold fk. rewrite <- fof_opp, <- fof_sub.
    apply fk_0. rewrite Z.sub_opp_r. exact Hy. }
  destruct (K_dec (fk x) (fk curveGx)) as [_ | C]; [ | contradiction].
  destruct (K_dec (fk y) (fopp (fk curveGy))) as [_ | C]; [reflexivity | contradiction].
Qed.
