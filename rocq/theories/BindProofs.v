(** How far a signature determines the hash it signs. *)
From Coq Require Import Znumtheory.
From Verif Require Import GoBase BaseLemmas BigInt BigIntProofs NumTheory BigMod Sha256 SecpModel SecpGroup SecpOrder SecpOrderN SecpProofs SecpCyclic SecpSpec SecpLink EcdsaModel EcdsaSpec EcdsaNonce EcdsaProofs.
Local Open Scope Z_scope.

Lemma opposite_or_same x y y' : good (Some (x, y)) -> good (Some (x, y')) -> y' = y \/ Some (x, y') = opposite (Some (x, y)).
Proof.
  intros (_ & Hy & E) (_ & Hy' & E'). unfold eqp in *. rewrite prime_p_eq in *. pose proof curveP_prime as Pp. revert Hy Hy' E E' Pp. unfold opposite. rewrite prime_p_eq. generalize curveP. intros p Hy Hy' E E' Pp.
  assert (D : (p | (y' - y) * (y' + y))).
  { apply Z.mod_divide in E, E'; try lia. destruct E as [a A], E' as [b B]. exists (b - a). replace ((b - a) * p) with ((y' * y' - (x * x * x + 7)) - (y * y - (x * x * x + 7))) by lia. ring. }
  destruct (prime_mult p Pp _ _ D) as [[k K]|[k K]].
  - left. assert (k = 0) by nia. lia.
  - right. f_equal. f_equal. symmetry. rewrite <- (Z.mod_small y' p) by lia. apply eqm_sub; [lia|]. exists (- k). lia.
Qed.

Lemma vp D e r w : vpoint (gmul D gG) e r w = gmul (w * (e + D * r)) gG.
Proof. unfold vpoint. rewrite !gmul_any_mod, <- gmul_mul, <- gmul_add. f_equal. ring. Qed.

Lemma inverse_unique n s w w' : 0 < n -> (s * w) mod n = 1 -> (s * w') mod n = 1 -> w' mod n = w mod n.
Proof.
  intros Hn W W'. assert (X : (w' * (s * w)) mod n = (w * (s * w')) mod n) by (f_equal; ring).
  rewrite <- (Zmult_mod_idemp_r (s * w)), W, <- (Zmult_mod_idemp_r (s * w')), W', !Z.mul_1_r in X. exact X.
Qed.
Lemma cancel_inverse n s w a b : 0 < n -> (s * w) mod n = 1 -> (w * a) mod n = (w * b) mod n -> a mod n = b mod n.
Proof.
  intros Hn W E. assert (Q : forall z, (s * (w * z)) mod n = z mod n) by (intros z; replace (s * (w * z)) with (z * (s * w)) by ring; rewrite <- Zmult_mod_idemp_r, W, Z.mul_1_r; reflexivity).
  rewrite <- (Q a), <- (Q b), <- Zmult_mod_idemp_r, E, Zmult_mod_idemp_r. reflexivity.
Qed.

Lemma key_point d Q : multiple base d Q -> gof Q (gmul d gG).
Proof. intros M. apply (gof_multiple _ _ _ _ gof_base (multiple_nonneg _ _ _ M)). exact M. Qed.

(** One signature, two messages. *)
Lemma two_messages d Q e e' r s : multiple base d Q -> prime_p - order_n <= r -> ecdsa_valid Q e r s -> ecdsa_valid Q e' r s ->
  (e' - e) mod order_n = 0 \/ (e' + e + 2 * r * d) mod order_n = 0.
Proof.
  intros M Lr V V'. pose proof (key_point d Q M) as G. apply (valid_group _ _ _ _ _ G) in V, V'. rewrite prime_p_eq, order_n_eq in *. destruct V as (R & S & w & W & NZ & X), V' as (_ & _ & w' & W' & NZ' & X').
  rewrite vp in *. destruct (gof_ex (gmul (w * (e + d * r)) gG)) as (P & GP), (gof_ex (gmul (w' * (e' + d * r)) gG)) as (P' & GP').
  rewrite (gof_enc _ _ GP) in X. rewrite (gof_enc _ _ GP') in X'. cbn [fst] in X, X'. pose proof (gof_is_good _ _ GP) as Gd. pose proof (gof_is_good _ _ GP') as Gd'.
  destruct P as [[x y]|]; [|exfalso; apply NZ; exact (gof_fun _ _ _ GP gof_inf)]. destruct P' as [[x' y']|]; [|exfalso; apply NZ'; exact (gof_fun _ _ _ GP' gof_inf)]. cbn [px] in X, X'.
  assert (Sx : forall z, 0 <= z < curveP -> z mod curveN = r -> z = r).
  { intros z Hz Ez. clear - Hz Ez Lr R. assert (curveP < 2 * curveN) by reflexivity. revert Hz Ez Lr R H. generalize curveP curveN. intros p n Hz Ez Lr R H.
    destruct (Z.lt_ge_cases z n) as [L|L]; [rewrite Z.mod_small in Ez; lia|]. assert (Q : z mod n = z - n) by (symmetry; apply (Z.mod_unique_pos _ _ 1); lia). lia. }
  assert (x = r) by (apply Sx; [destruct Gd as (B & _); rewrite prime_p_eq in B; exact B|exact X]). assert (x' = r) by (apply Sx; [destruct Gd' as (B & _); rewrite prime_p_eq in B; exact B|exact X']). subst x x'.
  assert (N0 : 0 < curveN) by exact N_pos. pose proof (inverse_unique curveN s w w' N0 W W') as Ew.
  assert (Mw : forall a, (w' * a) mod curveN = (w * a) mod curveN) by (intros a; rewrite <- Zmult_mod_idemp_l, Ew, Zmult_mod_idemp_l; reflexivity).
  assert (Dv : forall a b, a mod curveN = b mod curveN -> (a - b) mod curveN = 0) by (intros a b E; rewrite Zminus_mod, E, Z.sub_diag; reflexivity).
  destruct (opposite_or_same r y y' Gd Gd') as [->|Op].
  - left. pose proof (gof_fun _ _ _ GP GP') as E. apply gmul_G_inj in E. rewrite Mw in E. apply (cancel_inverse curveN s w _ _ N0 W) in E. symmetry in E. apply Dv in E. rewrite <- E. f_equal. ring.
  - right. rewrite Op in GP'. pose proof (gof_fun _ _ _ GP' (gof_opp _ _ GP)) as E. rewrite <- gmul_opp in E. apply gmul_G_inj in E. rewrite Mw in E. replace (- (w * (e + d * r))) with (w * - (e + d * r)) in E by ring. apply (cancel_inverse curveN s w _ _ N0 W) in E. apply Dv in E. rewrite <- E. f_equal. ring.
Qed.

(** The other message. *)
Lemma other_message d Q e e' r s : multiple base d Q -> (e' + e + 2 * r * d) mod order_n = 0 -> ecdsa_valid Q e r s -> ecdsa_valid Q e' r s.
Proof.
  intros M E V. pose proof (key_point d Q M) as G. apply (valid_group _ _ _ _ _ G) in V. apply (valid_group _ _ _ _ _ G). rewrite order_n_eq in E. destruct V as (R & S & w & W & NZ & X). split; [exact R|]. split; [exact S|]. exists w. split; [exact W|].
  rewrite vp in *. assert (Q' : gmul (w * (e' + d * r)) gG = gopp (gmul (w * (e + d * r)) gG)).
  { rewrite <- gmul_opp, <- gmul_N, <- (gmul_N (- _)). f_equal. apply eqm_sub; [exact N_pos|]. apply Z.mod_divide in E; [|intro Q'; discriminate Q']. destruct E as [k E]. exists (w * k). replace (w * k * curveN) with (w * (k * curveN)) by ring. rewrite <- E. ring. }
  rewrite Q'. split; [intro H; apply NZ; now apply gopp_0|]. now rewrite enc_opp_x.
Qed.
Lemma same_message Q e e' r s : good Q -> (e' - e) mod order_n = 0 -> ecdsa_valid Q e r s -> ecdsa_valid Q e' r s.
Proof.
  intros HQ E (R & S & w & U & V & T & W & MU & rest). split; [exact R|]. split; [exact S|]. exists w, U, V, T. split; [exact W|]. split; [|exact rest].
  replace ((e' * w) mod order_n) with ((e * w) mod order_n); [exact MU|]. symmetry. apply eqm_sub; [reflexivity|]. apply Z.mod_divide in E; [|intro Q'; discriminate Q']. destruct E as [k E]. exists (k * w). replace (k * w * order_n) with (k * order_n * w) by ring. rewrite <- E. ring.
Qed.
Lemma other_differs d Q e e' r s : multiple base d Q -> ecdsa_valid Q e r s -> (e' + e + 2 * r * d) mod order_n = 0 -> (e' - e) mod order_n <> 0.
Proof.
  intros M V E D. pose proof (key_point d Q M) as G. apply (valid_group _ _ _ _ _ G) in V. destruct V as (R & S & w & W & NZ & X). rewrite order_n_eq in *. apply NZ. rewrite vp. apply gmul_G_0.
  assert (N0 : curveN <> 0) by (intro Q'; discriminate Q'). apply Z.mod_divide in E, D; try exact N0. apply Z.mod_divide; [exact N0|]. apply Z.divide_mul_r.
  assert (T : (curveN | 2 * (e + d * r))). { destruct E as [a A], D as [b B]. exists (a - b). replace ((a - b) * curveN) with (a * curveN - b * curveN) by ring. rewrite <- A, <- B. ring. }
  destruct (prime_mult curveN curveN_prime _ _ T) as [[k K]|H]; [|exact H]. exfalso. revert K. assert (L : 2 < curveN) by reflexivity. revert L. generalize curveN. intros n L K. assert (k <= 0 \/ 1 <= k) as [?|?] by lia; nia.
Qed.
