(** How far a signature determines the key it was made with. *)
From Coq Require Import Znumtheory.
From Verif Require Import GoBase BaseLemmas BigInt BigIntProofs NumTheory BigMod Sha256 SecpModel SecpGroup SecpOrder SecpOrderN SecpProofs SecpCyclic SecpSpec SecpLink EcdsaModel EcdsaSpec EcdsaNonce EcdsaProofs.
From Verif Require Import BindProofs.
Local Open Scope Z_scope.

(** One signature, two keys, two messages. *)
Lemma two_signers d d' Q Q' e e' r s : multiple base d Q -> multiple base d' Q' -> prime_p - order_n <= r -> ecdsa_valid Q e r s -> ecdsa_valid Q' e' r s ->
  (e' + d' * r - (e + d * r)) mod order_n = 0 \/ (e' + d' * r + (e + d * r)) mod order_n = 0.
Proof.
  intros M M' Lr V V'. pose proof (key_point d Q M) as G. pose proof (key_point d' Q' M') as G'. apply (valid_group _ _ _ _ _ G) in V. apply (valid_group _ _ _ _ _ G') in V'. rewrite prime_p_eq, order_n_eq in *. destruct V as (R & S & w & W & NZ & X), V' as (_ & _ & w' & W' & NZ' & X').
  rewrite vp in *. destruct (gof_ex (gmul (w * (e + d * r)) gG)) as (P & GP), (gof_ex (gmul (w' * (e' + d' * r)) gG)) as (P' & GP').
  rewrite (gof_enc _ _ GP) in X. rewrite (gof_enc _ _ GP') in X'. cbn [fst] in X, X'. pose proof (gof_is_good _ _ GP) as Gd. pose proof (gof_is_good _ _ GP') as Gd'.
  destruct P as [[x y]|]; [|exfalso; apply NZ; exact (gof_fun _ _ _ GP gof_inf)]. destruct P' as [[x' y']|]; [|exfalso; apply NZ'; exact (gof_fun _ _ _ GP' gof_inf)]. cbn [px] in X, X'.
  assert (Sx : forall z, 0 <= z < curveP -> z mod curveN = r -> z = r).
  { intros z Hz Ez. clear - Hz Ez Lr R. assert (curveP < 2 * curveN) by reflexivity. revert Hz Ez Lr R H. generalize curveP curveN. intros p n Hz Ez Lr R H.
    destruct (Z.lt_ge_cases z n) as [L|L]; [rewrite Z.mod_small in Ez; lia|]. assert (Q0 : z mod n = z - n) by (symmetry; apply (Z.mod_unique_pos _ _ 1); lia). lia. }
  assert (x = r) by (apply Sx; [destruct Gd as (B & _); rewrite prime_p_eq in B; exact B|exact X]). assert (x' = r) by (apply Sx; [destruct Gd' as (B & _); rewrite prime_p_eq in B; exact B|exact X']). subst x x'.
  assert (N0 : 0 < curveN) by exact N_pos. pose proof (inverse_unique curveN s w w' N0 W W') as Ew.
  assert (Mw : forall a, (w' * a) mod curveN = (w * a) mod curveN) by (intros a; rewrite <- Zmult_mod_idemp_l, Ew, Zmult_mod_idemp_l; reflexivity).
  assert (Dv : forall a b, a mod curveN = b mod curveN -> (a - b) mod curveN = 0) by (intros a b E; rewrite Zminus_mod, E, Z.sub_diag; reflexivity).
  destruct (opposite_or_same r y y' Gd Gd') as [->|Op].
  - left. pose proof (gof_fun _ _ _ GP GP') as E. apply gmul_G_inj in E. rewrite Mw in E. apply (cancel_inverse curveN s w _ _ N0 W) in E. symmetry in E. apply Dv in E. exact E.
  - right. rewrite Op in GP'. pose proof (gof_fun _ _ _ GP' (gof_opp _ _ GP)) as E. rewrite <- gmul_opp in E. apply gmul_G_inj in E. rewrite Mw in E. replace (- (w * (e + d * r))) with (w * - (e + d * r)) in E by ring. apply (cancel_inverse curveN s w _ _ N0 W) in E. apply Dv in E. rewrite <- E. f_equal. ring.
Qed.

(** Keys with opposite sums pass together. *)
Lemma other_signer d d' Q Q' e e' r s : multiple base d Q -> multiple base d' Q' -> (e' + d' * r + (e + d * r)) mod order_n = 0 -> ecdsa_valid Q e r s -> ecdsa_valid Q' e' r s.
Proof.
  intros M M' E V. pose proof (key_point d Q M) as G. pose proof (key_point d' Q' M') as G'. apply (valid_group _ _ _ _ _ G) in V. apply (valid_group _ _ _ _ _ G'). rewrite order_n_eq in E. destruct V as (R & S & w & W & NZ & X). split; [exact R|]. split; [exact S|]. exists w. split; [exact W|].
  rewrite vp in *. assert (Q0 : gmul (w * (e' + d' * r)) gG = gopp (gmul (w * (e + d * r)) gG)).
  { rewrite <- gmul_opp, <- gmul_N, <- (gmul_N (- _)). f_equal. apply eqm_sub; [exact N_pos|]. apply Z.mod_divide in E; [|intro Q0; discriminate Q0]. destruct E as [k E]. exists (w * k). replace (w * k * curveN) with (w * (k * curveN)) by ring. rewrite <- E. ring. }
  rewrite Q0. split; [intro H; apply NZ; now apply gopp_0|]. now rewrite enc_opp_x.
Qed.

Lemma multiple_inj d d' Q : multiple base d Q -> multiple base d' Q -> (d' - d) mod order_n = 0.
Proof.
  intros M M'. pose proof (gof_fun _ _ _ (key_point _ _ M) (key_point _ _ M')) as E. apply gmul_G_inj in E. rewrite order_n_eq, Zminus_mod, <- E, Z.sub_diag. reflexivity.
Qed.
Lemma multiple_same d d' Q Q' : multiple base d Q -> multiple base d' Q' -> (d' - d) mod order_n = 0 -> Q' = Q.
Proof.
  intros M M' E. pose proof (key_point _ _ M) as G. pose proof (key_point _ _ M') as G'. rewrite order_n_eq in E. assert (D : gmul d' gG = gmul d gG).
  { rewrite <- (gmul_N d'), <- (gmul_N d). f_equal. apply eqm_sub; [exact N_pos|]. apply Z.mod_divide; [intro Q0; discriminate Q0|exact E]. }
  rewrite D in G'. exact (gof_inj _ _ _ G' G).
Qed.
Lemma has_multiple d : 0 <= d -> exists Q, multiple base d Q /\ good Q.
Proof.
  intros Hd. destruct (gof_ex (gmul d gG)) as (Q & GQ). exists Q. split; [apply (gof_multiple _ _ _ _ gof_base Hd); exact GQ|exact (gof_is_good _ _ GQ)].
Qed.
(** The other key. *)
Lemma other_key e r d : 1 <= r < order_n -> exists d', 0 <= d' < order_n /\ (2 * e + r * (d + d')) mod order_n = 0.
Proof.
  rewrite order_n_eq. intros R. pose proof curveN_prime as Pn. assert (N0 : 0 < curveN) by exact N_pos. revert R Pn N0. generalize curveN. intros n R Pn N0.
  assert (Rp : rel_prime r n) by (apply rel_prime_sym, prime_rel_prime; [exact Pn|]; intros [k K]; assert (k <= 0 \/ 1 <= k) as [?|?] by lia; nia).
  destruct (rel_prime_bezout _ _ Rp) as [u v B]. exists ((- d - 2 * e * u) mod n). split; [apply Z.mod_pos_bound; lia|].
  set (z := - d - 2 * e * u). apply Z.mod_divide; [lia|]. exists (2 * e * v - r * (z / n)). rewrite (Z.mod_eq z n) by lia. generalize (z / n). intros q. unfold z.
  replace (2 * e + r * (d + (- d - 2 * e * u - n * q))) with (2 * e * (1 - u * r) - r * n * q) by ring. rewrite <- B. ring.
Qed.
Lemma keys_sum d d' Q Q' e r : multiple base d Q -> multiple base d' Q' -> 1 <= r < order_n -> (2 * e + r * (d + d')) mod order_n = 0 ->
  exists u S, (r * u) mod order_n = 1 /\ multiple base ((- (2 * e * u)) mod order_n) S /\ sum_of Q Q' S.
Proof.
  intros M M'. rewrite order_n_eq. intros R E. pose proof (key_point _ _ M) as G. pose proof (key_point _ _ M') as G'. pose proof curveN_prime as Pn. assert (N0 : 0 < curveN) by exact N_pos.
  assert (B : exists u v, r * u + v * curveN = 1).
  { revert R Pn N0. clear. generalize curveN. intros n R Pn N0. assert (Rp : rel_prime r n) by (apply rel_prime_sym, prime_rel_prime; [exact Pn|]; intros [k K]; assert (k <= 0 \/ 1 <= k) as [?|?] by lia; nia).
    destruct (rel_prime_bezout _ _ Rp) as [u v B]. exists u, v. rewrite <- B. ring. }
  destruct B as (u & v & B). destruct (gof_ex (gmul (d + d') gG)) as (S & GS). exists u, S. split; [|split].
  - replace (r * u) with (1 + - v * curveN) by (rewrite <- B; ring). rewrite Z.mod_add by (intro Q0; rewrite Q0 in N0; discriminate N0). reflexivity.
  - apply (gof_multiple _ _ _ _ gof_base); [apply Z.mod_pos_bound; exact N0|]. rewrite gmul_N. replace (gmul (- (2 * e * u)) gG) with (gmul (d + d') gG); [exact GS|].
    rewrite <- (gmul_N (d + d')), <- (gmul_N (- _)). f_equal. apply eqm_sub; [exact N0|]. apply Z.mod_divide in E; [|intro Q0; rewrite Q0 in N0; discriminate N0]. destruct E as [k E]. exists (u * k + (d + d') * v).
    replace ((u * k + (d + d') * v) * curveN) with (u * (k * curveN) + (d + d') * (v * curveN)) by ring. rewrite <- E. replace (v * curveN) with (1 - r * u) by (rewrite <- B; ring). ring.
  - apply (gof_sum _ _ _ _ _ G G'). rewrite <- gmul_add. exact GS.
Qed.
