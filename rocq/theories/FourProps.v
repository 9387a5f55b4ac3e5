(** C140, continued: signatures of any r. *)
From Coq Require Import Znumtheory.
From Verif Require Import GoBase BaseLemmas BigInt BigIntProofs NumTheory BigMod Sha256 SecpModel SecpGroup SecpOrder SecpOrderN SecpProofs SecpCyclic SecpSpec SecpLink EcdsaModel EcdsaSpec EcdsaNonce EcdsaProofs EcdsaProps Bip32Proofs WholeProofs WholeProps BindProofs BindProps.
From Coq Require Import ZifyBool ZifyNat ZifyN.
Local Open Scope Z_scope.

(** The point of a valid signature has one of two x. *)
Lemma valid_x d Q e r s : multiple base d Q -> ecdsa_valid Q e r s ->
  exists w x y, (s * w) mod curveN = 1 /\ gof (Some (x, y)) (gmul (w * (e + d * r)) gG) /\ (x = r \/ x = r + curveN).
Proof.
  intros M V. pose proof (key_point d Q M) as G. apply (valid_group _ _ _ _ _ G) in V. destruct V as (R & S & w & W & NZ & X).
  rewrite vp in *. destruct (gof_ex (gmul (w * (e + d * r)) gG)) as (P & GP). rewrite (gof_enc _ _ GP) in X. cbn [fst] in X. pose proof (gof_is_good _ _ GP) as Gd.
  destruct P as [[x y]|]; [|exfalso; apply NZ; exact (gof_fun _ _ _ GP gof_inf)]. cbn [px] in X. exists w, x, y. split; [exact W|]. split; [exact GP|].
  destruct Gd as (B & _). rewrite prime_p_eq in B. clear - B X R. assert (curveP < 2 * curveN) by reflexivity. revert B X R H. generalize curveP curveN. intros p n B X R H.
  destruct (Z.lt_ge_cases x n) as [L|L]; [rewrite Z.mod_small in X; lia|]. assert (Q : x mod n = x - n) by (symmetry; apply (Z.mod_unique_pos _ _ 1); lia). lia.
Qed.
Lemma same_x d e e' r s w w' x y y' : (s * w) mod curveN = 1 -> (s * w') mod curveN = 1 ->
  gof (Some (x, y)) (gmul (w * (e + d * r)) gG) -> gof (Some (x, y')) (gmul (w' * (e' + d * r)) gG) ->
  (e' - e) mod curveN = 0 \/ (e' + e + 2 * r * d) mod curveN = 0.
Proof.
  intros W W' GP GP'. pose proof (gof_is_good _ _ GP) as Gd. pose proof (gof_is_good _ _ GP') as Gd'.
  assert (N0 : 0 < curveN) by exact N_pos. pose proof (inverse_unique curveN s w w' N0 W W') as Ew.
  assert (Mw : forall a, (w' * a) mod curveN = (w * a) mod curveN) by (intros a; rewrite <- Zmult_mod_idemp_l, Ew, Zmult_mod_idemp_l; reflexivity).
  assert (Dv : forall a b, a mod curveN = b mod curveN -> (a - b) mod curveN = 0) by (intros a b E; rewrite Zminus_mod, E, Z.sub_diag; reflexivity).
  destruct (opposite_or_same x y y' Gd Gd') as [->|Op].
  - left. pose proof (gof_fun _ _ _ GP GP') as E. apply gmul_G_inj in E. rewrite Mw in E. apply (cancel_inverse curveN s w _ _ N0 W) in E. symmetry in E. apply Dv in E. rewrite <- E. f_equal. ring.
  - right. rewrite Op in GP'. pose proof (gof_fun _ _ _ GP' (gof_opp _ _ GP)) as E. rewrite <- gmul_opp in E. apply gmul_G_inj in E. rewrite Mw in E. replace (- (w * (e + d * r))) with (w * - (e + d * r)) in E by ring. apply (cancel_inverse curveN s w _ _ N0 W) in E. apply Dv in E. rewrite <- E. f_equal. ring.
Qed.
(** Of three messages with one x two are the same. *)
Lemma three_same (n c e e' e'' : Z) : n <> 0 -> (e' - e) mod n = 0 \/ (e' + e + c) mod n = 0 -> (e'' - e) mod n = 0 \/ (e'' + e + c) mod n = 0 ->
  (e' - e) mod n = 0 \/ (e'' - e) mod n = 0 \/ (e'' - e') mod n = 0.
Proof.
  intros N [A|A] [B|B]; auto. right. right. apply Z.mod_divide in A, B; try exact N. apply Z.mod_divide; [exact N|]. destruct A as [a A], B as [b B]. exists (b - a). lia.
Qed.

(** Whatever r and s are, at most four hashes fit that are not the same modulo the order of the group. *)
Theorem C140_four_hashes_partial : forall Q d r s hashes, good Q -> multiple base d Q ->
  Forall (fun h => bytes_ok h /\ EcdsaModel.Verify (px Q) (py Q) h r s = Ok true) hashes ->
  ForallOrdPairs (fun h h' => (message_int h' - message_int h) mod order_n <> 0) hashes -> (length hashes <= 4)%nat.
Proof.
  intros Q d r s hashes G M F P.
  set (at_x := fun x h => exists w y, (s * w) mod curveN = 1 /\ gof (Some (x, y)) (gmul (w * (message_int h + d * r)) gG)).
  assert (C : Forall (fun h => at_x r h \/ at_x (r + curveN) h) hashes).
  { eapply Forall_impl; [|exact F]. intros h (Hb & V). destruct (C64_verify Q h r s G Hb) as (b & E & Vb). assert (V1 : ecdsa_valid Q (message_int h) r s) by (apply Vb; congruence).
    destruct (valid_x d Q _ r s M V1) as (w & x & y & W & X & [->| ->]); [left|right]; exists w, y; auto. }
  assert (T : forall x h1 h2, at_x x h1 -> at_x x h2 -> (message_int h2 - message_int h1) mod curveN = 0 \/ (message_int h2 + message_int h1 + 2 * r * d) mod curveN = 0).
  { intros x h1 h2 (w & y & W & X) (w' & y' & W' & X'). exact (same_x d _ _ r s w w' x y y' W W' X X'). }
  clearbody at_x. rewrite order_n_eq in P.
  assert (N0 : curveN <> 0) by (intro Q'; discriminate Q').
  assert (T3 : forall x h1 h2 h3, at_x x h1 -> at_x x h2 -> at_x x h3 -> (message_int h2 - message_int h1) mod curveN <> 0 -> (message_int h3 - message_int h1) mod curveN <> 0 -> (message_int h3 - message_int h2) mod curveN <> 0 -> False).
  { intros x h1 h2 h3 A1 A2 A3 D12 D13 D23. destruct (three_same curveN (2 * r * d) _ _ _ N0 (T x h1 h2 A1 A2) (T x h1 h3 A1 A3)) as [E|[E|E]]; contradiction. }
  destruct hashes as [|h1 [|h2 [|h3 [|h4 [|h5 l]]]]]; cbn [length]; try lia. exfalso.
  repeat match goal with H : ForallOrdPairs _ (_ :: _) |- _ => inversion H; subst; clear H end.
  repeat match goal with H : Forall _ (_ :: _) |- _ => inversion H; subst; clear H end.
  repeat match goal with H : at_x r _ \/ _ |- _ => destruct H end;
    match goal with A1 : at_x ?x ?a, A2 : at_x ?x ?b, A3 : at_x ?x ?c, D12 : (message_int ?b - message_int ?a) mod _ <> 0, D13 : (message_int ?c - message_int ?a) mod _ <> 0, D23 : (message_int ?c - message_int ?b) mod _ <> 0 |- False =>
      exact (T3 x a b c A1 A2 A3 D12 D13 D23) end.
Qed.
Print Assumptions C140_four_hashes_partial.
(** The two hashes of C140_one_hash_refuted are such a list, whenever a signature verifies. *)
Example C140_four_example : exists Q r s h h', good Q /\ multiple base 2 Q /\ Forall (fun h => bytes_ok h /\ EcdsaModel.Verify (px Q) (py Q) h r s = Ok true) [h; h'] /\
  ForallOrdPairs (fun h h' => (message_int h' - message_int h) mod order_n <> 0) [h; h'].
Proof.
  destruct C140_example as (Q & h & r & s & G & M & Hb & _ & _ & V). destruct (C140_one_hash_refuted Q 2 h r s G M Hb V) as (h' & Hb' & _ & _ & D & V').
  exists Q, r, s, h, h'. split; [exact G|]. split; [exact M|]. split; [repeat constructor; assumption|]. constructor; [constructor; [exact D|constructor]|]. constructor; [constructor|constructor].
Qed.
