(** The Bech32 checksum as a linear code over GF(2). *)
From Verif Require Import GoBase BaseLemmas Bech32Model.
From Coq Require Import ZifyBool.

(** One word of the generator, selected by bit [i] of [b]. *)
Definition sel (b i g : Z) : Z := if Z.testbit b i then g else 0.
Definition G (b : Z) : Z :=
  Z.lxor (sel b 0 0x3b6a57b2) (Z.lxor (sel b 1 0x26508e6d) (Z.lxor (sel b 2 0x1ea119fa)
  (Z.lxor (sel b 3 0x3d4233dd) (sel b 4 0x2a1462b3)))).
(** The state update for a zero input. *)
Definition F (c : Z) : Z := Z.lxor (Z.shiftl (Z.land c 0x1ffffff) 5) (G (Z.shiftr c 25)).

Lemma land1_testbit b i : 0 <= i -> (Z.land (Z.shiftr b i) 1 =? 1) = Z.testbit b i.
Proof.
  intros Hi. change 1 with (Z.ones 1) at 1. rewrite Z.land_ones by lia. change (2 ^ 1) with 2.
  rewrite <- Z.bit0_mod. rewrite Z.shiftr_spec by lia. replace (0 + i) with i by lia.
  destruct (Z.testbit b i); reflexivity.
Qed.

Lemma lxor_if (t : bool) c g : (if t then Z.lxor c g else c) = Z.lxor c (if t then g else 0).
Proof. destruct t; [reflexivity|]. now rewrite Z.lxor_0_r. Qed.

Lemma step_F c v : polymod_step c v = Z.lxor (F c) v.
Proof.
  unfold polymod_step, F, G, gen. cbn [gen_loop]. set (b := Z.shiftr c 25).
  set (s := Z.shiftl (Z.land c 0x1ffffff) 5).
  change (0 + 1) with 1. change (1 + 1) with 2. change (2 + 1) with 3. change (3 + 1) with 4.
  rewrite !land1_testbit by lia. rewrite !lxor_if. fold (sel b 0 0x3b6a57b2) (sel b 1 0x26508e6d) (sel b 2 0x1ea119fa) (sel b 3 0x3d4233dd) (sel b 4 0x2a1462b3).
  rewrite !Z.lxor_assoc. f_equal. rewrite (Z.lxor_comm v). rewrite !Z.lxor_assoc. reflexivity.
Qed.

Lemma sel_lxor a b i g : 0 <= i -> sel (Z.lxor a b) i g = Z.lxor (sel a i g) (sel b i g).
Proof.
  intros Hi. unfold sel. rewrite Z.lxor_spec. destruct (Z.testbit a i), (Z.testbit b i); cbn [xorb];
    rewrite ?Z.lxor_nilpotent, ?Z.lxor_0_r, ?Z.lxor_0_l; reflexivity.
Qed.

Lemma lxor_shuffle a b c d : Z.lxor (Z.lxor a b) (Z.lxor c d) = Z.lxor (Z.lxor a c) (Z.lxor b d).
Proof. apply Z.bits_inj'; intros n _. rewrite !Z.lxor_spec. destruct (Z.testbit a n), (Z.testbit b n), (Z.testbit c n), (Z.testbit d n); reflexivity. Qed.

Lemma G_lxor a b : G (Z.lxor a b) = Z.lxor (G a) (G b).
Proof. unfold G. rewrite !sel_lxor by lia. symmetry. do 4 (rewrite lxor_shuffle; f_equal). Qed.

Lemma F_lxor a b : F (Z.lxor a b) = Z.lxor (F a) (F b).
Proof.
  unfold F. rewrite Z.shiftr_lxor, G_lxor.
  assert (E : Z.land (Z.lxor a b) 0x1ffffff = Z.lxor (Z.land a 0x1ffffff) (Z.land b 0x1ffffff)).
  { apply Z.bits_inj'; intros n Hn. rewrite !Z.lxor_spec, !Z.land_spec, !Z.lxor_spec.
    destruct (Z.testbit a n), (Z.testbit b n), (Z.testbit 0x1ffffff n); reflexivity. }
  rewrite E, Z.shiftl_lxor. apply lxor_shuffle.
Qed.
Lemma F_0 : F 0 = 0. Proof. reflexivity. Qed.

(** Bounds by bits. *)
Lemma bits_lt n x : 0 <= n -> (forall i, n <= i -> Z.testbit x i = false) -> 0 <= x < 2 ^ n.
Proof.
  intros Hn H. assert (x = x mod 2 ^ n) as ->; [|apply Z.mod_pos_bound, Z.pow_pos_nonneg; lia].
  apply Z.bits_inj'; intros i Hi. destruct (Z.ltb_spec i n).
  - now rewrite Z.mod_pow2_bits_low by lia.
  - rewrite Z.mod_pow2_bits_high by lia. apply H; lia.
Qed.
Lemma bits_ge n x i : 0 <= x < 2 ^ n -> n <= i -> Z.testbit x i = false.
Proof.
  intros Hx Hi. destruct (Z.ltb_spec n 0) as [Hneg|Hn].
  - rewrite (Z.pow_neg_r 2 n) in Hx by lia. lia.
  - rewrite <- (Z.mod_small x (2 ^ n)) by exact Hx. apply Z.mod_pow2_bits_high. lia.
Qed.
Lemma lxor_lt n a b : 0 <= n -> 0 <= a < 2 ^ n -> 0 <= b < 2 ^ n -> 0 <= Z.lxor a b < 2 ^ n.
Proof.
  intros Hn Ha Hb. apply bits_lt; [exact Hn|]. intros i Hi. rewrite Z.lxor_spec, (bits_ge n a), (bits_ge n b); auto.
Qed.

Lemma G_lt b : 0 <= G b < 2 ^ 30.
Proof. unfold G. repeat (apply lxor_lt; [lia| |]); unfold sel; destruct (Z.testbit _ _); lia. Qed.
Lemma land_25 c : 0 <= Z.land c 0x1ffffff < 2 ^ 25.
Proof. change 0x1ffffff with (Z.ones 25). rewrite Z.land_ones by lia. apply Z.mod_pos_bound. lia. Qed.
Lemma F_lt c : 0 <= F c < 2 ^ 30.
Proof.
  unfold F. apply lxor_lt; [lia| |apply G_lt]. rewrite Z.shiftl_mul_pow2 by lia. pose proof (land_25 c).
  change (2 ^ 25) with 33554432 in *. change (2 ^ 30) with 1073741824. change (2 ^ 5) with 32. lia.
Qed.
Lemma step_lt c v : 0 <= v < 2 ^ 30 -> 0 <= polymod_step c v < 2 ^ 30.
Proof. intros H. rewrite step_F. apply lxor_lt; [lia|apply F_lt|exact H]. Qed.

(** [F] has no kernel below 2^30. *)
Lemma G_low_nonzero : forallb (fun b => (b =? 0) || negb (G b mod 32 =? 0)) (map Z.of_nat (seq 0 32)) = true.
Proof. vm_compute. reflexivity. Qed.

Lemma F_kernel c : 0 <= c < 2 ^ 30 -> F c = 0 -> c = 0.
Proof.
  intros Hc H. unfold F in H. apply Z.lxor_eq in H.
  assert (Hb : 0 <= Z.shiftr c 25 < 32).
  { rewrite Z.shiftr_div_pow2 by lia. split; [apply Z.div_pos; lia|]. apply Z.div_lt_upper_bound; [lia|].
    change (2 ^ 25 * 32) with (2 ^ 30). lia. }
  assert (Hm : G (Z.shiftr c 25) mod 32 = 0).
  { rewrite <- H. rewrite Z.shiftl_mul_pow2 by lia. change (2 ^ 5) with 32. apply Z.mod_mul. lia. }
  assert (Hz : Z.shiftr c 25 = 0).
  { pose proof G_low_nonzero as A. rewrite forallb_forall in A.
    specialize (A (Z.shiftr c 25)). assert (Hin : In (Z.shiftr c 25) (map Z.of_nat (seq 0 32))).
    { apply in_map_iff. exists (Z.to_nat (Z.shiftr c 25)). split; [lia|]. apply in_seq. lia. }
    specialize (A Hin). rewrite Hm in A. lia. }
  rewrite Hz in H. change (G 0) with 0 in H. apply Z.shiftl_eq_0_iff in H; [|lia].
  change 0x1ffffff with (Z.ones 25) in H. rewrite Z.land_ones in H by lia.
  rewrite Z.shiftr_div_pow2 in Hz by lia.
  rewrite (Z.div_mod c (2 ^ 25)) by lia. rewrite H, Hz. reflexivity.
Qed.

Lemma lxor_0_eq a b : Z.lxor a b = 0 -> a = b.
Proof. apply Z.lxor_eq. Qed.

(** Running the checksum register. *)
Definition run (c : Z) (vs : list Z) : Z := fold_left polymod_step vs c.
Definition word_ok (v : Z) : Prop := 0 <= v < 2 ^ 30.

Lemma run_cons c v vs : run c (v :: vs) = run (polymod_step c v) vs.
Proof. reflexivity. Qed.
Lemma run_nil c : run c [] = c.
Proof. reflexivity. Qed.
Lemma run_app c a b : run c (a ++ b) = run (run c a) b.
Proof. apply fold_left_app. Qed.
Lemma run_lt c vs : word_ok c -> Forall word_ok vs -> word_ok (run c vs).
Proof.
  intros Hc H; revert c Hc; induction H as [|v vs Hv _ IH]; intros c Hc; [exact Hc|].
  rewrite run_cons. apply IH. now apply step_lt.
Qed.

(** Difference of two runs over inputs of the same length. *)
Fixpoint iterF (n : nat) (c : Z) : Z := match n with O => c | S n' => iterF n' (F c) end.

Lemma run_diff c d vs : run c vs = Z.lxor (run (Z.lxor c d) vs) (iterF (length vs) d).
Proof.
  revert c d; induction vs as [|v vs IH]; intros c d; cbn [length iterF].
  - rewrite !run_nil, Z.lxor_assoc, Z.lxor_nilpotent, Z.lxor_0_r. reflexivity.
  - rewrite !run_cons. rewrite (IH _ (F d)).
    f_equal. f_equal. rewrite !step_F, F_lxor.
    apply Z.bits_inj'; intros n _. rewrite !Z.lxor_spec. destruct (Z.testbit (F c) n), (Z.testbit (F d) n), (Z.testbit v n); reflexivity.
Qed.

Lemma iterF_kernel n d : word_ok d -> iterF n d = 0 -> d = 0.
Proof.
  revert d; induction n as [|n IH]; intros d Hd H; cbn [iterF] in H; [exact H|].
  apply IH in H; [|apply F_lt]. now apply F_kernel.
Qed.

Lemma iterF_add a b d : iterF (a + b) d = iterF b (iterF a d).
Proof. revert d; induction a as [|a IH]; intros d; cbn [iterF Nat.add]; auto. Qed.
Lemma iterF_lxor n a b : iterF n (Z.lxor a b) = Z.lxor (iterF n a) (iterF n b).
Proof. revert a b; induction n as [|n IH]; intros a b; cbn [iterF]; [reflexivity|]. now rewrite F_lxor, IH. Qed.
Lemma iterF_lt n d : word_ok d -> word_ok (iterF n d).
Proof. revert d; induction n as [|n IH]; intros d H; cbn [iterF]; [exact H|]. apply IH, F_lt. Qed.

(** Different registers stay different on equal input. *)
Lemma run_inj c c' vs : word_ok c -> word_ok c' -> run c vs = run c' vs -> c = c'.
Proof.
  intros Hc Hc' E. rewrite (run_diff c (Z.lxor c c')) in E.
  replace (Z.lxor c (Z.lxor c c')) with c' in E.
  2:{ rewrite <- Z.lxor_assoc, Z.lxor_nilpotent, Z.lxor_0_l. reflexivity. }
  assert (E2 : iterF (length vs) (Z.lxor c c') = 0).
  { apply (f_equal (Z.lxor (run c' vs))) in E. rewrite <- Z.lxor_assoc, Z.lxor_nilpotent, Z.lxor_0_l in E. exact E. }
  apply iterF_kernel in E2; [now apply lxor_0_eq|]. apply lxor_lt; [lia|exact Hc|exact Hc'].
Qed.

(** A single changed value is detected, at any length. *)
Lemma single_detected c x v v' y : word_ok c -> Forall word_ok x -> word_ok v -> word_ok v' -> v <> v' ->
  run c (x ++ v :: y) <> run c (x ++ v' :: y).
Proof.
  intros Hc Hx Hv Hv' Hne E. rewrite !run_app, !run_cons in E.
  apply run_inj in E; [|apply step_lt, Hv|apply step_lt, Hv'].
  rewrite !step_F in E. apply Hne. apply (f_equal (Z.lxor (F (run c x)))) in E.
  rewrite <- !Z.lxor_assoc, Z.lxor_nilpotent, !Z.lxor_0_l in E. exact E.
Qed.

(** Two changed values at distance at most 89: the register difference never falls back into five bits. *)
Fixpoint orbit_ok (n : nat) (d : Z) : bool :=
  match n with O => true | S n' => let d' := F d in (32 <=? d') && orbit_ok n' d' end.
Lemma orbits_checked : forallb (fun e => orbit_ok 89 e) (map Z.of_nat (seq 1 31)) = true.
Proof. vm_compute. reflexivity. Qed.

Lemma orbit_ok_iter n d k : orbit_ok n d = true -> (1 <= k <= n)%nat -> 32 <= iterF k d.
Proof.
  revert d k; induction n as [|n IH]; intros d k H Hk; [lia|]. cbn [orbit_ok] in H. apply andb_true_iff in H. destruct H as [H1 H2].
  destruct k as [|k]; [lia|]. cbn [iterF]. destruct k as [|k]; [cbn [iterF]; lia|]. apply IH; [exact H2|lia].
Qed.

Lemma two_detected c x u u' y v v' z : word_ok c ->
  0 <= u < 32 -> 0 <= u' < 32 -> 0 <= v < 32 -> 0 <= v' < 32 -> u <> u' -> Forall word_ok x -> Forall word_ok y ->
  (length y <= 88)%nat ->
  run c (x ++ u :: y ++ v :: z) <> run c (x ++ u' :: y ++ v' :: z).
Proof.
  intros Hc Hu Hu' Hv Hv' Hne Hx Hy Hl E.
  assert (W : forall w, 0 <= w < 32 -> word_ok w) by (unfold word_ok; intros; change (2 ^ 30) with 1073741824; lia).
  rewrite !run_app in E. set (r := run c x) in *. rewrite !run_cons, !run_app, !run_cons in E.
  apply run_inj in E; [|apply step_lt, W, Hv|apply step_lt, W, Hv'].
  rewrite (run_diff (polymod_step r u) (Z.lxor u u') y) in E.
  replace (Z.lxor (polymod_step r u) (Z.lxor u u')) with (polymod_step r u') in E.
  2:{ rewrite !step_F. apply Z.bits_inj'; intros n _. rewrite !Z.lxor_spec. destruct (Z.testbit (F r) n), (Z.testbit u n), (Z.testbit u' n); reflexivity. }
  rewrite !step_F, F_lxor in E. change (F (iterF (length y) (Z.lxor u u'))) with (iterF 1 (iterF (length y) (Z.lxor u u'))) in E.
  rewrite <- iterF_add in E. rewrite Nat.add_1_r in E.
  assert (E2 : iterF (S (length y)) (Z.lxor u u') = Z.lxor v v').
  { apply Z.bits_inj'; intros n _. apply (f_equal (fun t => Z.testbit t n)) in E. rewrite !Z.lxor_spec in E. rewrite Z.lxor_spec.
    destruct (Z.testbit (F _) n), (Z.testbit (iterF _ _) n), (Z.testbit v n), (Z.testbit v' n); cbn in *; congruence. }
  assert (Hd : 0 <= Z.lxor u u' < 2 ^ 5) by (apply lxor_lt; [lia|exact Hu|exact Hu']).
  assert (Hd2 : 0 <= Z.lxor v v' < 2 ^ 5) by (apply lxor_lt; [lia|exact Hv|exact Hv']).
  change (2 ^ 5) with 32 in *.
  assert (Hnz : Z.lxor u u' <> 0) by (intro A; apply Hne, lxor_0_eq, A).
  pose proof orbits_checked as O. rewrite forallb_forall in O.
  specialize (O (Z.lxor u u')). assert (Hin : In (Z.lxor u u') (map Z.of_nat (seq 1 31))).
  { apply in_map_iff. exists (Z.to_nat (Z.lxor u u')). split; [lia|]. apply in_seq. lia. }
  pose proof (orbit_ok_iter 89 _ (S (length y)) (O Hin) ltac:(lia)). lia.
Qed.

(** Six final five-bit values enter the register unchanged. *)
Definition pack6 (a b c d e f : Z) : Z :=
  Z.lxor (Z.shiftl a 25) (Z.lxor (Z.shiftl b 20) (Z.lxor (Z.shiftl c 15) (Z.lxor (Z.shiftl d 10) (Z.lxor (Z.shiftl e 5) f)))).

Lemma F_small c : 0 <= c < 2 ^ 25 -> F c = Z.shiftl c 5.
Proof.
  intros H. unfold F. rewrite Z.shiftr_div_pow2, Z.div_small by lia. change (G 0) with 0. rewrite Z.lxor_0_r.
  change 0x1ffffff with (Z.ones 25). rewrite Z.land_ones, Z.mod_small by lia. reflexivity.
Qed.
Lemma shl_lt a k n : 0 <= a < 2 ^ n -> 0 <= k -> 0 <= n -> 0 <= Z.shiftl a k < 2 ^ (n + k).
Proof. intros Ha Hk Hn. rewrite Z.shiftl_mul_pow2, Z.pow_add_r by lia. pose proof (Z.pow_pos_nonneg 2 k). nia. Qed.

Lemma run6 r a b c d e f : 0 <= a < 32 -> 0 <= b < 32 -> 0 <= c < 32 -> 0 <= d < 32 -> 0 <= e < 32 -> 0 <= f < 32 ->
  run r [a; b; c; d; e; f] = Z.lxor (run r [0; 0; 0; 0; 0; 0]) (pack6 a b c d e f).
Proof.
  intros Ha Hb Hc Hd He Hf. unfold run. cbn [fold_left]. rewrite !step_F. rewrite !Z.lxor_0_r.
  assert (P : forall x k n, 0 <= x < 2 ^ n -> 0 <= n -> n + k < 25 -> 0 <= k -> F (Z.shiftl x k) = Z.shiftl x (k + 5)).
  { intros x k n Hx Hn Hk Hk0. rewrite F_small; [now rewrite Z.shiftl_shiftl by lia|].
    pose proof (shl_lt x k n Hx Hk0 Hn). assert (2 ^ (n + k) <= 2 ^ 25) by (apply Z.pow_le_mono_r; lia). lia. }
  rewrite !F_lxor. change 32 with (2 ^ 5) in *.
  assert (Q1 : forall x, 0 <= x < 2 ^ 5 -> F x = Z.shiftl x 5) by (intros; apply F_small; change (2 ^ 25) with 33554432; change (2 ^ 5) with 32 in *; lia).
  assert (Q2 : forall x, 0 <= x < 2 ^ 5 -> F (Z.shiftl x 5) = Z.shiftl x 10) by (intros x Hx; apply (P x 5 5); lia).
  assert (Q3 : forall x, 0 <= x < 2 ^ 5 -> F (Z.shiftl x 10) = Z.shiftl x 15) by (intros x Hx; apply (P x 10 5); lia).
  assert (Q4 : forall x, 0 <= x < 2 ^ 5 -> F (Z.shiftl x 15) = Z.shiftl x 20) by (intros x Hx; apply (P x 15 5); lia).
  assert (Q5 : forall x, 0 <= x < 2 ^ 5 -> F (Z.shiftl x 20) = Z.shiftl x 25).
  { intros x Hx. rewrite F_small; [now rewrite Z.shiftl_shiftl by lia|]. pose proof (shl_lt x 20 5 Hx). change (5 + 20) with 25 in *. lia. }
  rewrite !(Q1 a), !(Q1 b), !(Q1 c), !(Q1 d), !(Q1 e) by assumption.
  rewrite !(Q2 a), !(Q2 b), !(Q2 c), !(Q2 d) by assumption.
  rewrite !(Q3 a), !(Q3 b), !(Q3 c) by assumption.
  rewrite !(Q4 a), !(Q4 b) by assumption. rewrite !(Q5 a) by assumption.
  unfold pack6. rewrite !Z.lxor_assoc. reflexivity.
Qed.

Definition digit5 (p i : Z) : Z := u8 (Z.land (Z.shiftr p (5 * (5 - i))) 31).
Lemma digit5_range p i : 0 <= digit5 p i < 32.
Proof.
  unfold digit5. change 31 with (Z.ones 5). rewrite Z.land_ones by lia.
  pose proof (Z.mod_pos_bound (Z.shiftr p (5 * (5 - i))) (2 ^ 5)). change (2 ^ 5) with 32 in *.
  rewrite u8_id; lia.
Qed.
Lemma digit5_bit p i j : 0 <= i <= 5 -> 0 <= j < 5 -> Z.testbit (digit5 p i) j = Z.testbit p (5 * (5 - i) + j).
Proof.
  intros Hi Hj. unfold digit5. rewrite u8_id.
  - rewrite Z.land_spec. change 31 with (Z.ones 5). rewrite Z.ones_spec_low by lia. rewrite andb_true_r, Z.shiftr_spec by lia. f_equal. lia.
  - change 31 with (Z.ones 5). rewrite Z.land_ones by lia. pose proof (Z.mod_pos_bound (Z.shiftr p (5 * (5 - i))) (2 ^ 5)). change (2 ^ 5) with 32 in *. lia.
Qed.

(** The digits of a 30-bit register pack back to it. *)
Lemma pack6_digits p : word_ok p ->
  pack6 (digit5 p 0) (digit5 p 1) (digit5 p 2) (digit5 p 3) (digit5 p 4) (digit5 p 5) = p.
Proof.
  intros Hp. unfold pack6. apply Z.bits_inj'. intros n Hn. rewrite !Z.lxor_spec.
  assert (S : forall i k, 0 <= i <= 5 -> k = 5 * (5 - i) ->
    Z.testbit (Z.shiftl (digit5 p i) k) n = (if (k <=? n) && (n <? k + 5) then Z.testbit p n else false)).
  { intros i k Hi ->. pose proof (digit5_range p i). change 32 with (2 ^ 5) in H.
    destruct ((5 * (5 - i) <=? n) && (n <? 5 * (5 - i) + 5)) eqn:E.
    - rewrite Z.shiftl_spec by lia. rewrite digit5_bit by lia. f_equal. lia.
    - destruct (Z.ltb_spec n (5 * (5 - i))).
      + rewrite Z.shiftl_spec_low by lia. reflexivity.
      + rewrite Z.shiftl_spec by lia. apply (bits_ge 5); [exact H|lia]. }
  rewrite (S 0 25), (S 1 20), (S 2 15), (S 3 10), (S 4 5) by lia.
  replace (digit5 p 5) with (Z.shiftl (digit5 p 5) 0) by apply Z.shiftl_0_r. rewrite (S 5 0) by lia.
  assert (Hcase : n < 5 \/ 5 <= n < 10 \/ 10 <= n < 15 \/ 15 <= n < 20 \/ 20 <= n < 25 \/ 25 <= n < 30 \/ 30 <= n) by lia.
  destruct Hcase as [H|[H|[H|[H|[H|[H|H]]]]]];
    repeat match goal with
      | |- context [?a <=? n] => first [replace (a <=? n) with true by lia | replace (a <=? n) with false by lia]
      | |- context [n <? ?a] => first [replace (n <? a) with true by lia | replace (n <? a) with false by lia]
      end; cbn [andb]; rewrite ?xorb_false_r, ?xorb_false_l; try reflexivity.
  symmetry. apply (bits_ge 30 p n Hp). lia.
Qed.

Lemma pack6_lt a b c d e f : 0 <= a < 32 -> 0 <= b < 32 -> 0 <= c < 32 -> 0 <= d < 32 -> 0 <= e < 32 -> 0 <= f < 32 ->
  word_ok (pack6 a b c d e f).
Proof.
  change 32 with (2 ^ 5). intros Ha Hb Hc Hd He Hf. unfold word_ok, pack6.
  assert (M : forall x k, 0 <= x < 2 ^ 5 -> 0 <= k <= 25 -> 0 <= Z.shiftl x k < 2 ^ 30).
  { intros x k Hx Hk. pose proof (shl_lt x k 5 Hx). assert (2 ^ (5 + k) <= 2 ^ 30) by (apply Z.pow_le_mono_r; lia). lia. }
  repeat (apply lxor_lt; [lia|apply M; [assumption|lia]|]). change (2 ^ 5) with 32 in Hf. change (2 ^ 30) with 1073741824. lia.
Qed.

Lemma digits_pack6 a b c d e f : 0 <= a < 32 -> 0 <= b < 32 -> 0 <= c < 32 -> 0 <= d < 32 -> 0 <= e < 32 -> 0 <= f < 32 ->
  map (digit5 (pack6 a b c d e f)) [0; 1; 2; 3; 4; 5] = [a; b; c; d; e; f].
Proof.
  change 32 with (2 ^ 5). intros Ha Hb Hc Hd He Hf.
  assert (T : forall i x, 0 <= i <= 5 -> 0 <= x < 2 ^ 5 ->
     (forall j, 0 <= j < 5 -> Z.testbit (pack6 a b c d e f) (5 * (5 - i) + j) = Z.testbit x j) -> digit5 (pack6 a b c d e f) i = x).
  { intros i x Hi Hx H. apply Z.bits_inj'. intros n Hn. destruct (Z.ltb_spec n 5).
    - rewrite digit5_bit by lia. apply H. lia.
    - rewrite (bits_ge 5 x) by (assumption || lia). apply (bits_ge 5); [|lia]. pose proof (digit5_range (pack6 a b c d e f) i).
      change (2 ^ 5) with 32. lia. }
  assert (B : forall x k m, 0 <= x < 2 ^ 5 -> 0 <= m -> 0 <= k -> (m < k \/ k + 5 <= m) -> Z.testbit (Z.shiftl x k) m = false).
  { intros x k m Hx Hm Hk [H|H]; [now apply Z.shiftl_spec_low|]. rewrite Z.shiftl_spec by lia. apply (bits_ge 5); [exact Hx|lia]. }
  assert (C : forall x k j, 0 <= j -> 0 <= k -> Z.testbit (Z.shiftl x k) (k + j) = Z.testbit x j).
  { intros x k j Hj Hk. rewrite Z.shiftl_spec by lia. f_equal. lia. }
  assert (T' : forall i x, 0 <= i <= 5 -> 0 <= x < 2 ^ 5 ->
     (forall j, 0 <= j < 5 -> Z.testbit (pack6 a b c d e f) (5 * (5 - i) + j) = Z.testbit (Z.shiftl x (5 * (5 - i))) (5 * (5 - i) + j)) -> digit5 (pack6 a b c d e f) i = x).
  { intros i x Hi Hx H. apply T; [exact Hi|exact Hx|]. intros j Hj. rewrite H by exact Hj. apply C; lia. }
  assert (E : forall m, Z.testbit (pack6 a b c d e f) m =
     xorb (Z.testbit (Z.shiftl a 25) m) (xorb (Z.testbit (Z.shiftl b 20) m) (xorb (Z.testbit (Z.shiftl c 15) m)
      (xorb (Z.testbit (Z.shiftl d 10) m) (xorb (Z.testbit (Z.shiftl e 5) m) (Z.testbit (Z.shiftl f 0) m)))))).
  { intros m. unfold pack6. rewrite !Z.lxor_spec, Z.shiftl_0_r. reflexivity. }
  cbn [map].
  rewrite (T' 0 a), (T' 1 b), (T' 2 c), (T' 3 d), (T' 4 e), (T' 5 f); try reflexivity; try lia; try assumption;
  intros j Hj; rewrite E;
  match goal with |- context [5 * (5 - ?i)] => let k := eval compute in (5 * (5 - i)) in change (5 * (5 - i)) with k end;
  repeat match goal with |- context [Z.testbit (Z.shiftl ?x ?k) ?m] => rewrite (B x k m) by (assumption || lia) end;
  rewrite ?xorb_false_r, ?xorb_false_l; reflexivity.
Qed.
