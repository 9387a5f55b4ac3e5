(** Facts about radix conversion. *)
From Verif Require Import GoBase BaseLemmas BigInt.

Section Radix.
Context (r : Z) (Hr : 2 <= r).

Definition digit_ok (d : Z) : Prop := 0 <= d < r.

Lemma le_val_nonneg l : Forall digit_ok l -> 0 <= le_val r l.
Proof. induction 1 as [|d l [H1 _] _ IH]; cbn [le_val]; nia. Qed.

Lemma le_val_app a b : le_val r (a ++ b) = le_val r a + r ^ len a * le_val r b.
Proof.
  induction a as [|d a IH]; cbn [le_val app].
  - change (len (@nil Z)) with 0. rewrite Z.pow_0_r. ring.
  - rewrite IH, len_cons, Z.pow_add_r, Z.pow_1_r by (pose proof (len_nonneg a); lia). ring.
Qed.

Lemma le_val_lt l : Forall digit_ok l -> le_val r l < r ^ len l.
Proof.
  induction 1 as [|d l [H1 H2] _ IH]; cbn [le_val].
  - change (len (@nil Z)) with 0. rewrite Z.pow_0_r. lia.
  - rewrite len_cons, Z.pow_add_r, Z.pow_1_r by (pose proof (len_nonneg l); lia). nia.
Qed.

Lemma le_val_zeros n : le_val r (repeat 0 n) = 0.
Proof. induction n; cbn [le_val repeat]; lia. Qed.

Lemma digits_fuel_spec f x : 0 <= x -> x < 2 ^ Z.of_nat f ->
  le_val r (digits_fuel r f x) = x /\ Forall digit_ok (digits_fuel r f x).
Proof.
  revert x; induction f as [|f IH]; intros x H0 H1; cbn [digits_fuel].
  - change (2 ^ Z.of_nat 0) with 1 in H1. split; [cbn; lia|constructor].
  - destruct (0 <? x) eqn:E; [|split; [cbn; lia|constructor]].
    assert (Hd : x / r < 2 ^ Z.of_nat f).
    { apply Z.div_lt_upper_bound; [lia|]. rewrite Nat2Z.inj_succ, Z.pow_succ_r in H1 by lia.
      assert (0 < 2 ^ Z.of_nat f) by (apply Z.pow_pos_nonneg; lia). nia. }
    destruct (IH (x / r)) as [A B]; [apply Z.div_pos; lia|exact Hd|].
    split.
    + cbn [le_val]. rewrite A. rewrite (Z.div_mod x r) at 3 by lia. lia.
    + constructor; [apply Z.mod_pos_bound; lia|exact B].
Qed.

Lemma log2_fuel x : x < 2 ^ Z.of_nat (S (Z.to_nat (Z.log2 x))).
Proof.
  destruct (Z.ltb_spec 0 x).
  - pose proof (Z.log2_spec x H). pose proof (Z.log2_nonneg x).
    rewrite Nat2Z.inj_succ, Z2Nat.id by lia. lia.
  - apply Z.le_lt_trans with 0; [lia|]. apply Z.pow_pos_nonneg; lia.
Qed.

Lemma digits_val x : 0 <= x -> le_val r (digits r x) = x.
Proof. intros H. apply digits_fuel_spec; [exact H|apply log2_fuel]. Qed.
Lemma digits_ok x : 0 <= x -> Forall digit_ok (digits r x).
Proof. intros H. apply digits_fuel_spec; [exact H|apply log2_fuel]. Qed.

Definition top_nonzero (l : list Z) : Prop := last l 1 <> 0.

Lemma digits_fuel_top f x : 0 <= x -> x < 2 ^ Z.of_nat f -> top_nonzero (digits_fuel r f x).
Proof.
  revert x; induction f as [|f IH]; intros x H0 H1; cbn [digits_fuel]; unfold top_nonzero.
  - cbn; lia.
  - destruct (0 <? x) eqn:E; [|cbn; lia].
    assert (Hd : x / r < 2 ^ Z.of_nat f).
    { apply Z.div_lt_upper_bound; [lia|]. rewrite Nat2Z.inj_succ, Z.pow_succ_r in H1 by lia.
      assert (0 < 2 ^ Z.of_nat f) by (apply Z.pow_pos_nonneg; lia). nia. }
    specialize (IH (x / r)). cbn [last].
    destruct (digits_fuel r f (x / r)) as [|y l] eqn:F.
    + assert (x / r = 0).
      { destruct (digits_fuel_spec f (x / r)) as [A _]; [apply Z.div_pos; lia|exact Hd|]. rewrite F in A. cbn in A. lia. }
      intro Hm. rewrite (Z.div_mod x r) in E by lia. rewrite H, Hm in E. lia.
    + assert (Hl : forall d, last (y :: l) d = last (y :: l) 1).
      { clear. intros d. revert y. induction l as [|z l IH]; intros y; [reflexivity|]. exact (IH z). }
      apply IH; [apply Z.div_pos; lia|exact Hd].
Qed.
Lemma digits_top x : 0 <= x -> top_nonzero (digits r x).
Proof. intros H. apply digits_fuel_top; [exact H|apply log2_fuel]. Qed.

Lemma top_nonzero_cons d l : l <> [] -> top_nonzero (d :: l) -> top_nonzero l.
Proof. unfold top_nonzero. destruct l; [easy|]. cbn. auto. Qed.

Lemma le_val_pos l : Forall digit_ok l -> l <> [] -> top_nonzero l -> 0 < le_val r l.
Proof.
  induction 1 as [|d l [H1 H2] Hl IH]; intros Hn Ht; [easy|].
  cbn [le_val]. destruct l as [|e l].
  - unfold top_nonzero in Ht. cbn in *. lia.
  - assert (0 < le_val r (e :: l)). { apply IH; [easy|]. apply top_nonzero_cons with d; [easy|exact Ht]. }
    nia.
Qed.

Lemma le_val_inj a b : Forall digit_ok a -> Forall digit_ok b -> top_nonzero a -> top_nonzero b ->
  le_val r a = le_val r b -> a = b.
Proof.
  intros Ha; revert b; induction Ha as [|d a Hd Ha IH]; intros b Hb Ta Tb E.
  - destruct b as [|e b]; [reflexivity|]. pose proof (le_val_pos _ Hb ltac:(easy) Tb). cbn [le_val] in E. cbn [le_val] in H. lia.
  - destruct b as [|e b].
    + pose proof (le_val_pos (d :: a) ltac:(constructor; assumption) ltac:(easy) Ta). cbn [le_val] in *. lia.
    + inversion Hb as [|? ? He Hb']; subst. cbn [le_val] in E. unfold digit_ok in *.
      assert (d = e).
      { assert (d = (d + r * le_val r a) mod r) as -> by (rewrite Z.mul_comm, Z_mod_plus_full; symmetry; apply Z.mod_small; lia).
        rewrite E. rewrite Z.mul_comm, Z_mod_plus_full. apply Z.mod_small; lia. }
      subst e. f_equal. apply IH; [exact Hb'| | |nia].
      * destruct a; [unfold top_nonzero; cbn; lia|]. apply top_nonzero_cons with d; [easy|exact Ta].
      * destruct b; [unfold top_nonzero; cbn; lia|]. apply top_nonzero_cons with d; [easy|exact Tb].
Qed.

Lemma digits_le_val l : Forall digit_ok l -> top_nonzero l -> digits r (le_val r l) = l.
Proof.
  intros H T. pose proof (le_val_nonneg l H). apply le_val_inj; auto using digits_ok, digits_top, digits_val.
Qed.

(** Digits with high zeros: what [digits] returns. *)
Lemma le_val_app_zeros l n : le_val r (l ++ repeat 0 n) = le_val r l.
Proof. rewrite le_val_app, le_val_zeros. ring. Qed.

Lemma digits_len_le l : Forall digit_ok l -> len (digits r (le_val r l)) <= len l.
Proof.
  intros H. pose proof (le_val_nonneg l H). set (d := digits r (le_val r l)).
  assert (Hd : Forall digit_ok d) by (apply digits_ok; assumption).
  assert (Ht : top_nonzero d) by (apply digits_top; assumption).
  assert (Hv : le_val r d = le_val r l) by (apply digits_val; assumption).
  clearbody d. clear H0. destruct (Z.leb_spec (len d) (len l)); [assumption|exfalso].
  pose proof (le_val_lt l H). destruct d as [|x d'] eqn:E using rev_ind.
  - change (len (@nil Z)) with 0 in H0. pose proof (len_nonneg l). lia.
  - clear IHd'. rewrite len_app, len_cons in H0. change (len (@nil Z)) with 0 in H0.
    unfold top_nonzero in Ht. rewrite last_last in Ht.
    apply Forall_app in Hd. destruct Hd as [Hd1 Hd2]. inversion Hd2 as [|? ? Hx _]; subst. unfold digit_ok in Hx.
    rewrite le_val_app in Hv. cbn [le_val] in Hv. pose proof (le_val_nonneg d' Hd1).
    assert (r ^ len l <= r ^ len d') by (apply Z.pow_le_mono_r; lia). nia.
Qed.
End Radix.

Lemma set_bytes_acc b a : fold_left (fun acc d => acc * 256 + d) b a = a * 256 ^ len b + le_val 256 (rev b).
Proof.
  revert a; induction b as [|x b IH]; intros a; cbn [fold_left rev].
  - change (len (@nil Z)) with 0. cbn. ring.
  - rewrite IH, le_val_app, len_cons, len_rev, Z.pow_add_r by (pose proof (len_nonneg b); lia).
    cbn [le_val]. ring.
Qed.
Lemma set_bytes_le b : set_bytes b = le_val 256 (rev b).
Proof. unfold set_bytes. rewrite set_bytes_acc. ring. Qed.

Lemma digit_ok_256 l : Forall (digit_ok 256) l <-> bytes_ok l.
Proof. reflexivity. Qed.

Lemma set_bytes_nonneg b : bytes_ok b -> 0 <= set_bytes b.
Proof. intros H. rewrite set_bytes_le. apply le_val_nonneg; [lia|]. apply digit_ok_256, bytes_ok_rev, H. Qed.
Lemma set_bytes_lt b : bytes_ok b -> set_bytes b < 256 ^ len b.
Proof. intros H. rewrite set_bytes_le. rewrite <- len_rev. apply le_val_lt; [lia|]. apply digit_ok_256, bytes_ok_rev, H. Qed.
Lemma set_bytes_app a b : set_bytes (a ++ b) = set_bytes a * 256 ^ len b + set_bytes b.
Proof. rewrite !set_bytes_le, rev_app_distr, le_val_app, len_rev. ring. Qed.
Lemma set_bytes_cons x b : set_bytes (x :: b) = x * 256 ^ len b + set_bytes b.
Proof. change (x :: b) with ([x] ++ b). rewrite set_bytes_app. reflexivity. Qed.
Lemma big_bytes_set x : 0 <= x -> set_bytes (big_bytes x) = x.
Proof. intros H. unfold big_bytes. rewrite Z.abs_eq by lia. rewrite set_bytes_le, rev_involutive. apply digits_val; lia. Qed.
Lemma big_bytes_ok x : bytes_ok (big_bytes x).
Proof. apply bytes_ok_rev. apply digit_ok_256. apply digits_ok; lia. Qed.
Lemma big_bytes_0 : big_bytes 0 = []. Proof. reflexivity. Qed.

(** [SetBytes] then [Bytes] strips leading zeros only. *)
Lemma big_bytes_strip n b : bytes_ok b -> hd 1 b <> 0 -> big_bytes (set_bytes (repeat 0 n ++ b)) = b.
Proof.
  intros Hb Hh. unfold big_bytes. rewrite Z.abs_eq.
  2:{ apply set_bytes_nonneg, bytes_ok_app; split; [|exact Hb]. clear. induction n; constructor; auto. unfold is_byte; lia. }
  rewrite set_bytes_le, rev_app_distr.
  assert (Hz : rev (repeat 0 n) = repeat 0 n). { clear. induction n; [reflexivity|]. cbn [repeat rev]. rewrite IHn.
    clear. induction n; [reflexivity|]. cbn [repeat app]. now rewrite IHn. }
  rewrite Hz, le_val_app_zeros. rewrite digits_le_val; [apply rev_involutive|lia|apply digit_ok_256, bytes_ok_rev, Hb|].
  unfold top_nonzero. destruct b as [|x b]; [cbn; lia|]. cbn [rev]. rewrite last_last. exact Hh.
Qed.

Lemma split_zeros (b : bytes) : exists n c, b = repeat 0 n ++ c /\ hd 1 c <> 0.
Proof.
  induction b as [|x b (n & c & -> & Hc)].
  - exists O, []. split; [reflexivity|cbn; lia].
  - destruct (Z.eq_dec x 0) as [->|Hx]; [exists (S n), c; auto|]. exists O, (x :: repeat 0 n ++ c). auto.
Qed.
