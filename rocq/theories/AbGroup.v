(** Integer multiples in an abelian group. Specification side only. *)

From Coq Require Import ZArith Lia.
Local Open Scope Z_scope.

Section AbGroup.
  Variable A : Type.
  Variables (add : A -> A -> A) (zero : A) (opp : A -> A).
  Hypothesis add_assoc : forall a b c, add (add a b) c = add a (add b c).
  Hypothesis add_comm : forall a b, add a b = add b a.
  Hypothesis add_0_l : forall a, add zero a = a.
  Hypothesis add_opp : forall a, add a (opp a) = zero.

  (** n-fold sum. *)
  Fixpoint nmul (n : nat) (a : A) : A :=
    match n with
    | O => zero
    | S m => add a (nmul m a)
    end.

  (** k-fold sum for an integer k. *)
  Definition zmul (k : Z) (a : A) : A :=
    if k <? 0 then opp (nmul (Z.to_nat (- k)) a) else nmul (Z.to_nat k) a.

  Lemma add_0_r : forall a, add a zero = a.
  Proof. intros a. rewrite add_comm. apply add_0_l. Qed.

  Lemma add_cancel : forall a b c, add a b = add a c -> b = c.
  Proof.
    intros a b c H.
    rewrite <- (add_0_l b), <- (add_0_l c), <- (add_opp a).
    rewrite (add_comm a (opp a)), !add_assoc, H. reflexivity.
  Qed.

  Lemma opp_unique : forall a b, add a b = zero -> b = opp a.
  Proof. intros a b H. apply (add_cancel a). rewrite H, add_opp. reflexivity. Qed.

  Lemma opp_0 : opp zero = zero.
  Proof. symmetry. apply opp_unique. apply add_0_l. Qed.

  Lemma opp_opp : forall a, opp (opp a) = a.
  Proof. intros a. symmetry. apply opp_unique. rewrite add_comm. apply add_opp. Qed.

  Lemma add_4 : forall a b c d, add (add a b) (add c d) = add (add a c) (add b d).
  Proof.
    intros. rewrite !add_assoc. f_equal. rewrite <- !add_assoc.
    rewrite (add_comm b c). reflexivity.
  Qed.

  Lemma opp_add : forall a b, opp (add a b) = add (opp a) (opp b).
  Proof.
    intros a b. symmetry. apply opp_unique.
    rewrite add_4, !add_opp. apply add_0_l.
  Qed.

  Lemma nmul_add : forall m n a, nmul (m + n) a = add (nmul m a) (nmul n a).
  Proof.
    induction m as [ | m IH]; intros n a; cbn.
    - symmetry. apply add_0_l.
    - rewrite IH, add_assoc. reflexivity.
  Qed.

  Lemma zmul_nat : forall n a, zmul (Z.of_nat n) a = nmul n a.
  Proof.
    intros n a. unfold zmul. destruct (Z.of_nat n <? 0) eqn:E.
    - apply Z.ltb_lt in E. lia.
    - rewrite Nat2Z.id. reflexivity.
  Qed.

  Lemma zmul_neg_nat : forall n a, zmul (- Z.of_nat n) a = opp (nmul n a).
  Proof.
    intros n a. unfold zmul. destruct (- Z.of_nat n <? 0) eqn:E.
    - rewrite Z.opp_involutive, Nat2Z.id. reflexivity.
    - apply Z.ltb_ge in E. assert (n = O) by lia. subst n. cbn.
      symmetry. apply opp_0.
  Qed.

  Lemma zmul_0 : forall a, zmul 0 a = zero.
  Proof. reflexivity. Qed.

  Lemma zmul_1 : forall a, zmul 1 a = a.
  Proof. intros a. change (zmul 1 a) with (add a zero). apply add_0_r. Qed.

  Lemma zmul_opp : forall k a, zmul (- k) a = opp (zmul k a).
  Proof.
    intros k a. destruct (Z_le_gt_dec 0 k) as [H | H].
    - rewrite <- (Z2Nat.id k) by lia. rewrite zmul_neg_nat, zmul_nat. reflexivity.
    - replace k with (- Z.of_nat (Z.to_nat (- k))) by lia.
      rewrite zmul_neg_nat, Z.opp_involutive, zmul_nat, opp_opp. reflexivity.
  Qed.

  Lemma zmul_succ : forall k a, zmul (k + 1) a = add (zmul k a) a.
  Proof.
    intros k a. destruct (Z_le_gt_dec 0 k) as [H | H].
    - replace (k + 1) with (Z.of_nat (S (Z.to_nat k))) by lia.
      rewrite zmul_nat. replace k with (Z.of_nat (Z.to_nat k)) at 2 by lia.
      rewrite zmul_nat. cbn. apply add_comm.
    - replace (k + 1) with (- Z.of_nat (Z.to_nat (- k) - 1)) by lia.
      replace k with (- Z.of_nat (S (Z.to_nat (- k) - 1))) at 2 by lia.
      rewrite !zmul_neg_nat. cbn [nmul]. rewrite opp_add, add_comm, <- add_assoc.
      rewrite add_opp. symmetry. apply add_0_l.
  Qed.

  Lemma zmul_add : forall j k a, zmul (j + k) a = add (zmul j a) (zmul k a).
  Proof.
    intros j k a.
    assert (H : forall n, zmul (j + Z.of_nat n) a = add (zmul j a) (nmul n a)).
    { induction n as [ | n IH].
      - cbn [nmul Z.of_nat]. rewrite Z.add_0_r, add_0_r. reflexivity.
      - replace (j + Z.of_nat (S n)) with (j + Z.of_nat n + 1) by lia.
        rewrite zmul_succ, IH. cbn [nmul]. rewrite add_assoc. f_equal. apply add_comm. }
    destruct (Z_le_gt_dec 0 k) as [Hk | Hk].
    - rewrite <- (Z2Nat.id k) by lia. rewrite H, zmul_nat. reflexivity.
    - apply (add_cancel (nmul (Z.to_nat (- k)) a)).
      rewrite <- add_assoc, (add_comm _ (zmul j a)), add_assoc.
      assert (E : add (nmul (Z.to_nat (- k)) a) (zmul k a) = zero).
      { rewrite <- zmul_nat. replace (Z.of_nat (Z.to_nat (- k))) with (- k) by lia.
        rewrite zmul_opp, add_comm. apply add_opp. }
      rewrite E, add_0_r.
      assert (G : forall n, add (nmul n a) (zmul (j - Z.of_nat n) a) = zmul j a).
      { induction n as [ | n IH].
        - cbn [nmul Z.of_nat]. rewrite Z.sub_0_r. apply add_0_l.
        - cbn [nmul]. rewrite <- IH.
          replace (j - Z.of_nat n) with (j - Z.of_nat (S n) + 1) by lia.
          rewrite zmul_succ, (add_comm a (nmul n a)), add_assoc. f_equal. apply add_comm. }
      rewrite <- (G (Z.to_nat (- k))). do 2 f_equal. lia.
  Qed.

  Lemma zmul_dist : forall k a b, zmul k (add a b) = add (zmul k a) (zmul k b).
  Proof.
    assert (N : forall n a b, nmul n (add a b) = add (nmul n a) (nmul n b)).
    { induction n as [ | n IH]; intros a b; cbn; [symmetry; apply add_0_l | ].
      rewrite IH. apply add_4. }
    intros k a b. unfold zmul. destruct (k <? 0); rewrite N; [apply opp_add | reflexivity].
  Qed.

  Lemma zmul_zero : forall k, zmul k zero = zero.
  Proof.
    assert (N : forall n, nmul n zero = zero).
    { induction n as [ | n IH]; cbn; [reflexivity | ]. rewrite IH. apply add_0_l. }
    intros k. unfold zmul. destruct (k <? 0); rewrite N; [apply opp_0 | reflexivity].
  Qed.

  Lemma zmul_mul : forall j k a, zmul (j * k) a = zmul j (zmul k a).
  Proof.
    intros j k a.
    assert (H : forall n, zmul (Z.of_nat n * k) a = zmul (Z.of_nat n) (zmul k a)).
    { induction n as [ | n IH]; [reflexivity | ].
      replace (Z.of_nat (S n) * k) with (Z.of_nat n * k + k) by lia.
      replace (Z.of_nat (S n)) with (Z.of_nat n + 1) by lia.
      rewrite zmul_add, zmul_succ, IH. reflexivity. }
    destruct (Z_le_gt_dec 0 j) as [Hj | Hj].
    - rewrite <- (Z2Nat.id j) by lia. apply H.
    - replace j with (- Z.of_nat (Z.to_nat (- j))) by lia.
      rewrite Z.mul_opp_l, !zmul_opp, H. reflexivity.
  Qed.

  (** Multiples of an element whose n-fold sum vanishes. *)
  Lemma zmul_mod : forall n k a, n <> 0 -> zmul n a = zero -> zmul (k mod n) a = zmul k a.
  Proof.
    intros n k a Hn H. rewrite (Z.div_mod k n Hn) at 2.
    rewrite zmul_add, Z.mul_comm, zmul_mul, H, zmul_zero, add_0_l. reflexivity.
  Qed.
End AbGroup.
