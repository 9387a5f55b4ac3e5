(** Facts about the Go-level definitions of [GoBase]. *)
From Verif Require Import GoBase.
From Coq Require Import ZifyBool ZifyNat ZifyN.

Lemma list_Z_eqb_spec a b : list_Z_eqb a b = true <-> a = b.
Proof.
  revert b; induction a as [|x a IH]; intros [|y b]; simpl; split; try easy.
  - rewrite andb_true_iff, Z.eqb_eq, IH. intros [-> ->]; reflexivity.
  - intros [= -> ->]. rewrite Z.eqb_refl. apply IH. reflexivity.
Qed.
Lemma list_Z_eqb_refl a : list_Z_eqb a a = true.
Proof. apply list_Z_eqb_spec; reflexivity. Qed.
Lemma list_Z_eqb_neq a b : list_Z_eqb a b = false <-> a <> b.
Proof. rewrite <- list_Z_eqb_spec. destruct (list_Z_eqb a b); split; congruence. Qed.

Lemma len_nil {A} : len (@nil A) = 0. Proof. reflexivity. Qed.
Lemma len_cons {A} (x : A) l : len (x :: l) = 1 + len l.
Proof. unfold len; cbn [length]; lia. Qed.
Lemma len_app {A} (a b : list A) : len (a ++ b) = len a + len b.
Proof. unfold len; rewrite app_length; lia. Qed.
Lemma len_nonneg {A} (a : list A) : 0 <= len a.
Proof. unfold len; lia. Qed.
Lemma len_zero {A} (a : list A) : len a = 0 -> a = [].
Proof. destruct a as [|x a]; [easy|rewrite len_cons; pose proof (len_nonneg a); lia]. Qed.
Lemma len_map {A B} (f : A -> B) l : len (map f l) = len l.
Proof. unfold len; now rewrite map_length. Qed.
Lemma len_rev {A} (l : list A) : len (rev l) = len l.
Proof. unfold len; now rewrite rev_length. Qed.
Lemma len_repeat {A} (x : A) n : len (repeat x n) = Z.of_nat n.
Proof. unfold len; now rewrite repeat_length. Qed.
Lemma to_nat_len {A} (l : list A) : Z.to_nat (len l) = length l.
Proof. unfold len; lia. Qed.

Lemma bytes_ok_app a b : bytes_ok (a ++ b) <-> bytes_ok a /\ bytes_ok b.
Proof. apply Forall_app. Qed.
Lemma bytes_ok_cons a b : bytes_ok (a :: b) <-> is_byte a /\ bytes_ok b.
Proof. apply Forall_cons_iff. Qed.
Lemma bytes_ok_nil : bytes_ok []. Proof. constructor. Qed.
Lemma bytes_ok_rev a : bytes_ok a -> bytes_ok (rev a).
Proof. apply Forall_rev. Qed.
Lemma bytes_ok_firstn n a : bytes_ok a -> bytes_ok (firstn n a).
Proof. intros H. rewrite <- (firstn_skipn n a) in H. apply bytes_ok_app in H. tauto. Qed.
Lemma bytes_ok_skipn n a : bytes_ok a -> bytes_ok (skipn n a).
Proof. intros H. rewrite <- (firstn_skipn n a) in H. apply bytes_ok_app in H. tauto. Qed.

Lemma is_byteb_spec b : is_byteb b = true <-> is_byte b.
Proof. unfold is_byteb, is_byte. lia. Qed.

Lemma bytes_ok_forallb l : forallb is_byteb l = true -> bytes_ok l.
Proof. intros H. apply Forall_forall. intros x Hx. apply is_byteb_spec.
  rewrite forallb_forall in H; auto. Qed.

(** Decide [bytes_ok] of a literal. *)
Ltac bytes_ok_tac := apply bytes_ok_forallb; vm_compute; reflexivity.

Lemma u8_id x : 0 <= x < 256 -> u8 x = x.
Proof. intros; unfold u8; apply Z.mod_small; lia. Qed.
Lemma u16_id x : 0 <= x < 2^16 -> u16 x = x.
Proof. intros; unfold u16; apply Z.mod_small; lia. Qed.
Lemma u32_id x : 0 <= x < 2^32 -> u32 x = x.
Proof. intros; unfold u32; apply Z.mod_small; lia. Qed.
Lemma u64_id x : 0 <= x < 2^64 -> u64 x = x.
Proof. intros; unfold u64; apply Z.mod_small; lia. Qed.
Lemma i64_id x : - 2^63 <= x < 2^63 -> i64 x = x.
Proof. intros; unfold i64; rewrite Z.mod_small; lia. Qed.
Lemma i32_id x : - 2^31 <= x < 2^31 -> i32 x = x.
Proof. intros; unfold i32; rewrite Z.mod_small; lia. Qed.
Lemma u8_range x : 0 <= u8 x < 256.
Proof. unfold u8. apply Z.mod_pos_bound; lia. Qed.
Lemma u8_byte x : is_byte (u8 x).
Proof. apply u8_range. Qed.
Lemma i64_range x : - 2^63 <= i64 x < 2^63.
Proof. unfold i64. pose proof (Z.mod_pos_bound (x + 2^63) (2^64)). lia. Qed.

Lemma index_ok {A} (l : list A) i : 0 <= i < len l -> exists x, index l i = Ok x /\ nth_error l (Z.to_nat i) = Some x.
Proof.
  intros H. unfold index, len in *. destruct (i <? 0) eqn:E; [lia|].
  destruct (nth_error l (Z.to_nat i)) eqn:F; [eauto|].
  apply nth_error_None in F. lia.
Qed.

Lemma index_app_r {A} (a b : list A) i : len a <= i -> index (a ++ b) i = index b (i - len a).
Proof.
  intros H. unfold index. pose proof (len_nonneg a).
  destruct (i <? 0) eqn:E; [lia|]. destruct (i - len a <? 0) eqn:E2; [lia|].
  rewrite nth_error_app2 by (unfold len in *; lia).
  replace (Z.to_nat i - length a)%nat with (Z.to_nat (i - len a)) by (unfold len in *; lia). reflexivity.
Qed.

Lemma index_app_l {A} (a b : list A) i : 0 <= i < len a -> index (a ++ b) i = index a i.
Proof.
  intros H. unfold index. destruct (i <? 0) eqn:E; [lia|].
  rewrite nth_error_app1 by (unfold len in *; lia). reflexivity.
Qed.

Lemma slice_mid {A} (a b c : list A) : slice (a ++ b ++ c) (len a) (len a + len b) = Ok b.
Proof.
  unfold slice. rewrite !len_app. pose proof (len_nonneg a). pose proof (len_nonneg b). pose proof (len_nonneg c).
  replace ((0 <=? len a) && (len a <=? len a + len b) && (len a + len b <=? len a + (len b + len c))) with true by lia.
  f_equal. replace (len a + len b - len a) with (len b) by lia. rewrite !to_nat_len.
  rewrite skipn_app, skipn_all, Nat.sub_diag. simpl.
  rewrite firstn_app, Nat.sub_diag, firstn_all. simpl. apply app_nil_r.
Qed.

Lemma slice_app_l {A} (a b : list A) : slice (a ++ b) 0 (len a) = Ok a.
Proof. exact (slice_mid [] a b). Qed.
Lemma slice_app_r {A} (a b : list A) : slice (a ++ b) (len a) (len a + len b) = Ok b.
Proof. rewrite <- (app_nil_r b) at 1. apply slice_mid. Qed.

(** A property of all bytes, by enumeration. *)
Lemma all_bytes (P : Z -> bool) : forallb P (map Z.of_nat (seq 0 256)) = true -> forall c, is_byte c -> P c = true.
Proof.
  intros H c Hc. rewrite forallb_forall in H. apply H. apply in_map_iff. exists (Z.to_nat c).
  unfold is_byte in Hc. split; [lia|]. apply in_seq. lia.
Qed.

Lemma rev_repeat {A} (x : A) n : rev (repeat x n) = repeat x n.
Proof. induction n; [reflexivity|]. cbn [repeat rev]. rewrite IHn. clear.
  induction n; [reflexivity|]. cbn [repeat app]. now rewrite IHn. Qed.

Lemma app_inj_len {A} (a b c d : list A) : length a = length c -> a ++ b = c ++ d -> a = c /\ b = d.
Proof.
  revert c; induction a as [|x a IH]; intros [|y c] L E; try easy.
  simpl in *. injection E as -> E. destruct (IH c) as [-> ->]; auto.
Qed.
(** Bitwise or of disjoint parts is addition. *)
Lemma land_low_shl a b k : 0 <= k -> 0 <= a < 2 ^ k -> Z.land a (Z.shiftl b k) = 0.
Proof.
  intros Hk Ha. apply Z.bits_inj'. intros n Hn. rewrite Z.land_spec, Z.bits_0.
  destruct (Z.ltb_spec n k).
  - rewrite Z.shiftl_spec_low by lia. apply andb_false_r.
  - destruct (Z.eq_dec a 0) as [->|Hz]; [now rewrite Z.bits_0|].
    rewrite (Z.bits_above_log2 a); [reflexivity|lia|].
    apply Z.log2_lt_pow2; [lia|]. apply Z.lt_le_trans with (2 ^ k); [lia|].
    apply Z.pow_le_mono_r; lia.
Qed.
Lemma lor_add a b : Z.land a b = 0 -> Z.lor a b = a + b.
Proof. intros H. rewrite <- Z.lxor_lor by exact H. symmetry. apply Z.add_nocarry_lxor. exact H. Qed.
Lemma lor_shl a b k : 0 <= k -> 0 <= a < 2 ^ k -> Z.lor a (Z.shiftl b k) = a + b * 2 ^ k.
Proof.
  intros Hk Ha. rewrite <- Z.shiftl_mul_pow2 by lia.
  apply lor_add. now apply land_low_shl.
Qed.
Lemma lxor_shl a b k : 0 <= k -> 0 <= a < 2 ^ k -> Z.lxor a (Z.shiftl b k) = a + b * 2 ^ k.
Proof.
  intros Hk Ha. rewrite <- Z.shiftl_mul_pow2 by lia. symmetry.
  apply Z.add_nocarry_lxor. now apply land_low_shl.
Qed.

#[global] Arguments Z.add : simpl never.
#[global] Arguments Z.sub : simpl never.
#[global] Arguments Z.mul : simpl never.
#[global] Arguments Z.opp : simpl never.
#[global] Arguments Z.leb : simpl never.
#[global] Arguments Z.ltb : simpl never.
#[global] Arguments Z.eqb : simpl never.
#[global] Arguments Z.of_nat : simpl never.
#[global] Arguments Z.to_nat : simpl never.
#[global] Arguments Z.modulo : simpl never.
#[global] Arguments Z.div : simpl never.
#[global] Arguments Z.lor : simpl never.
#[global] Arguments Z.land : simpl never.
#[global] Arguments Z.lxor : simpl never.
#[global] Arguments Z.shiftl : simpl never.
#[global] Arguments Z.shiftr : simpl never.
#[global] Arguments len : simpl never.
Ltac len_simpl := repeat (rewrite len_app || rewrite len_cons || rewrite len_map || rewrite len_rev || rewrite len_repeat
  || match goal with |- context [len (@nil ?A)] => change (len (@nil A)) with 0 end).
Tactic Notation "len_simpl" "in" hyp(H) := repeat (rewrite len_app in H || rewrite len_cons in H || rewrite len_map in H || rewrite len_rev in H || rewrite len_repeat in H
  || match type of H with context [len (@nil ?A)] => change (len (@nil A)) with 0 in H end).
