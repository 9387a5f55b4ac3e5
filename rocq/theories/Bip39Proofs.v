(** Proofs for C58, C59, C85. *)
From Verif Require Import GoBase BaseLemmas BigInt BigIntProofs Bip39Model Bip39Spec.
From Coq Require Import ZifyBool ZifyNat.

(** ** Bits. *)
Lemma bits_val_acc l : forall a, fold_left (fun a b => 2 * a + (if b : bool then 1 else 0)) l a = a * 2 ^ len l + bits_val l.
Proof.
  unfold bits_val. induction l as [|b l IH]; intros a; cbn [fold_left]; [change (len (@nil bool)) with 0; cbn; ring|]. rewrite IH, (IH (2 * 0 + _)). rewrite len_cons, Z.pow_add_r by (pose proof (len_nonneg l); lia). destruct b; ring.
Qed.
Lemma bits_val_app a b : bits_val (a ++ b) = bits_val a * 2 ^ len b + bits_val b.
Proof. unfold bits_val at 1. rewrite fold_left_app. rewrite bits_val_acc. reflexivity. Qed.
Lemma bits_val_cons b l : bits_val (b :: l) = (if b then 1 else 0) * 2 ^ len l + bits_val l.
Proof. change (b :: l) with ([b] ++ l). rewrite bits_val_app. destruct b; reflexivity. Qed.
Lemma bits_val_range l : 0 <= bits_val l < 2 ^ len l.
Proof.
  induction l as [|b l IH]; [change (0 <= 0 < 1); lia|]. rewrite bits_val_cons, len_cons, Z.pow_add_r by (pose proof (len_nonneg l); lia). destruct b; lia.
Qed.
Lemma bits_val_inj : forall a b, length a = length b -> bits_val a = bits_val b -> a = b.
Proof.
  induction a as [|x a IH]; intros [|y b] L E; try discriminate; [reflexivity|]. injection L as L. rewrite !bits_val_cons in E. assert (Ll : len a = len b) by (unfold len; lia). rewrite Ll in E.
  pose proof (bits_val_range a). pose proof (bits_val_range b). rewrite Ll in *. assert (x = y) by (destruct x, y; [reflexivity|nia|nia|reflexivity]). subst. f_equal. apply IH; [exact L|lia].
Qed.
Fixpoint to_bits (n : nat) (x : Z) : list bool := match n with O => [] | S n' => to_bits n' (x / 2) ++ [Z.odd x] end.
Lemma to_bits_len n : forall x, length (to_bits n x) = n.
Proof. induction n as [|n IH]; intros x; cbn [to_bits]; [reflexivity|]. rewrite app_length, IH. cbn. lia. Qed.
Lemma to_bits_val n : forall x, 0 <= x < 2 ^ Z.of_nat n -> bits_val (to_bits n x) = x.
Proof.
  induction n as [|n IH]; intros x R; cbn [to_bits]; [cbn in *; lia|]. rewrite Nat2Z.inj_succ, Z.pow_succ_r in R by lia. rewrite bits_val_app. rewrite IH by (split; [apply Z.div_pos; lia|apply Z.div_lt_upper_bound; lia]). change (len [Z.odd x]) with 1. pose proof (Z.div_mod x 2 ltac:(lia)) as D. rewrite Zmod_odd in D. rewrite bits_val_cons. change (2 ^ len (@nil bool)) with 1. change (bits_val []) with 0. change (2 ^ 1) with 2. destruct (Z.odd x); lia.
Qed.
Lemma byte_bits_val b : is_byte b -> bits_val (byte_bits b) = b.
Proof. intros H. apply Z.eqb_eq. revert b H. apply (all_bytes (fun b => bits_val (byte_bits b) =? b)). vm_compute. reflexivity. Qed.
Lemma byte_bits_len b : length (byte_bits b) = 8%nat.
Proof. reflexivity. Qed.
Lemma bits_len b : length (bits b) = (8 * length b)%nat.
Proof. unfold bits. induction b as [|x b IH]; [reflexivity|]. cbn [map concat]. rewrite app_length, IH, byte_bits_len. cbn [length]. lia. Qed.
Lemma bits_cons x b : bits (x :: b) = byte_bits x ++ bits b.
Proof. reflexivity. Qed.
Lemma bits_set b : bytes_ok b -> bits_val (bits b) = set_bytes b.
Proof.
  induction b as [|x b IH]; intros H; [reflexivity|]. apply bytes_ok_cons in H. rewrite bits_cons, bits_val_app, byte_bits_val, IH, set_bytes_cons by tauto. f_equal. f_equal. unfold len. rewrite bits_len. replace (Z.of_nat (8 * length b)) with (8 * Z.of_nat (length b)) by lia. rewrite Z.pow_mul_r by lia. reflexivity.
Qed.
Lemma set_bytes_inj a b : bytes_ok a -> bytes_ok b -> length a = length b -> set_bytes a = set_bytes b -> a = b.
Proof.
  revert b. induction a as [|x a IH]; intros [|y b] Ha Hb L E; try discriminate; [reflexivity|]. apply bytes_ok_cons in Ha. apply bytes_ok_cons in Hb. injection L as L. rewrite !set_bytes_cons in E. assert (Ll : len a = len b) by (unfold len; lia).
  pose proof (set_bytes_nonneg a (proj2 Ha)). pose proof (set_bytes_nonneg b (proj2 Hb)). pose proof (set_bytes_lt a (proj2 Ha)). pose proof (set_bytes_lt b (proj2 Hb)). rewrite Ll in *. assert (x = y) by nia. subst. f_equal. apply IH; try tauto. lia.
Qed.

(** ** Padding. *)
Lemma set_bytes_zeros n b : set_bytes (repeat 0 n ++ b) = set_bytes b.
Proof. induction n as [|n IH]; [reflexivity|]. cbn [repeat app]. rewrite set_bytes_cons, IH. ring. Qed.
Lemma zeros_ok n : bytes_ok (repeat 0 n).
Proof. induction n; constructor; auto. unfold is_byte. lia. Qed.
Lemma pad_val s n : set_bytes (padByteSlice s n) = set_bytes s.
Proof. unfold padByteSlice. destruct (_ <=? _); [reflexivity|apply set_bytes_zeros]. Qed.
Lemma pad_ok s n : bytes_ok s -> bytes_ok (padByteSlice s n).
Proof. unfold padByteSlice. destruct (_ <=? _); [auto|]. intros. apply bytes_ok_app. split; [apply zeros_ok|assumption]. Qed.
Lemma pad_len s n : len s <= n -> len (padByteSlice s n) = n.
Proof. intros L. unfold padByteSlice. destruct (n - len s <=? 0) eqn:E; [lia|]. rewrite len_app, len_repeat. lia. Qed.
Lemma big_bytes_len x n : 0 <= n -> 0 <= x < 256 ^ n -> len (big_bytes x) <= n.
Proof.
  intros N R. destruct (Z_le_gt_dec (len (big_bytes x)) n) as [|G]; [lia|]. exfalso. assert (Hx : big_bytes x <> []) by (intros E; rewrite E, len_nil in G; lia).
  assert (T : hd 1 (big_bytes x) <> 0).
  { unfold big_bytes. rewrite Z.abs_eq by lia. pose proof (digits_top 256 ltac:(lia) x ltac:(lia)) as T. unfold top_nonzero in T. destruct (digits 256 x) as [|d l] eqn:E using rev_ind; [cbn; lia|]. rewrite rev_app_distr. cbn. rewrite last_last in T. exact T. }
  pose proof (big_bytes_set x ltac:(lia)) as V. pose proof (big_bytes_ok x) as Ok_. destruct (big_bytes x) as [|d b] eqn:E; [congruence|]. cbn in T. rewrite set_bytes_cons in V. apply bytes_ok_cons in Ok_. pose proof (set_bytes_nonneg b (proj2 Ok_)). rewrite len_cons in G.
  assert (256 ^ n <= 256 ^ len b) by (apply Z.pow_le_mono_r; lia). destruct Ok_ as [[? ?] _]. nia.
Qed.
Lemma pad_big x n : 0 <= n -> 0 <= x < 256 ^ n -> len (padByteSlice (big_bytes x) n) = n /\ bytes_ok (padByteSlice (big_bytes x) n) /\ set_bytes (padByteSlice (big_bytes x) n) = x.
Proof. intros N R. split; [apply pad_len; now apply big_bytes_len|]. split; [apply pad_ok, big_bytes_ok|]. rewrite pad_val. apply big_bytes_set. lia. Qed.
Lemma be16_pad x : 0 <= x < 2048 -> be16 (padByteSlice (big_bytes x) 2) = Ok x.
Proof.
  intros R. destruct (pad_big x 2 ltac:(lia) ltac:(lia)) as (L & O & V). destruct (padByteSlice (big_bytes x) 2) as [|a [|b [|]]]; try discriminate L; [|rewrite !len_cons in L; pose proof (len_nonneg l); lia]. change (be16 [a; b]) with (Ok (Z.lor (Z.shiftl a 8) b)). f_equal.
  apply bytes_ok_cons in O. destruct O as [Oa O]. apply bytes_ok_cons in O. destruct O as [Ob _]. unfold is_byte in *. change (set_bytes [a; b]) with ((0 * 256 + a) * 256 + b) in V. rewrite Z.lor_comm, lor_shl by lia. lia.
Qed.

(** ** The checksum bits. *)
Lemma checksum_loop_bits first : forall k i v, 0 <= i -> i + Z.of_nat k <= 8 -> 0 <= v ->
  checksum_loop k i first v = v * 2 ^ Z.of_nat k + bits_val (map (fun j => Z.testbit first (7 - i - Z.of_nat j)) (seq 0 k)).
Proof.
  induction k as [|k IH]; intros i v Hi Hk Hv; [cbn; lia|]. cbn [checksum_loop]. replace (i <=? 7) with true by lia.
  assert (Eb : (if 0 <? Z.land first (Z.shiftl 1 (7 - i)) then Z.lor (v * 2) 1 else v * 2) = 2 * v + (if Z.testbit first (7 - i) then 1 else 0)).
  { assert (T : 0 <? Z.land first (Z.shiftl 1 (7 - i)) = Z.testbit first (7 - i)).
    { destruct (Z.testbit first (7 - i)) eqn:T.
      - apply Z.ltb_lt. assert (Z.testbit (Z.land first (Z.shiftl 1 (7 - i))) (7 - i) = true) by (rewrite Z.land_spec, T, Z.shiftl_spec by lia; rewrite Z.sub_diag; reflexivity).
        assert (0 <= Z.land first (Z.shiftl 1 (7 - i))) by (apply Z.land_nonneg; right; apply Z.shiftl_nonneg; lia). destruct (Z.eq_dec (Z.land first (Z.shiftl 1 (7 - i))) 0) as [Z0|]; [rewrite Z0, Z.bits_0 in H; discriminate|lia].
      - replace (Z.land first (Z.shiftl 1 (7 - i))) with 0; [reflexivity|]. symmetry. apply Z.bits_inj'. intros n Hn. rewrite Z.land_spec, Z.bits_0, Z.shiftl_spec by lia. destruct (Z.eq_dec n (7 - i)) as [->|Ne]; [now rewrite T|].
        replace (Z.testbit 1 (n - (7 - i))) with false; [apply andb_false_r|]. symmetry. destruct (Z.ltb_spec (n - (7 - i)) 0); [apply Z.testbit_neg_r; lia|]. change 1 with (2 ^ 0). apply Z.pow2_bits_false. lia. }
    rewrite T. destruct (Z.testbit first (7 - i)); [|lia]. rewrite Z.lor_comm. replace (v * 2) with (Z.shiftl v 1) by (rewrite Z.shiftl_mul_pow2 by lia; lia). rewrite lor_shl by lia. lia. }
  cbv zeta. rewrite Eb. rewrite IH; [|lia|lia|destruct (Z.testbit first (7 - i)); lia]. cbn [seq map]. rewrite <- seq_shift, map_map, bits_val_cons. rewrite !Nat2Z.inj_succ, Z.pow_succ_r by lia.
  replace (len (map _ (seq 0 k))) with (Z.of_nat k) by (now rewrite len_map; unfold len; rewrite seq_length). rewrite Z.sub_0_r.
  assert (Em : map (fun j : nat => Z.testbit first (7 - (i + 1) - Z.of_nat j)) (seq 0 k) = map (fun x : nat => Z.testbit first (7 - i - Z.of_nat (S x))) (seq 0 k)) by (apply map_ext; intros j; f_equal; lia). rewrite Em. destruct (Z.testbit first (7 - i)); ring.
Qed.
Lemma firstn_byte_bits k b : (k <= 8)%nat -> firstn k (byte_bits b) = map (fun j => Z.testbit b (7 - Z.of_nat j)) (seq 0 k).
Proof. intros L. unfold byte_bits. do 9 (destruct k as [|k]; [reflexivity|]). lia. Qed.

(** ** Groups. *)
Lemma groups_snoc g : length g = 11%nat -> forall k l, length l = (11 * k)%nat -> groups (S k) (l ++ g) = groups k l ++ [g].
Proof.
  intros Lg. induction k as [|k IH]; intros l L.
  - destruct l; [|discriminate]. cbn [groups app]. rewrite <- Lg. now rewrite firstn_all.
  - change (groups (S (S k)) (l ++ g)) with (firstn 11 (l ++ g) :: groups (S k) (skipn 11 (l ++ g))). rewrite firstn_app, skipn_app. replace (11 - length l)%nat with 0%nat by lia. change (skipn 0 g) with g. rewrite IH by (rewrite skipn_length; lia). change (firstn 0 g) with (@nil bool). rewrite app_nil_r. reflexivity.
Qed.
Lemma groups_cons g k l : length g = 11%nat -> groups (S k) (g ++ l) = g :: groups k l.
Proof. intros L. cbn [groups]. rewrite <- L at 1. rewrite firstn_app, firstn_all, Nat.sub_diag. cbn [firstn]. rewrite app_nil_r. f_equal. f_equal. rewrite skipn_app. replace (skipn 11 g) with (@nil bool) by (symmetry; apply skipn_all2; lia). replace (11 - length g)%nat with 0%nat by lia. reflexivity. Qed.
Lemma firstn_split {A} n (l : list A) : (n <= length l)%nat -> exists a b, l = a ++ b /\ length a = n.
Proof. intros L. exists (firstn n l), (skipn n l). split; [symmetry; apply firstn_skipn|]. rewrite firstn_length. lia. Qed.

Lemma size_cases (e : bytes) : entropy_size (length e) <-> validateEntropyBitSize (len e * 8) = true.
Proof.
  unfold entropy_size, validateEntropyBitSize, len. split; [intros I; cbn in I; repeat (destruct I as [I|I]; [rewrite <- I; reflexivity|]); destruct I|]. intros H. cbn. rewrite !andb_true_iff in H. destruct H as [[H1 H2] H3]. assert (Z.of_nat (length e) <= 32) by lia. assert (16 <= Z.of_nat (length e)) by lia.
  apply Z.eqb_eq in H1. rewrite Z.rem_mod_nonneg in H1 by lia. assert (D : exists q, Z.of_nat (length e) = 4 * q) by (exists (Z.of_nat (length e) * 8 / 32); pose proof (Z.div_mod (Z.of_nat (length e) * 8) 32 ltac:(lia)); lia). destruct D as (q & D). assert (q = 4 \/ q = 5 \/ q = 6 \/ q = 7 \/ q = 8) by lia. lia.
Qed.
Lemma size_q (e : bytes) : entropy_size (length e) -> exists q, length e = (4 * q)%nat /\ (length e / 4 = q)%nat /\ (4 <= q <= 8)%nat.
Proof. intros I. exists (length e / 4)%nat. cbn in I. repeat (destruct I as [I|I]; [rewrite <- I; cbn; lia|]); destruct I. Qed.
Lemma mask_q q : (4 <= q <= 8)%nat -> checksum_mask (Z.of_nat (3 * q)) = Ok (2 ^ Z.of_nat q - 1) /\ count_ok (Z.of_nat (3 * q)) = true /\
  (forall f, (if Z.of_nat (3 * q) =? 24 then Ok f else let! sh := checksum_shift (Z.of_nat (3 * q)) in Ok (f / sh)) = Ok (f / 2 ^ (8 - Z.of_nat q))).
Proof.
  intros R. assert (q = 4 \/ q = 5 \/ q = 6 \/ q = 7 \/ q = 8)%nat as C by lia. repeat (destruct C as [->|C]; [split; [reflexivity|]; split; [reflexivity|]; intros f; reflexivity|]). subst. split; [reflexivity|]. split; [reflexivity|].
  intros f. change (Ok f = Ok (f / 1)). now rewrite Z.div_1_r.
Qed.
Lemma count_q n : count_ok n = true -> exists q, n = Z.of_nat (3 * q) /\ (4 <= q <= 8)%nat.
Proof. unfold count_ok. rewrite !andb_true_iff. intros [[H1 H2] H3]. apply Z.eqb_eq in H1. rewrite Z.rem_mod_nonneg in H1 by lia. exists (Z.to_nat (n / 3)). pose proof (Z.div_mod n 3 ltac:(lia)). lia. Qed.
Lemma top_bits h q : is_byte h -> (q <= 8)%nat -> bits_val (firstn q (byte_bits h)) = h / 2 ^ (8 - Z.of_nat q).
Proof.
  intros Hh L. pose proof (byte_bits_val h Hh) as V. rewrite <- (firstn_skipn q (byte_bits h)) in V. rewrite bits_val_app in V. pose proof (bits_val_range (skipn q (byte_bits h))) as R. replace (len (skipn q (byte_bits h))) with (8 - Z.of_nat q) in * by (unfold len; rewrite skipn_length, byte_bits_len; lia).
  rewrite <- V at 2. rewrite Z.add_comm, Z.div_add, Z.div_small by lia. lia.
Qed.
Lemma lor_2048 b i : 0 <= b -> 0 <= i < 2048 -> Z.lor (b * 2048) i = b * 2048 + i.
Proof. intros Hb Hi. rewrite Z.lor_comm. change 2048 with (2 ^ 11) at 1. rewrite <- Z.shiftl_mul_pow2 by lia. rewrite lor_shl by lia. change (2 ^ 11) with 2048. lia. Qed.
(** ** The reverse map. *)
Lemma last_index_none w : forall l i, last_index i l w = None <-> ~ In w l.
Proof.
  induction l as [|x l IH]; intros i; cbn [last_index]; [split; auto|]. destruct (last_index (i + 1) l w) eqn:E.
  - split; [discriminate|]. intros N. exfalso. apply N. right. destruct (in_dec (list_eq_dec Z.eq_dec) w l) as [I|I]; [exact I|]. apply (IH (i + 1)) in I. congruence.
  - apply IH in E. destruct (list_Z_eqb x w) eqn:Q.
    + apply list_Z_eqb_spec in Q. split; [discriminate|]. intros N. elim N. now left.
    + apply list_Z_eqb_neq in Q. split; [intros _ [F|F]; auto|auto].
Qed.
Lemma last_index_some w : forall l i j, last_index i l w = Some j -> i <= j < i + len l /\ nth_error l (Z.to_nat (j - i)) = Some w.
Proof.
  induction l as [|x l IH]; intros i j; cbn [last_index]; [discriminate|]. rewrite len_cons. pose proof (len_nonneg l). destruct (last_index (i + 1) l w) as [j'|] eqn:E.
  - intros Q. injection Q as ->. apply IH in E. destruct E as [R N]. split; [lia|]. replace (Z.to_nat (j - i)) with (S (Z.to_nat (j - (i + 1)))) by lia. exact N.
  - destruct (list_Z_eqb x w) eqn:Q; [|discriminate]. apply list_Z_eqb_spec in Q. intros Q'. injection Q' as ->. split; [lia|]. rewrite Z.sub_diag. cbn. now subst.
Qed.
Lemma firstn_bits h r k : (k <= 8)%nat -> firstn k (bits (h :: r)) = firstn k (byte_bits h).
Proof. intros L. rewrite bits_cons, firstn_app, byte_bits_len. replace (k - 8)%nat with 0%nat by lia. cbn [firstn]. apply app_nil_r. Qed.
Section Words.
Variable W : list bytes.
Hypothesis W_len : length W = 2048%nat.
Hypothesis W_nodup : NoDup W.
Notation word g := (nth (Z.to_nat (bits_val g)) W []).
Lemma words_loop_spec : forall k l acc, length l = (11 * k)%nat -> words_loop W k (bits_val l) acc = Ok (map (fun g => word g) (groups k l) ++ acc).
Proof.
  induction k as [|k IH]; intros l acc L; [destruct l; [reflexivity|discriminate]|]. destruct (firstn_split (11 * k) l ltac:(lia)) as (a & g & -> & La). rewrite app_length in L. assert (Lg : length g = 11%nat) by lia.
  rewrite groups_snoc by auto. cbn [words_loop]. rewrite bits_val_app. replace (len g) with 11 by (unfold len; lia). change (2 ^ 11) with 2048. pose proof (bits_val_range g) as R. replace (len g) with 11 in R by (unfold len; lia). change (2 ^ 11) with 2048 in R.
  replace 2047 with (Z.ones 11) by reflexivity. rewrite Z.land_ones by lia. change (2 ^ 11) with 2048. rewrite Z.add_comm, Z.mod_add, Z.mod_small by lia. rewrite be16_pad by exact R. cbn [rbind].
  replace (index W (bits_val g)) with (Ok (word g)).
  2: { unfold index. replace (bits_val g <? 0) with false by lia. rewrite (nth_error_nth' W []) by lia. reflexivity. }
  cbn [rbind]. rewrite Z.div_add, Z.div_small, Z.add_0_l by lia. rewrite IH by exact La. rewrite map_app, <- app_assoc. reflexivity.
Qed.
Lemma get_index_inv w i : GetWordIndex W w = Some i -> 0 <= i < 2048 /\ nth (Z.to_nat i) W [] = w.
Proof. intros E. apply last_index_some in E. destruct E as [R N]. unfold len in R. rewrite W_len in R. split; [lia|]. rewrite Z.sub_0_r in N. now apply nth_error_nth. Qed.

Lemma decode_inv : forall ws b v, decode_words W ws b = Ok v -> 0 <= b -> exists l, length l = (11 * length ws)%nat /\ map (fun g => word g) (groups (length ws) l) = ws /\ v = b * 2 ^ len l + bits_val l.
Proof.
  induction ws as [|w ws IH]; intros b v E Hb; cbn [decode_words] in E.
  - injection E as <-. exists []. split; [reflexivity|]. split; [reflexivity|]. change (bits_val []) with 0. change (2 ^ len (@nil bool)) with 1. lia.
  - destruct (GetWordIndex W w) as [i|] eqn:G; [|discriminate]. destruct (get_index_inv _ _ G) as [R N]. rewrite u16_id in E by lia. rewrite lor_2048 in E by lia. destruct (IH _ _ E ltac:(lia)) as (l & L & M & V).
    exists (to_bits 11 i ++ l). rewrite app_length, to_bits_len. split; [cbn [length]; lia|]. cbn [length]. rewrite groups_cons by apply to_bits_len. cbn [map]. rewrite M. rewrite to_bits_val by (change (2 ^ Z.of_nat 11) with 2048; lia). rewrite N. split; [reflexivity|].
    rewrite bits_val_app, len_app, Z.pow_add_r by apply len_nonneg. rewrite to_bits_val by (change (2 ^ Z.of_nat 11) with 2048; lia). replace (len (to_bits 11 i)) with 11 by (unfold len; now rewrite to_bits_len). change (2 ^ 11) with 2048. rewrite V. ring.
Qed.
Lemma get_index n : (n < 2048)%nat -> GetWordIndex W (nth n W []) = Some (Z.of_nat n).
Proof.
  intros L. unfold GetWordIndex. destruct (last_index 0 W (nth n W [])) as [j|] eqn:E; [|apply last_index_none in E; elim E; apply nth_In; lia]. apply last_index_some in E. destruct E as [R N]. rewrite Z.sub_0_r in N. f_equal.
  assert (Z.to_nat j = n); [|lia]. apply (proj1 (NoDup_nth_error W) W_nodup); [unfold len in R; lia|]. rewrite N. symmetry. apply nth_error_nth'. lia.
Qed.
Lemma decode_groups : forall k l b, length l = (11 * k)%nat -> 0 <= b -> decode_words W (map (fun g => word g) (groups k l)) b = Ok (b * 2 ^ len l + bits_val l).
Proof.
  induction k as [|k IH]; intros l b L Hb; [destruct l; [cbn [groups map decode_words]; f_equal; change (bits_val []) with 0; change (2 ^ len (@nil bool)) with 1; lia|discriminate]|]. destruct (firstn_split 11 l ltac:(lia)) as (g & r & -> & Lg). rewrite app_length in L. rewrite groups_cons by exact Lg. cbn [map decode_words].
  pose proof (bits_val_range g) as R. replace (len g) with 11 in R by (unfold len; lia). change (2 ^ 11) with 2048 in R. rewrite get_index by lia. rewrite Z2Nat.id by lia. rewrite u16_id by lia. rewrite lor_2048 by lia. rewrite IH by lia. rewrite bits_val_app, len_app, Z.pow_add_r by apply len_nonneg. replace (len g) with 11 by (unfold len; lia). change (2 ^ 11) with 2048. f_equal. ring.
Qed.
End Words.
Section Sha.
Variable sha256 : bytes -> bytes.
Hypothesis sha_ok : forall b, length (sha256 b) = 32%nat /\ bytes_ok (sha256 b).
Definition checked (e : bytes) : list bool := bits e ++ firstn (length e / 4) (bits (sha256 e)).
Lemma hd_sha e : exists h r, sha256 e = h :: r /\ is_byte h.
Proof. destruct (sha_ok e) as [L O]. destruct (sha256 e) as [|h r]; [discriminate|]. exists h, r. split; [reflexivity|]. now apply bytes_ok_cons in O. Qed.
Lemma firstn_sha e h r k : sha256 e = h :: r -> (k <= 8)%nat -> firstn k (bits (sha256 e)) = firstn k (byte_bits h).
Proof. intros E L. rewrite E. now apply firstn_bits. Qed.
Lemma add_checksum e : bytes_ok e -> (length e <= 32)%nat -> addChecksum sha256 e = Ok (big_bytes (bits_val (checked e))).
Proof.
  intros O L. unfold addChecksum. destruct (hd_sha e) as (h & r & E & Hh). assert (I : index (sha256 e) 0 = Ok h) by (now rewrite E). rewrite I. cbn [rbind]. f_equal. f_equal. unfold checked. rewrite (firstn_sha e h r) by (auto; apply Nat.div_le_upper_bound; lia).
  assert (Q : Z.to_nat (Z.quot (len e) 4) = (length e / 4)%nat) by (rewrite Z.quot_div_nonneg by (pose proof (len_nonneg e); lia); unfold len; rewrite Z2Nat.inj_div by lia; rewrite Nat2Z.id; reflexivity). rewrite Q.
  assert (L4 : (length e / 4 <= 8)%nat) by (apply Nat.div_le_upper_bound; lia). rewrite checksum_loop_bits; [|lia|lia|now apply set_bytes_nonneg]. rewrite bits_val_app, bits_set by exact O. rewrite firstn_byte_bits by exact L4.
  replace (len (map _ (seq 0 (length e / 4)))) with (Z.of_nat (length e / 4)) by (rewrite len_map; unfold len; now rewrite seq_length). f_equal.
Qed.
Lemma checked_len e q : length e = (4 * q)%nat -> (length e / 4 = q)%nat -> (q <= 8)%nat -> length (checked e) = (33 * q)%nat.
Proof. intros L D U. unfold checked. rewrite app_length, bits_len, D, firstn_length, bits_len. rewrite (proj1 (sha_ok e)). lia. Qed.

End Sha.
Section P.
Variable sha256 : bytes -> bytes.
Hypothesis sha_ok : forall b, length (sha256 b) = 32%nat /\ bytes_ok (sha256 b).
Variable W : list bytes.
Hypothesis W_len : length W = 2048%nat.
Hypothesis W_nodup : NoDup W.
Notation word g := (nth (Z.to_nat (bits_val g)) W []).
Notation checked := (checked sha256).
Definition words_of (e : bytes) : list bytes := map (fun g => word g) (groups (3 * (length e / 4)) (checked e)).
Lemma new_mnemonic e : bytes_ok e -> entropy_size (length e) -> NewMnemonic sha256 W e = Ok (Join (words_of e)) /\ length (words_of e) = (3 * (length e / 4))%nat.
Proof.
  intros O S_. unfold NewMnemonic. rewrite (proj1 (size_cases e) S_). cbn [negb]. destruct (size_q e S_) as (q & L & D & R). rewrite (add_checksum sha256 sha_ok) by (auto; lia). cbn [rbind]. rewrite big_bytes_set by apply bits_val_range.
  assert (Q : Z.to_nat (Z.quot (len e * 8 + Z.quot (len e * 8) 32) 11) = (3 * q)%nat).
  { unfold len. rewrite L. replace (Z.of_nat (4 * q) * 8) with (Z.of_nat q * 32) by lia. rewrite Z.quot_mul by lia. replace (Z.of_nat q * 32 + Z.of_nat q) with (Z.of_nat (3 * q) * 11) by lia. rewrite Z.quot_mul by lia. apply Nat2Z.id. }
  rewrite Q. rewrite (words_loop_spec W W_len) by (rewrite ((checked_len sha256 sha_ok) e q L D); lia). cbn [rbind]. rewrite app_nil_r. unfold words_of. rewrite D. split; [reflexivity|]. rewrite map_length. generalize (checked e). generalize (3 * q)%nat. intros n. induction n as [|n IH]; intros l; [reflexivity|]. cbn. now rewrite IH.
Qed.
Lemma other_sizes e : ~ entropy_size (length e) -> NewMnemonic sha256 W e = Err "ErrEntropyLengthInvalid".
Proof. intros N. unfold NewMnemonic. destruct (validateEntropyBitSize (len e * 8)) eqn:V; [elim N; now apply size_cases|reflexivity]. Qed.

(** Any words that are in the list come from some bits. *)
(** Decoding a list of words that came from bits: what is left to check. *)
Lemma efm m q l : (4 <= q <= 8)%nat -> length (Fields m) = (3 * q)%nat -> decode_words W (Fields m) 0 = Ok (bits_val l) -> length l = (33 * q)%nat ->
  exists a c e h r, l = a ++ c /\ length a = (32 * q)%nat /\ length c = q /\ length e = (4 * q)%nat /\ bytes_ok e /\ bits e = a /\ sha256 e = h :: r /\ is_byte h /\
  EntropyFromMnemonic sha256 W m = if list_eq_dec bool_dec c (firstn q (byte_bits h)) then Ok e else Err "ErrChecksumIncorrect".
Proof.
  intros R Lf Dc Ll. destruct (firstn_split (32 * q) l ltac:(lia)) as (a & c & -> & La). rewrite app_length in Ll. assert (Lc : length c = q) by lia.
  pose proof (bits_val_range a) as Ra. pose proof (bits_val_range c) as Rc. replace (len a) with (8 * Z.of_nat (4 * q)) in Ra by (unfold len; lia). rewrite Z.pow_mul_r in Ra by lia. change (2 ^ 8) with 256 in Ra. replace (len c) with (Z.of_nat q) in Rc by (unfold len; lia).
  destruct (pad_big (bits_val a) (Z.of_nat (4 * q)) ltac:(lia) Ra) as (Le & Oe & Ve). set (e := padByteSlice (big_bytes (bits_val a)) (Z.of_nat (4 * q))) in *. destruct ((hd_sha sha256 sha_ok) e) as (h & r & Es & Hh). exists a, c, e, h, r.
  assert (Eb : bits e = a) by (apply bits_val_inj; [rewrite bits_len; unfold len in Le; lia|]; rewrite bits_set by exact Oe; exact Ve).
  split; [reflexivity|]. split; [exact La|]. split; [exact Lc|]. split; [unfold len in Le; lia|]. split; [exact Oe|]. split; [exact Eb|]. split; [exact Es|]. split; [exact Hh|].
  unfold EntropyFromMnemonic, splitMnemonicWords. replace (len (Fields m)) with (Z.of_nat (3 * q)) by (unfold len; lia). destruct (mask_q q R) as (M1 & M2 & M3). rewrite M2, Dc. cbn [rbind]. unfold len. rewrite Lf, M1. cbn [rbind].
  replace (2 ^ Z.of_nat q - 1 + 1) with (2 ^ Z.of_nat q) by lia. rewrite <- (Z.ones_equiv (Z.of_nat q)) || idtac. replace (2 ^ Z.of_nat q - 1) with (Z.ones (Z.of_nat q)) by (rewrite Z.ones_equiv; lia). rewrite Z.land_ones by lia. rewrite bits_val_app. replace (len c) with (Z.of_nat q) by (unfold len; lia).
  rewrite Z.div_add_l by lia. rewrite (Z.div_small (bits_val c)) by exact Rc. rewrite Z.add_0_r. rewrite (Z.add_comm (_ * _)), Z.mod_add, Z.mod_small by lia.
  replace (Z.quot (Z.of_nat (3 * q)) 3 * 4) with (Z.of_nat (4 * q)) by (replace (Z.of_nat (3 * q)) with (Z.of_nat q * 3) by lia; rewrite Z.quot_mul; lia). fold e. assert (I : index (sha256 e) 0 = Ok h) by (now rewrite Es). rewrite I. cbn [rbind]. rewrite M3. cbn [rbind]. rewrite <- (top_bits h q Hh) by lia.
  destruct (list_eq_dec bool_dec c (firstn q (byte_bits h))) as [Q|Q]; [rewrite Q, Z.eqb_refl; reflexivity|]. replace (bits_val c =? bits_val (firstn q (byte_bits h))) with false; [reflexivity|]. symmetry. apply Z.eqb_neq. intros V. apply Q. apply bits_val_inj; [|exact V]. rewrite firstn_length, byte_bits_len. lia.
Qed.
Lemma words_of_bits e q h r : length e = (4 * q)%nat -> (q <= 8)%nat -> sha256 e = h :: r -> words_of e = map (fun g => word g) (groups (3 * q) (bits e ++ firstn q (byte_bits h))).
Proof. intros L R E. unfold words_of, Bip39Proofs.checked. replace (length e / 4)%nat with q by (rewrite L, Nat.mul_comm, Nat.div_mul; lia). now rewrite ((firstn_sha sha256) e h r) by auto. Qed.

(** C59. *)
Lemma accepted_words m e : EntropyFromMnemonic sha256 W m = Ok e -> bytes_ok e /\ entropy_size (length e) /\ Fields m = words_of e.
Proof.
  intros E. pose proof E as E0. unfold EntropyFromMnemonic, splitMnemonicWords in E0. destruct (count_ok (len (Fields m))) eqn:C; [|discriminate]. destruct (count_q _ C) as (q & Lq & R). destruct (decode_words W (Fields m) 0) as [v| |] eqn:D; [|discriminate|discriminate]. clear E0.
  destruct ((decode_inv W W_len) _ _ _ D ltac:(lia)) as (l & Ll & M & V). rewrite Z.mul_0_l, Z.add_0_l in V. subst v. assert (Lf : length (Fields m) = (3 * q)%nat) by (unfold len in Lq; lia).
  destruct (efm m q l R Lf D ltac:(lia)) as (a & c & e' & h & r & -> & La & Lc & Le & Oe & Eb & Es & Hh & Ef). rewrite E in Ef. destruct (list_eq_dec bool_dec c (firstn q (byte_bits h))) as [Q|Q]; [|discriminate]. injection Ef as ->.
  split; [exact Oe|]. split; [unfold entropy_size; rewrite Le; cbn; lia|]. rewrite (words_of_bits e' q h r Le ltac:(lia) Es). rewrite Eb, <- Q, <- Lf. now symmetry.
Qed.
(** C58, up to how the sentence is cut into words. *)
Lemma decodes_back e m : bytes_ok e -> entropy_size (length e) -> Fields m = words_of e -> EntropyFromMnemonic sha256 W m = Ok e.
Proof.
  intros O S_ F. destruct (size_q e S_) as (q & L & D & R). pose proof ((checked_len sha256 sha_ok) e q L D ltac:(lia)) as Lc.
  assert (Dw : decode_words W (Fields m) 0 = Ok (bits_val (checked e))).
  { rewrite F. unfold words_of. rewrite D. rewrite (decode_groups W W_len W_nodup) by lia. f_equal. }
  assert (Lf : length (Fields m) = (3 * q)%nat) by (rewrite F, (proj2 (new_mnemonic e O S_)); lia).
  destruct (efm m q (checked e) R Lf Dw ltac:(lia)) as (a & c & e' & h & r & Ec & La & Lc' & Le & Oe & Eb & Es & Hh & Ef). rewrite Ef.
  assert (X : bits e = a /\ firstn q (bits (sha256 e)) = c) by (unfold checked in Ec; rewrite D in Ec; apply app_inj_len in Ec; [exact Ec|rewrite bits_len; lia]). destruct X as [X1 X2].
  assert (e' = e) by (apply set_bytes_inj; auto; [lia|]; rewrite <- !bits_set by auto; congruence). subst e'. rewrite ((firstn_sha sha256) e h r q Es) in X2 by lia. destruct (list_eq_dec bool_dec c (firstn q (byte_bits h))) as [Q|Q]; [reflexivity|congruence].
Qed.
End P.
