(** The nonce function follows RFC 6979. *)

From Verif Require Import GoBase BaseLemmas BigInt BigIntProofs SecpSpec SecpLink EcdsaModel EcdsaSpec.
Local Open Scope Z_scope.

Lemma len_length : forall (l : bytes), Z.of_nat (length l) = len l.
Proof. reflexivity. Qed.

Lemma octets_length : forall n x, length (octets n x) = n.
Proof.
  induction n as [ | n IH]; intro x; cbn [octets]; [reflexivity | ].
  rewrite app_length, IH. cbn. lia.
Qed.

Lemma octets_ok : forall n x, bytes_ok (octets n x).
Proof.
  induction n as [ | n IH]; intro x; cbn [octets]; [constructor | ].
  apply bytes_ok_app. split; [apply IH | ]. apply Forall_cons; [ | constructor].
  apply Z.mod_pos_bound. lia.
Qed.

Lemma octets_val : forall n x, set_bytes (octets n x) = x mod 256 ^ Z.of_nat n.
Proof.
  induction n as [ | n IH]; intro x; cbn [octets].
  - cbn. rewrite Z.mod_1_r. reflexivity.
  - rewrite set_bytes_app, IH. change (set_bytes [x mod 256]) with (0 * 256 + x mod 256).
    change (256 ^ len [x mod 256]) with 256.
    rewrite Nat2Z.inj_succ, Z.pow_succ_r by lia.
    assert (P : 0 < 256 ^ Z.of_nat n) by (apply Z.pow_pos_nonneg; lia).
    rewrite Z.rem_mul_r by lia. ring.
Qed.

Lemma set_bytes_inj : forall a b, bytes_ok a -> bytes_ok b -> length a = length b ->
  set_bytes a = set_bytes b -> a = b.
Proof.
  induction a as [ | x a IH]; intros [ | y b] Ha Hb L E; try discriminate L; [reflexivity | ].
  apply bytes_ok_cons in Ha, Hb. destruct Ha as [Hx Ha], Hb as [Hy Hb].
  rewrite !set_bytes_cons in E. injection L as L.
  assert (L' : len a = len b) by (unfold len; lia). rewrite <- L' in E.
  pose proof (set_bytes_nonneg a Ha). pose proof (set_bytes_lt a Ha).
  pose proof (set_bytes_nonneg b Hb). pose proof (set_bytes_lt b Hb) as B. rewrite <- L' in B.
  assert (x = y) by nia. subst y. f_equal. apply IH; try assumption. lia.
Qed.

Lemma octets_set : forall b, bytes_ok b -> octets (length b) (set_bytes b) = b.
Proof.
  intros b Hb. apply set_bytes_inj; [apply octets_ok | exact Hb | apply octets_length | ].
  rewrite octets_val, len_length. apply Z.mod_small.
  split; [apply set_bytes_nonneg; exact Hb | apply set_bytes_lt; exact Hb].
Qed.

Lemma set_bytes_zeros : forall n b, set_bytes (repeat 0 n ++ b) = set_bytes b.
Proof.
  intros n b. rewrite set_bytes_app.
  assert (E : set_bytes (repeat 0 n) = 0).
  { induction n as [ | n IH]; [reflexivity | ]. cbn [repeat]. rewrite set_bytes_cons, IH. lia. }
  rewrite E. lia.
Qed.

Lemma bytes_ok_zeros : forall n, bytes_ok (repeat 0 n).
Proof. induction n; cbn; constructor; [split; lia | assumption]. Qed.

(** The padded form, in general. *)
Lemma padded_octets : forall x n, 0 <= x -> len (big_bytes x) <= Z.of_nat n ->
  repeat 0 (n - length (big_bytes x)) ++ big_bytes x = octets n x.
Proof.
  intros x n Hx L. unfold len in L. apply set_bytes_inj.
  - apply bytes_ok_app. split; [apply bytes_ok_zeros | apply big_bytes_ok].
  - apply octets_ok.
  - rewrite octets_length, app_length, repeat_length. lia.
  - rewrite set_bytes_zeros, octets_val, big_bytes_set by exact Hx. symmetry.
    apply Z.mod_small. split; [exact Hx | ].
    pose proof (set_bytes_lt (big_bytes x) (big_bytes_ok x)) as B.
    rewrite big_bytes_set in B by exact Hx.
    apply (Z.lt_le_trans _ _ _ B). apply Z.pow_le_mono_r; unfold len; lia.
Qed.

Lemma int2octets_spec : forall v n, 0 <= v -> int2octets v (Z.of_nat n) = octets n v.
Proof.
  intros v n Hv. unfold int2octets. pose proof (len_nonneg (big_bytes v)) as LN.
  destruct (len (big_bytes v) <? Z.of_nat n) eqn:A; [ | destruct (Z.of_nat n <? len (big_bytes v)) eqn:B].
  - apply Z.ltb_lt in A. rewrite <- padded_octets by lia.
    f_equal. f_equal. unfold len in *. lia.
  - apply Z.ltb_lt in B. apply set_bytes_inj.
    + apply bytes_ok_skipn, big_bytes_ok.
    + apply octets_ok.
    + rewrite octets_length, skipn_length. unfold len in *. lia.
    + rewrite octets_val. pose proof (big_bytes_set v Hv) as EV.
      set (b := big_bytes v) in *. set (m := Z.to_nat (len b - Z.of_nat n)).
      rewrite <- EV. replace (set_bytes b) with (set_bytes (firstn m b ++ skipn m b))
        by (rewrite firstn_skipn; reflexivity). rewrite set_bytes_app.
      assert (L : len (skipn m b) = Z.of_nat n).
      { unfold len in *. rewrite skipn_length. unfold m. lia. }
      rewrite L, Z.add_comm, Z_mod_plus_full. symmetry. apply Z.mod_small.
      assert (O : bytes_ok (skipn m b)) by (apply bytes_ok_skipn, big_bytes_ok).
      split; [apply set_bytes_nonneg; exact O | ].
      rewrite <- L. apply set_bytes_lt. exact O.
  - apply Z.ltb_ge in A, B. rewrite <- padded_octets by lia.
    replace (n - length (big_bytes v))%nat with 0%nat by (unfold len in *; lia). reflexivity.
Qed.

Lemma bits2int_spec : forall b qlen, bits2int b qlen = bits_to_int qlen b.
Proof.
  intros b qlen. unfold bits2int, bits_to_int. rewrite be_set_bytes, len_length, (Z.mul_comm 8).
  destruct (qlen <? len b * 8) eqn:A.
  - apply Z.ltb_lt in A. rewrite Z.shiftr_div_pow2, Z.max_r by lia. reflexivity.
  - apply Z.ltb_ge in A. rewrite Z.max_l by lia. rewrite Z.pow_0_r, Z.div_1_r. reflexivity.
Qed.

Lemma bits_to_int_range : forall b qlen, bytes_ok b -> 0 <= qlen ->
  0 <= bits_to_int qlen b < 2 ^ qlen.
Proof.
  intros b qlen Hb Hq. unfold bits_to_int. rewrite be_set_bytes, len_length.
  pose proof (set_bytes_nonneg b Hb) as A. pose proof (set_bytes_lt b Hb) as B.
  pose proof (len_nonneg b) as LN.
  set (m := Z.max 0 (8 * len b - qlen)).
  assert (M : 0 < 2 ^ m) by (apply Z.pow_pos_nonneg; lia).
  split; [apply Z.div_pos; lia | ].
  apply Z.div_lt_upper_bound; [exact M | ]. apply (Z.lt_le_trans _ _ _ B).
  rewrite <- Z.pow_add_r by lia. change 256 with (2 ^ 8). rewrite <- Z.pow_mul_r by lia.
  apply Z.pow_le_mono_r; lia.
Qed.

(** What bit_len means. *)
Lemma bit_len_bounds : forall q, 0 < q ->
  0 < bit_len q /\ 2 ^ (bit_len q - 1) <= q < 2 ^ bit_len q.
Proof.
  intros q Hq. unfold bit_len. destruct (q =? 0) eqn:E; [apply Z.eqb_eq in E; lia | ].
  rewrite Z.abs_eq by lia. pose proof (Z.log2_nonneg q). pose proof (Z.log2_spec q Hq) as S.
  replace (Z.log2 q + 1 - 1) with (Z.log2 q) by lia.
  replace (Z.log2 q + 1) with (Z.succ (Z.log2 q)) by lia. split; [lia | exact S].
Qed.

Lemma bit_len_unique : forall q qlen, 2 ^ (qlen - 1) <= q < 2 ^ qlen -> 0 < qlen -> bit_len q = qlen.
Proof.
  intros q qlen B Hl. assert (P : 0 < 2 ^ (qlen - 1)) by (apply Z.pow_pos_nonneg; lia).
  unfold bit_len. destruct (q =? 0) eqn:E; [apply Z.eqb_eq in E; lia | ].
  rewrite Z.abs_eq by lia.
  rewrite (Z.log2_unique q (qlen - 1)); [lia | lia | ].
  replace (Z.succ (qlen - 1)) with qlen by lia. exact B.
Qed.

Lemma ceil8 : forall a, Z.shiftr (a + 7) 3 = ceil_div a 8.
Proof.
  intro a. rewrite Z.shiftr_div_pow2 by lia. change (2 ^ 3) with 8. unfold ceil_div.
  pose proof (Z.div_mod (a + 7) 8 ltac:(lia)). pose proof (Z.mod_pos_bound (a + 7) 8 ltac:(lia)).
  pose proof (Z.div_mod (- a) 8 ltac:(lia)). pose proof (Z.mod_pos_bound (- a) 8 ltac:(lia)). lia.
Qed.

Lemma ceil_nonneg : forall a b, 0 <= a -> 0 < b -> 0 <= ceil_div a b.
Proof.
  intros a b Ha Hb. unfold ceil_div.
  pose proof (Z.div_mod (- a) b ltac:(lia)). pose proof (Z.mod_pos_bound (- a) b ltac:(lia)). nia.
Qed.

Lemma rlen_eq : forall qlen, 0 < qlen -> Z.shiftr (qlen + 7) 3 = Z.of_nat (rlen qlen).
Proof.
  intros qlen H. unfold rlen. rewrite ceil8, Z2Nat.id; [reflexivity | ].
  apply ceil_nonneg; lia.
Qed.

Lemma bits2octets_spec : forall b q qlen, bytes_ok b -> 0 < qlen ->
  2 ^ (qlen - 1) <= q < 2 ^ qlen ->
  bits2octets b q qlen (Z.shiftr (qlen + 7) 3) = bits_to_octets q qlen b.
Proof.
  intros b q qlen Hb Hl Hq. unfold bits2octets, bits_to_octets. rewrite rlen_eq by exact Hl.
  rewrite bits2int_spec. pose proof (bits_to_int_range b qlen Hb ltac:(lia)) as R.
  assert (D : 2 ^ qlen = 2 * 2 ^ (qlen - 1)).
  { rewrite <- Z.pow_succ_r by lia. f_equal. lia. }
  assert (P : 0 < 2 ^ (qlen - 1)) by (apply Z.pow_pos_nonneg; lia).
  destruct (bits_to_int qlen b - q <? 0) eqn:A.
  - apply Z.ltb_lt in A. rewrite int2octets_spec by lia. f_equal. symmetry.
    apply Z.mod_small. lia.
  - apply Z.ltb_ge in A. rewrite int2octets_spec by lia. f_equal.
    apply Z.mod_unique with (q := 1); lia.
Qed.

Section Loop.
Variable H : bytes -> bytes -> bytes.
Hypothesis H_len : forall k m, length (H k m) = 32%nat.

Lemma rfc_t_len : forall K V n, length (rfc_t H K V n) = (32 * n)%nat.
Proof.
  intros K V n. induction n as [ | n IH]; [reflexivity | ].
  cbn [rfc_t]. rewrite app_length, IH. cbn [rfc_v]. rewrite H_len. lia.
Qed.

Lemma stepH2_ok : forall d f n want K V, (d <= f)%nat ->
  (forall m, (m < d)%nat -> 32 * Z.of_nat (n + m) < want) -> want <= 32 * Z.of_nat (n + d) ->
  stepH2 H f K (rfc_v H K V n) (rfc_t H K V n) want
  = (rfc_v H K V (n + d), rfc_t H K V (n + d)).
Proof.
  induction d as [ | d IH]; intros f n want K V Hf Hlt Hge.
  - rewrite Nat.add_0_r in *. destruct f as [ | f]; [reflexivity | ]. cbn [stepH2].
    destruct (_ <? want) eqn:A; [ | reflexivity]. apply Z.ltb_lt in A.
    unfold len in A. rewrite rfc_t_len in A. lia.
  - destruct f as [ | f]; [lia | ]. cbn [stepH2].
    replace (len (rfc_t H K V n) <? want) with true.
    + change (mac H K (rfc_v H K V n)) with (rfc_v H K V (S n)).
      change (rfc_t H K V n ++ rfc_v H K V (S n)) with (rfc_t H K V (S n)).
      rewrite IH; [replace (S n + d)%nat with (n + S d)%nat by lia; reflexivity | lia | | ].
      * intros m Hm. replace (S n + m)%nat with (n + S m)%nat by lia. apply Hlt. lia.
      * replace (S n + d)%nat with (n + S d)%nat by lia. exact Hge.
    + symmetry. apply Z.ltb_lt. unfold len. rewrite rfc_t_len.
      specialize (Hlt 0%nat ltac:(lia)). rewrite Nat.add_0_r in Hlt. lia.
Qed.

Lemma blocks_ok : forall qlen, 0 < qlen -> qlen mod 256 = 0 \/ 8 <= qlen mod 256 ->
  (forall m, (m < rfc_blocks qlen)%nat -> 32 * Z.of_nat m < qlen / 8) /\
  qlen / 8 <= 32 * Z.of_nat (rfc_blocks qlen) /\ (rfc_blocks qlen <= Z.to_nat (qlen / 8))%nat.
Proof.
  intros qlen Hl Hm. unfold rfc_blocks.
  pose proof (ceil_nonneg qlen 256 ltac:(lia) ltac:(lia)) as C.
  set (n := ceil_div qlen 256) in *.
  assert (B : 256 * (n - 1) < qlen <= 256 * n).
  { unfold n, ceil_div. pose proof (Z.div_mod (- qlen) 256 ltac:(lia)).
    pose proof (Z.mod_pos_bound (- qlen) 256 ltac:(lia)). lia. }
  pose proof (Z.div_mod qlen 8 ltac:(lia)) as D8. pose proof (Z.mod_pos_bound qlen 8 ltac:(lia)) as M8.
  pose proof (Z.div_mod qlen 256 ltac:(lia)) as D. pose proof (Z.mod_pos_bound qlen 256 ltac:(lia)) as M.
  assert (G : 32 * (n - 1) < qlen / 8).
  { destruct Hm as [Hm | Hm]; [ | ].
    - assert (qlen / 256 = n) by lia. nia.
    - assert (qlen / 256 = n - 1) by nia. nia. }
  split; [intros m Lm; lia | ]. split; lia.
Qed.

Lemma stepH2_rfc : forall qlen K V, 0 < qlen -> qlen mod 256 = 0 \/ 8 <= qlen mod 256 ->
  stepH2 H (Z.to_nat (qlen / 8)) K V [] (qlen / 8)
  = (rfc_v H K V (rfc_blocks qlen), rfc_t H K V (rfc_blocks qlen)).
Proof.
  intros qlen K V Hl Hm. destruct (blocks_ok qlen Hl Hm) as (A & B & C).
  apply (stepH2_ok (rfc_blocks qlen) _ 0); [exact C | | exact B].
  intros m Lm. apply A. exact Lm.
Qed.

Variable q qlen : Z.
Hypothesis Hl : 0 < qlen.
Hypothesis Hm : qlen mod 256 = 0 \/ 8 <= qlen mod 256.
Variable x : Z.
Variable h1 : bytes.

Lemma stepH_unfold : forall f i,
  stepH H (S f) q qlen (fst (rfc_state H q qlen x h1 i)) (snd (rfc_state H q qlen x h1 i))
  = if (1 <=? rfc_candidate H q qlen x h1 i) && (rfc_candidate H q qlen x h1 i <? q)
    then Some (rfc_candidate H q qlen x h1 i)
    else stepH H f q qlen (fst (rfc_state H q qlen x h1 (S i))) (snd (rfc_state H q qlen x h1 (S i))).
Proof.
  intros f i. cbn [stepH]. rewrite stepH2_rfc by assumption. cbn [rfc_state]. 
  unfold rfc_candidate. destruct (rfc_state H q qlen x h1 i) as [K V]. cbn [fst snd].
  rewrite bits2int_spec. reflexivity.
Qed.

Lemma stepH_sound : forall f i k,
  stepH H f q qlen (fst (rfc_state H q qlen x h1 i)) (snd (rfc_state H q qlen x h1 i)) = Some k ->
  (forall j, (j < i)%nat -> ~ 1 <= rfc_candidate H q qlen x h1 j < q) ->
  exists n, (n < i + f)%nat /\ rfc_nonce H q qlen x h1 n k.
Proof.
  induction f as [ | f IH]; intros i k E Hj; [discriminate E | ].
  rewrite stepH_unfold in E. destruct (_ && _) eqn:C.
  - exists i. split; [lia | ]. apply andb_true_iff in C. destruct C as [C1 C2].
    apply Z.leb_le in C1. apply Z.ltb_lt in C2. injection E as E.
    split; [congruence | ]. split; [rewrite <- E; lia | exact Hj].
  - apply IH in E.
    + destruct E as (n & Ln & E). exists n. split; [lia | exact E].
    + intros j Lj. destruct (Nat.eq_dec j i) as [-> | N]; [ | apply Hj; lia].
      intros [R1 R2]. apply Z.leb_le in R1. apply Z.ltb_lt in R2. rewrite R1, R2 in C. discriminate C.
Qed.

Lemma stepH_complete : forall d f i k, (d < f)%nat ->
  rfc_nonce H q qlen x h1 (i + d) k ->
  stepH H f q qlen (fst (rfc_state H q qlen x h1 i)) (snd (rfc_state H q qlen x h1 i)) = Some k.
Proof.
  induction d as [ | d IH]; intros f i k Hf (E & R & N); (destruct f as [ | f]; [lia | ]);
    rewrite stepH_unfold.
  - rewrite Nat.add_0_r in E. rewrite <- E.
    replace ((1 <=? k) && (k <? q)) with true; [reflexivity | ].
    symmetry. apply andb_true_iff. split; [apply Z.leb_le | apply Z.ltb_lt]; lia.
  - destruct (_ && _) eqn:C.
    + exfalso. apply andb_true_iff in C. destruct C as [C1 C2].
      apply Z.leb_le in C1. apply Z.ltb_lt in C2. apply (N i); lia.
    + apply IH; [lia | ]. replace (S i + d)%nat with (i + S d)%nat by lia.
      split; [exact E | ]. split; [exact R | exact N].
Qed.
End Loop.

Lemma nonce_start : forall H fuel q x hash, 0 < q -> 0 <= x -> bytes_ok hash ->
  NonceRFC6979 H fuel q x hash
  = stepH H fuel q (bit_len q) (fst (rfc_state H q (bit_len q) x hash 0))
      (snd (rfc_state H q (bit_len q) x hash 0)).
Proof.
  intros H fuel q x hash Hq Hx Hh. unfold NonceRFC6979.
  destruct (bit_len_bounds q Hq) as [L B]. cbn [rfc_state].
  rewrite bits2octets_spec by assumption. rewrite rlen_eq, int2octets_spec by assumption.
  unfold rfc_start, mac. rewrite <- !app_assoc. reflexivity.
Qed.

Lemma stepH_range : forall H f q qlen k v n, stepH H f q qlen k v = Some n -> 1 <= n < q.
Proof.
  induction f as [ | f IH]; intros q qlen k v n E; [discriminate E | ].
  cbn [stepH] in E. destruct (stepH2 H _ k v [] _) as [v' t].
  destruct (_ && _) eqn:C; [ | apply (IH _ _ _ _ _ E)].
  apply andb_true_iff in C. destruct C as [C1 C2].
  apply Z.leb_le in C1. apply Z.ltb_lt in C2. injection E as <-. lia.
Qed.
