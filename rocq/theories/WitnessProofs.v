(** Bit regrouping and witness addresses. *)
From Verif Require Import GoBase BaseLemmas Bech32Model Bech32Spec Bech32Poly Bech32Proofs WitnessModel.
From Coq Require Import ZifyBool ZifyNat.

(** The low [n] bits of [v], most significant first. *)
Fixpoint bits_be (n : nat) (v : Z) : list bool :=
  match n with O => [] | S n' => Z.testbit v (Z.of_nat n') :: bits_be n' v end.
Definition bits_of (n : nat) (l : bytes) : list bool := flat_map (bits_be n) l.

Lemma bits_be_length n v : length (bits_be n v) = n.
Proof. induction n; cbn [bits_be length]; auto. Qed.
Lemma bits_of_length n l : length (bits_of n l) = (n * length l)%nat.
Proof. induction l; cbn [bits_of flat_map length]; [lia|]. rewrite app_length, bits_be_length. fold (bits_of n l). lia. Qed.
Lemma bits_of_app n a b : bits_of n (a ++ b) = bits_of n a ++ bits_of n b.
Proof. apply flat_map_app. Qed.
Lemma bits_be_ext n v w : (forall i, 0 <= i < Z.of_nat n -> Z.testbit v i = Z.testbit w i) -> bits_be n v = bits_be n w.
Proof.
  induction n as [|n IH]; intros H; cbn [bits_be]; [reflexivity|]. rewrite (H (Z.of_nat n)) by lia. f_equal.
  apply IH. intros i Hi. apply H. lia.
Qed.
Lemma bits_be_split a b v : bits_be (a + b) v = bits_be a (Z.shiftr v (Z.of_nat b)) ++ bits_be b v.
Proof.
  induction a as [|a IH]; cbn [bits_be Nat.add app]; [reflexivity|]. rewrite IH. f_equal. rewrite Z.shiftr_spec by lia. f_equal. lia.
Qed.
Lemma bits_be_inj n v w : 0 <= v < 2 ^ Z.of_nat n -> 0 <= w < 2 ^ Z.of_nat n -> bits_be n v = bits_be n w -> v = w.
Proof.
  intros Hv Hw E. assert (H : forall i, 0 <= i < Z.of_nat n -> Z.testbit v i = Z.testbit w i).
  { clear Hv Hw. induction n as [|n IH]; intros i Hi; [lia|]. cbn [bits_be] in E. inversion E as [[E1 E2]].
    destruct (Z.eq_dec i (Z.of_nat n)) as [->|]; [exact E1|]. apply IH; [exact E2|lia]. }
  apply Z.bits_inj'. intros i Hi. destruct (Z.ltb_spec i (Z.of_nat n)); [apply H; lia|].
  rewrite (bits_ge (Z.of_nat n) v), (bits_ge (Z.of_nat n) w) by (assumption || lia). reflexivity.
Qed.
Lemma bits_of_inj n a b : (0 < n)%nat -> Forall (fun v => 0 <= v < 2 ^ Z.of_nat n) a -> Forall (fun v => 0 <= v < 2 ^ Z.of_nat n) b ->
  bits_of n a = bits_of n b -> a = b.
Proof.
  intros Hn Ha; revert b; induction Ha as [|v a Hv _ IH]; intros [|w b] Hb E; [reflexivity| | |].
  - apply (f_equal (@length bool)) in E. rewrite !bits_of_length in E. cbn [length] in E. nia.
  - apply (f_equal (@length bool)) in E. rewrite !bits_of_length in E. cbn [length] in E. nia.
  - inversion Hb as [|? ? Hw Hb']; subst. cbn [bits_of flat_map] in E. apply app_inj_len in E; [|now rewrite !bits_be_length].
    destruct E as [E1 E2]. f_equal; [now apply (bits_be_inj n)|]. now apply IH.
Qed.
Lemma bits_be_zero n v : bits_be n v = repeat false n <-> (forall i, 0 <= i < Z.of_nat n -> Z.testbit v i = false).
Proof.
  induction n as [|n IH]; cbn [bits_be repeat]; split; intros H; [lia|reflexivity| |].
  - injection H as H1 H2. intros i Hi. destruct (Z.eq_dec i (Z.of_nat n)) as [->|]; [exact H1|]. apply IH; [exact H2|lia].
  - f_equal; [apply H; lia|]. apply IH. intros i Hi. apply H. lia.
Qed.

Lemma i64_bits x i : 0 <= i < 63 -> Z.testbit (i64 x) i = Z.testbit x i.
Proof.
  intros Hi. unfold i64.
  assert (E : forall y, Z.testbit (y - 2 ^ 63) i = Z.testbit y i).
  { intros y. rewrite <- (Z.mod_pow2_bits_low (y - 2 ^ 63) 63 i), <- (Z.mod_pow2_bits_low y 63 i) by lia. f_equal.
    replace (y - 2 ^ 63) with (y + (-1) * 2 ^ 63) by lia. apply Z.mod_add. lia. }
  rewrite E, Z.mod_pow2_bits_low by lia. rewrite <- E. f_equal. lia.
Qed.

(** Parameters of one conversion. *)
Section Conv.
Context (fb tb : nat) (Hf : (1 <= fb <= 8)%nat) (Ht : (5 <= tb <= 8)%nat).
Let from := Z.of_nat fb.
Let to := Z.of_nat tb.
Let maxv := Z.shiftl 1 to - 1.
Let maxAcc := Z.shiftl 1 (from + to - 1) - 1.

Lemma maxv_ones : maxv = Z.ones to.
Proof. unfold maxv, Z.ones. rewrite Z.shiftl_1_l. lia. Qed.
Lemma maxAcc_ones : maxAcc = Z.ones (from + to - 1).
Proof. unfold maxAcc, Z.ones. rewrite Z.shiftl_1_l. lia. Qed.

Lemma out_range x : 0 <= u8 (Z.land x maxv) < 2 ^ to /\ u8 (Z.land x maxv) = Z.land x maxv.
Proof.
  rewrite maxv_ones, Z.land_ones by lia. pose proof (Z.mod_pos_bound x (2 ^ to)).
  assert (0 < 2 ^ to) by (apply Z.pow_pos_nonneg; lia). assert (2 ^ to <= 2 ^ 8) by (apply Z.pow_le_mono_r; lia).
  change (2 ^ 8) with 256 in *. rewrite u8_id by lia. lia.
Qed.
Lemma out_bits x : bits_be tb (u8 (Z.land x maxv)) = bits_be tb x.
Proof.
  rewrite (proj2 (out_range x)). apply bits_be_ext. intros i Hi. rewrite Z.land_spec, maxv_ones, Z.ones_spec_low by lia. apply andb_true_r.
Qed.

Lemma emit_spec f acc n ret : (n < tb + f)%nat -> Forall (fun v => 0 <= v < 2 ^ to) ret -> exists n' ret',
  emit f acc (Z.of_nat n) to maxv ret = (Z.of_nat n', ret') /\ (n' < tb)%nat /\
  bits_of tb ret' ++ bits_be n' acc = bits_of tb ret ++ bits_be n acc /\ Forall (fun v => 0 <= v < 2 ^ to) ret'.
Proof.
  revert n ret; induction f as [|f IH]; intros n ret Hn Hr; cbn [emit].
  - exists n, ret. repeat split; auto; lia.
  - destruct (to <=? Z.of_nat n) eqn:E.
    + replace (Z.of_nat n - to) with (Z.of_nat (n - tb)) by lia. 
      destruct (IH (n - tb)%nat (ret ++ [u8 (Z.land (Z.shiftr acc (Z.of_nat (n - tb))) maxv)])) as (n' & ret' & A & B & C & D).
      * lia.
      * apply Forall_app; split; [exact Hr|]. constructor; [apply out_range|constructor].
      * exists n', ret'. split; [exact A|]. split; [exact B|]. split; [|exact D]. rewrite C.
        rewrite bits_of_app, <- app_assoc. f_equal. cbn [bits_of flat_map]. rewrite app_nil_r, out_bits.
        replace n with (tb + (n - tb))%nat at 3 by lia. symmetry. apply bits_be_split.
    + exists n, ret. repeat split; auto; lia.
Qed.

Lemma acc_bits acc v n i : 0 <= v < 2 ^ from -> (n < tb)%nat -> 0 <= i < Z.of_nat (n + fb) ->
  Z.testbit (i64 (Z.lor (Z.shiftl acc from) (Z.land v maxAcc))) i = if i <? from then Z.testbit v i else Z.testbit acc (i - from).
Proof.
  intros Hv Hn Hi. rewrite i64_bits by lia. rewrite Z.lor_spec, Z.land_spec.
  destruct (i <? from) eqn:E.
  - rewrite Z.shiftl_spec_low by lia. cbn [orb]. rewrite maxAcc_ones, Z.ones_spec_low by lia. apply andb_true_r.
  - rewrite (bits_ge from v) by (assumption || lia). rewrite andb_false_l, orb_false_r. apply Z.shiftl_spec. lia.
Qed.

Lemma convert_loop_spec data acc n ret : Forall (fun v => 0 <= v < 2 ^ from) data -> (n < tb)%nat -> Forall (fun v => 0 <= v < 2 ^ to) ret ->
  exists acc' n' ret', convert_loop data from to maxv maxAcc acc (Z.of_nat n) ret = (acc', Z.of_nat n', ret') /\ (n' < tb)%nat /\
  bits_of tb ret' ++ bits_be n' acc' = bits_of tb ret ++ bits_be n acc ++ bits_of fb data /\ Forall (fun v => 0 <= v < 2 ^ to) ret'.
Proof.
  intros Hd; revert acc n ret; induction Hd as [|v data Hv _ IH]; intros acc n ret Hn Hr; cbn [convert_loop].
  - exists acc, n, ret. cbn [bits_of flat_map]. rewrite app_nil_r. auto.
  - set (acc1 := i64 _). replace (Z.of_nat n + from) with (Z.of_nat (n + fb)) by lia.
    destruct (emit_spec 16 acc1 (n + fb) ret) as (n1 & ret1 & E & L & B & R); [lia|exact Hr|]. rewrite E.
    destruct (IH acc1 n1 ret1 L R) as (acc2 & n2 & ret2 & E2 & L2 & B2 & R2).
    exists acc2, n2, ret2. split; [exact E2|]. split; [exact L2|]. split; [|exact R2].
    rewrite B2, app_assoc, B, <- !app_assoc. f_equal. cbn [bits_of flat_map]. rewrite app_assoc. f_equal.
    rewrite bits_be_split. f_equal.
    + apply bits_be_ext. intros i Hi. rewrite Z.shiftr_spec by lia. unfold acc1. rewrite (acc_bits acc v n) by (assumption || lia).
      replace (i + Z.of_nat fb <? from) with false by lia. f_equal. lia.
    + apply bits_be_ext. intros i Hi. unfold acc1. rewrite (acc_bits acc v n) by (assumption || lia).
      replace (i <? from) with true by lia. reflexivity.
Qed.

(** The padded final group. *)
Lemma pad_bits acc n : (0 < n < tb)%nat -> bits_be tb (u8 (Z.land (i64 (Z.shiftl acc (to - Z.of_nat n))) maxv)) = bits_be n acc ++ repeat false (tb - n).
Proof.
  intros Hn. rewrite out_bits. replace tb with (n + (tb - n))%nat at 1 by lia. rewrite bits_be_split. f_equal.
  - apply bits_be_ext. intros i Hi. rewrite Z.shiftr_spec, i64_bits, Z.shiftl_spec by lia. f_equal. lia.
  - apply bits_be_zero. intros i Hi. rewrite i64_bits by lia. apply Z.shiftl_spec_low. lia.
Qed.
Lemma tail_zero acc n : (n < tb)%nat -> (Z.land (i64 (Z.shiftl acc (to - Z.of_nat n))) maxv =? 0) = true <-> bits_be n acc = repeat false n.
Proof.
  intros Hn. rewrite Z.eqb_eq, bits_be_zero. split.
  - intros E i Hi. assert (B : Z.testbit (Z.land (i64 (Z.shiftl acc (to - Z.of_nat n))) maxv) (i + (to - Z.of_nat n)) = false) by (rewrite E; apply Z.bits_0).
    rewrite Z.land_spec, maxv_ones, Z.ones_spec_low, andb_true_r, i64_bits, Z.shiftl_spec in B by lia. rewrite <- B. f_equal. lia.
  - intros H. apply Z.bits_inj'. intros i Hi. rewrite Z.bits_0, Z.land_spec, maxv_ones.
    destruct (Z.ltb_spec i to); [|rewrite Z.ones_spec_high by lia; apply andb_false_r].
    rewrite i64_bits by lia. destruct (Z.ltb_spec i (to - Z.of_nat n)); [now rewrite Z.shiftl_spec_low by lia|].
    rewrite Z.shiftl_spec by lia. rewrite H by lia. reflexivity.
Qed.
End Conv.

Lemma to5 p : bytes_ok p -> exists d k, convertBits p 8 5 true = Ok d /\ five_bit d /\
  bits_of 5 d = bits_of 8 p ++ repeat false k /\ (k < 5)%nat.
Proof.
  intros Hp. unfold convertBits.
  destruct (convert_loop_spec 8 5 ltac:(lia) ltac:(lia) p 0 0 []) as (acc & n & ret & E & L & B & R); [exact Hp|lia|constructor|].
  change (Z.of_nat 8) with 8 in *. change (Z.of_nat 5) with 5 in *. change (Z.of_nat 0) with 0 in *.
  cbv zeta. rewrite E. cbn [app bits_of flat_map bits_be] in B.
  destruct (0 <? Z.of_nat n) eqn:Hn.
  - exists (ret ++ [u8 (Z.land (i64 (Z.shiftl acc (5 - Z.of_nat n))) (Z.shiftl 1 5 - 1))]), (5 - n)%nat.
    split; [reflexivity|]. split; [apply Forall_app; split; [exact R|apply Forall_cons; [exact (proj1 (out_range 8 5 ltac:(lia) ltac:(lia) _))|apply Forall_nil]]|].
    split; [|lia]. rewrite bits_of_app. cbn [bits_of flat_map]. rewrite app_nil_r.
    pose proof (pad_bits 8 5 ltac:(lia) ltac:(lia) acc n ltac:(lia)) as P. change (Z.of_nat 5) with 5 in P. rewrite P.
    rewrite app_assoc. f_equal. exact B.
  - exists ret, O. split; [reflexivity|]. split; [exact R|]. split; [|lia]. cbn [repeat]. rewrite app_nil_r. replace n with O in B by lia.
    cbn [bits_be] in B. rewrite app_nil_r in B. exact B.
Qed.

Lemma to8 p d k : bytes_ok p -> five_bit d -> bits_of 5 d = bits_of 8 p ++ repeat false k -> (k < 5)%nat ->
  convertBits d 5 8 false = Ok p.
Proof.
  intros Hp Hd E5 Hk. unfold convertBits.
  destruct (convert_loop_spec 5 8 ltac:(lia) ltac:(lia) d 0 0 []) as (acc & n & ret & E & L & B & R); [exact Hd|lia|constructor|].
  change (Z.of_nat 8) with 8 in *. change (Z.of_nat 5) with 5 in *. change (Z.of_nat 0) with 0 in *.
  cbv zeta. rewrite E. rewrite E5 in B. cbn [app bits_of flat_map bits_be] in B. fold (bits_of 8 ret) in B. fold (bits_of 8 p) in B.
  assert (Ln : (length ret = length p /\ n = k)%nat).
  { apply (f_equal (@length bool)) in B. rewrite !app_length, !bits_of_length, bits_be_length, repeat_length in B. lia. }
  destruct Ln as [Lr ->]. apply app_inj_len in B; [|rewrite !bits_of_length; lia]. destruct B as [B1 B2].
  apply (bits_of_inj 8) in B1; [|lia|exact R|exact Hp]. subst ret.
  replace (5 <=? Z.of_nat k) with false by lia.
  pose proof (tail_zero 5 8 ltac:(lia) ltac:(lia) acc k ltac:(lia)) as T. change (Z.of_nat 8) with 8 in T.
  rewrite (proj2 T) by exact B2. reflexivity.
Qed.

Lemma convert_no_panic d f t pad : convertBits d f t pad <> Panic.
Proof.
  unfold convertBits. destruct (convert_loop _ _ _ _ _ _ _ _) as [[acc bits] ret].
  destruct pad; [destruct (0 <? bits); discriminate|]. destruct (f <=? bits); [discriminate|]. destruct (negb _); discriminate.
Qed.

Lemma witness_roundtrip h v p s : hrp_ok h -> 0 <= v < 32 -> bytes_ok p -> WitnessEncode h v p = Ok s -> len s <= 90 ->
  WitnessDecode s = Ok (h, v, p).
Proof.
  intros Hh Hv Hp E Hl. destruct (to5 p Hp) as (d & k & Ed & Fd & Bd & Hk).
  unfold WitnessEncode in E. rewrite Ed in E. cbn [rbind] in E.
  assert (Fvd : five_bit ([v] ++ d)) by (constructor; assumption).
  pose proof (encode_ok h _ Fvd) as Ee. assert (s = encoding h ([v] ++ d)) by congruence.
  assert (Hd : Bech32Decode s = Ok (h, [v] ++ d)).
  { apply (encode_then_decode h _ s Hh Fvd); [|exact E]. rewrite H, encoding_len in Hl. lia. }
  unfold WitnessDecode. rewrite Hd. cbn [rbind].
  replace (slice ([v] ++ d) 1 (len ([v] ++ d))) with (Ok d). 
  2:{ rewrite len_app. change 1 with (len [v]) at 1. symmetry. apply slice_app_r. }
  cbn [rbind]. rewrite (to8 p d k) by assumption. reflexivity.
Qed.

Lemma witness_encode_ok h v p : 0 <= v < 32 -> bytes_ok p -> exists s, WitnessEncode h v p = Ok s /\
  5 * (len s - len h - 8) < 8 * len p + 5 /\ 8 * len p <= 5 * (len s - len h - 8).
Proof.
  intros Hv Hp. destruct (to5 p Hp) as (d & k & Ed & Fd & Bd & Hk). unfold WitnessEncode. rewrite Ed. cbn [rbind].
  rewrite encode_ok by (constructor; assumption). eexists; split; [reflexivity|]. rewrite encoding_len. len_simpl.
  apply (f_equal (@length bool)) in Bd. rewrite app_length, !bits_of_length, repeat_length in Bd. unfold len. lia.
Qed.

Lemma witness_panics_iff s : WitnessDecode s = Panic <-> exists h, Bech32Decode s = Ok (h, []).
Proof.
  unfold WitnessDecode. destruct (Bech32Decode s) as [[h d]|e|] eqn:E; cbn [rbind].
  - destruct d as [|v d].
    + split; [eauto|reflexivity].
    + replace (slice (v :: d) 1 (len (v :: d))) with (Ok d).
      2:{ change (v :: d) with ([v] ++ d). rewrite len_app. change 1 with (len [v]) at 1. symmetry. apply slice_app_r. }
      cbn [rbind]. pose proof (convert_no_panic d 5 8 false). destruct (convertBits d 5 8 false); cbn [rbind]; try congruence.
      * change (index (v :: d) 0) with (Ok v). cbn [rbind]. split; [discriminate|]. intros (h' & A). discriminate.
      * split; [discriminate|]. intros (h' & A). discriminate.
  - split; [discriminate|]. intros (h & A). discriminate.
  - now elim (decode_no_panic s).
Qed.

(** The only five-bit text accepted for a program is its own regrouping. *)
Lemma from8 d p : five_bit d -> convertBits d 5 8 false = Ok p -> bytes_ok p /\ convertBits p 8 5 true = Ok d.
Proof.
  intros Hd. unfold convertBits at 1.
  destruct (convert_loop_spec 5 8 ltac:(lia) ltac:(lia) d 0 0 []) as (acc & n & ret & E & L & B & R); [exact Hd|lia|constructor|].
  change (Z.of_nat 8) with 8 in *. change (Z.of_nat 5) with 5 in *. change (Z.of_nat 0) with 0 in *.
  cbv zeta. rewrite E. destruct (5 <=? Z.of_nat n) eqn:H5; [discriminate|].
  pose proof (tail_zero 5 8 ltac:(lia) ltac:(lia) acc n ltac:(lia)) as T. change (Z.of_nat 8) with 8 in T.
  destruct (Z.land _ _ =? 0) eqn:Hz; cbn [negb]; [|discriminate]. intros [= <-].
  assert (Hz' := proj1 T eq_refl). rewrite Hz' in B. cbn [app bits_of flat_map bits_be] in B. fold (bits_of 8 ret) in B. fold (bits_of 5 d) in B.
  assert (Hr : bytes_ok ret) by exact R. split; [exact Hr|].
  destruct (to5 ret Hr) as (d' & k & E' & F' & B' & Hk). rewrite E'. f_equal.
  assert (Lk : (n = k /\ length d = length d')%nat).
  { apply (f_equal (@length bool)) in B. apply (f_equal (@length bool)) in B'.
    rewrite !app_length, !bits_of_length, repeat_length in *. lia. }
  destruct Lk as [-> _]. rewrite B in B'. symmetry. apply (bits_of_inj 5); [lia|exact Hd|exact F'|congruence].
Qed.

(** What WitnessDecode accepts. *)
Lemma witness_decode_sound s h v p : WitnessDecode s = Ok (h, v, p) ->
  0 <= v < 32 /\ bytes_ok p /\ h <> [] /\ len s <= 90 /\ one_case s /\ Forall printable s /\
  exists d, five_bit d /\ convertBits p 8 5 true = Ok d /\ lowercase s = encoding h ([v] ++ d).
Proof.
  unfold WitnessDecode. destruct (Bech32Decode s) as [[h' d]|e|] eqn:E; cbn [rbind]; try discriminate.
  apply decode_iff in E. destruct E as (P & O & L & N & F & Lo).
  destruct d as [|v' d]; [discriminate|].
  replace (slice (v' :: d) 1 (len (v' :: d))) with (Ok d).
  2:{ change (v' :: d) with ([v'] ++ d). rewrite len_app. change 1 with (len [v']) at 1. symmetry. apply slice_app_r. }
  cbn [rbind]. destruct (convertBits d 5 8 false) as [r|e|] eqn:C; cbn [rbind]; try discriminate.
  change (index (v' :: d) 0) with (Ok v'). cbn [rbind]. intros [= <- <- <-].
  inversion F as [|? ? Fv Fd]. destruct (from8 d r Fd C) as [Hr C'].
  repeat split; auto; try lia. exists d. auto.
Qed.
