(** Script numbers. *)
From Verif Require Import GoBase BaseLemmas BufferSpec BufferProofs ScriptNumModel ScriptNumSpec.
From Coq Require Import ZifyBool ZifyNat.

Lemma num_value_snoc x t : num_value (x ++ [t]) =
  if t <? 128 then le_value x + 256 ^ len x * t else - (le_value x + 256 ^ len x * (t - 128)).
Proof. unfold num_value. destruct (x ++ [t]) eqn:E; [now destruct x|]. rewrite <- E, removelast_last, last_last. reflexivity. Qed.

Lemma le_value_snoc x t : le_value (x ++ [t]) = le_value x + 256 ^ len x * t.
Proof.
  induction x as [|a x IH]; cbn [le_value app].
  - change (len (@nil Z)) with 0. lia.
  - rewrite IH, len_cons, Z.pow_add_r, Z.pow_1_r by (pose proof (len_nonneg x); lia). ring.
Qed.

Lemma snoc_cases {A} (v : list A) : v = [] \/ exists x t, v = x ++ [t].
Proof. destruct v as [|a v]; [now left|right]. destruct (@exists_last _ (a :: v)) as (x & t & E); [discriminate|]. eauto. Qed.

Lemma index_last {A} (x : list A) t : index (x ++ [t]) (len (x ++ [t]) - 1) = Ok t.
Proof. rewrite len_app. change (len [t]) with 1. replace (len x + 1 - 1) with (len x) by lia. apply index_rbuf0. Qed.

(** The byte-level form of minimality. *)
Definition tight (v : bytes) : Prop :=
  match rev v with
  | [] => True
  | t :: r => Z.land t 127 <> 0 \/ match r with [] => False | p :: _ => Z.land p 128 <> 0 end
  end.

Lemma check_tight v : checkMinimalDataEncoding v = Ok tt /\ tight v \/ (exists e, checkMinimalDataEncoding v = Err e) /\ ~ tight v.
Proof.
  unfold checkMinimalDataEncoding, tight. destruct (snoc_cases v) as [->|(x & t & ->)]; [now left|].
  rewrite rev_app_distr. cbn [rev app]. rewrite index_last. cbn [rbind].
  destruct (len (x ++ [t]) =? 0) eqn:E0; [rewrite len_app in E0; change (len [t]) with 1 in E0; pose proof (len_nonneg x); lia|].
  destruct (Z.land t 127 =? 0) eqn:E1; [|left; split; [reflexivity|left; lia]].
  destruct (snoc_cases x) as [->|(y & p & ->)].
  - right. split; [eexists; reflexivity|]. cbn [rev app]. intros [A|A]; [lia|exact A].
  - rewrite rev_app_distr. cbn [rev app].
    replace (len ((y ++ [p]) ++ [t]) =? 1) with false by (rewrite !len_app; change (len [t]) with 1; change (len [p]) with 1; pose proof (len_nonneg y); lia).
    rewrite <- app_assoc. replace (len (y ++ [p] ++ [t]) - 2) with (len y) by (rewrite !len_app; change (len [t]) with 1; change (len [p]) with 1; lia).
    change ([p] ++ [t]) with (p :: [t]). rewrite index_rbuf0. cbn [rbind].
    destruct (Z.land p 128 =? 0) eqn:E2; [right|left].
    + split; [eauto|]. intros [A|A]; lia.
    + split; [reflexivity|]. right; lia.
Qed.

Lemma land_127 t : is_byte t -> Z.land t 127 = if t <? 128 then t else t - 128.
Proof. intros H. change 127 with (Z.ones 7). rewrite Z.land_ones by lia. change (2 ^ 7) with 128. unfold is_byte in H.
  destruct (t <? 128) eqn:E; [apply Z.mod_small; lia|]. symmetry. apply Z.mod_unique with 1; lia. Qed.
Lemma land_128 t : is_byte t -> Z.land t 128 = if t <? 128 then 0 else 128.
Proof.
  intros H. assert (E : Z.eqb (Z.land t 128) (if t <? 128 then 0 else 128) = true); [|lia].
  apply (all_bytes (fun t => Z.land t 128 =? (if t <? 128 then 0 else 128))); [vm_compute; reflexivity|exact H].
Qed.
Lemma lor_128 t : 0 <= t < 128 -> Z.lor t 128 = t + 128.
Proof. intros H. change 128 with (Z.shiftl 1 7) at 1. rewrite lor_shl by (change (2 ^ 7) with 128; lia). change (2 ^ 7) with 128. lia. Qed.

(** Decoding up to eight bytes. *)
Lemma i64_shl_byte b i : is_byte b -> 0 <= i < 8 ->
  i64 (Z.shiftl b (8 * i)) = Z.shiftl (if (i =? 7) && (128 <=? b) then b - 256 else b) (8 * i).
Proof.
  intros Hb Hi. unfold is_byte in Hb. rewrite !Z.shiftl_mul_pow2 by lia.
  destruct ((i =? 7) && (128 <=? b)) eqn:E.
  - replace i with 7 by lia. change (2 ^ (8 * 7)) with 72057594037927936. unfold i64. change (2 ^ 63) with 9223372036854775808. change (2 ^ 64) with 18446744073709551616.
    rewrite <- (Z.mod_unique (b * 72057594037927936 + 9223372036854775808) 18446744073709551616 1 (b * 72057594037927936 + 9223372036854775808 - 18446744073709551616)); lia.
  - apply i64_id. destruct (Z.eq_dec i 7) as [->|].
    + change (2 ^ (8 * 7)) with 72057594037927936. change (2 ^ 63) with 9223372036854775808. lia.
    + assert (2 ^ (8 * i) <= 2 ^ 48) by (apply Z.pow_le_mono_r; lia). change (2 ^ 48) with 281474976710656 in *.
      assert (0 < 2 ^ (8 * i)) by (apply Z.pow_pos_nonneg; lia). change (2 ^ 63) with 9223372036854775808. nia.
Qed.

Lemma i64_sub x k : i64 (x - k * 2 ^ 64) = i64 x.
Proof. unfold i64. replace (x - k * 2 ^ 64 + 2 ^ 63) with (x + 2 ^ 63 + (- k) * 2 ^ 64) by ring. now rewrite Z.mod_add by lia. Qed.

Lemma num_loop_spec v i acc : bytes_ok v -> 0 <= i -> i + len v <= 8 -> 0 <= acc < 256 ^ i ->
  num_loop i v (i64 acc) = i64 (acc + 256 ^ i * le_value v).
Proof.
  intros Hv; revert i acc; induction Hv as [|b v Hb Hv IH]; intros i acc Hi Hl Ha; cbn [num_loop le_value].
  - now rewrite Z.mul_0_r, Z.add_0_r.
  - rewrite len_cons in Hl. pose proof (len_nonneg v). 
    rewrite u8_id by lia. assert (P8 : 256 ^ i = 2 ^ (8 * i)) by (rewrite Z.pow_mul_r by lia; reflexivity).
    assert (256 ^ i <= 256 ^ 7) by (apply Z.pow_le_mono_r; lia). change (256 ^ 7) with 72057594037927936 in *.
    rewrite (i64_id acc) by (change (2 ^ 63) with 9223372036854775808; lia).
    rewrite i64_shl_byte by (auto; lia). rewrite lor_shl by lia. rewrite <- P8. unfold is_byte in Hb.
    assert (E1 : 256 ^ (i + 1) = 256 ^ i * 256) by (rewrite Z.pow_add_r by lia; reflexivity).
    transitivity (num_loop (i + 1) v (i64 (acc + b * 256 ^ i))).
    + f_equal. destruct ((i =? 7) && (128 <=? b)) eqn:E.
      * replace i with 7 in * by lia. change (256 ^ 7) with 72057594037927936 in *.
        transitivity (i64 (acc + (b - 256) * 72057594037927936)).
        -- symmetry. apply i64_id. change (2 ^ 63) with 9223372036854775808. lia.
        -- replace (acc + (b - 256) * 72057594037927936) with (acc + b * 72057594037927936 - 1 * 2 ^ 64) by (change (2 ^ 64) with 18446744073709551616; lia).
           apply i64_sub.
      * symmetry. apply i64_id. change (2 ^ 63) with 9223372036854775808. destruct (Z.eq_dec i 7) as [->|].
        -- change (256 ^ 7) with 72057594037927936 in *. lia.
        -- assert (256 ^ i <= 256 ^ 6) by (apply Z.pow_le_mono_r; lia). change (256 ^ 6) with 281474976710656 in *. nia.
    + rewrite IH by (lia || nia). f_equal. rewrite E1. ring.
Qed.

(** Clearing the sign bit. *)
Lemma clear_top m k : 0 <= k < 64 -> 0 <= m < 2 ^ k ->
  Z.land (i64 (m + 2 ^ k)) (Z.lnot (i64 (2 ^ k))) = m.
Proof.
  intros Hk Hm. destruct (Z.eq_dec k 63) as [->|].
  - replace (i64 (m + 2 ^ 63)) with (m - 2 ^ 63).
    2:{ replace (i64 (m + 2 ^ 63)) with (i64 (m + 2 ^ 63 - 1 * 2 ^ 64)) by apply i64_sub. symmetry. rewrite i64_id; lia. }
    change (Z.lnot (i64 (2 ^ 63))) with (Z.ones 63). rewrite Z.land_ones by lia.
    symmetry. apply Z.mod_unique with (-1); lia.
  - assert (2 ^ k <= 2 ^ 62) by (apply Z.pow_le_mono_r; lia). rewrite !i64_id by lia.
    assert (Hp : Z.testbit (m + 2 ^ k) k = true).
    { rewrite Z.testbit_true by lia. replace (m + 2 ^ k) with (m + 1 * 2 ^ k) by lia. rewrite Z.div_add by lia.
      rewrite Z.div_small by lia. reflexivity. }
    rewrite <- Z.ldiff_land. replace (2 ^ k) with (Z.shiftl 1 k) at 2 by (rewrite Z.shiftl_mul_pow2; lia).
    rewrite Z.shiftl_1_l. apply Z.bits_inj'. intros i Hi. rewrite Z.ldiff_spec, Z.pow2_bits_eqb by lia.
    replace (m + 2 ^ k) with (m + 1 * 2 ^ k) by lia. rewrite <- lor_shl by lia. rewrite Z.lor_spec, Z.shiftl_1_l, Z.pow2_bits_eqb by lia.
    destruct (Z.eqb_spec k i) as [->|]; cbn [negb].
    + rewrite andb_false_r. destruct (Z.eq_dec m 0) as [->|]; [now rewrite Z.bits_0|]. symmetry. apply Z.bits_above_log2; [lia|]. apply Z.log2_lt_pow2; lia.
    + now rewrite orb_false_r, andb_true_r.
Qed.

(** What MakeScriptNum accepts, and the number it returns. *)
Lemma make_num v L : bytes_ok v -> len v <= 8 -> len v <= L -> tight v -> MakeScriptNum v L = Ok (num_value v).
Proof.
  intros Hv H8 HL T. unfold MakeScriptNum. replace (L <? len v) with false by lia.
  destruct (check_tight v) as [[-> _]|[_ N]]; [|contradiction]. cbn [rbind].
  destruct (snoc_cases v) as [->|(x & t & ->)]; [reflexivity|].
  destruct (len (x ++ [t]) =? 0) eqn:E0; [rewrite len_app in E0; change (len [t]) with 1 in E0; pose proof (len_nonneg x); lia|].
  rewrite index_last. cbn [rbind]. change (num_loop 0 (x ++ [t]) 0) with (num_loop 0 (x ++ [t]) (i64 0)).
  rewrite num_loop_spec by (auto; lia). rewrite Z.add_0_l, Z.pow_0_r, Z.mul_1_l, num_value_snoc, le_value_snoc.
  apply bytes_ok_app in Hv. destruct Hv as [Hx Ht]. inversion Ht as [|? ? Ht' _].
  rewrite land_128 by exact Ht'. pose proof (le_value_range x Hx) as R. rewrite len_app in *. change (len [t]) with 1 in *.
  pose proof (len_nonneg x). unfold is_byte in Ht'.
  assert (P8 : 256 ^ len x = 2 ^ (8 * len x)) by (rewrite Z.pow_mul_r by lia; reflexivity).
  assert (256 ^ len x <= 256 ^ 7) by (apply Z.pow_le_mono_r; lia). change (256 ^ 7) with 72057594037927936 in *.
  destruct (t <? 128) eqn:E.
  - change (0 <? 0) with false. cbv iota. f_equal. apply i64_id. change (2 ^ 63) with 9223372036854775808. nia.
  - change (0 <? 128) with true. cbv iota. f_equal. rewrite u8_id by lia. replace (len x + 1 - 1) with (len x) by lia.
    assert (P : Z.shiftl 128 (8 * len x) = 2 ^ (8 * len x + 7)).
    { rewrite Z.shiftl_mul_pow2, Z.pow_add_r by lia. change (2 ^ 7) with 128. ring. }
    rewrite P. replace (le_value x + 256 ^ len x * t) with ((le_value x + 256 ^ len x * (t - 128)) + 2 ^ (8 * len x + 7)).
    2:{ rewrite Z.pow_add_r by lia. change (2 ^ 7) with 128. rewrite P8. ring. }
    rewrite clear_top; [|lia|rewrite Z.pow_add_r by lia; change (2 ^ 7) with 128; rewrite <- P8; nia].
    apply i64_id. change (2 ^ 63) with 9223372036854775808. nia.
Qed.

Lemma make_num_reject v L : (len v > L \/ ~ tight v) -> exists e, MakeScriptNum v L = Err e.
Proof.
  intros H. unfold MakeScriptNum. destruct (L <? len v) eqn:E; [eauto|].
  destruct (check_tight v) as [[A T]|[(e & A) T]].
  - destruct H as [H|H]; [lia|contradiction].
  - rewrite A. cbn. eauto.
Qed.

(** The encoder. *)
Lemma abs_loop_spec f a r : 0 < a < 256 ^ Z.of_nat f -> exists x t, abs_loop f a r = r ++ x ++ [t] /\
  bytes_ok x /\ 0 < t < 256 /\ a = le_value x + 256 ^ len x * t.
Proof.
  revert a r; induction f as [|f IH]; intros a r Ha; [change (256 ^ Z.of_nat 0) with 1 in Ha; lia|].
  cbn [abs_loop]. replace (0 <? a) with true by lia. rewrite shr8. change 255 with (Z.ones 8). rewrite Z.land_ones by lia. change (2 ^ 8) with 256.
  pose proof (Z.mod_pos_bound a 256 ltac:(lia)) as M. pose proof (Z.div_mod a 256 ltac:(lia)) as D. rewrite u8_id by lia.
  rewrite Nat2Z.inj_succ, Z.pow_succ_r in Ha by lia.
  destruct (Z.eq_dec (a / 256) 0) as [Z0|Z0].
  - exists [], (a mod 256). rewrite Z0. split; [destruct f; reflexivity|]. split; [constructor|]. split; [lia|]. change (len (@nil Z)) with 0. cbn [le_value]. rewrite Z.pow_0_r. lia.
  - destruct (IH (a / 256) (r ++ [a mod 256])) as (x & t & E & Hx & Ht & V).
    { split; [pose proof (Z.div_pos a 256); lia|]. apply Z.div_lt_upper_bound; lia. }
    exists (a mod 256 :: x), t. split; [rewrite E, <- app_assoc; reflexivity|]. split; [constructor; [unfold is_byte; lia|exact Hx]|].
    split; [exact Ht|]. cbn [le_value]. rewrite len_cons, Z.pow_add_r, Z.pow_1_r by (pose proof (len_nonneg x); lia). rewrite D at 1. rewrite V. ring.
Qed.

(** Encoding gives a tight string with the right value, at most 8 bytes long. *)
Lemma num_bytes_spec n : - 2 ^ 63 < n < 2 ^ 63 -> exists v, num_bytes n = Ok v /\ bytes_ok v /\ len v <= 8 /\ tight v /\ num_value v = n.
Proof.
  intros Hn. unfold num_bytes. destruct (n =? 0) eqn:E0.
  { exists []. split; [reflexivity|]. split; [constructor|]. split; [change (len (@nil Z)) with 0; lia|]. split; [exact I|]. unfold num_value. lia. }
  set (a := if n <? 0 then i64 (- n) else n).
  assert (Ea : a = Z.abs n). { unfold a. destruct (n <? 0) eqn:E; [rewrite i64_id by lia|]; lia. }
  destruct (abs_loop_spec 8 a []) as (x & t & E & Hx & Ht & V). { rewrite Ea. change (256 ^ Z.of_nat 8) with (2 ^ 64). lia. }
  cbv zeta. rewrite E. cbn [app]. rewrite index_last. cbn [rbind]. rewrite land_128 by (unfold is_byte; lia).
  pose proof (le_value_range x Hx) as R. pose proof (len_nonneg x) as L0.
  assert (Lx : len x <= 7).
  { destruct (Z_le_gt_dec (len x) 7); [lia|]. assert (256 ^ 8 <= 256 ^ len x) by (apply Z.pow_le_mono_r; lia). change (256 ^ 8) with (2 ^ 64) in *. nia. }
  assert (Hxt : bytes_ok (x ++ [t])). { apply bytes_ok_app; split; [exact Hx|]. constructor; [unfold is_byte; lia|constructor]. }
  assert (L7 : t < 128 \/ len x <= 6).
  { destruct (Z_lt_ge_dec t 128); [now left|right]. destruct (Z_le_gt_dec (len x) 6); [lia|]. replace (len x) with 7 in * by lia. change (256 ^ 7) with 72057594037927936 in *. lia. }
  assert (T1 : forall s, (s = 0 \/ s = 128) -> tight (x ++ [t] ++ [s]) <-> 128 <= t).
  { intros s Hs. unfold tight. rewrite !rev_app_distr. cbn [rev app]. rewrite land_127, land_128 by (unfold is_byte; lia).
    destruct (t <? 128) eqn:Et, (s <? 128) eqn:Es; lia. }
  assert (T2 : forall s, (0 < s < 128 \/ 128 < s < 256) -> tight (x ++ [s])).
  { intros s Hs. unfold tight. rewrite !rev_app_distr. cbn [rev app]. rewrite land_127 by (unfold is_byte; lia). left. destruct (s <? 128) eqn:Es; lia. }
  destruct (t <? 128) eqn:Et.
  - change (0 <? 0) with false. cbv iota. destruct (n <? 0) eqn:En.
    + replace (len (x ++ [t]) - 1) with (len x) by (rewrite len_app; change (len [t]) with 1; lia). rewrite slice_app_l. cbn [rbind].
      rewrite lor_128 by lia. exists (x ++ [t + 128]). split; [reflexivity|].
      split; [apply bytes_ok_app; split; [exact Hx|constructor; [unfold is_byte; lia|constructor]]|].
      split; [rewrite len_app; change (len [t + 128]) with 1; lia|]. split; [apply T2; lia|].
      rewrite num_value_snoc. replace (t + 128 <? 128) with false by lia. replace (t + 128 - 128) with t by lia. lia.
    + exists (x ++ [t]). split; [reflexivity|]. split; [exact Hxt|]. split; [rewrite len_app; change (len [t]) with 1; lia|]. split; [apply T2; lia|].
      rewrite num_value_snoc, Et. lia.
  - change (0 <? 128) with true. cbv iota.
    assert (forall s, (s = 0 \/ s = 128) -> bytes_ok ((x ++ [t]) ++ [s]) /\ len ((x ++ [t]) ++ [s]) <= 8 /\ tight ((x ++ [t]) ++ [s]) /\ num_value ((x ++ [t]) ++ [s]) = if s =? 0 then a else - a).
    { intros s Hs. split; [apply bytes_ok_app; split; [exact Hxt|constructor; [unfold is_byte; lia|constructor]]|].
      split; [rewrite !len_app; change (len [t]) with 1; change (len [s]) with 1; lia|].
      split; [rewrite <- app_assoc; apply T1; auto; lia|]. rewrite num_value_snoc, le_value_snoc.
      destruct Hs as [->| ->]; [change (0 <? 128) with true; change (0 =? 0) with true|change (128 <? 128) with false; change (128 =? 0) with false]; cbv iota; lia. }
    destruct (n <? 0) eqn:En; eexists; (split; [reflexivity|]).
    + destruct (H 128) as (A & B & C & D); [auto|]. split; [exact A|]. split; [exact B|]. split; [exact C|]. rewrite D. change (128 =? 0) with false. cbv iota. lia.
    + destruct (H 0) as (A & B & C & D); [auto|]. split; [exact A|]. split; [exact B|]. split; [exact C|]. rewrite D. change (0 =? 0) with true. cbv iota. lia.
Qed.

(** Two tight strings with the same value are equal; a tight string is shortest. *)
Definition mag (v : bytes) : Z := Z.abs (num_value v).
Lemma mag_snoc x t : bytes_ok x -> is_byte t -> mag (x ++ [t]) = le_value x + 256 ^ len x * (if t <? 128 then t else t - 128).
Proof.
  intros Hx Ht. unfold mag. rewrite num_value_snoc. pose proof (le_value_range x Hx). pose proof (len_nonneg x). unfold is_byte in Ht.
  assert (0 < 256 ^ len x) by (apply Z.pow_pos_nonneg; lia). destruct (t <? 128) eqn:E; nia.
Qed.
Lemma mag_upper v : bytes_ok v -> v <> [] -> 2 * mag v < 256 ^ len v.
Proof.
  intros Hv Hne. destruct (snoc_cases v) as [->|(x & t & ->)]; [congruence|]. apply bytes_ok_app in Hv. destruct Hv as [Hx Ht]. inversion Ht as [|? ? Ht' _].
  rewrite mag_snoc by assumption. pose proof (le_value_range x Hx). pose proof (len_nonneg x). unfold is_byte in Ht'.
  rewrite len_app. change (len [t]) with 1. rewrite Z.pow_add_r, Z.pow_1_r by lia. destruct (t <? 128) eqn:E; nia.
Qed.
Lemma mag_lower v : bytes_ok v -> tight v -> v <> [] -> 0 < mag v /\ 256 ^ (len v - 1) <= 2 * mag v.
Proof.
  intros Hv T Hne. destruct (snoc_cases v) as [->|(x & t & ->)]; [congruence|]. apply bytes_ok_app in Hv. destruct Hv as [Hx Ht]. inversion Ht as [|? ? Ht' _].
  rewrite mag_snoc by assumption. pose proof (le_value_range x Hx) as R. pose proof (len_nonneg x).
  rewrite len_app. change (len [t]) with 1. replace (len x + 1 - 1) with (len x) by lia.
  assert (0 < 256 ^ len x) by (apply Z.pow_pos_nonneg; lia).
  unfold tight in T. rewrite rev_app_distr in T. cbn [rev app] in T. rewrite land_127 in T by exact Ht'. unfold is_byte in Ht'.
  destruct T as [T|T]; [destruct (t <? 128) eqn:E; nia|].
  destruct (snoc_cases x) as [->|(y & p & ->)]; [contradiction|]. rewrite rev_app_distr in T. cbn [rev app] in T.
  apply bytes_ok_app in Hx. destruct Hx as [Hy Hp]. inversion Hp as [|? ? Hp' _]. rewrite land_128 in T by exact Hp'.
  rewrite le_value_snoc in *. pose proof (le_value_range y Hy) as Ry. pose proof (len_nonneg y). rewrite len_app in *. change (len [p]) with 1 in *.
  rewrite Z.pow_add_r, Z.pow_1_r in * by lia. unfold is_byte in Hp'.
  destruct (p <? 128) eqn:Ep; [congruence|]. destruct (t <? 128) eqn:E; nia.
Qed.

Lemma len_pos {A} (v : list A) : v <> [] -> 0 < len v.
Proof. destruct v; [congruence|]. intros _. rewrite len_cons. pose proof (len_nonneg v). lia. Qed.

Lemma tight_shortest v w : bytes_ok v -> bytes_ok w -> tight v -> num_value w = num_value v -> len v <= len w.
Proof.
  intros Hv Hw Tv E. destruct v as [|a v']; [pose proof (len_nonneg w); change (len (@nil Z)) with 0; lia|].
  set (v := a :: v') in *. assert (Nv : v <> []) by discriminate.
  destruct (mag_lower v Hv Tv Nv) as [P L]. 
  destruct w as [|b w']; [exfalso; unfold mag in P; rewrite <- E in P; cbn in P; lia|]. set (w := b :: w') in *.
  assert (Nw : w <> []) by discriminate. pose proof (mag_upper w Hw Nw) as U. pose proof (len_pos v Nv). pose proof (len_pos w Nw).
  destruct (Z_le_gt_dec (len v) (len w)); [lia|exfalso]. assert (256 ^ len w <= 256 ^ (len v - 1)) by (apply Z.pow_le_mono_r; lia).
  unfold mag in *. rewrite E in U. lia.
Qed.

Lemma tight_inj v w : bytes_ok v -> bytes_ok w -> tight v -> tight w -> num_value v = num_value w -> v = w.
Proof.
  intros Hv Hw Tv Tw E.
  assert (L : len v = len w). { pose proof (tight_shortest v w Hv Hw Tv (eq_sym E)). pose proof (tight_shortest w v Hw Hv Tw E). lia. }
  destruct (snoc_cases v) as [->|(x & t & ->)]; [symmetry; apply len_zero; change (len (@nil Z)) with 0 in L; lia|].
  destruct (snoc_cases w) as [->|(y & s & ->)]; [apply len_zero; exact L|].
  rewrite !len_app in L. change (len [t]) with 1 in L. change (len [s]) with 1 in L.
  destruct (mag_lower (x ++ [t]) Hv Tv ltac:(destruct x; discriminate)) as [P _]. unfold mag in P.
  apply bytes_ok_app in Hv, Hw. destruct Hv as [Hx Ht], Hw as [Hy Hs]. inversion Ht as [|? ? Ht' _]. inversion Hs as [|? ? Hs' _]. unfold is_byte in *.
  assert (LL : len x = len y) by lia. assert (LN : length x = length y) by (unfold len in LL; lia). clear L.
  pose proof (le_value_range x Hx) as Rx. pose proof (le_value_range y Hy) as Ry. rewrite !num_value_snoc in *. rewrite LL in *.
  assert (0 < 256 ^ len y) by (apply Z.pow_pos_nonneg; pose proof (len_nonneg y); lia).
  assert (le_value x = le_value y /\ t = s) as [Ex ->].
  { destruct (t <? 128) eqn:Et, (s <? 128) eqn:Es; try nia.
    - assert (t = s) by nia. split; [nia|assumption].
    - assert (t = s) by nia. split; [nia|assumption]. }
  f_equal. now apply le_value_inj.
Qed.

(** C16. *)
Lemma num_roundtrip n : - 2 ^ 63 < n < 2 ^ 63 -> exists v, num_bytes n = Ok v /\ bytes_ok v /\ num_value v = n /\ num_minimal v /\
  forall L, len v <= L -> MakeScriptNum v L = Ok n.
Proof.
  intros Hn. destruct (num_bytes_spec n Hn) as (v & E & Hv & L8 & T & V). exists v. split; [exact E|]. split; [exact Hv|]. split; [exact V|].
  split; [intros w Hw Ew; now apply tight_shortest|]. intros L HL. rewrite make_num by (auto; lia). now rewrite V.
Qed.
Lemma num_value_bound v : bytes_ok v -> len v <= 8 -> - 2 ^ 63 < num_value v < 2 ^ 63.
Proof.
  intros Hv Hl. destruct v as [|a v']; [cbn; lia|]. set (v := a :: v') in *. pose proof (mag_upper v Hv ltac:(discriminate)) as U.
  assert (256 ^ len v <= 256 ^ 8) by (apply Z.pow_le_mono_r; lia). change (256 ^ 8) with (2 ^ 64) in *. unfold mag in U. lia.
Qed.
Lemma num_accepted v L n : bytes_ok v -> L <= 8 -> MakeScriptNum v L = Ok n -> n = num_value v /\ num_bytes n = Ok v.
Proof.
  intros Hv HL E.
  assert (A : len v <= L /\ tight v).
  { destruct (Z_le_gt_dec (len v) L); [|destruct (make_num_reject v L) as (e & A); [now left|congruence]].
    split; [assumption|]. destruct (check_tight v) as [[_ T]|[_ T]]; [exact T|]. destruct (make_num_reject v L) as (e & A); [now right|congruence]. }
  destruct A as [Hl T]. rewrite make_num in E by (auto; lia). injection E as <-. split; [reflexivity|].
  destruct (num_bytes_spec (num_value v)) as (w & Ew & Hw & _ & Tw & Vw); [apply num_value_bound; auto; lia|].
  rewrite Ew. f_equal. now apply tight_inj.
Qed.
Lemma num_min_panics : num_bytes (- 2 ^ 63) = Panic.
Proof. reflexivity. Qed.
