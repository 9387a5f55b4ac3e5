(** RIPEMD-160: the program's block function is the paper's compression
    function, and the buffer always holds the unprocessed end of the message. *)
From Verif Require Import GoBase BaseLemmas RipemdModel RipemdSpec.
Local Open Scope Z_scope.

(** ** 32-bit words *)

Definition in32 (x : Z) : Prop := 0 <= x < 2 ^ 32.

Lemma in32_bit : forall x i, in32 x -> 32 <= i -> Z.testbit x i = false.
Proof.
  intros x i H Hi. destruct (Z.eq_dec x 0) as [-> | N]; [apply Z.testbit_0_l | ].
  apply Z.bits_above_log2; [apply H | ]. apply Z.log2_lt_pow2; [unfold in32 in H; lia | ].
  pose proof (Z.pow_le_mono_r 2 32 i ltac:(lia) Hi). unfold in32 in H. lia.
Qed.

Lemma ones_bit : forall i, 0 <= i -> Z.testbit 0xffffffff i = (i <? 32).
Proof.
  intros i Hi. change 0xffffffff with (Z.ones 32). destruct (i <? 32) eqn:E.
  - apply Z.ltb_lt in E. apply Z.ones_spec_low. lia.
  - apply Z.ltb_ge in E. apply Z.ones_spec_high. lia.
Qed.

Lemma not32_compl : forall x, in32 x -> not32 x = compl x.
Proof.
  intros x H. unfold not32, compl.
  assert (L : Z.land x (Z.lxor x 0xffffffff) = 0).
  { apply Z.bits_inj'. intros i Hi. rewrite Z.land_spec, Z.lxor_spec, Z.bits_0, ones_bit by exact Hi.
    destruct (i <? 32) eqn:E; [destruct (Z.testbit x i); reflexivity | ].
    apply Z.ltb_ge in E. rewrite in32_bit by assumption. reflexivity. }
  apply Z.add_nocarry_lxor in L. rewrite <- Z.lxor_assoc, Z.lxor_nilpotent, Z.lxor_0_l in L.
  change (2 ^ 32 - 1) with 0xffffffff. lia.
Qed.

Lemma ldiff_compl : forall y z, in32 y -> in32 z -> Z.ldiff y z = Z.land y (compl z).
Proof.
  intros y z Hy Hz. rewrite <- not32_compl by exact Hz. unfold not32. apply Z.bits_inj'. intros i Hi.
  rewrite Z.ldiff_spec, Z.land_spec, Z.lxor_spec, ones_bit by exact Hi.
  destruct (i <? 32) eqn:E; [destruct (Z.testbit y i), (Z.testbit z i); reflexivity | ].
  apply Z.ltb_ge in E. rewrite (in32_bit y) by assumption. reflexivity.
Qed.

Lemma u32_w32 : forall x, u32 x = w32 x.
Proof. reflexivity. Qed.
Lemma w32_in : forall x, in32 (w32 x).
Proof. intro x. apply Z.mod_pos_bound. reflexivity. Qed.

Lemma shl_part : forall x s, 0 < s < 32 -> w32 (x * 2 ^ s) = (x mod 2 ^ (32 - s)) * 2 ^ s.
Proof.
  intros x s Hs. unfold w32. replace (2 ^ 32) with (2 ^ (32 - s) * 2 ^ s) by (rewrite <- Z.pow_add_r by lia; f_equal; lia).
  apply Z.mul_mod_distr_r; apply Z.pow_nonzero; lia.
Qed.

Lemma rotl_rol : forall x s, in32 x -> 0 < s < 32 -> rotl32 x s = rol s x.
Proof.
  intros x s Hx Hs. unfold rotl32, rol. rewrite u32_w32, Z.shiftl_mul_pow2, Z.shiftr_div_pow2 by lia.
  rewrite shl_part by exact Hs. rewrite Z.lor_comm, <- Z.shiftl_mul_pow2 by lia.
  rewrite lor_shl; [ | lia | ].
  - rewrite Z.shiftl_mul_pow2 by lia. lia.
  - split; [apply Z.div_pos; [apply Hx | apply Z.pow_pos_nonneg; lia] | ].
    apply Z.div_lt_upper_bound; [apply Z.pow_pos_nonneg; lia | ]. rewrite <- Z.pow_add_r by lia. replace (32 - s + s) with 32 by lia. apply Hx.
Qed.

Lemma rol_in : forall x s, in32 x -> 0 < s < 32 -> in32 (rol s x).
Proof.
  intros x s Hx Hs. unfold rol. rewrite shl_part by exact Hs.
  assert (P1 : 0 < 2 ^ s) by (apply Z.pow_pos_nonneg; lia). assert (P2 : 0 < 2 ^ (32 - s)) by (apply Z.pow_pos_nonneg; lia).
  assert (PP : 2 ^ (32 - s) * 2 ^ s = 2 ^ 32) by (rewrite <- Z.pow_add_r by lia; f_equal; lia).
  pose proof (Z.mod_pos_bound x _ P2) as M.
  assert (D : 0 <= x / 2 ^ (32 - s) < 2 ^ s).
  { split; [apply Z.div_pos; [apply Hx | exact P2] | ]. apply Z.div_lt_upper_bound; [exact P2 | ]. rewrite PP. apply Hx. }
  unfold in32. rewrite <- PP. generalize dependent (x mod 2 ^ (32 - s)). generalize dependent (x / 2 ^ (32 - s)).
  generalize dependent (2 ^ s). generalize dependent (2 ^ (32 - s)). intros. nia.
Qed.

(** ** One step of both lines *)

Definition in5 (v : Z * Z * Z * Z * Z) : Prop :=
  let '(a, b, c, d, e) := v in in32 a /\ in32 b /\ in32 c /\ in32 d /\ in32 e.

Lemma turn_line : forall v f w k s, in5 v -> 0 < s < 32 -> turn v f w k s = line_step f k w s v.
Proof.
  intros [[[[a b] c] d] e] f w k s (Ha & Hb & Hc & Hd & He) Hs. unfold turn, line_step.
  assert (S3 : u32 (u32 (u32 (a + f) + w) + k) = w32 (a + f + w + k)).
  { unfold u32, w32. rewrite (Zplus_mod_idemp_l (a + f) w), Zplus_mod_idemp_l. reflexivity. }
  rewrite S3, !rotl_rol, u32_w32; [reflexivity | exact Hc | lia | apply w32_in | exact Hs].
Qed.

Lemma line_in5 : forall f k w s v, in5 v -> in5 (line_step f k w s v).
Proof.
  intros f k w s [[[[a b] c] d] e] (Ha & Hb & Hc & Hd & He). unfold line_step, in5.
  pose proof (w32_in (rol s (w32 (a + f + w + k)) + e)). pose proof (rol_in c 10 Hc ltac:(lia)). tauto.
Qed.

(** What the tables say about step j. *)
Definition step_ok (j : nat) : bool :=
  let z := Z.of_nat j in
  (nth j tab_n 0 =? sel z) && (nth j tab_nn 0 =? sel' z) &&
  (nth j tab_r 0 =? shift_of (z / 16) (sel z)) && (nth j tab_rr 0 =? shift_of (z / 16) (sel' z)) &&
  (0 <=? sel z) && (sel z <? 16) && (0 <=? sel' z) && (sel' z <? 16) &&
  (0 <? nth j tab_r 0) && (nth j tab_r 0 <? 32) && (0 <? nth j tab_rr 0) && (nth j tab_rr 0 <? 32).

Lemma steps_ok : forallb step_ok (seq 0 80) = true.
Proof. vm_compute. reflexivity. Qed.

Record step_facts (j : nat) : Prop := {
  sf_n : nth j tab_n 0 = sel (Z.of_nat j);
  sf_nn : nth j tab_nn 0 = sel' (Z.of_nat j);
  sf_r : nth j tab_r 0 = shift_of (Z.of_nat j / 16) (sel (Z.of_nat j));
  sf_rr : nth j tab_rr 0 = shift_of (Z.of_nat j / 16) (sel' (Z.of_nat j));
  sf_sel : 0 <= sel (Z.of_nat j) < 16;
  sf_sel' : 0 <= sel' (Z.of_nat j) < 16;
  sf_pos : 0 < nth j tab_r 0 < 32;
  sf_pos' : 0 < nth j tab_rr 0 < 32 }.

Lemma step_facts_ok : forall j, (j < 80)%nat -> step_facts j.
Proof.
  intros j Hj. pose proof (proj1 (forallb_forall step_ok (seq 0 80)) steps_ok j) as H.
  specialize (H ltac:(apply in_seq; lia)). unfold step_ok in H. cbv zeta in H.
  rewrite !andb_true_iff, !Z.eqb_eq, !Z.ltb_lt, !Z.leb_le in H.
  destruct H as (((((((((((H1 & H2) & H3) & H4) & H5) & H6) & H7) & H8) & H9) & H10) & H11) & H12).
  constructor; try assumption; split; assumption.
Qed.

(** A round of the program is sixteen steps of both lines. *)
Definition is_round (round : list Z -> (Z * Z * Z * Z * Z) * (Z * Z * Z * Z * Z) -> nat -> (Z * Z * Z * Z * Z) * (Z * Z * Z * Z * Z)) (r : Z) : Prop :=
  forall x X v v' j, (j < 80)%nat -> Z.of_nat j / 16 = r -> in5 v -> in5 v' -> (forall i, 0 <= i < 16 -> at_ x i = X i) ->
  round x (v, v') j = (left_step X v (Z.of_nat j), right_step X v' (Z.of_nat j)).

Ltac round_tac :=
  intros x X [[[[a b] c] d] e] [[[[a' b'] c'] d'] e'] j Hj Er H5 H5' HX;
  destruct (step_facts_ok j Hj) as [Fn Fnn Fr Frr Fs Fs' Fp Fp'];
  unfold round1, round2, round3, round4, round5, left_step, right_step;
  rewrite !turn_line by assumption;
  rewrite Fr, Frr, Fn, Fnn, Er, !HX by assumption;
  destruct H5 as (? & ? & ? & ? & ?), H5' as (? & ? & ? & ? & ?);
  rewrite ?not32_compl, ?ldiff_compl by assumption.

Lemma kl0 : kl 0 = 0. Proof. reflexivity. Qed.
Lemma round1_ok : is_round round1 0.
Proof. round_tac. change (kl 0) with 0. replace (kr 0) with 0x50a28be6 by (vm_compute; reflexivity). reflexivity. Qed.
Lemma round2_ok : is_round round2 1.
Proof. round_tac. replace (kl 1) with 0x5a827999 by (vm_compute; reflexivity). replace (kr 1) with 0x5c4dd124 by (vm_compute; reflexivity). reflexivity. Qed.
Lemma round3_ok : is_round round3 2.
Proof. round_tac. replace (kl 2) with 0x6ed9eba1 by (vm_compute; reflexivity). replace (kr 2) with 0x6d703ef3 by (vm_compute; reflexivity). reflexivity. Qed.
Lemma round4_ok : is_round round4 3.
Proof. round_tac. replace (kl 3) with 0x8f1bbcdc by (vm_compute; reflexivity). replace (kr 3) with 0x7a6d76e9 by (vm_compute; reflexivity). reflexivity. Qed.
Lemma round5_ok : is_round round5 4.
Proof. round_tac. replace (kl 4) with 0xa953fd4e by (vm_compute; reflexivity). change (kr 4) with 0. reflexivity. Qed.

Lemma left_in5 : forall X v j, in5 v -> in5 (left_step X v j).
Proof. intros X v j H. unfold left_step. destruct v as [[[[a b] c] d] e]. apply line_in5. exact H. Qed.
Lemma right_in5 : forall X v j, in5 v -> in5 (right_step X v j).
Proof. intros X v j H. unfold right_step. destruct v as [[[[a b] c] d] e]. apply line_in5. exact H. Qed.

Lemma fold_round : forall round r x X, is_round round r -> (forall i, 0 <= i < 16 -> at_ x i = X i) ->
  forall l, Forall (fun j => (j < 80)%nat /\ Z.of_nat j / 16 = r) l -> forall v v', in5 v -> in5 v' ->
  let lv := fold_left (fun v j => left_step X v (Z.of_nat j)) l v in
  let rv := fold_left (fun v j => right_step X v (Z.of_nat j)) l v' in
  fold_left (round x) l (v, v') = (lv, rv) /\ in5 lv /\ in5 rv.
Proof.
  intros round r x X HR HX l. induction l as [ | j l IH]; intros F v v' Hv Hv' lv rv; [repeat split; assumption | ].
  inversion F as [ | ? ? [Hj Er] F']; subst. unfold lv, rv. cbn [fold_left]. rewrite (HR x X v v' j Hj eq_refl Hv Hv' HX).
  apply IH; [exact F' | apply left_in5; exact Hv | apply right_in5; exact Hv'].
Qed.

Lemma fold_left_map : forall {A B C} (f : A -> B -> A) (g : C -> B) l a,
  fold_left f (map g l) a = fold_left (fun v i => f v (g i)) l a.
Proof. intros A B C f g l. induction l as [ | x l IH]; intro a; [reflexivity | apply IH]. Qed.

Lemma range_round : forall r, (r < 5)%nat -> Forall (fun j => (j < 80)%nat /\ Z.of_nat j / 16 = Z.of_nat r) (seq (16 * r) 16).
Proof.
  intros r Hr. apply Forall_forall. intros j Hj. apply in_seq in Hj. split; [lia | ].
  symmetry. apply (Z.div_unique _ 16 _ (Z.of_nat j - 16 * Z.of_nat r)); lia.
Qed.

Lemma steps_split : forall {A} (f : A -> Z -> A) v,
  fold_left f steps v =
  let g := fun v j => f v (Z.of_nat j) in
  fold_left g (seq 64 16) (fold_left g (seq 48 16) (fold_left g (seq 32 16) (fold_left g (seq 16 16) (fold_left g (seq 0 16) v)))).
Proof.
  intros A f v. unfold steps. rewrite fold_left_map. cbv zeta. rewrite <- !fold_left_app. reflexivity.
Qed.

Lemma block_step_ok : forall s p X, in5 s -> (forall i, 0 <= i < 16 -> at_ (load_block p) i = X i) ->
  block_step s p = compress s X /\ in5 (compress s X).
Proof.
  intros s p X Hs HX. unfold block_step, compress. rewrite !steps_split. cbv zeta.
  destruct (fold_round _ _ _ _ round1_ok HX _ (range_round 0 ltac:(lia)) s s Hs Hs) as (E1 & A1 & B1).
  destruct (fold_round _ _ _ _ round2_ok HX _ (range_round 1 ltac:(lia)) _ _ A1 B1) as (E2 & A2 & B2).
  destruct (fold_round _ _ _ _ round3_ok HX _ (range_round 2 ltac:(lia)) _ _ A2 B2) as (E3 & A3 & B3).
  destruct (fold_round _ _ _ _ round4_ok HX _ (range_round 3 ltac:(lia)) _ _ A3 B3) as (E4 & A4 & B4).
  destruct (fold_round _ _ _ _ round5_ok HX _ (range_round 4 ltac:(lia)) _ _ A4 B4) as (E5 & A5 & B5).
  change (16 * 0)%nat with 0%nat in *. change (16 * 1)%nat with 16%nat in *. change (16 * 2)%nat with 32%nat in *.
  change (16 * 3)%nat with 48%nat in *. change (16 * 4)%nat with 64%nat in *.
  rewrite E1, E2, E3, E4, E5.
  match type of A5 with in5 ?l => set (L := l) in * end.
  match type of B5 with in5 ?l => set (R := l) in * end. clearbody L R. clear - L R.
  destruct L as [[[[a b] c] d] e], R as [[[[a' b'] c'] d'] e'], s as [[[[s0 s1] s2] s3] s4].
  split.
  - unfold u32, w32. rewrite (Zplus_mod_idemp_r (c + s1)), !Zplus_mod_idemp_l. do 4 f_equal. f_equal. lia.
  - cbn. pose proof w32_in. repeat split; apply w32_in.
Qed.

(** ** Loading a block *)

Lemma four_skip : forall (l : bytes) k, (k + 4 <= length l)%nat ->
  firstn 4 (skipn k l) = [nth k l 0; nth (k + 1) l 0; nth (k + 2) l 0; nth (k + 3) l 0].
Proof.
  intros l k. revert l. induction k as [ | k IH]; intros l H.
  - destruct l as [ | a [ | b [ | c [ | d l]]]]; cbn in H; try lia. reflexivity.
  - destruct l as [ | x l]; [cbn in H; lia | ]. cbn [skipn]. rewrite IH by (cbn in H; lia). reflexivity.
Qed.

Lemma nth_firstn : forall (l : bytes) n k, (k < n)%nat -> nth k (firstn n l) 0 = nth k l 0.
Proof.
  intros l n. revert l. induction n as [ | n IH]; intros l k H; [lia | ].
  destruct l as [ | x l]; [reflexivity | ]. destruct k as [ | k]; [reflexivity | ]. cbn. apply IH. lia.
Qed.

Lemma nth_byte : forall (l : bytes) k, bytes_ok l -> is_byte (nth k l 0).
Proof.
  intros l k H. destruct (Nat.lt_ge_cases k (length l)) as [L | L].
  - unfold bytes_ok in H. rewrite Forall_forall in H. apply H. apply nth_In. exact L.
  - rewrite nth_overflow by exact L. unfold is_byte. lia.
Qed.

Lemma load_word_val : forall p i, bytes_ok p -> load_word p i =
  nth (4 * i) p 0 + 256 * (nth (4 * i + 1) p 0 + 256 * (nth (4 * i + 2) p 0 + 256 * nth (4 * i + 3) p 0)).
Proof.
  intros p i H. unfold load_word. cbv zeta.
  pose proof (nth_byte p (4 * i) H) as B0. pose proof (nth_byte p (4 * i + 1) H) as B1.
  pose proof (nth_byte p (4 * i + 2) H) as B2. pose proof (nth_byte p (4 * i + 3) H) as B3. unfold is_byte in *.
  set (b0 := nth (4 * i) p 0) in *. set (b1 := nth (4 * i + 1) p 0) in *. set (b2 := nth (4 * i + 2) p 0) in *. set (b3 := nth (4 * i + 3) p 0) in *.
  clearbody b0 b1 b2 b3.
  rewrite !u32_id by (rewrite Z.shiftl_mul_pow2 by lia; lia).
  rewrite (lor_shl b0 b1 8) by lia. rewrite (lor_shl _ b2 16) by lia. rewrite (lor_shl _ b3 24) by lia. lia.
Qed.

Lemma load_block_ok : forall p i, bytes_ok p -> (64 <= length p)%nat -> 0 <= i < 16 ->
  at_ (load_block p) i = word_at (firstn 64 p) i.
Proof.
  intros p i H L Hi. unfold at_, load_block.
  rewrite (nth_indep _ 0 (load_word p 0)) by (rewrite map_length, seq_length; lia).
  rewrite map_nth, seq_nth, Nat.add_0_l by lia. rewrite load_word_val by exact H.
  unfold word_at. replace (Z.to_nat (4 * i)) with (4 * Z.to_nat i)%nat by lia. set (k := Z.to_nat i). assert (k < 16)%nat by lia. clearbody k.
  rewrite four_skip by (rewrite firstn_length_le by exact L; lia). rewrite !nth_firstn by lia. cbn [le]. lia.
Qed.

(** ** _Block *)

Lemma blocks_app : forall a b h m1 m2, length m1 = (64 * a)%nat ->
  blocks (a + b) h (m1 ++ m2) = blocks b (blocks a h m1) m2.
Proof.
  induction a as [ | a IH]; intros b h m1 m2 L.
  - destruct m1; [reflexivity | discriminate].
  - cbn [blocks Nat.add]. rewrite firstn_app. replace (64 - length m1)%nat with 0%nat by lia. rewrite firstn_O, app_nil_r.
    rewrite skipn_app. replace (64 - length m1)%nat with 0%nat by lia. rewrite skipn_O.
    apply IH. rewrite skipn_length. lia.
Qed.

Lemma blocks_in5 : forall n h m, in5 h -> in5 (blocks n h m).
Proof.
  induction n as [ | n IH]; intros h m H; [exact H | ]. cbn [blocks]. apply IH.
  unfold compress. destruct h as [[[[h0 h1] h2] h3] h4].
  destruct (fold_left _ steps _) as [[[[a b] c] d] e]. destruct (fold_left (right_step _) steps _) as [[[[a' b'] c'] d'] e'].
  cbn. repeat split; apply w32_in.
Qed.

Lemma block_loop_ok : forall fuel s p n, in5 s -> bytes_ok p -> (length p / 64 <= fuel)%nat ->
  block_loop fuel s p n = (blocks (length p / 64) s p, n + 64 * Z.of_nat (length p / 64)).
Proof.
  induction fuel as [ | f IH]; intros s p n Hs Hp F.
  - replace (length p / 64)%nat with 0%nat by lia. cbn. f_equal. lia.
  - cbn [block_loop]. destruct (64 <=? len p) eqn:E.
    + apply Z.leb_le in E. unfold len in E. assert (L : (64 <= length p)%nat) by lia.
      destruct (block_step_ok s p (word_at (firstn 64 p)) Hs (fun i => load_block_ok p i Hp L)) as [ES H5].
      assert (Q : (length p / 64 = S (length (skipn 64 p) / 64))%nat).
      { rewrite skipn_length. replace (length p) with (length p - 64 + 1 * 64)%nat at 1 by lia. rewrite Nat.div_add by lia. lia. }
      rewrite IH; [ | rewrite ES; exact H5 | apply bytes_ok_skipn; exact Hp | lia].
      rewrite Q, ES. cbn [blocks]. f_equal. lia.
    + apply Z.leb_gt in E. unfold len in E. rewrite Nat.div_small by lia. cbn. f_equal. lia.
Qed.

Lemma Block_ok : forall s p, in5 s -> bytes_ok p ->
  Block s p = (blocks (length p / 64) s p, 64 * Z.of_nat (length p / 64)).
Proof.
  intros s p Hs Hp. unfold Block. rewrite block_loop_ok; [reflexivity | exact Hs | exact Hp | ].
  apply Nat.div_le_upper_bound; lia.
Qed.

(** ** Write: what the state says about the message written so far *)

Definition holds (d : digest) (m : bytes) : Prop :=
  exists A B a, m = A ++ B /\ length A = (64 * a)%nat /\ (length B < 64)%nat /\
    d_s d = blocks a iv A /\ d_nx d = len B /\ length (d_x d) = 64%nat /\ bytes_ok (d_x d) /\
    firstn (length B) (d_x d) = B /\ d_tc d = len m mod 2 ^ 64.

Lemma iv_in5 : in5 iv.
Proof. cbn. unfold in32. repeat split; (discriminate || reflexivity). Qed.

Lemma put_at_0 : forall x q, put_at x 0 q = q ++ skipn (length q) x.
Proof. reflexivity. Qed.

Lemma bytes_put_at : forall x i q, bytes_ok x -> bytes_ok q -> bytes_ok (put_at x i q).
Proof.
  intros x i q Hx Hq. unfold put_at. apply bytes_ok_app. split; [apply bytes_ok_firstn; exact Hx | ].
  apply bytes_ok_app. split; [exact Hq | apply bytes_ok_skipn; exact Hx].
Qed.

(** The second half of Write, with an empty buffer. *)
Lemma write_tail : forall A a s x p tc, length A = (64 * a)%nat -> s = blocks a iv A -> length x = 64%nat -> bytes_ok x -> bytes_ok p ->
  tc = len (A ++ p) mod 2 ^ 64 ->
  forall d, (let '(s, n) := Block s p in
    let p := skipn (Z.to_nat n) p in
    let '(x, nx) := if 0 <? len p then let n := Z.min 64 (len p) in (put_at x 0 (firstn (Z.to_nat n) p), n) else (x, 0) in
    MkDigest s x nx tc) = d -> holds d (A ++ p).
Proof.
  intros A a s x p tc LA Es Lx Hx Hp Etc d E. rewrite Block_ok in E by (try exact Hp; rewrite Es; apply blocks_in5, iv_in5). cbv zeta in E.
  set (k := (length p / 64)%nat) in *. replace (Z.to_nat (64 * Z.of_nat k)) with (64 * k)%nat in E by lia.
  pose proof (Nat.div_mod (length p) 64 ltac:(lia)) as DM. pose proof (Nat.mod_upper_bound (length p) 64 ltac:(lia)) as MB. fold k in DM.
  assert (L2 : length (skipn (64 * k) p) = (length p mod 64)%nat) by (rewrite skipn_length; lia).
  assert (SP : p = firstn (64 * k) p ++ skipn (64 * k) p) by (symmetry; apply firstn_skipn).
  assert (L1 : length (firstn (64 * k) p) = (64 * k)%nat) by (rewrite firstn_length; lia).
  set (P1 := firstn (64 * k) p) in *. set (P2 := skipn (64 * k) p) in *.
  assert (HP2 : bytes_ok P2) by (apply bytes_ok_skipn; exact Hp).
  exists (A ++ P1), P2, (a + k)%nat. split; [rewrite <- app_assoc, <- SP; reflexivity | ].
  split; [rewrite app_length; lia | ]. split; [lia | ].
  assert (EB : blocks k s p = blocks (a + k) iv (A ++ P1)).
  { rewrite blocks_app by exact LA. rewrite <- Es. rewrite SP at 1. rewrite <- (Nat.add_0_r k) at 1. rewrite blocks_app by exact L1. reflexivity. }
  destruct (0 <? len P2) eqn:Z0.
  - apply Z.ltb_lt in Z0. rewrite Z.min_r in E by (unfold len; lia). unfold len in E at 1. rewrite Nat2Z.id, firstn_all in E.
    subst d. cbn [d_s d_nx d_x d_tc]. split; [exact EB | ]. split; [reflexivity | ]. rewrite put_at_0.
    split; [rewrite app_length, skipn_length; lia | ]. split; [apply bytes_ok_app; split; [exact HP2 | apply bytes_ok_skipn; exact Hx] | ].
    split; [rewrite firstn_app, Nat.sub_diag, firstn_O, app_nil_r; apply firstn_all | exact Etc].
  - apply Z.ltb_ge in Z0. assert (len P2 = 0) by (pose proof (len_nonneg P2); lia). apply len_zero in H.
    subst d. cbn [d_s d_nx d_x d_tc]. rewrite H. split; [exact EB | ]. split; [reflexivity | ]. split; [exact Lx | ]. split; [exact Hx | ].
    split; [reflexivity | exact Etc].
Qed.

Lemma Write_holds : forall d m p, holds d m -> bytes_ok p ->
  holds (fst (Write d p)) (m ++ p) /\ snd (Write d p) = len p.
Proof.
  intros d m p (A & B & a & Em & LA & LB & Es & En & Lx & Hx & EB & Et) Hp.
  assert (TC : u64 (d_tc d + len p) = len (m ++ p) mod 2 ^ 64) by (unfold u64; rewrite Et, Zplus_mod_idemp_l, len_app; reflexivity).
  unfold Write. cbv zeta. rewrite TC, En.
  destruct (0 <? len B) eqn:N0.
  2: { apply Z.ltb_ge in N0. assert (Z0 : len B = 0) by (pose proof (len_nonneg B); lia). rewrite Z0. apply len_zero in Z0. subst B.
       rewrite app_nil_r in Em. subst A.
       pose proof (write_tail m a (d_s d) (d_x d) p (len (m ++ p) mod 2 ^ 64) LA Es Lx Hx Hp eq_refl _ eq_refl) as W.
       destruct (Block (d_s d) p) as [s n]. cbv zeta in W. destruct (if 0 <? len (skipn (Z.to_nat n) p) then _ else _) as [x nx].
       cbn [fst snd]. split; [exact W | reflexivity]. }
  apply Z.ltb_lt in N0.
  assert (PX : put_at (d_x d) (len B) = fun q => B ++ q ++ skipn (length B + length q) (d_x d)).
  { unfold put_at, len. rewrite Nat2Z.id, EB. reflexivity. }
  rewrite PX. cbv beta.
  assert (Split : forall n, (n <= length p)%nat -> (n <= 64 - length B)%nat -> length (firstn n p) = n) by (intros n H1 H2; rewrite firstn_length; lia).
  destruct (64 - len B <? len p) eqn:C; [apply Z.ltb_lt in C | apply Z.ltb_ge in C]; unfold len in C.
  - (* the buffer is filled *)
    replace (len B + (64 - len B) =? 64) with true by (symmetry; apply Z.eqb_eq; lia).
    set (n := Z.to_nat (64 - len B)). assert (Hn : n = (64 - length B)%nat) by (unfold n, len; lia).
    assert (Ln : length (firstn n p) = n) by (apply Split; lia).
    rewrite Ln. rewrite (skipn_all2 (d_x d)) by lia. rewrite app_nil_r.
    set (A' := A ++ (B ++ firstn n p)).
    assert (HP1 : bytes_ok (B ++ firstn n p)).
    { apply bytes_ok_app. split; [rewrite <- EB; apply bytes_ok_firstn; exact Hx | apply bytes_ok_firstn; exact Hp]. }
    assert (LB2 : length (B ++ firstn n p) = 64%nat) by (rewrite app_length, Ln; lia).
    rewrite (Block_ok (d_s d) (B ++ firstn n p)) by (try exact HP1; rewrite Es; apply blocks_in5, iv_in5). cbn [fst]. rewrite LB2. change (64 / 64)%nat with 1%nat.
    assert (LA' : length A' = (64 * (a + 1))%nat) by (unfold A'; rewrite app_length, LA, LB2; lia).
    assert (Es' : blocks 1 (d_s d) (B ++ firstn n p) = blocks (a + 1) iv A') by (unfold A'; rewrite blocks_app by exact LA; rewrite <- Es; reflexivity).
    assert (HS : bytes_ok (skipn n p)) by (apply bytes_ok_skipn; exact Hp).
    assert (EM : A' ++ skipn n p = m ++ p).
    { unfold A'. rewrite Em, <- !app_assoc, firstn_skipn. reflexivity. }
    pose proof (write_tail A' (a + 1) _ (B ++ firstn n p) (skipn n p) (len (m ++ p) mod 2 ^ 64) LA' Es' LB2 HP1 HS ltac:(rewrite EM; reflexivity) _ eq_refl) as W.
    rewrite EM in W. destruct (Block _ (skipn n p)) as [s n']. cbv zeta in W. destruct (if 0 <? len (skipn (Z.to_nat n') (skipn n p)) then _ else _) as [x nx].
    cbn [fst snd]. split; [exact W | reflexivity].
  - (* everything fits *)
    assert (FA : firstn (Z.to_nat (len p)) p = p) by (rewrite to_nat_len; apply firstn_all).
    assert (SA : skipn (Z.to_nat (len p)) p = []) by (rewrite to_nat_len; apply skipn_all).
    rewrite FA, SA.
    set (x := B ++ p ++ skipn (length B + length p) (d_x d)).
    assert (LX : length x = 64%nat) by (unfold x; rewrite !app_length, skipn_length; lia).
    assert (HX : bytes_ok x).
    { unfold x. apply bytes_ok_app. split; [rewrite <- EB; apply bytes_ok_firstn; exact Hx | ]. apply bytes_ok_app. split; [exact Hp | apply bytes_ok_skipn; exact Hx]. }
    destruct (len B + len p =? 64) eqn:F.
    + apply Z.eqb_eq in F. unfold len in F. assert (EX : x = B ++ p) by (unfold x; rewrite skipn_all2, app_nil_r by lia; reflexivity).
      rewrite (Block_ok (d_s d) x) by (try exact HX; rewrite Es; apply blocks_in5, iv_in5). cbn [fst]. rewrite LX. change (64 / 64)%nat with 1%nat.
      set (A' := A ++ x). assert (LA' : length A' = (64 * (a + 1))%nat) by (unfold A'; rewrite app_length, LA, LX; lia).
      assert (Es' : blocks 1 (d_s d) x = blocks (a + 1) iv A') by (unfold A'; rewrite blocks_app by exact LA; rewrite <- Es; reflexivity).
      assert (EM : A' ++ [] = m ++ p) by (unfold A'; rewrite EX, Em, app_nil_r, <- !app_assoc; reflexivity).
      pose proof (write_tail A' (a + 1) _ x [] (len (m ++ p) mod 2 ^ 64) LA' Es' LX HX bytes_ok_nil ltac:(rewrite EM; reflexivity) _ eq_refl) as W.
      rewrite EM in W. split; [exact W | reflexivity].
    + apply Z.eqb_neq in F. unfold len in F. change (Block (d_s d) []) with (d_s d, 0). cbv iota. rewrite skipn_nil. change (0 <? len []) with false. cbv iota. cbn [fst snd].
      split; [ | reflexivity]. exists A, (B ++ p), a. cbn [d_s d_nx d_x d_tc].
      split; [rewrite Em, <- app_assoc; reflexivity | ]. split; [exact LA | ]. split; [rewrite app_length; lia | ]. split; [exact Es | ].
      split; [rewrite len_app; reflexivity | ]. split; [exact LX | ]. split; [exact HX | ]. split; [ | reflexivity].
      unfold x. rewrite app_assoc, firstn_app, Nat.sub_diag, firstn_O, app_nil_r. apply firstn_all.
Qed.

Lemma Reset_holds : forall d, length (d_x d) = 64%nat -> bytes_ok (d_x d) -> holds (Reset d) [].
Proof.
  intros d L H. exists [], [], 0%nat. repeat split; try exact L; try exact H; try reflexivity. cbn. lia.
Qed.

Lemma New_holds : holds New [].
Proof. apply Reset_holds; [reflexivity | ]. cbn. repeat constructor; lia. Qed.

Lemma holds_buffer : forall d m, holds d m -> length (d_x d) = 64%nat /\ bytes_ok (d_x d).
Proof. intros d m (A & B & a & H). tauto. Qed.

(** ** Sum *)

Lemma put_word_le : forall s, put_word s = le_bytes 4 s.
Proof.
  intro s. unfold put_word. cbn [le_bytes]. unfold u8. rewrite !Z.shiftr_div_pow2 by lia. change (2 ^ 8) with 256.
  rewrite !Z.div_div by lia. reflexivity.
Qed.

Lemma le_bytes_shift : forall n x, le_bytes n x = map (fun i => u8 (Z.shiftr x (8 * Z.of_nat i))) (seq 0 n).
Proof.
  intros n. induction n as [ | n IH]; intro x; [reflexivity | ].
  cbn [le_bytes seq map]. rewrite Z.mul_0_r, Z.shiftr_0_r. f_equal. rewrite IH, <- seq_shift, map_map. apply map_ext. intro i.
  f_equal. rewrite !Z.shiftr_div_pow2 by lia. rewrite Z.div_div by (try apply Z.pow_pos_nonneg; lia). f_equal.
  change 256 with (2 ^ 8). rewrite <- Z.pow_add_r by lia. f_equal. lia.
Qed.

Lemma le_bytes_mod : forall n x, le_bytes n (x mod 256 ^ Z.of_nat n) = le_bytes n x.
Proof.
  induction n as [ | n IH]; intro x; [reflexivity | ].
  assert (P : 0 < 256 ^ Z.of_nat n) by (apply Z.pow_pos_nonneg; lia).
  cbn [le_bytes]. rewrite Nat2Z.inj_succ, Z.pow_succ_r by lia. f_equal.
  - rewrite Z.rem_mul_r by lia. rewrite Z.mul_comm, Z.mod_add by lia. apply Z.mod_mod. lia.
  - rewrite <- (IH (x / 256)). f_equal. rewrite Z.rem_mul_r by lia. rewrite (Z.mul_comm 256), Z.div_add by lia.
    rewrite (Z.div_small (x mod 256)) by (apply Z.mod_pos_bound; lia). lia.
Qed.

Lemma le_bytes_ok : forall n x, bytes_ok (le_bytes n x).
Proof. induction n as [ | n IH]; intro x; [constructor | ]. constructor; [apply Z.mod_pos_bound; lia | apply IH]. Qed.
Lemma le_bytes_length : forall n x, length (le_bytes n x) = n.
Proof. induction n as [ | n IH]; intro x; [reflexivity | cbn; rewrite IH; reflexivity]. Qed.

Lemma mod64 : forall n, (n mod 2 ^ 64) mod 64 = n mod 64.
Proof.
  intro n. pose proof (Z.div_mod n (2 ^ 64) ltac:(discriminate)) as D. rewrite D at 2.
  replace (2 ^ 64 * (n / 2 ^ 64) + n mod 2 ^ 64) with (n mod 2 ^ 64 + (2 ^ 58 * (n / 2 ^ 64)) * 64) by (change (2 ^ 64) with (2 ^ 58 * 64); ring).
  rewrite Z.mod_add by discriminate. reflexivity.
Qed.

Lemma pad_slice : forall k, (1 <= k <= 64)%nat -> slice (0x80 :: repeat 0 63) 0 (Z.of_nat k) = Ok (0x80 :: repeat 0 (k - 1)).
Proof.
  intros k H. unfold slice. rewrite len_cons, len_repeat.
  replace ((0 <=? 0) && (0 <=? Z.of_nat k) && (Z.of_nat k <=? 1 + Z.of_nat 63)) with true
    by (symmetry; rewrite !andb_true_iff, !Z.leb_le; lia).
  rewrite Z.sub_0_r, Nat2Z.id. change (Z.to_nat 0) with 0%nat. cbn [skipn].
  destruct k as [ | k]; [lia | ]. cbn [firstn]. do 2 f_equal. replace (S k - 1)%nat with k by lia.
  assert (E : repeat 0 63 = repeat 0 k ++ repeat 0 (63 - k)) by (rewrite <- repeat_app; f_equal; lia).
  rewrite E, firstn_app, repeat_length, Nat.sub_diag, firstn_O, app_nil_r. rewrite <- (repeat_length 0 k) at 1. apply firstn_all.
Qed.

Lemma Sum_holds : forall d m inp, holds d m -> Sum d inp = Ok (inp ++ rmd160 m).
Proof.
  intros d m inp H. assert (ET : d_tc d = len m mod 2 ^ 64) by (destruct H as (A & B & a & H); tauto).
  unfold Sum. cbv zeta. rewrite ET, mod64.
  set (zc := Z.to_nat ((55 - len m) mod 64)).
  assert (Q : (if len m mod 64 <? 56 then slice (0x80 :: repeat 0 63) 0 (56 - len m mod 64) else slice (0x80 :: repeat 0 63) 0 (64 + 56 - len m mod 64))
              = Ok ([128] ++ repeat 0 zc)).
  { pose proof (Z.mod_pos_bound (len m) 64 ltac:(lia)) as M. pose proof (Z.div_mod (len m) 64 ltac:(lia)) as DM.
    destruct (len m mod 64 <? 56) eqn:C; [apply Z.ltb_lt in C | apply Z.ltb_ge in C].
    - assert (EZ : (55 - len m) mod 64 = 55 - len m mod 64) by (symmetry; apply (Z.mod_unique _ _ (- (len m / 64))); lia).
      replace (56 - len m mod 64) with (Z.of_nat (S zc)) by (unfold zc; rewrite EZ; lia).
      rewrite pad_slice by (unfold zc; rewrite EZ; lia). replace (S zc - 1)%nat with zc by lia. reflexivity.
    - assert (EZ : (55 - len m) mod 64 = 119 - len m mod 64) by (symmetry; apply (Z.mod_unique _ _ (- (len m / 64) - 1)); lia).
      replace (64 + 56 - len m mod 64) with (Z.of_nat (S zc)) by (unfold zc; rewrite EZ; lia).
      rewrite pad_slice by (unfold zc; rewrite EZ; lia). replace (S zc - 1)%nat with zc by lia. reflexivity. }
  rewrite Q. cbn [rbind].
  assert (HQ : bytes_ok ([128] ++ repeat 0 zc)).
  { apply bytes_ok_app. split; [repeat constructor; lia | ]. apply Forall_forall. intros x Hx. apply repeat_spec in Hx. subst x. unfold is_byte. lia. }
  destruct (Write_holds d m _ H HQ) as [H1 _]. set (d1 := fst (Write d ([128] ++ repeat 0 zc))) in *. clearbody d1.
  set (tc := u64 (Z.shiftl (len m mod 2 ^ 64) 3)).
  assert (EL : map (fun i => u8 (Z.shiftr tc (8 * Z.of_nat i))) (seq 0 8) = le_bytes 8 (8 * len m)).
  { rewrite <- le_bytes_shift. rewrite <- (le_bytes_mod 8 (8 * len m)). change (256 ^ Z.of_nat 8) with (2 ^ 64). f_equal.
    unfold tc, u64. rewrite Z.shiftl_mul_pow2 by lia. rewrite Z.mul_mod_idemp_l by discriminate. f_equal. change (2 ^ 3) with 8. ring. }
  rewrite EL.
  assert (SL : slice (le_bytes 8 (8 * len m) ++ skipn 8 (0x80 :: repeat 0 63)) 0 8 = Ok (le_bytes 8 (8 * len m))).
  { replace 8 with (len (le_bytes 8 (8 * len m))) at 3 by (unfold len; rewrite le_bytes_length; reflexivity). apply slice_app_l. }
  rewrite SL. cbn [rbind].
  destruct (Write_holds d1 _ _ H1 (le_bytes_ok 8 (8 * len m))) as [H2 _]. set (d2 := fst (Write d1 (le_bytes 8 (8 * len m)))) in *. clearbody d2.
  replace ((m ++ [128] ++ repeat 0 zc) ++ le_bytes 8 (8 * len m)) with (m ++ padding (len m)) in H2 by (unfold padding, zc; rewrite <- !app_assoc; reflexivity).
  destruct H2 as (A & B & a & Em & LA & LB & Es & En & _).
  assert (LP : exists q, length (m ++ padding (len m)) = (64 * q)%nat).
  { unfold padding. rewrite !app_length, repeat_length, le_bytes_length. cbn [length].
    pose proof (Z.mod_pos_bound (55 - len m) 64 ltac:(lia)) as M. pose proof (Z.div_mod (55 - len m) 64 ltac:(lia)) as DM.
    exists (Z.to_nat (1 - (55 - len m) / 64)). unfold len in *. lia. }
  destruct LP as (q & LP). assert (B0 : length B = 0%nat) by (rewrite Em, app_length in LP; lia).
  destruct B as [ | ? ?]; [ | discriminate]. rewrite En. change (len [] =? 0) with true. cbn [negb].
  rewrite app_nil_r in Em. unfold rmd160. cbv zeta. rewrite LP, Nat.mul_comm, Nat.div_mul by lia.
  assert (q = a) by (rewrite Em in LP; lia). subst q. rewrite Em, Es.
  destruct (blocks a iv A) as [[[[s0 s1] s2] s3] s4]. rewrite !put_word_le. reflexivity.
Qed.

Lemma rmd160_length : forall m, length (rmd160 m) = 20%nat /\ bytes_ok (rmd160 m).
Proof.
  intro m. unfold rmd160. cbv zeta. destruct (blocks _ _ _) as [[[[s0 s1] s2] s3] s4].
  split; [rewrite !app_length, !le_bytes_length; reflexivity | ]. rewrite !bytes_ok_app. repeat split; apply le_bytes_ok.
Qed.
