(** Proofs about slices in memory (MemModel). *)
From Verif Require Import GoBase BaseLemmas BufferModel Bech32Model ScriptModel LockModel TxModel VmModel MemModel MemSpec.

Section Mem.
Context {A : Type}.
Variable zero : A.
Variable grow : nat -> nat -> nat.
Local Notation heap := (@heap A).
Local Notation append := (@go_append A zero grow).

Lemma array_upd (h : heap) a b v : array (upd a v h) b = if ((a =? b) && (a <? length h))%nat then v else array h b.
Proof.
  unfold array. revert a b. induction h as [|x r IH]; intros a b.
  - cbn. rewrite andb_false_r. destruct a, b; reflexivity.
  - destruct a as [|a], b as [|b]; cbn; try reflexivity.
    + rewrite IH. reflexivity.
Qed.
Lemma upd_length {T} n (x : T) l : length (upd n x l) = length l.
Proof. revert n; induction l as [|y r IH]; intros [|n]; cbn; auto. Qed.
Lemma array_ext (h : heap) v a : array (h ++ [v]) a = if (a =? length h)%nat then v else array h a.
Proof.
  unfold array. destruct (Nat.eqb_spec a (length h)) as [->|N]; [apply nth_middle|].
  destruct (Nat.lt_ge_cases a (length h)); [apply app_nth1; lia|]. rewrite !nth_overflow; [reflexivity|lia|rewrite app_length; cbn; lia].
Qed.
Lemma array_lt (h : heap) a : (0 < length (array h a))%nat -> (a < length h)%nat.
Proof. intros L. destruct (Nat.lt_ge_cases a (length h)) as [|G]; [assumption|]. unfold array in L. rewrite nth_overflow in L by lia. cbn in L. lia. Qed.

Lemma read_length (h : heap) s : wf h s -> length (read h s) = s_len s.
Proof. intros [W1 W2]. unfold read. rewrite firstn_length, skipn_length. lia. Qed.

Lemma write_length (l : list A) i xs : (i + length xs <= length l)%nat -> length (write l i xs) = length l.
Proof. intros L. unfold write. rewrite !app_length, firstn_length, skipn_length. lia. Qed.
Lemma write_nil (l : list A) i : write l i [] = l.
Proof. unfold write. cbn. rewrite Nat.add_0_r. apply firstn_skipn. Qed.
Lemma write_nth (l : list A) i xs j : (i + length xs <= length l)%nat ->
  nth_error (write l i xs) j = if ((i <=? j) && (j <? i + length xs))%nat then nth_error xs (j - i) else nth_error l j.
Proof.
  intros L. unfold write. assert (F : length (firstn i l) = i) by (rewrite firstn_length; lia).
  destruct (Nat.leb_spec i j) as [G|G]; cbn [andb].
  - rewrite nth_error_app2 by lia. rewrite F. destruct (Nat.ltb_spec j (i + length xs)).
    + apply nth_error_app1. lia.
    + rewrite nth_error_app2 by lia. replace (nth_error l j) with (nth_error (firstn (i + length xs) l ++ skipn (i + length xs) l) j) by (rewrite firstn_skipn; reflexivity).
      rewrite nth_error_app2 by (rewrite firstn_length; lia). f_equal. rewrite firstn_length. lia.
  - rewrite nth_error_app1 by lia. rewrite <- (firstn_skipn i l) at 2. rewrite nth_error_app1 by lia. reflexivity.
Qed.
Lemma write_read (l : list A) o n xs : (o + n + length xs <= length l)%nat ->
  firstn (n + length xs) (skipn o (write l (o + n) xs)) = firstn n (skipn o l) ++ xs.
Proof.
  intros L. unfold write. rewrite skipn_app.
  replace (o - length (firstn (o + n) l))%nat with 0%nat by (rewrite firstn_length; lia). cbn [skipn].
  rewrite skipn_firstn_comm. replace (o + n - o)%nat with n by lia.
  assert (F : length (firstn n (skipn o l)) = n) by (rewrite firstn_length, skipn_length; lia).
  rewrite firstn_app, F. replace (n + length xs - n)%nat with (length xs) by lia.
  rewrite firstn_firstn, Nat.min_r by lia. rewrite firstn_app. replace (length xs - length xs)%nat with 0%nat by lia. cbn [firstn].
  rewrite firstn_all, app_nil_r. reflexivity.
Qed.

(** The array appended to, when the append is in place. *)
Lemma array_written (h : heap) s xs : wf h s -> (s_len s + length xs <= s_cap s)%nat -> forall a,
  array (upd (s_arr s) (write (array h (s_arr s)) (s_off s + s_len s) xs) h) a =
  if (s_arr s =? a)%nat then write (array h a) (s_off s + s_len s) xs else array h a.
Proof.
  intros [W1 W2] L a. rewrite array_upd. destruct (Nat.eqb_spec (s_arr s) a) as [<-|N]; [|reflexivity]. cbn [andb].
  destruct (Nat.ltb_spec (s_arr s) (length h)) as [|G]; [reflexivity|].
  unfold array in *. rewrite nth_overflow in * by lia. cbn [length] in W1. destruct xs as [|x xs]; [|cbn [length] in L; lia].
  rewrite write_nil. reflexivity.
Qed.

Theorem append_spec (h h' : heap) s s' xs : wf h s -> append h s xs = (h', s') ->
  wf h' s' /\ read h' s' = read h s ++ xs /\ s_len s' = (s_len s + length xs)%nat.
Proof.
  intros W E. pose proof (read_length h s W) as RL. unfold go_append in E.
  destruct (Nat.leb_spec (s_len s + length xs) (s_cap s)) as [L|L]; injection E as <- <-.
  - pose proof (array_written h s xs W L) as AW. destruct W as [W1 W2]. split; [|split; [|reflexivity]].
    + split; cbn [s_arr s_off s_len s_cap]; [|lia]. rewrite AW, Nat.eqb_refl, write_length by lia. lia.
    + unfold read. cbn [s_arr s_off s_len s_cap]. rewrite AW, Nat.eqb_refl. apply write_read. lia.
  - split; [|split; [|reflexivity]].
    + split; cbn [s_arr s_off s_len s_cap]; [|lia]. rewrite array_ext, Nat.eqb_refl, !app_length, repeat_length. lia.
    + unfold read at 1. cbn [s_arr s_off s_len s_cap]. rewrite array_ext, Nat.eqb_refl. cbn [skipn].
      rewrite app_assoc, firstn_app, app_length, RL, Nat.sub_diag. cbn [firstn]. rewrite app_nil_r.
      rewrite firstn_all2 by (rewrite app_length; lia). reflexivity.
Qed.

(** Element j of array a afterwards, for the arrays which existed before. *)
Theorem append_effect (h h' : heap) s s' xs : wf h s -> append h s xs = (h', s') -> forall a j, (a < length h)%nat ->
  nth_error (array h' a) j =
  if ((s_arr s =? a) && (s_len s + length xs <=? s_cap s) && (s_off s + s_len s <=? j) && (j <? s_off s + s_len s + length xs))%nat
  then nth_error xs (j - (s_off s + s_len s)) else nth_error (array h a) j.
Proof.
  intros W E a j La. unfold go_append in E.
  destruct (Nat.leb_spec (s_len s + length xs) (s_cap s)) as [L|L]; injection E as <- <-.
  - rewrite (array_written h s xs W L). destruct (Nat.eqb_spec (s_arr s) a) as [<-|N]; [|reflexivity]. cbn [andb].
    destruct W as [W1 W2]. apply write_nth. lia.
  - rewrite array_ext. destruct (Nat.eqb_spec a (length h)); [lia|]. rewrite andb_false_r. reflexivity.
Qed.

Lemma append_put_behind (h h' : heap) s s' xs : wf h s -> append h s xs = (h', s') -> put_behind h h' s xs.
Proof.
  intros W E a j La. pose proof (append_effect h h' s s' xs W E a j La) as P. cbv zeta. rewrite P. clear P. split.
  - intros -> L i Hi ->. rewrite Nat.eqb_refl. destruct (Nat.leb_spec (s_len s + length xs) (s_cap s)); [|lia].
    destruct (Nat.leb_spec (s_off s + s_len s) (s_off s + s_len s + i)); [|lia].
    destruct (Nat.ltb_spec (s_off s + s_len s + i) (s_off s + s_len s + length xs)); [|lia]. cbn [andb]. f_equal. lia.
  - intros D. destruct (Nat.eqb_spec (s_arr s) a); [|reflexivity].
    destruct (Nat.leb_spec (s_len s + length xs) (s_cap s)); [|reflexivity].
    destruct (Nat.leb_spec (s_off s + s_len s) j); [|reflexivity].
    destruct (Nat.ltb_spec j (s_off s + s_len s + length xs)); [|reflexivity]. lia.
Qed.

Lemma nth_skipn (l : list A) : forall o j, nth_error (skipn o l) j = nth_error l (o + j).
Proof. induction l as [|x l IH]; intros [|o] j; cbn; try reflexivity; [destruct j; reflexivity|apply IH]. Qed.
Lemma nth_firstn (l : list A) : forall n j, nth_error (firstn n l) j = if (j <? n)%nat then nth_error l j else None.
Proof.
  induction l as [|x l IH]; intros n j.
  - rewrite firstn_nil. destruct (j <? n)%nat, j; reflexivity.
  - destruct n as [|n], j as [|j]; try reflexivity. exact (IH n j).
Qed.
Lemma list_ext (l : list A) : forall m, (forall j, nth_error l j = nth_error m j) -> l = m.
Proof.
  induction l as [|x l IH]; intros [|y m] H.
  - reflexivity.
  - discriminate (H 0%nat).
  - discriminate (H 0%nat).
  - pose proof (H 0%nat) as H0. cbn in H0. injection H0 as <-. f_equal. apply IH. intros j. exact (H (S j)).
Qed.

(** A slice apart from the spare room reads the same afterwards. *)
Lemma put_behind_apart (h h' : heap) s c xs : wf h s -> (s_arr c < length h)%nat -> put_behind h h' s xs -> apart s c -> read h' c = read h c.
Proof.
  intros W Lc P D. unfold read. apply list_ext. intros j. rewrite !nth_firstn, !nth_skipn.
  destruct (Nat.ltb_spec j (s_len c)) as [J|J]; [|reflexivity].
  destruct (P (s_arr c) (s_off c + j)%nat Lc) as [_ Q]. apply Q.
  destruct D as [D|[D|D]]; [tauto|lia|]. destruct (Nat.le_gt_cases (s_len s + length xs) (s_cap s)); [|lia]. right; right; right. lia.
Qed.
(** The slice behind gets another first element. *)
Lemma put_behind_follows (h h' : heap) s c x xs : (s_arr c < length h)%nat -> put_behind h h' s (x :: xs) -> follows s c ->
  (s_len s + length (x :: xs) <= s_cap s)%nat -> exists r, read h' c = x :: r.
Proof.
  intros Lc P (E1 & E2 & E3) L. destruct (read h' c) as [|y r] eqn:R.
  - assert (N : nth_error (read h' c) 0 = None) by (rewrite R; reflexivity). unfold read in N. rewrite nth_firstn, nth_skipn in N.
    destruct (Nat.ltb_spec 0 (s_len c)); [|lia].
    rewrite (proj1 (P (s_arr c) (s_off c + 0)%nat Lc) E1 L 0%nat ltac:(cbn; lia) ltac:(lia)) in N. discriminate N.
  - assert (N : nth_error (read h' c) 0 = Some y) by (rewrite R; reflexivity). unfold read in N. rewrite nth_firstn, nth_skipn in N.
    destruct (Nat.ltb_spec 0 (s_len c)); [|lia].
    rewrite (proj1 (P (s_arr c) (s_off c + 0)%nat Lc) E1 L 0%nat ltac:(cbn; lia) ltac:(lia)) in N. cbn in N. injection N as <-. exists r. reflexivity.
Qed.

(** Nothing that existed changes when the slice has no spare room. *)
Lemma append_full (h h' : heap) s s' xs : wf h s -> s_cap s = s_len s -> append h s xs = (h', s') ->
  same_memory h h'.
Proof.
  intros W F E a La. unfold go_append in E.
  destruct (Nat.leb_spec (s_len s + length xs) (s_cap s)) as [L|L]; injection E as <- <-.
  - rewrite (array_written h s xs W L). destruct (s_arr s =? a)%nat; [|reflexivity]. destruct xs; [apply write_nil|cbn [length] in L; lia].
  - rewrite array_ext. destruct (Nat.eqb_spec a (length h)); [lia|reflexivity].
Qed.

(** ** Two stacks *)
Definition disj (s c : slice) : Prop := s_arr s <> s_arr c \/ s_cap s = 0%nat \/ s_cap c = 0%nat.

Lemma wf_cap_lt (h : heap) s : wf h s -> s_cap s <> 0%nat -> (s_arr s < length h)%nat.
Proof. intros [W1 W2] N. apply array_lt. lia. Qed.

(** What an append to [s] leaves alone. *)
Lemma append_disj (h h' : heap) s s' c xs : wf h s -> wf h c -> disj s c -> append h s xs = (h', s') ->
  wf h' c /\ read h' c = read h c /\ disj s' c.
Proof.
  intros W Wc D E. unfold go_append in E.
  destruct (Nat.leb_spec (s_len s + length xs) (s_cap s)) as [L|L]; injection E as <- <-.
  - pose proof (array_written h s xs W L (s_arr c)) as AW. unfold wf, read. rewrite !AW.
    destruct (Nat.eqb_spec (s_arr s) (s_arr c)) as [Ea|N].
    + destruct D as [D|[D|D]]; [tauto| |].
      * destruct xs as [|x xs]; [|cbn [length] in L; lia]. rewrite write_nil. split; [exact Wc|]. split; [reflexivity|]. right; left; exact D.
      * destruct W as [W1 W2]. rewrite write_length by (rewrite <- Ea; lia). split; [exact Wc|]. split; [|right; right; exact D].
        destruct Wc as [_ W3]. replace (s_len c) with 0%nat by lia. reflexivity.
    + split; [exact Wc|]. split; [reflexivity|]. left. exact N.
  - assert (AE : s_cap c <> 0%nat -> array (h ++ [read h s ++ xs ++ repeat zero (grow (s_cap s) (s_len s + length xs))]) (s_arr c) = array h (s_arr c)).
    { intros N. pose proof (wf_cap_lt h c Wc N). rewrite array_ext. destruct (Nat.eqb_spec (s_arr c) (length h)); [lia|reflexivity]. }
    destruct (Nat.eq_dec (s_cap c) 0) as [Z|N].
    + (* an empty slice without room; it may point anywhere *)
      destruct Wc as [W1 W2]. split; [|split; [|right; right; exact Z]].
      * split; [|lia]. rewrite array_ext. destruct (Nat.eqb_spec (s_arr c) (length h)) as [Ea|]; [|lia].
        assert (O : array h (s_arr c) = []) by (unfold array; apply nth_overflow; lia). rewrite O in W1. cbn [length] in W1. lia.
      * unfold read. replace (s_len c) with 0%nat by lia. reflexivity.
    + specialize (AE N). split; [unfold wf; rewrite AE; exact Wc|]. split; [set (h2 := h ++ _) in *; clearbody h2; unfold read; rewrite AE; reflexivity|].
      left. cbn [s_arr]. pose proof (wf_cap_lt h c Wc N). lia.
Qed.

Lemma slice_to_wf (h : heap) s n : wf h s -> (n <= s_len s)%nat -> wf h (slice_to s n).
Proof. intros [W1 W2] L. split; cbn; lia. Qed.
Lemma read_slice_to (h : heap) s n : (n <= s_len s)%nat -> read h (slice_to s n) = firstn n (read h s).
Proof. intros L. unfold read. cbn. rewrite firstn_firstn, Nat.min_l by lia. reflexivity. Qed.
Lemma skipn_skipn (l : list A) : forall i j, skipn i (skipn j l) = skipn (j + i) l.
Proof. induction l as [|x l IH]; intros i [|j]; cbn; rewrite ?skipn_nil; auto. Qed.
Lemma read_slice_from (h : heap) s n : read h (slice_from s n) = skipn n (read h s).
Proof. unfold read. cbn. rewrite skipn_firstn_comm. f_equal. symmetry. apply skipn_skipn. Qed.
Lemma slice_to_disj s c n : disj s c -> disj (slice_to s n) c.
Proof. intros D. exact D. Qed.

Lemma disj_sym s c : disj s c -> disj c s.
Proof. unfold disj. intuition. Qed.

Lemma nip_rev (l : list A) i : 0 <= i < Z.of_nat (length l) ->
  rev (firstn (Z.to_nat (Z.of_nat (length l) - i - 1)) l ++ skipn (Z.to_nat (Z.of_nat (length l) - i - 1) + 1) l) =
  firstn (Z.to_nat i) (rev l) ++ skipn (S (Z.to_nat i)) (rev l).
Proof.
  intros B. rewrite rev_app_distr. rewrite firstn_rev, skipn_rev.
  f_equal; [|f_equal; f_equal; lia]. f_equal. f_equal. lia.
Qed.

Lemma mem_op_spec (h h' : heap) s s' c o : wf h s -> wf h c -> disj s c -> mem_op zero grow h s o = (h', s') ->
  wf h' s' /\ wf h' c /\ disj s' c /\ read h' c = read h c /\ rev (read h' s') = list_op (rev (read h s)) o.
Proof.
  intros W Wc D E. pose proof (read_length h s W) as RL. destruct o as [v|idx|]; cbn [mem_op list_op] in *.
  - unfold mem_push in E. destruct (append_spec _ _ _ _ _ W E) as (W' & R & _). destruct (append_disj _ _ _ _ _ _ W Wc D E) as (Wc' & Rc & D').
    repeat (split; [assumption|]). rewrite R, rev_app_distr. reflexivity.
  - unfold mem_nipN in E. rewrite rev_length, RL.
    destruct (Z.ltb_spec idx 0) as [I|I]; cbn [orb] in E.
    { cbn [fst] in E. injection E as <- <-. destruct (Z.leb_spec 0 idx); [lia|]. cbn [andb]. tauto. }
    destruct (Z.ltb_spec (Z.of_nat (s_len s) - idx - 1) 0) as [J|J]; cbn [fst] in E.
    { injection E as <- <-. destruct (Z.ltb_spec idx (Z.of_nat (s_len s))); [lia|]. rewrite andb_false_r. tauto. }
    destruct (Z.leb_spec 0 idx); [|lia]. destruct (Z.ltb_spec idx (Z.of_nat (s_len s))); [|lia]. cbn [andb].
    set (p := Z.to_nat (Z.of_nat (s_len s) - idx - 1)) in *. assert (Lp : (p <= s_len s)%nat) by lia.
    destruct (append_spec _ _ _ _ _ (slice_to_wf h s p W Lp) E) as (W' & R & _).
    destruct (append_disj _ _ _ _ _ _ (slice_to_wf h s p W Lp) Wc (slice_to_disj s c p D) E) as (Wc' & Rc & D').
    repeat (split; [assumption|]). rewrite R, read_slice_to, read_slice_from by assumption.
    rewrite <- (nip_rev (read h s) idx) by lia. rewrite RL. reflexivity.
  - injection E as <- <-. split; [apply slice_to_wf; [assumption|lia]|]. split; [assumption|]. split; [apply slice_to_disj; assumption|].
    split; [reflexivity|]. unfold mem_clean. rewrite read_slice_to by lia. reflexivity.
Qed.

Lemma mem_ops_spec os : forall (h h' : heap) s s' c c', wf h s -> wf h c -> disj s c -> mem_ops zero grow h s c os = (h', s', c') ->
  rev (read h' s') = fold_left list_op (to_first os) (rev (read h s)) /\
  rev (read h' c') = fold_left list_op (to_second os) (rev (read h c)).
Proof.
  induction os as [|[b o] os IH]; intros h h' s s' c c' W Wc D E.
  - cbn in E. injection E as <- <- <-. split; reflexivity.
  - cbn [mem_ops] in E. destruct b.
    + destruct (mem_op zero grow h s o) as [h1 s1] eqn:O. destruct (mem_op_spec _ _ _ _ _ _ W Wc D O) as (W1 & Wc1 & D1 & Rc & R).
      destruct (IH _ _ _ _ _ _ W1 Wc1 D1 E) as [I1 I2]. rewrite R in I1. rewrite Rc in I2. split; [exact I1|exact I2].
    + destruct (mem_op zero grow h c o) as [h1 c1] eqn:O. destruct (mem_op_spec _ _ _ _ _ _ Wc W (disj_sym _ _ D) O) as (Wc1 & W1 & D1 & Rs & R).
      destruct (IH _ _ _ _ _ _ W1 Wc1 (disj_sym _ _ D1) E) as [I1 I2]. rewrite Rs in I1. rewrite R in I2. split; [exact I1|exact I2].
Qed.

Lemma mem_copy_spec (h h' : heap) s c : wf h s -> mem_copy zero grow h s = (h', c) ->
  wf h' s /\ wf h' c /\ disj s c /\ read h' s = read h s /\ read h' c = read h s.
Proof.
  intros W E. unfold mem_copy in E.
  assert (We : wf h empty_slice) by (split; cbn; lia).
  assert (De : disj empty_slice s) by (right; left; reflexivity).
  destruct (append_spec _ _ _ _ _ We E) as (Wc & R & _). destruct (append_disj _ _ _ _ _ _ We W De E) as (Ws & Rs & D).
  split; [exact Ws|]. split; [exact Wc|]. split; [exact (disj_sym _ _ D)|]. split; [exact Rs|]. rewrite R. reflexivity.
Qed.
End Mem.
