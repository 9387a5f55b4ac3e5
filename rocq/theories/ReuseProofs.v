(** Proofs about reused buffers (ReuseModel). *)
From Verif Require Import GoBase BaseLemmas BufferModel ScriptNumModel ScriptModel MemModel MemSpec MemProofs ReuseModel ReuseSpec.

Lemma nth_upd {T} (l : list T) : forall i j x, (i < length l)%nat -> nth_error (upd i x l) j = if (i =? j)%nat then Some x else nth_error l j.
Proof. induction l as [|y l IH]; intros [|i] [|j] x L; cbn in *; try lia; try reflexivity. apply IH. lia. Qed.
Lemma upd_upd {T} (l : list T) : forall i x y, upd i x (upd i y l) = upd i x l.
Proof. induction l as [|z l IH]; intros [|i] x y; cbn; try reflexivity. now rewrite IH. Qed.
Lemma map_upd {T U} (f : T -> U) (l : list T) : forall i x, map f (upd i x l) = upd i (f x) (map f l).
Proof. induction l as [|z l IH]; intros [|i] x; cbn; try reflexivity. now rewrite IH. Qed.
Lemma upd_same {T} (l : list T) : forall i x, nth_error l i = Some x -> upd i x l = l.
Proof. induction l as [|z l IH]; intros [|i] x E; cbn in *; try discriminate E; [injection E as ->; reflexivity|]. now rewrite IH. Qed.

Section Run.
Variable grow : nat -> nat -> nat.
Notation append := (@go_append Z 0 grow).
Notation heap := (@heap Z).

Lemma append_grows (h h' : heap) s s' xs : wf h s -> append h s xs = (h', s') ->
  (length h <= length h')%nat /\ (forall a, (a < length h)%nat -> length (array h' a) = length (array h a)) /\
  (s_arr s' = s_arr s /\ s_off s' = s_off s /\ (s_len s <= s_len s')%nat \/ s_arr s' = length h).
Proof.
  intros W E. unfold go_append in E. destruct (Nat.leb_spec (s_len s + length xs) (s_cap s)) as [L|L]; injection E as <- <-.
  - rewrite upd_length. split; [lia|]. split.
    + intros a La. rewrite (array_written h s xs W L). destruct (Nat.eqb_spec (s_arr s) a) as [<-|]; [|reflexivity].
      destruct W as [W1 W2]. apply (write_length grow). lia.
    + left. cbn [s_arr s_off s_len]. lia.
  - rewrite app_length. cbn [length]. split; [lia|]. split; [|right; reflexivity].
    intros a La. rewrite (array_ext grow). destruct (Nat.eqb_spec a (length h)); [lia|reflexivity].
Qed.

(** The buffers lie in memory and share nothing. *)
Definition sound (h : heap) (bs : list slice) : Prop :=
  (forall i s, nth_error bs i = Some s -> wf h s) /\
  (forall i j s t, i <> j -> nth_error bs i = Some s -> nth_error bs j = Some t -> disj s t).

Definition safe (taken : list nat) (i : nat) (t s : slice) : Prop :=
  s_len s = 0%nat \/ s_arr s <> s_arr t \/ s_cap t = 0%nat \/ (In i taken /\ (s_off s + s_len s <= s_off t + s_len t)%nat).
(** What was taken is intact and lies before the end of any buffer in the same array. *)
Definition intact (taken : list nat) (h : heap) (bs : list slice) (out : list (slice * bytes)) : Prop :=
  forall s c, In (s, c) out -> wf h s /\ read h s = c /\ forall i t, nth_error bs i = Some t -> safe taken i t s.

Lemma sound_append h bs i s h' s' c : (i < length bs)%nat -> sound h (upd i s bs) -> append h s c = (h', s') ->
  sound h' (upd i s' bs) /\ read h' s' = read h s ++ c /\ (forall j t, j <> i -> nth_error bs j = Some t -> read h' t = read h t).
Proof.
  intros L [A B] E. assert (Ws : wf h s) by (apply (A i); rewrite nth_upd, Nat.eqb_refl by exact L; reflexivity).
  destruct (append_spec _ _ _ _ _ _ _ Ws E) as (Ws' & R & _).
  assert (O : forall j t, j <> i -> nth_error bs j = Some t -> wf h' t /\ read h' t = read h t /\ disj s' t).
  { intros j t N T. assert (T' : nth_error (upd i s bs) j = Some t) by (rewrite nth_upd by exact L; destruct (Nat.eqb_spec i j); [congruence|exact T]).
    apply (append_disj 0 grow h h' s s' t c Ws (A _ _ T')); [|exact E]. apply (B i j); [congruence| |exact T'].
    rewrite nth_upd, Nat.eqb_refl by exact L. reflexivity. }
  split; [split|split; [exact R|intros j t N T; apply (O j t N T)]].
  - intros j t T. rewrite nth_upd in T by exact L. destruct (Nat.eqb_spec i j) as [<-|N]; [injection T as <-; exact Ws'|]. apply (O j t); [congruence|exact T].
  - intros j k t u N T U. rewrite nth_upd in T, U by exact L.
    destruct (Nat.eqb_spec i j) as [<-|N1], (Nat.eqb_spec i k) as [<-|N2].
    + congruence.
    + injection T as <-. apply (O k u); [congruence|exact U].
    + injection U as <-. apply disj_sym. apply (O j t); [congruence|exact T].
    + apply (B j k); [exact N| |]; rewrite nth_upd by exact L; [destruct (Nat.eqb_spec i j)|destruct (Nat.eqb_spec i k)]; congruence.
Qed.

Lemma intact_append taken h bs out i s h' s' c : (i < length bs)%nat -> sound h (upd i s bs) -> append h s c = (h', s') ->
  intact taken h (upd i s bs) out -> intact taken h' (upd i s' bs) out.
Proof.
  intros L [A B] E I x d Hx. destruct (I x d Hx) as (Wx & Rx & Sx).
  assert (Ni : nth_error (upd i s bs) i = Some s) by (rewrite nth_upd, Nat.eqb_refl by exact L; reflexivity).
  pose proof (A _ _ Ni) as Ws. destruct (append_grows _ _ _ _ _ Ws E) as (G1 & G2 & G3).
  destruct (Nat.eq_dec (s_len x) 0) as [Z|Z].
  - split; [|split; [|intros j t _; left; exact Z]].
    + destruct (Nat.eq_dec (s_cap x) 0) as [Zc|Zc].
      * destruct Wx as [W1 W2]. split; [|lia]. destruct (Nat.lt_ge_cases (s_arr x) (length h)) as [Lt|Ge]; [rewrite G2 by exact Lt; lia|].
        unfold array in W1. rewrite nth_overflow in W1 by exact Ge. cbn [length] in W1. lia.
      * pose proof (wf_cap_lt grow h x Wx Zc). destruct Wx as [W1 W2]. split; [rewrite G2 by assumption; exact W1|exact W2].
    + rewrite <- Rx. unfold read. rewrite Z. reflexivity.
  - assert (Zc : s_cap x <> 0%nat) by (destruct Wx as [_ W2]; lia). pose proof (wf_cap_lt grow h x Wx Zc) as Lt.
    split; [|split].
    + destruct Wx as [W1 W2]. split; [rewrite G2 by exact Lt; exact W1|exact W2].
    + rewrite <- Rx. destruct (Sx i s Ni) as [S|[S|[S|[_ S]]]]; [contradiction| | |].
      * apply (append_disj 0 grow h h' s s' x c Ws Wx); [left; congruence|exact E].
      * apply (append_disj 0 grow h h' s s' x c Ws Wx); [right; left; exact S|exact E].
      * apply (put_behind_apart grow h h' s x c Ws Lt); [eapply append_put_behind; [exact Ws|exact E]|right; left; exact S].
    + intros j t T. rewrite nth_upd in T by exact L. destruct (Nat.eqb_spec i j) as [<-|N].
      * injection T as <-. destruct G3 as [(G3 & G4 & G5)|G3]; [|right; left; lia].
        destruct (Sx i s Ni) as [S|[S|[S|[S1 S2]]]]; [contradiction| | |].
        -- right; left. congruence.
        -- unfold go_append in E. destruct (Nat.leb_spec (s_len s + length c) (s_cap s)); injection E as <- <-; cbn [s_arr s_off s_len s_cap] in *; [right; right; left; exact S|].
           right; left. cbn [s_arr]. lia.
        -- right; right; right. split; [exact S1|]. lia.
      * apply (Sx j t). rewrite nth_upd by exact L. destruct (Nat.eqb_spec i j); [congruence|exact T].
Qed.

Lemma sound_appends cs : forall h bs i s h' s', (i < length bs)%nat -> sound h (upd i s bs) -> appends grow h s cs = (h', s') ->
  sound h' (upd i s' bs) /\ read h' s' = read h s ++ concat cs /\ (forall j t, j <> i -> nth_error bs j = Some t -> read h' t = read h t) /\
  (forall taken out, intact taken h (upd i s bs) out -> intact taken h' (upd i s' bs) out).
Proof.
  induction cs as [|c cs IH]; intros h bs i s h' s' L S E; cbn [appends] in E.
  - injection E as <- <-. split; [exact S|]. cbn [concat]. rewrite app_nil_r. auto.
  - destruct (append h s c) as [h1 s1] eqn:E1. destruct (sound_append _ _ _ _ _ _ _ L S E1) as (S1 & R1 & O1).
    destruct (IH _ _ _ _ _ _ L S1 E) as (S2 & R2 & O2 & I2). split; [exact S2|]. split; [cbn [concat]; rewrite R2, R1, app_assoc; reflexivity|].
    split; [intros j t N T; rewrite (O2 j t N T); apply (O1 j t N T)|]. intros taken out I. apply I2. exact (intact_append taken h bs out i s h1 s1 c L S E1 I).
Qed.

Definition taken_after (taken : list nat) (o : bop) : list nat := match o with BTake i => i :: taken | _ => taken end.

Lemma step_sound w o : sound (w_heap w) (w_bufs w) ->
  let w' := buf_op grow w o in
  sound (w_heap w') (w_bufs w') /\
  map (read (w_heap w')) (w_bufs w') = list_buf_op (map (read (w_heap w)) (w_bufs w)) o /\
  (forall taken, (forall i, o = BReset i -> ~ In i taken) -> intact taken (w_heap w) (w_bufs w) (w_out w) ->
     intact (taken_after taken o) (w_heap w') (w_bufs w') (w_out w')).
Proof.
  destruct w as [h bs out]. intros S. cbn [w_heap w_bufs w_out] in *. destruct o as [|i cs|i|i]; cbn [buf_op list_buf_op taken_after].
  - cbn [w_heap w_bufs w_out]. split; [|split].
    + destruct S as [A B]. assert (We : wf h empty_slice) by (split; cbn; lia). split.
      * intros i s T. destruct (Nat.lt_ge_cases i (length bs)) as [Lt|Ge]; [rewrite nth_error_app1 in T by exact Lt; eauto|].
        rewrite nth_error_app2 in T by exact Ge. destruct (i - length bs)%nat as [|[|k]]; cbn in T; try discriminate T. injection T as <-. exact We.
      * intros i j s t N T U. destruct (Nat.lt_ge_cases i (length bs)) as [Lt|Ge], (Nat.lt_ge_cases j (length bs)) as [Lt'|Ge'].
        -- rewrite nth_error_app1 in T, U by assumption. eauto.
        -- rewrite nth_error_app2 in U by exact Ge'. destruct (j - length bs)%nat as [|[|k]]; cbn in U; try discriminate U. injection U as <-. right; right; reflexivity.
        -- rewrite nth_error_app2 in T by exact Ge. destruct (i - length bs)%nat as [|[|k]]; cbn in T; try discriminate T. injection T as <-. right; left; reflexivity.
        -- rewrite nth_error_app2 in T, U by assumption. destruct (i - length bs)%nat as [|[|k]] eqn:Ei; cbn in T; try discriminate T.
           destruct (j - length bs)%nat as [|[|k]] eqn:Ej; cbn in U; try discriminate U. lia.
    + rewrite map_app. reflexivity.
    + intros taken _ I s c Hs. destruct (I s c Hs) as (W & R & F). split; [exact W|]. split; [exact R|]. intros i t T.
      destruct (Nat.lt_ge_cases i (length bs)) as [Lt|Ge]; [rewrite nth_error_app1 in T by exact Lt; eauto|].
      rewrite nth_error_app2 in T by exact Ge. destruct (i - length bs)%nat as [|[|k]]; cbn in T; try discriminate T. injection T as <-. right; right; left; reflexivity.
  - destruct (nth_error bs i) as [s|] eqn:N.
    + pose proof (nth_error_Some bs i) as NL. rewrite N in NL. assert (L : (i < length bs)%nat) by (apply NL; discriminate).
      destruct (appends grow h s cs) as [h' s'] eqn:E. cbn [w_heap w_bufs w_out].
      assert (S' : sound h (upd i s bs)) by (rewrite upd_same by exact N; exact S).
      destruct (sound_appends cs _ _ _ _ _ _ L S' E) as (S2 & R2 & O2 & I2). split; [exact S2|]. split.
      * rewrite nth_error_map, N. cbn [option_map]. apply list_ext. intros j. rewrite nth_error_map, !nth_upd by (rewrite ?map_length; exact L).
        destruct (Nat.eqb_spec i j) as [<-|Nj]; [cbn [option_map]; congruence|]. rewrite nth_error_map. destruct (nth_error bs j) as [t|] eqn:T; [|reflexivity].
        cbn [option_map]. f_equal. apply (O2 j t); [congruence|exact T].
      * intros taken _ I. apply I2. rewrite upd_same by exact N. exact I.
    + rewrite nth_error_map, N. cbn [option_map w_heap w_bufs w_out]. split; [exact S|]. split; [reflexivity|]. auto.
  - destruct (nth_error bs i) as [s|] eqn:N.
    + pose proof (nth_error_Some bs i) as NL. rewrite N in NL. assert (L : (i < length bs)%nat) by (apply NL; discriminate).
      cbn [w_heap w_bufs w_out]. rewrite nth_error_map, N. cbn [option_map]. destruct S as [A B]. split; [split|split].
      * intros j t T. rewrite nth_upd in T by exact L. destruct (Nat.eqb_spec i j) as [<-|Nj]; [|eauto]. injection T as <-.
        apply (slice_to_wf grow); [eauto|lia].
      * intros j k t u Njk T U. rewrite nth_upd in T, U by exact L. destruct (Nat.eqb_spec i j) as [<-|N1], (Nat.eqb_spec i k) as [<-|N2].
        -- congruence.
        -- injection T as <-. apply slice_to_disj. eauto.
        -- injection U as <-. apply disj_sym, slice_to_disj. eapply (B i j); eauto.
        -- eauto.
      * rewrite map_upd. unfold read at 1. reflexivity.
      * intros taken NT I x c Hx. destruct (I x c Hx) as (W & R & F). split; [exact W|]. split; [exact R|]. intros j t T.
        rewrite nth_upd in T by exact L. destruct (Nat.eqb_spec i j) as [<-|Nj]; [|eauto]. injection T as <-.
        destruct (F i s N) as [D|[D|[D|[D _]]]]; [left; exact D|right; left; exact D|right; right; left; exact D|]. contradiction (NT i eq_refl D).
    + rewrite nth_error_map, N. cbn [option_map w_heap w_bufs w_out]. split; [exact S|]. split; [reflexivity|]. auto.
  - destruct (nth_error bs i) as [s|] eqn:N; cbn [w_heap w_bufs w_out]; (split; [exact S|]); (split; [reflexivity|]).
    + intros taken _ I x c [Hx|Hx].
      * injection Hx as <- <-. destruct S as [A B]. split; [eauto|]. split; [reflexivity|]. intros j t T.
        destruct (Nat.eq_dec i j) as [<-|Nj]; [rewrite N in T; injection T as <-; right; right; right; split; [left; reflexivity|lia]|].
        destruct (B i j s t Nj N T) as [D|[D|D]]; [right; left; exact D| |right; right; left; exact D].
        left. pose proof (A _ _ N) as [_ W2]. lia.
      * destruct (I x c Hx) as (W & R & F). split; [exact W|]. split; [exact R|]. intros j t T.
        destruct (F j t T) as [D|[D|[D|[D1 D2]]]]; unfold safe; auto. right; right; right. split; [right; exact D1|exact D2].
    + intros taken _ I x c Hx. destruct (I x c Hx) as (W & R & F). split; [exact W|]. split; [exact R|]. intros j t T.
      destruct (F j t T) as [D|[D|[D|[D1 D2]]]]; unfold safe; auto. right; right; right. split; [right; exact D1|exact D2].
Qed.

Lemma run_sound os : forall w, sound (w_heap w) (w_bufs w) ->
  sound (w_heap (buf_run grow w os)) (w_bufs (buf_run grow w os)) /\
  map (read (w_heap (buf_run grow w os))) (w_bufs (buf_run grow w os)) = fold_left list_buf_op os (map (read (w_heap w)) (w_bufs w)).
Proof.
  induction os as [|o os IH]; intros w S; [split; [exact S|reflexivity]|]. unfold buf_run in *. cbn [fold_left].
  destruct (step_sound w o S) as (S' & R & _). destruct (IH _ S') as (I1 & I2). split; [exact I1|]. rewrite I2, R. reflexivity.
Qed.
Lemma run_intact os : forall w taken, sound (w_heap w) (w_bufs w) -> intact taken (w_heap w) (w_bufs w) (w_out w) -> tidy taken os ->
  kept (buf_run grow w os).
Proof.
  induction os as [|o os IH]; intros w taken S I T.
  - intros s c H. apply (I s c H).
  - unfold buf_run in *. cbn [fold_left]. destruct (step_sound w o S) as (S' & _ & P).
    apply (IH _ (taken_after taken o) S'); [|destruct o; cbn [tidy taken_after] in *; tauto].
    apply P; [|exact I]. intros i ->. cbn [tidy] in T. tauto.
Qed.

(** Writing again over the part of [s] behind its first [k] elements. *)
Lemma append_over h s k d h' s' : wf h s -> (k + length d <= s_len s)%nat -> append h (slice_to s k) d = (h', s') ->
  s' = slice_to s (k + length d) /\ wf h' s /\ read h' s = firstn k (read h s) ++ d ++ skipn (k + length d) (read h s).
Proof.
  intros W Ld E. pose proof (read_length h s W) as RL. unfold go_append in E. cbn [slice_to s_arr s_off s_len s_cap] in E.
  assert (Lc : (k + length d <= s_cap s)%nat) by (destruct W; lia).
  destruct (Nat.leb_spec (k + length d) (s_cap s)) as [_|G]; [|lia]. injection E as <- <-. split; [reflexivity|].
  assert (W0 : wf h (slice_to s k)) by (apply (slice_to_wf grow); [exact W|lia]).
  pose proof (array_written h (slice_to s k) d W0 ltac:(cbn; lia) (s_arr s)) as AW. cbn [slice_to s_arr s_off s_len] in AW. rewrite Nat.eqb_refl in AW.
  destruct W as [W1 W2]. split; [split; [rewrite AW, (write_length grow) by lia; exact W1|exact W2]|].
  unfold read at 1. rewrite AW. unfold read in *.
  apply list_ext. intros j. rewrite nth_firstn, nth_skipn, (write_nth grow) by lia.
  destruct (Nat.ltb_spec j k) as [J|J].
  - rewrite nth_error_app1 by (rewrite firstn_length, RL; lia). rewrite !nth_firstn, nth_skipn.
    destruct (Nat.ltb_spec j k); [|lia]. destruct (Nat.ltb_spec j (s_len s)); [|lia]. destruct (Nat.leb_spec (s_off s + k) (s_off s + j)); [lia|]. reflexivity.
  - rewrite nth_error_app2 by (rewrite firstn_length, RL; lia). rewrite firstn_length, RL, Nat.min_l by lia.
    destruct (Nat.leb_spec (s_off s + k) (s_off s + j)); [|lia]. cbn [andb].
    destruct (Nat.ltb_spec (s_off s + j) (s_off s + k + length d)) as [K|K].
    + destruct (Nat.ltb_spec j (s_len s)); [|lia]. rewrite nth_error_app1 by lia. f_equal. lia.
    + rewrite nth_error_app2 by lia. rewrite nth_skipn, nth_firstn, nth_skipn. replace (k + length d + (j - k - length d))%nat with j by lia. reflexivity.
Qed.
Lemma appends_over cs : forall h s k h' s', wf h s -> (k + length (concat cs) <= s_len s)%nat -> appends grow h (slice_to s k) cs = (h', s') ->
  read h' s = firstn k (read h s) ++ concat cs ++ skipn (k + length (concat cs)) (read h s).
Proof.
  induction cs as [|c cs IH]; intros h s k h' s' W L E; cbn [appends concat] in *.
  - injection E as <- <-. cbn [length app]. rewrite Nat.add_0_r, firstn_skipn. reflexivity.
  - rewrite app_length in L. destruct (append h (slice_to s k) c) as [h1 s1] eqn:E1.
    assert (L1 : (k + length c <= s_len s)%nat) by lia. destruct (append_over _ _ _ _ _ _ W L1 E1) as (-> & W1 & R1). pose proof (read_length h s W) as RL.
    assert (L2 : (k + length c + length (concat cs) <= s_len s)%nat) by lia. rewrite (IH _ _ _ _ _ W1 L2 E), R1, app_length.
    assert (Lf : length (firstn k (read h s)) = k) by (rewrite firstn_length, RL; lia).
    rewrite (app_assoc (firstn k (read h s)) c).
    assert (Lk : length (firstn k (read h s) ++ c) = (k + length c)%nat) by (rewrite app_length, Lf; reflexivity).
    rewrite firstn_app, skipn_app, Lk, Nat.sub_diag. cbn [firstn]. rewrite app_nil_r, firstn_all2 by lia.
    rewrite skipn_all2 by lia. cbn [app]. rewrite skipn_skipn, <- !app_assoc. do 4 f_equal. lia.
Qed.
End Run.

(** The chunks are those of the value model. *)
Lemma bdata_u8 v b : bdata (WriteU8 v b) = bdata b ++ concat (w_u8 v).
Proof. reflexivity. Qed.
Lemma bdata_u16 v b : bdata (WriteU16 v b) = bdata b ++ concat (w_u16 v).
Proof. cbn. rewrite <- !app_assoc. reflexivity. Qed.
Lemma bdata_u32 v b : bdata (WriteU32 v b) = bdata b ++ concat (w_u32 v).
Proof. cbn [WriteU32 bdata w_u32 concat]. rewrite <- !app_assoc. reflexivity. Qed.
Lemma bdata_u64 v b : bdata (WriteU64 v b) = bdata b ++ concat (w_u64 v).
Proof. cbn [WriteU64 bdata w_u64 concat]. rewrite <- !app_assoc. reflexivity. Qed.
Lemma bdata_bytes v b : bdata (WriteBytes v b) = bdata b ++ concat (w_bytes v).
Proof. cbn. rewrite app_nil_r. reflexivity. Qed.
Ltac bd := repeat first [rewrite bdata_u8|rewrite bdata_u16|rewrite bdata_u32|rewrite bdata_u64|rewrite bdata_bytes]; rewrite ?concat_app, <- ?app_assoc; reflexivity.
Lemma bdata_varint v b : bdata (WriteVarInt v b) = bdata b ++ concat (w_varint v).
Proof. unfold WriteVarInt, w_varint. destruct (v <? 0xfd); [bd|]. destruct (v <=? 0xffff); [bd|]. destruct (v <=? 0xffffffff); bd. Qed.
Lemma bdata_varbytes v b : bdata (WriteVarBytes v b) = bdata b ++ concat (w_varbytes v).
Proof. unfold WriteVarBytes, w_varbytes. rewrite bdata_bytes, bdata_varint, concat_app, app_assoc. reflexivity. Qed.
Lemma bdata_data d b : bdata (AddData d b) = bdata b ++ concat (w_data d).
Proof.
  unfold AddData, w_data. destruct d as [|x [|y r]]; [bd| |].
  - destruct (x =? 0); [bd|]. destruct (x <=? 16); [bd|]. destruct (x =? 0x81); [bd|]. cbv [len]. cbn [length Z.of_nat Z.ltb Z.compare]. bd.
  - set (l := len (x :: y :: r)). destruct (l <? 0x4c); [bd|]. destruct (l <=? 0xff); [bd|]. destruct (l <=? 0xffff); bd.
Qed.
