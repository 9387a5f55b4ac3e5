(** Proofs about derivations in place (InPlaceModel). *)
From Verif Require Import GoBase BaseLemmas BigInt BigMod SecpModel EcdsaModel Pbkdf2Model MemModel MemSpec MemProofs ReuseProofs InPlaceModel.

Section Mem.
Variable grow : nat -> nat -> nat.
Notation append := (@go_append Z 0 grow).
Notation heap := (@heap Z).

(** Nothing of [c] lies in the room behind [s]. *)
Definition calm (s c : slice) : Prop :=
  s_len c = 0%nat \/ s_arr c <> s_arr s \/ s_cap s = 0%nat \/ (s_off c + s_len c <= s_off s + s_len s)%nat.
(** [s] lies outside the first [n] arrays. *)
Definition own (n : nat) (s : slice) : Prop := (n <= s_arr s)%nat \/ s_cap s = 0%nat.
Definition keeps (n : nat) (h h' : heap) : Prop := (n <= length h')%nat /\ forall a, (a < n)%nat -> array h' a = array h a.

Lemma keeps_refl n (h : heap) : (n <= length h)%nat -> keeps n h h.
Proof. split; auto. Qed.
Lemma keeps_trans n (h1 h2 h3 : heap) : keeps n h1 h2 -> keeps n h2 h3 -> keeps n h1 h3.
Proof. intros [_ A] [L B]. split; [exact L|]. intros a La. rewrite B, A by exact La. reflexivity. Qed.

Lemma wf_kept (h h' : heap) c : (forall a, (a < length h)%nat -> length (array h' a) = length (array h a)) -> wf h c -> wf h' c.
Proof.
  intros G [W1 W2]. split; [|exact W2]. destruct (Nat.lt_ge_cases (s_arr c) (length h)) as [Lt|Ge]; [rewrite G by exact Lt; exact W1|].
  unfold array in W1. rewrite nth_overflow in W1 by exact Ge. cbn [length] in W1. lia.
Qed.

Lemma extend (h h' : heap) s s' xs : wf h s -> append h s xs = (h', s') ->
  wf h' s' /\ read h' s' = read h s ++ xs /\
  (forall c, wf h c -> disj s c -> wf h' c /\ read h' c = read h c /\ disj s' c) /\
  (forall c, wf h c -> calm s c -> wf h' c /\ read h' c = read h c /\ calm s' c) /\
  (forall n, own n s -> (n <= length h)%nat -> keeps n h h' /\ own n s').
Proof.
  intros W E. destruct (append_spec _ _ _ _ _ _ _ W E) as (W' & R & _). destruct (append_grows grow _ _ _ _ _ W E) as (G1 & G2 & G3).
  split; [exact W'|]. split; [exact R|]. split; [|split].
  - intros c Wc D. apply (append_disj 0 grow h h' s s' c xs W Wc D E).
  - intros c Wc C. split; [exact (wf_kept h h' c G2 Wc)|].
    destruct (Nat.eq_dec (s_len c) 0) as [Z|Z]; [split; [unfold read; rewrite Z; reflexivity|left; exact Z]|].
    assert (Zc : s_cap c <> 0%nat) by (destruct Wc as [_ W2]; lia). pose proof (wf_cap_lt grow h c Wc Zc) as Lt.
    destruct C as [C|[C|[C|C]]]; [contradiction| | |].
    + destruct (append_disj 0 grow h h' s s' c xs W Wc (or_introl (not_eq_sym C)) E) as (_ & Rc & D).
      split; [exact Rc|]. destruct D as [D|[D|D]]; [right; left; congruence|right; right; left; exact D|contradiction].
    + destruct (append_disj 0 grow h h' s s' c xs W Wc (or_intror (or_introl C)) E) as (_ & Rc & D).
      split; [exact Rc|]. destruct D as [D|[D|D]]; [right; left; congruence|right; right; left; exact D|contradiction].
    + split.
      * apply (put_behind_apart grow h h' s c xs W Lt); [eapply append_put_behind; [exact W|exact E]|right; left; exact C].
      * destruct G3 as [(G3 & G4 & G5)|G3]; [right; right; right; lia|right; left; lia].
  - intros n O Ln. unfold go_append in E. destruct (Nat.leb_spec (s_len s + length xs) (s_cap s)) as [L|L]; injection E as <- <-.
    + split; [|exact O]. split; [rewrite upd_length; exact Ln|]. intros a La. rewrite (array_written h s xs W L).
      destruct (Nat.eqb_spec (s_arr s) a) as [Ea|]; [|reflexivity]. destruct O as [O|O]; [lia|]. destruct xs; [apply write_nil|cbn [length] in L; lia].
    + split; [|left; cbn; lia]. split; [rewrite app_length; lia|]. intros a La. rewrite (array_ext grow). destruct (Nat.eqb_spec a (length h)); [lia|reflexivity].
Qed.

Lemma refill (h h' : heap) s s' xs : wf h s -> append h (slice_to s 0) xs = (h', s') ->
  wf h' s' /\ read h' s' = xs /\ (forall c, wf h c -> disj s c -> wf h' c /\ read h' c = read h c /\ disj s' c) /\
  (forall n, own n s -> (n <= length h)%nat -> keeps n h h' /\ own n s').
Proof.
  intros W E. assert (W0 : wf h (slice_to s 0)) by (apply (slice_to_wf grow); [exact W|lia]).
  destruct (extend _ _ _ _ _ W0 E) as (A & B & C & _ & D). split; [exact A|]. split; [exact B|]. split; [intros c Wc Dc; apply C; [exact Wc|exact Dc]|].
  intros n O L. apply D; [exact O|exact L].
Qed.

Lemma fresh_spec (h h' : heap) xs s : fresh grow h xs = (h', s) ->
  wf h' s /\ read h' s = xs /\ (forall c, wf h c -> wf h' c /\ read h' c = read h c /\ disj s c) /\
  (forall n, (n <= length h)%nat -> keeps n h h' /\ own n s).
Proof.
  intros E. assert (W : wf h empty_slice) by (split; cbn; lia). destruct (extend _ _ _ _ _ W E) as (A & B & C & _ & D).
  split; [exact A|]. split; [exact B|]. split; [intros c Wc; apply C; [exact Wc|right; left; reflexivity]|].
  intros n L. apply D; [right; reflexivity|exact L].
Qed.

(** ** The nonce *)
Section Nonce.
Variable hmac : bytes -> bytes -> bytes.

Lemma stepH2_mem_spec n fuel : forall (h : heap) k v t want, wf h k -> wf h v -> wf h t -> disj k v -> disj k t -> disj v t ->
  own n k -> own n v -> own n t -> (n <= length h)%nat ->
  let '(h', v', t') := stepH2_mem grow hmac fuel h k v t want in
  (read h' v', read h' t') = stepH2 hmac fuel (read h k) (read h v) (read h t) want /\
  wf h' k /\ wf h' v' /\ disj k v' /\ read h' k = read h k /\ keeps n h h' /\ own n v'.
Proof.
  induction fuel as [|f IH]; intros h k v t want Wk Wv Wt Dkv Dkt Dvt Ok Ov Ot Ln; cbn [stepH2_mem stepH2].
  - split; [reflexivity|]. auto 8 using keeps_refl.
  - replace (Z.of_nat (s_len t)) with (len (read h t)) by (unfold len; rewrite (read_length h t Wt); reflexivity).
    destruct (len (read h t) <? want).
    + unfold mac_mem. destruct (append h (slice_to v 0) (hmac (read h k) (read h v))) as [h1 v1] eqn:E1.
      destruct (refill _ _ _ _ _ Wv E1) as (Wv1 & Rv1 & C1 & O1).
      destruct (C1 k Wk (disj_sym _ _ Dkv)) as (Wk1 & Rk1 & Dv1k). destruct (C1 t Wt Dvt) as (Wt1 & Rt1 & Dv1t). destruct (O1 n Ov Ln) as (K1 & Ov1).
      destruct (append h1 t (read h1 v1)) as [h2 t2] eqn:E2. destruct (extend _ _ _ _ _ Wt1 E2) as (Wt2 & Rt2 & C2 & _ & O2).
      destruct (C2 k Wk1 (disj_sym _ _ Dkt)) as (Wk2 & Rk2 & Dt2k). destruct (C2 v1 Wv1 (disj_sym _ _ Dv1t)) as (Wv2 & Rv2 & Dt2v).
      destruct (O2 n Ot (proj1 K1)) as (K2 & Ot2).
      pose proof (IH h2 k v1 t2 want Wk2 Wv2 Wt2 (disj_sym _ _ Dv1k) (disj_sym _ _ Dt2k) (disj_sym _ _ Dt2v) Ok Ov1 Ot2 (proj1 K2)) as P.
      destruct (stepH2_mem grow hmac f h2 k v1 t2 want) as [[h' v'] t']. destruct P as (P1 & P2 & P3 & P4 & P5 & P6 & P7).
      rewrite Rk2, Rk1, Rv2, Rt2, Rv1, Rt1 in P1. split; [exact P1|]. split; [exact P2|]. split; [exact P3|]. split; [exact P4|].
      split; [congruence|]. split; [|exact P7]. eauto using keeps_trans.
    + split; [reflexivity|]. auto 8 using keeps_refl.
Qed.

Lemma empty_wf (h : heap) : wf h empty_slice.
Proof. split; cbn; lia. Qed.

Lemma stepH_mem_spec n fuel : forall (h : heap) q qlen k v, wf h k -> wf h v -> disj k v -> own n k -> own n v -> (n <= length h)%nat ->
  snd (stepH_mem grow hmac fuel h q qlen k v) = stepH hmac fuel q qlen (read h k) (read h v) /\ keeps n h (fst (stepH_mem grow hmac fuel h q qlen k v)).
Proof.
  induction fuel as [|f IH]; intros h q qlen k v Wk Wv D Ok Ov Ln; cbn [stepH_mem stepH]; [split; [reflexivity|now apply keeps_refl]|].
  pose proof (stepH2_mem_spec n (Z.to_nat (qlen / 8)) h k v empty_slice (qlen / 8) Wk Wv (empty_wf h) D
    (or_intror (or_intror eq_refl)) (or_intror (or_intror eq_refl)) Ok Ov (or_intror eq_refl) Ln) as P.
  destruct (stepH2_mem grow hmac _ h k v empty_slice (qlen / 8)) as [[h1 v1] t1]. destruct P as (P1 & Wk1 & Wv1 & D1 & Rk1 & K1 & Ov1).
  change (read h empty_slice) with (@nil Z) in P1. rewrite <- P1.
  destruct ((1 <=? bits2int (read h1 t1) qlen) && (bits2int (read h1 t1) qlen <? q)); [split; [reflexivity|exact K1]|].
  destruct (append h1 v1 [0]) as [h2 m] eqn:E2. destruct (extend _ _ _ _ _ Wv1 E2) as (Wm & Rm & C2 & S2 & O2).
  destruct (C2 k Wk1 (disj_sym _ _ D1)) as (Wk2 & Rk2 & Dm). destruct (S2 v1 Wv1 ltac:(right; right; right; lia)) as (Wv2 & Rv2 & _).
  destruct (O2 n Ov1 (proj1 K1)) as (K2 & _).
  destruct (mac_mem grow hmac h2 k m k) as [h3 k3] eqn:E3. destruct (refill _ _ _ _ _ Wk2 E3) as (Wk3 & Rk3 & C3 & O3).
  destruct (C3 v1 Wv2 D1) as (Wv3 & Rv3 & D3). destruct (O3 n Ok (proj1 K2)) as (K3 & Ok3).
  destruct (mac_mem grow hmac h3 k3 v1 v1) as [h4 v4] eqn:E4. destruct (refill _ _ _ _ _ Wv3 E4) as (Wv4 & Rv4 & C4 & O4).
  destruct (C4 k3 Wk3 (disj_sym _ _ D3)) as (Wk4 & Rk4 & D4). destruct (O4 n Ov1 (proj1 K3)) as (K4 & Ov4).
  destruct (IH h4 q qlen k3 v4 Wk4 Wv4 (disj_sym _ _ D4) Ok3 Ov4 (proj1 K4)) as (I1 & I2). split; [|eauto using keeps_trans].
  rewrite I1. unfold mac. rewrite Rk4, Rv4, Rk3, Rv3, Rm, Rk2, Rv2, Rk1. reflexivity.
Qed.

(** One pass of steps D-E and F-G. *)
Lemma update_spec n (h h1 h2 h3 h4 : heap) k v bx m0 m k' v' b : wf h k -> wf h v -> wf h bx -> disj k v -> disj k bx -> disj v bx ->
  own n k -> own n v -> own n bx -> (n <= length h)%nat ->
  append h v [b] = (h1, m0) -> append h1 m0 (read h1 bx) = (h2, m) -> mac_mem grow hmac h2 k m k = (h3, k') -> mac_mem grow hmac h3 k' v v = (h4, v') ->
  wf h4 k' /\ wf h4 v' /\ wf h4 bx /\ disj k' v' /\ disj k' bx /\ disj v' bx /\ own n k' /\ own n v' /\ keeps n h h4 /\ read h4 bx = read h bx /\
  read h4 k' = mac hmac (read h k) ((read h v ++ [b]) ++ read h bx) /\ read h4 v' = mac hmac (read h4 k') (read h v).
Proof.
  intros Wk Wv Wb Dkv Dkb Dvb Ok Ov Ob Ln E1 E2 E3 E4.
  destruct (extend _ _ _ _ _ Wv E1) as (Wm0 & Rm0 & C1 & S1 & O1).
  destruct (C1 k Wk (disj_sym _ _ Dkv)) as (Wk1 & Rk1 & D1k). destruct (C1 bx Wb Dvb) as (Wb1 & Rb1 & D1b).
  destruct (S1 v Wv ltac:(right; right; right; lia)) as (Wv1 & Rv1 & C1v). destruct (O1 n Ov Ln) as (K1 & Om0).
  destruct (extend _ _ _ _ _ Wm0 E2) as (Wm & Rm & C2 & S2 & O2).
  destruct (C2 k Wk1 D1k) as (Wk2 & Rk2 & _). destruct (C2 bx Wb1 D1b) as (Wb2 & Rb2 & _). destruct (S2 v Wv1 C1v) as (Wv2 & Rv2 & _).
  destruct (O2 n Om0 (proj1 K1)) as (K2 & _).
  destruct (refill _ _ _ _ _ Wk2 E3) as (Wk3 & Rk3 & C3 & O3). destruct (C3 v Wv2 Dkv) as (Wv3 & Rv3 & D3v). destruct (C3 bx Wb2 Dkb) as (Wb3 & Rb3 & D3b).
  destruct (O3 n Ok (proj1 K2)) as (K3 & Ok3).
  destruct (refill _ _ _ _ _ Wv3 E4) as (Wv4 & Rv4 & C4 & O4). destruct (C4 k' Wk3 (disj_sym _ _ D3v)) as (Wk4 & Rk4 & D4k). destruct (C4 bx Wb3 Dvb) as (Wb4 & Rb4 & D4b).
  destruct (O4 n Ov (proj1 K3)) as (K4 & Ov4).
  split; [exact Wk4|]. split; [exact Wv4|]. split; [exact Wb4|]. split; [exact (disj_sym _ _ D4k)|]. split; [exact D3b|]. split; [exact D4b|].
  split; [exact Ok3|]. split; [exact Ov4|]. split; [eauto using keeps_trans|]. split; [congruence|]. split.
  - rewrite Rk4, Rk3, Rm, Rm0, Rb1, Rk2, Rk1. reflexivity.
  - rewrite Rv4, Rk4, Rv3, Rv2, Rv1. reflexivity.
Qed.

Theorem NonceMem_spec fuel (h : heap) q x hash : wf h hash ->
  snd (NonceMem grow hmac fuel h q x hash) = NonceRFC6979 hmac fuel q x (read h hash) /\ keeps (length h) h (fst (NonceMem grow hmac fuel h q x hash)).
Proof.
  intros Wh. unfold NonceMem, NonceRFC6979. set (qlen := bit_len q). set (rolen := Z.shiftr (qlen + 7) 3). set (n := length h). assert (Ln : (n <= length h)%nat) by reflexivity.
  destruct (fresh grow h (int2octets x rolen)) as [h1 b0] eqn:E1. destruct (fresh_spec _ _ _ _ E1) as (Wb0 & Rb0 & C1 & O1).
  destruct (C1 hash Wh) as (Wh1 & Rh1 & _). destruct (O1 n Ln) as (K1 & Ob0). rewrite Rh1.
  destruct (append h1 b0 _) as [h2 bx] eqn:E2. destruct (extend _ _ _ _ _ Wb0 E2) as (Wb & Rb & _ & _ & O2). destruct (O2 n Ob0 (proj1 K1)) as (K2 & Ob).
  destruct (fresh grow h2 (repeat 1 32)) as [h3 v] eqn:E3. destruct (fresh_spec _ _ _ _ E3) as (Wv & Rv & C3 & O3). destruct (C3 bx Wb) as (Wb3 & Rb3 & Dvb). destruct (O3 n (proj1 K2)) as (K3 & Ov).
  destruct (fresh grow h3 (repeat 0 32)) as [h4 k] eqn:E4. destruct (fresh_spec _ _ _ _ E4) as (Wk & Rk & C4 & O4).
  destruct (C4 bx Wb3) as (Wb4 & Rb4 & Dkb). destruct (C4 v Wv) as (Wv4 & Rv4 & Dkv). destruct (O4 n (proj1 K3)) as (K4 & Ok).
  destruct (append h4 v [0]) as [h5 m0] eqn:E5. destruct (append h5 m0 (read h5 bx)) as [h6 m] eqn:E6.
  destruct (mac_mem grow hmac h6 k m k) as [h7 k7] eqn:E7. destruct (mac_mem grow hmac h7 k7 v v) as [h8 v8] eqn:E8.
  destruct (update_spec n _ _ _ _ _ _ _ _ _ _ _ _ _ Wk Wv4 Wb4 Dkv Dkb Dvb Ok Ov Ob (proj1 K4) E5 E6 E7 E8) as (Wk8 & Wv8 & Wb8 & Dkv8 & Dkb8 & Dvb8 & Ok8 & Ov8 & K8 & Rb8 & Rk8 & Rv8).
  clear E5 E6 E7 E8 m0 m h5 h6 h7.
  destruct (append h8 v8 [1]) as [h5 m0] eqn:E5. destruct (append h5 m0 (read h5 bx)) as [h6 m] eqn:E6.
  destruct (mac_mem grow hmac h6 k7 m k7) as [h7 k9] eqn:E7. destruct (mac_mem grow hmac h7 k9 v8 v8) as [h9 v9] eqn:E8.
  destruct (update_spec n _ _ _ _ _ _ _ _ _ _ _ _ _ Wk8 Wv8 Wb8 Dkv8 Dkb8 Dvb8 Ok8 Ov8 Ob (proj1 K8) E5 E6 E7 E8) as (Wk9 & Wv9 & Wb9 & Dkv9 & _ & _ & Ok9 & Ov9 & K9 & _ & Rk9 & Rv9).
  destruct (stepH_mem_spec n fuel h9 q qlen k9 v9 Wk9 Wv9 Dkv9 Ok9 Ov9 (proj1 K9)) as (S1 & S2). split; [|eauto 10 using keeps_trans].
  rewrite S1, Rv9, Rk9, Rb8, Rv8, Rk8, Rb4, Rb3, Rb, Rb0, Rv4, Rv, Rk. reflexivity.
Qed.
End Nonce.

(** ** The key *)
Lemma array_stored (h : heap) s xs : (s_arr s < length h)%nat -> forall a,
  array (store h s xs) a = if (s_arr s =? a)%nat then write (array h (s_arr s)) (s_off s) xs else array h a.
Proof.
  intros L a. unfold store. rewrite array_upd, (proj2 (Nat.ltb_lt _ _) L), andb_true_r. reflexivity.
Qed.

(** Writing at the end of a slice. *)
Lemma store_end (h : heap) s off xs : wf h s -> s_len s <> 0%nat -> (off + length xs = s_len s)%nat ->
  let h' := store h (slice_from s off) xs in
  read h' s = firstn off (read h s) ++ xs /\ length h' = length h /\
  (forall c, wf h c -> wf h' c) /\ (forall c, s_arr c <> s_arr s -> read h' c = read h c) /\
  (forall n, (n <= length h)%nat -> own n s -> keeps n h h').
Proof.
  intros W N L h'. assert (Lh : (s_arr s < length h)%nat) by (apply (wf_cap_lt grow h s W); destruct W; lia).
  pose proof (array_stored h (slice_from s off) xs Lh) as A. fold h' in A. cbn [slice_from s_arr s_off] in A.
  assert (LL : (s_off s + off + length xs <= length (array h (s_arr s)))%nat) by (destruct W; lia).
  split; [|split; [apply upd_length|split; [|split]]].
  - unfold read. rewrite A, Nat.eqb_refl. rewrite <- L at 1. rewrite (write_read grow) by exact LL. f_equal. rewrite firstn_firstn, Nat.min_l by lia. reflexivity.
  - intros c [W1 W2]. split; [|exact W2]. rewrite A. destruct (Nat.eqb_spec (s_arr s) (s_arr c)) as [Ec|]; [|exact W1]. rewrite (write_length grow) by exact LL. rewrite Ec. exact W1.
  - intros c D. unfold read. rewrite A. destruct (Nat.eqb_spec (s_arr s) (s_arr c)) as [Ec|]; [congruence|reflexivity].
  - intros n Ln O. split; [unfold h', store; rewrite upd_length; exact Ln|]. intros a La. rewrite A. destruct (Nat.eqb_spec (s_arr s) a) as [Ea|]; [|reflexivity].
    destruct O as [O|O]; [lia|]. destruct W; lia.
Qed.

Lemma own_arr (h : heap) n s : own n s -> wf h s -> s_len s <> 0%nat -> (n <= s_arr s)%nat.
Proof. intros [O|O] [_ W] N; lia. Qed.
Lemma disj_arr (h : heap) s c : wf h s -> wf h c -> s_len s <> 0%nat -> s_len c <> 0%nat -> disj s c -> s_arr s <> s_arr c.
Proof. intros [_ W1] [_ W2] N1 N2 [D|[D|D]]; [exact D|lia|lia]. Qed.

Lemma xor_into_length : forall t u, length (xor_into t u) = length t.
Proof. induction t as [|x t IH]; intros [|y u]; cbn; auto. Qed.

Section Key.
Variable prf : bytes -> bytes.
Variable hl : nat.
Hypothesis prf_len : forall m, length (prf m) = hl.
Hypothesis hl_pos : hl <> 0%nat.

Lemma iterate_mem_spec n dk off r : forall (h h' : heap) U U', wf h dk -> (off + hl = s_len dk)%nat -> wf h U -> s_len U = hl -> s_arr U <> s_arr dk ->
  own n dk -> own n U -> (n <= length h)%nat -> iterate_mem grow prf r h (slice_from dk off) U = (h', U') ->
  wf h' dk /\ wf h' U' /\ s_len U' = hl /\ s_arr U' <> s_arr dk /\ own n U' /\ keeps n h h' /\ read h' dk = iterate prf r (read h dk) off (read h U).
Proof.
  induction r as [|r IH]; intros h h' U U' Wd Lo WU LU D Od OU Ln E; cbn [iterate_mem iterate] in E |- *.
  - injection E as <- <-. auto 10 using keeps_refl.
  - destruct (append h (slice_to U 0) (prf (read h U))) as [h1 U1] eqn:E1. destruct (refill _ _ _ _ _ WU E1) as (W1 & R1 & C1 & O1).
    destruct (C1 dk Wd (or_introl D)) as (Wd1 & Rd1 & D1). destruct (O1 n OU Ln) as (K1 & OU1).
    assert (L1 : s_len U1 = hl) by (rewrite <- (read_length h1 U1 W1), R1; apply prf_len).
    pose proof (disj_arr h1 U1 dk W1 Wd1 ltac:(lia) ltac:(lia) D1) as DA.
    set (xs := xor_into (read h1 (slice_from dk off)) (read h1 U1)) in E.
    assert (Lx : length xs = hl) by (unfold xs; rewrite xor_into_length, read_slice_from, skipn_length, (read_length h1 dk Wd1); lia).
    destruct (store_end h1 dk off xs Wd1 ltac:(lia) ltac:(lia)) as (S1 & S2 & S3 & S4 & S5). 
    pose proof (IH _ _ _ _ (S3 dk Wd1) Lo (S3 U1 W1) L1 DA Od OU1 ltac:(rewrite S2; apply K1) E) as (P1 & P2 & P3 & P4 & P5 & P6 & P7).
    split; [exact P1|]. split; [exact P2|]. split; [exact P3|]. split; [exact P4|]. split; [exact P5|]. split; [eauto 6 using keeps_trans, (proj1 K1)|].
    rewrite P7, S1, (S4 U1 DA), R1. unfold xs. rewrite read_slice_from, R1, Rd1. reflexivity.
Qed.

Lemma one_block_spec n salt iter block (h h' : heap) dk U dk' U' : (s_arr salt < n)%nat \/ s_len salt = 0%nat -> wf h dk -> wf h U -> s_len U = hl -> disj dk U ->
  own n dk -> own n U -> (n <= length h)%nat -> (s_len dk + hl <= s_cap dk)%nat ->
  one_block_mem grow prf (Z.of_nat hl) salt iter block h dk U = (h', dk', U') ->
  wf h' dk' /\ wf h' U' /\ s_len U' = hl /\ disj dk' U' /\ own n dk' /\ own n U' /\ keeps n h h' /\ s_len dk' = (s_len dk + hl)%nat /\ s_cap dk' = s_cap dk /\
  read h' dk' = one_block prf (Z.of_nat hl) (read h salt) iter block (read h dk).
Proof.
  intros Hs Wd WU LU D Od OU Ln Lc E. unfold one_block_mem in E. unfold one_block. rewrite Nat2Z.id in E |- *.
  set (buf := [u8 (Z.shiftr block 24); u8 (Z.shiftr block 16); u8 (Z.shiftr block 8); u8 block]) in *.
  destruct (append h dk (prf (read h salt ++ buf))) as [h1 dk1] eqn:E1. destruct (extend _ _ _ _ _ Wd E1) as (W1 & R1 & C1 & _ & O1).
  destruct (append_spec _ _ _ _ _ _ _ Wd E1) as (_ & _ & L1). rewrite prf_len in L1.
  assert (Cap : s_cap dk1 = s_cap dk) by (unfold go_append in E1; rewrite prf_len, (proj2 (Nat.leb_le _ _) Lc) in E1; injection E1 as <- <-; reflexivity).
  destruct (C1 U WU D) as (WU1 & RU1 & D1). destruct (O1 n Od Ln) as (K1 & Od1).
  pose proof (disj_arr h1 dk1 U W1 WU1 ltac:(lia) ltac:(lia) D1) as DA.
  set (off := (s_len dk1 - hl)%nat) in E.
  set (ys := firstn (s_len U) (read h1 (slice_from dk1 off))) in E.
  assert (Ly : ys = skipn off (read h1 dk1)). { unfold ys. rewrite read_slice_from. apply firstn_all2. rewrite skipn_length, (read_length h1 dk1 W1). unfold off. lia. }
  assert (Lys : length ys = hl) by (rewrite Ly, skipn_length, (read_length h1 dk1 W1); unfold off; lia).
  destruct (store_end h1 U 0 ys WU1 ltac:(lia) ltac:(lia)) as (S1 & S2 & S3 & S4 & S5).
  replace (slice_from U 0) with U in * by (destruct U; unfold slice_from; cbn; rewrite Nat.add_0_r, !Nat.sub_0_r; reflexivity).
  destruct (iterate_mem grow prf (Z.to_nat (iter - 1)) (store h1 U ys) (slice_from dk1 off) U) as [h2 U2] eqn:E2. injection E as <- <- <-.
  pose proof (iterate_mem_spec n dk1 off _ _ _ _ _ (S3 _ W1) ltac:(unfold off; lia) (S3 _ WU1) LU (not_eq_sym DA) Od1 OU ltac:(rewrite S2; apply K1) E2) as (P1 & P2 & P3 & P4 & P5 & P6 & P7).
  split; [exact P1|]. split; [exact P2|]. split; [exact P3|]. split; [left; congruence|]. split; [exact Od1|]. split; [exact P5|]. split; [eauto 6 using keeps_trans, (proj1 K1)|].
  split; [exact L1|]. split; [exact Cap|]. rewrite P7, S1, (S4 dk1 DA). cbn [firstn app]. rewrite Ly, R1.
  replace (length (read h dk ++ prf (read h salt ++ buf)) - hl)%nat with off; [reflexivity|]. unfold off. rewrite app_length, (read_length h dk Wd), prf_len, L1. reflexivity.
Qed.

Lemma keeps_read n (h h' : heap) c : keeps n h h' -> (s_arr c < n)%nat \/ s_len c = 0%nat -> read h' c = read h c.
Proof.
  intros [_ K] [H|H]; unfold read; [rewrite K by exact H|rewrite H]; reflexivity.
Qed.

Lemma all_blocks_spec n salt iter m : forall block (h h' : heap) dk U dk', (s_arr salt < n)%nat \/ s_len salt = 0%nat -> wf h dk -> wf h U -> s_len U = hl -> disj dk U ->
  own n dk -> own n U -> (n <= length h)%nat -> (s_len dk + m * hl = s_cap dk)%nat ->
  all_blocks_mem grow prf (Z.of_nat hl) salt iter m block h dk U = (h', dk') ->
  wf h' dk' /\ keeps n h h' /\ own n dk' /\ s_cap dk' = s_cap dk /\ s_len dk' = s_cap dk /\ read h' dk' = all_blocks prf (Z.of_nat hl) (read h salt) iter m block (read h dk).
Proof.
  induction m as [|m IH]; intros block h h' dk U dk' Hs Wd WU LU D Od OU Ln Lc E; cbn [all_blocks_mem all_blocks] in E |- *.
  - injection E as <- <-. split; [exact Wd|]. split; [apply keeps_refl; exact Ln|]. split; [exact Od|]. split; [reflexivity|]. split; [lia|reflexivity].
  - destruct (one_block_mem grow prf (Z.of_nat hl) salt iter block h dk U) as [[h1 dk1] U1] eqn:E1.
    destruct (one_block_spec n salt iter block h h1 dk U dk1 U1 Hs Wd WU LU D Od OU Ln ltac:(lia) E1) as (P1 & P2 & P3 & P4 & P5 & P6 & P7 & P8 & P9 & P10).
    destruct (IH (block + 1) h1 h' dk1 U1 dk') as (Q1 & Q2 & Q3 & Q4 & Q5 & Q6); auto; try lia; try apply P7.
    split; [exact Q1|]. split; [eauto using keeps_trans|]. split; [exact Q3|]. split; [congruence|]. split; [congruence|].
    rewrite Q6, P10, (keeps_read n h h1 salt P7 Hs). reflexivity.
Qed.

Lemma quot_exact a d : - 2^63 <= a < 2^63 -> 0 < d -> i64 (Z.quot a d * d) = Z.quot a d * d.
Proof.
  intros A D. pose proof (Z.quot_rem' a d) as Q. apply i64_id. rewrite (Z.mul_comm d) in Q. set (y := Z.quot a d * d) in *. clearbody y.
  assert (B : Z.abs (Z.rem a d) <= Z.abs a) by (rewrite <- Z.rem_abs, (Z.abs_eq d) by lia; apply Z.rem_le; lia).
  assert (C : 0 <= Z.rem a d * a) by (apply Z.rem_sign_mul; lia).
  destruct (Z.le_gt_cases 0 a); nia.
Qed.

Theorem KeyMem_spec (h : heap) salt iter keyLen : wf h salt ->
  let '(h', r) := KeyMem grow prf (Z.of_nat hl) h salt iter keyLen in
  keeps (length h) h h' /\
  match r with
  | Ok s => wf h' s /\ own (length h) s /\ Key prf (Z.of_nat hl) (read h salt) iter keyLen = Ok (read h' s)
  | Err _ => False
  | Panic => Key prf (Z.of_nat hl) (read h salt) iter keyLen = Panic
  end.
Proof.
  intros Ws. unfold KeyMem, Key. set (nb := Z.quot (i64 (i64 (keyLen + Z.of_nat hl) - 1)) (Z.of_nat hl)).
  assert (Q : i64 (nb * Z.of_nat hl) = nb * Z.of_nat hl) by (apply quot_exact; [apply i64_range|lia]). rewrite Q. clear Q. clearbody nb.
  destruct (make_ok (nb * Z.of_nat hl) 1) eqn:M; cbn [negb]; [|split; [apply keeps_refl; lia|reflexivity]].
  assert (N0 : 0 <= nb) by (unfold make_ok in M; apply andb_prop in M; destruct M as [M _]; apply Z.leb_le in M; nia).
  unfold make_slice. set (c := Z.to_nat (nb * Z.of_nat hl)). assert (Ec : c = (Z.to_nat nb * hl)%nat) by (unfold c; rewrite Z2Nat.inj_mul, Nat2Z.id by lia; reflexivity).
  set (h1 := h ++ [repeat 0 c]). assert (L1 : length h1 = S (length h)) by (unfold h1; rewrite app_length; cbn; lia).
  set (h2 := h1 ++ [repeat 0 (Z.to_nat (Z.of_nat hl))]).
  assert (A1 : array h2 (length h) = repeat 0 c). { unfold h2. rewrite (array_ext grow). destruct (Nat.eqb_spec (length h) (length h1)); [lia|]. unfold h1. rewrite (array_ext grow), Nat.eqb_refl. reflexivity. }
  assert (A2 : array h2 (length h1) = repeat 0 hl) by (unfold h2; rewrite (array_ext grow), Nat.eqb_refl, Nat2Z.id; reflexivity).
  assert (K0 : keeps (length h) h h2).
  { split; [unfold h2; rewrite app_length; lia|]. intros a La. unfold h2, h1. rewrite !(array_ext grow). rewrite app_length. cbn [length].
    destruct (Nat.eqb_spec a (length h + 1)); [lia|]. destruct (Nat.eqb_spec a (length h)); [lia|reflexivity]. }
  rewrite Nat2Z.id. set (dk := Slice (length h) 0 0 c). set (U := Slice (length h1) 0 hl hl).
  destruct (all_blocks_mem grow prf (Z.of_nat hl) salt iter (Z.to_nat nb) 1 h2 dk U) as [h' dk'] eqn:E.
  assert (Hs : (s_arr salt < length h)%nat \/ s_len salt = 0%nat).
  { destruct (Nat.eq_dec (s_cap salt) 0); [right; destruct Ws; lia|left; apply (wf_cap_lt grow h salt Ws); assumption]. }
  destruct (all_blocks_spec (length h) salt iter (Z.to_nat nb) 1 h2 h' dk U dk') as (P1 & P2 & P3 & P4 & P5 & P6); try assumption.
  - split; cbn [dk s_off s_cap s_arr s_len]; [rewrite A1, repeat_length; lia|lia].
  - split; cbn [U s_off s_cap s_arr s_len]; [rewrite A2, repeat_length; lia|lia].
  - reflexivity.
  - left. cbn. lia.
  - left. cbn. lia.
  - left. cbn. lia.
  - apply K0.
  - cbn [dk s_len s_cap]. lia.
  - split; [exact (keeps_trans _ _ _ _ K0 P2)|]. rewrite (keeps_read _ _ _ salt K0 Hs) in P6. change (read h2 dk) with (@nil Z) in P6. rewrite <- P6. unfold GoBase.slice.
    replace (len (read h' dk')) with (Z.of_nat (s_cap dk')) by (unfold len; rewrite (read_length h' dk' P1); lia).
    cbn [Z.leb Z.compare andb]. destruct (Z.leb_spec 0 keyLen) as [A|A]; cbn [andb]; [|reflexivity].
    destruct (Z.leb_spec keyLen (Z.of_nat (s_cap dk'))) as [B|B]; [|reflexivity].
    split; [split; cbn; [apply P1|lia]|]. split; [|rewrite Z.sub_0_r; cbn [Z.to_nat skipn]; rewrite (read_slice_to grow h' dk') by (rewrite P5, <- P4; clear - A B; lia); reflexivity].
    exact P3.
Qed.
End Key.
End Mem.
