(** Proofs about Base58. *)
From Verif Require Import GoBase BaseLemmas BigInt BigIntProofs Base58Model Base58Spec.
From Coq Require Import ZifyBool ZifyNat.

Definition chr (m : Z) : Z := nth (Z.to_nat m) alphabet 0.
Definition val (c : Z) : Z := nth (Z.to_nat c) b58 255.

Definition b58_charb (c : Z) : bool :=
  (((49 <=? c) && (c <=? 57)) || ((65 <=? c) && (c <=? 90)) || ((97 <=? c) && (c <=? 122)))
  && negb (c =? 73) && negb (c =? 79) && negb (c =? 108).
Lemma b58_charb_spec c : b58_charb c = true <-> is_b58_char c.
Proof. unfold b58_charb, is_b58_char. lia. Qed.

Lemma val_chr m : 0 <= m < 58 -> val (chr m) = m.
Proof.
  intros H. assert (E : (58 <=? m) || (val (chr m) =? m) = true).
  { apply (all_bytes (fun m => (58 <=? m) || (val (chr m) =? m))); [vm_compute; reflexivity|unfold is_byte; lia]. }
  lia.
Qed.
Lemma val_char c : is_byte c -> is_b58_char c -> 0 <= val c < 58 /\ chr (val c) = c.
Proof.
  intros Hb H. apply b58_charb_spec in H.
  assert (E : negb (b58_charb c) || ((0 <=? val c) && (val c <? 58) && (chr (val c) =? c)) = true).
  { apply (all_bytes (fun c => negb (b58_charb c) || ((0 <=? val c) && (val c <? 58) && (chr (val c) =? c))));
      [vm_compute; reflexivity|exact Hb]. }
  rewrite H in E. cbn [negb orb] in E. lia.
Qed.
Lemma val_other c : is_byte c -> ~ is_b58_char c -> val c = 255.
Proof.
  intros Hb H. rewrite <- b58_charb_spec in H.
  assert (E : b58_charb c || (val c =? 255) = true).
  { apply (all_bytes (fun c => b58_charb c || (val c =? 255))); [vm_compute; reflexivity|exact Hb]. }
  destruct (b58_charb c); [now elim H|]. lia.
Qed.
Lemma chr_char m : 0 <= m < 58 -> is_b58_char (chr m).
Proof.
  intros H. apply b58_charb_spec. assert (E : (58 <=? m) || b58_charb (chr m) = true).
  { apply (all_bytes (fun m => (58 <=? m) || b58_charb (chr m))); [vm_compute; reflexivity|unfold is_byte; lia]. }
  destruct (b58_charb (chr m)); [reflexivity|]. lia.
Qed.
Lemma b58_byte c : is_b58_char c -> is_byte c.
Proof. unfold is_b58_char, is_byte. lia. Qed.
Lemma chr_byte m : 0 <= m < 58 -> is_byte (chr m).
Proof. intros H. apply b58_byte, chr_char, H. Qed.
Lemma chr_0 : chr 0 = 49. Proof. reflexivity. Qed.
Lemma chr_inj a b : 0 <= a < 58 -> 0 <= b < 58 -> chr a = chr b -> a = b.
Proof. intros Ha Hb E. rewrite <- (val_chr a Ha), <- (val_chr b Hb). now rewrite E. Qed.

Lemma decode_loop_ok ds a j : Forall (digit_ok 58) ds ->
  decode_loop (map chr ds) a j = Some (a + j * le_val 58 ds).
Proof.
  intros H; revert a j; induction H as [|d ds Hd _ IH]; intros a j; cbn [map decode_loop le_val].
  - f_equal. ring.
  - fold (val (chr d)). rewrite val_chr by exact Hd. unfold digit_ok in Hd.
    destruct (d =? 255) eqn:E; [lia|]. rewrite IH. f_equal. ring.
Qed.

Lemma decode_loop_bad s a j : bytes_ok s -> (exists c, In c s /\ ~ is_b58_char c) -> decode_loop s a j = None.
Proof.
  intros H (c & Hin & Hc). revert a j. induction s as [|x s IH]; intros a j; [easy|].
  apply bytes_ok_cons in H. destruct H as [Hx Hs]. cbn [decode_loop]. fold (val x).
  destruct (val x =? 255) eqn:E; [reflexivity|]. apply IH; [exact Hs|].
  destruct Hin as [->|]; [|assumption]. rewrite val_other in E by assumption. discriminate.
Qed.

Lemma leading_repeat c n l : hd (c + 1) l <> c -> leading c (repeat c n ++ l) = n.
Proof.
  intros H. induction n as [|n IH]; cbn [repeat app leading].
  - destruct l as [|x l]; [reflexivity|]. cbn [leading hd] in *. destruct (x =? c) eqn:E; [lia|reflexivity].
  - rewrite Z.eqb_refl, IH. reflexivity.
Qed.
(** A byte string written as [n] zeros then a non-zero head corresponds to [n] ones then the base-58 digits. *)
Lemma encode_split n c : bytes_ok c -> hd 1 c <> 0 ->
  Base58Encode (repeat 0 n ++ c) = repeat 49 n ++ map chr (rev (digits 58 (set_bytes c))).
Proof.
  intros Hc Hh. unfold Base58Encode. rewrite leading_repeat by exact Hh.
  rewrite rev_app_distr, rev_repeat. fold chr. rewrite <- map_rev.
  f_equal. f_equal. f_equal. f_equal. rewrite !set_bytes_le, rev_app_distr, rev_repeat. apply le_val_app_zeros.
Qed.

Lemma decode_split n ds : Forall (digit_ok 58) ds -> top_nonzero ds ->
  Base58Decode (repeat 49 n ++ map chr (rev ds)) = repeat 0 n ++ big_bytes (le_val 58 ds).
Proof.
  intros Hd Ht. unfold Base58Decode. rewrite rev_app_distr, rev_repeat, <- map_rev, rev_involutive.
  replace (repeat 49 n) with (map chr (repeat 0 n)).
  2:{ clear. induction n; [reflexivity|]. cbn [repeat map]. now rewrite IHn, chr_0. }
  rewrite <- map_app, decode_loop_ok.
  2:{ apply Forall_app; split; [exact Hd|]. clear. induction n; constructor; auto. unfold digit_ok; lia. }
  rewrite le_val_app_zeros.
  replace (map chr (repeat 0 n)) with (repeat 49 n).
  2:{ clear. induction n; [reflexivity|]. cbn [repeat map]. now rewrite IHn, chr_0. }
  unfold alphabetIdx0. rewrite leading_repeat.
  - f_equal. f_equal. ring.
  - destruct (rev ds) as [|d l] eqn:E; [cbn; lia|]. cbn [map hd].
    assert (ds = rev l ++ [d]) as ->. { rewrite <- (rev_involutive ds), E. reflexivity. }
    unfold top_nonzero in Ht. rewrite last_last in Ht.
    apply Forall_app in Hd. destruct Hd as [_ Hd]. inversion Hd as [|? ? Hd' _]; subst.
    intro Hx. change 49 with (chr 0) in Hx. apply chr_inj in Hx; [lia|exact Hd'|lia].
Qed.

Lemma base58_decode_encode b : bytes_ok b -> Base58Decode (Base58Encode b) = b.
Proof.
  intros Hb. destruct (split_zeros b) as (n & c & -> & Hc). apply bytes_ok_app in Hb. destruct Hb as [_ Hb].
  rewrite encode_split by assumption.
  pose proof (set_bytes_nonneg c Hb).
  rewrite decode_split; [|apply digits_ok; lia|apply digits_top; lia].
  rewrite digits_val by lia. f_equal. apply (big_bytes_strip 0); assumption.
Qed.

Lemma split_ones (s : bytes) : exists n t, s = repeat 49 n ++ t /\ hd 50 t <> 49.
Proof.
  induction s as [|x s (n & t & -> & Ht)].
  - exists O, []. split; [reflexivity|cbn; lia].
  - destruct (Z.eq_dec x 49) as [->|Hx]; [exists (S n), t; auto|]. exists O, (x :: repeat 49 n ++ t). auto.
Qed.

Lemma base58_encode_decode s : Forall is_b58_char s -> Base58Encode (Base58Decode s) = s.
Proof.
  intros Hs. destruct (split_ones s) as (n & t & -> & Ht). apply Forall_app in Hs. destruct Hs as [_ Hs].
  set (ds := rev (map val t)).
  assert (Hm : map chr (map val t) = t).
  { clear ds Ht. induction Hs as [|c t Hc _ IH]; [reflexivity|]. cbn [map]. rewrite IH. f_equal.
    apply val_char; [now apply b58_byte|exact Hc]. }
  assert (Hv : Forall (digit_ok 58) (map val t)).
  { apply Forall_map. eapply Forall_impl; [|exact Hs]. intros c Hc. apply val_char; [now apply b58_byte|exact Hc]. }
  assert (Htop : top_nonzero ds).
  { unfold top_nonzero, ds. destruct t as [|c t]; [cbn; lia|]. cbn [map rev]. rewrite last_last.
    inversion Hs as [|? ? Hc _]; subst. intro E. destruct (val_char c (b58_byte c Hc) Hc) as [_ F]. rewrite E in F.
    change (chr 0) with 49 in F. cbn [hd] in Ht. congruence. }
  assert (Hds : Forall (digit_ok 58) ds) by (apply Forall_rev; exact Hv).
  assert (Et : t = map chr (rev ds)). { unfold ds. rewrite rev_involutive. symmetry; exact Hm. }
  rewrite Et at 1. rewrite decode_split by assumption.
  pose proof (le_val_nonneg 58 ltac:(lia) ds Hds) as Hnn.
  rewrite encode_split; [|apply big_bytes_ok|].
  - rewrite big_bytes_set by exact Hnn. rewrite digits_le_val by (lia || assumption). rewrite <- Et. reflexivity.
  - unfold big_bytes. rewrite Z.abs_eq by lia. pose proof (digits_top 256 ltac:(lia) _ Hnn) as Hd.
    destruct (rev (digits 256 (le_val 58 ds))) as [|x l] eqn:E; [cbn; lia|].
    assert (digits 256 (le_val 58 ds) = rev l ++ [x]) as E2. { rewrite <- (rev_involutive (digits _ _)), E. reflexivity. }
    rewrite E2 in Hd. unfold top_nonzero in Hd. rewrite last_last in Hd. exact Hd.
Qed.

Lemma base58_decode_invalid s : bytes_ok s -> (exists c, In c s /\ ~ is_b58_char c) -> Base58Decode s = [].
Proof.
  intros Hs (c & Hin & Hc). unfold Base58Decode. rewrite decode_loop_bad; [reflexivity|now apply bytes_ok_rev|].
  exists c. split; [now apply in_rev in Hin|exact Hc].
Qed.

Lemma base58_encode_chars b : bytes_ok b -> Forall is_b58_char (Base58Encode b).
Proof.
  intros Hb. destruct (split_zeros b) as (n & c & -> & Hc). apply bytes_ok_app in Hb. destruct Hb as [_ Hb].
  rewrite encode_split by assumption. apply Forall_app; split.
  - clear. induction n; constructor; auto. unfold is_b58_char; lia.
  - apply Forall_map. apply Forall_rev. eapply Forall_impl; [|apply digits_ok; [lia|apply set_bytes_nonneg; exact Hb]].
    intros d Hd. apply chr_char, Hd.
Qed.

Lemma base58_decode_bytes s : bytes_ok (Base58Decode s).
Proof.
  unfold Base58Decode. destruct (decode_loop _ _ _); [|constructor].
  apply bytes_ok_app; split; [|apply big_bytes_ok]. apply Forall_forall. intros x Hx. apply repeat_spec in Hx. subst. unfold is_byte; lia.
Qed.

(** Base58Check. *)
Section Check.
Context (sha256 : bytes -> bytes) (Hlen : forall b, len (sha256 b) = 32) (Hok : forall b, bytes_ok (sha256 b)).

Lemma checksum_len b : len (checksum sha256 b) = 4.
Proof. unfold checksum. specialize (Hlen (sha256 b)). unfold len in *. rewrite firstn_length. lia. Qed.
Lemma checksum_ok b : bytes_ok (checksum sha256 b).
Proof. apply bytes_ok_firstn, Hok. Qed.
Lemma checksum_spec b c : check_bytes sha256 b c <-> c = checksum sha256 b.
Proof.
  unfold check_bytes, checksum. split.
  - intros (H & r & E). rewrite E. unfold len in H. assert (length c = 4%nat) as <- by lia.
    rewrite firstn_app, Nat.sub_diag, firstn_all. now rewrite app_nil_r.
  - intros ->. split; [apply checksum_len|]. exists (skipn 4 (sha256 (sha256 b))). symmetry. apply firstn_skipn.
Qed.

Lemma check_decode_body s v p c : Base58Decode s = [v] ++ p ++ c -> len c = 4 ->
  Base58CheckDecode sha256 s = if list_Z_eqb (checksum sha256 ([v] ++ p)) c then Ok (p, v) else Err "checksum error".
Proof.
  intros E Hc. unfold Base58CheckDecode. rewrite E.
  assert (Hl : len ([v] ++ p ++ c) = 5 + len p) by (len_simpl; lia).
  pose proof (len_nonneg p).
  destruct (len ([v] ++ p ++ c) <? 5) eqn:F; [lia|].
  cbn [index app Z.ltb Z.compare nth_error Z.to_nat rbind].
  change (v :: p ++ c) with ([v] ++ p ++ c). change (index ([v] ++ p ++ c) 0) with (Ok v). cbn [rbind].
  rewrite Hl. replace (5 + len p - 4) with (len ([v] ++ p)) by (len_simpl; lia).
  replace (5 + len p) with (len ([v] ++ p) + len c) by (len_simpl; lia).
  rewrite app_assoc. rewrite slice_app_r. cbn [rbind]. rewrite slice_app_l. cbn [rbind].
  replace (len ([v] ++ p)) with (len [v] + len p) by (len_simpl; lia).
  rewrite <- app_assoc. change 1 with (len [v]). rewrite slice_mid. cbn [rbind].
  destruct (list_Z_eqb _ _); reflexivity.
Qed.

Lemma check_roundtrip p v : bytes_ok p -> is_byte v ->
  Base58CheckDecode sha256 (Base58CheckEncode sha256 p v) = Ok (p, v).
Proof.
  intros Hp Hv. rewrite (check_decode_body _ v p (checksum sha256 ([v] ++ p))).
  - now rewrite list_Z_eqb_refl.
  - unfold Base58CheckEncode. rewrite <- app_assoc. apply base58_decode_encode.
    repeat (apply bytes_ok_app; split); auto using checksum_ok. constructor; [exact Hv|constructor].
  - apply checksum_len.
Qed.

Lemma split_check (d : bytes) : 5 <= len d -> exists v p c, d = [v] ++ p ++ c /\ len c = 4.
Proof.
  intros H. destruct d as [|v d]; [change (len (@nil Z)) with 0 in H; lia|].
  rewrite len_cons in H. exists v, (firstn (length d - 4) d), (skipn (length d - 4) d).
  rewrite firstn_skipn. split; [reflexivity|]. unfold len in *. rewrite skipn_length. lia.
Qed.

Lemma check_iff s p v : Base58CheckDecode sha256 s = Ok (p, v) <->
  exists c, Base58Decode s = [v] ++ p ++ c /\ check_bytes sha256 ([v] ++ p) c.
Proof.
  split.
  - intros E. destruct (Z.ltb_spec (len (Base58Decode s)) 5).
    + unfold Base58CheckDecode in E. destruct (len (Base58Decode s) <? 5) eqn:F; [discriminate|lia].
    + destruct (split_check _ H) as (v' & p' & c & Ed & Hc). rewrite (check_decode_body _ _ _ _ Ed Hc) in E.
      destruct (list_Z_eqb _ _) eqn:F; [|discriminate]. apply list_Z_eqb_spec in F.
      inversion E; subst p' v'. exists c. split; [exact Ed|]. apply checksum_spec. now symmetry.
  - intros (c & Ed & Hc). pose proof Hc as [Hc4 _]. rewrite (check_decode_body _ _ _ _ Ed Hc4).
    apply checksum_spec in Hc. now rewrite Hc, list_Z_eqb_refl.
Qed.

Lemma check_never_panics s : Base58CheckDecode sha256 s <> Panic.
Proof.
  destruct (Z.ltb_spec (len (Base58Decode s)) 5).
  - unfold Base58CheckDecode. destruct (len (Base58Decode s) <? 5) eqn:F; [discriminate|lia].
  - destruct (split_check _ H) as (v' & p' & c & Ed & Hc). rewrite (check_decode_body _ _ _ _ Ed Hc).
    destruct (list_Z_eqb _ _); discriminate.
Qed.
End Check.
