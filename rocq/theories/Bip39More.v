(** Cutting sentences into words; the second decoder. *)
From Verif Require Import GoBase BaseLemmas BigInt BigIntProofs Bip39Model Bip39Spec Bip39Proofs.
From Coq Require Import ZifyBool ZifyNat.

Lemma space_len_sound s k : space_len s = S k -> exists sp t, In sp spaces /\ s = sp ++ t /\ length sp = S k.
Proof.
  unfold space_len. destruct s as [|c r]; [discriminate|]. destruct (((9 <=? c) && (c <=? 13)) || (c =? 32)) eqn:E1.
  - intros Q. injection Q as <-. exists [c], r. split; [|auto]. assert (c = 9 \/ c = 10 \/ c = 11 \/ c = 12 \/ c = 13 \/ c = 32) as C by lia. repeat (destruct C as [->|C]; [cbn; tauto|]). subst. cbn. tauto.
  - destruct r as [|d r']; [discriminate|]. destruct ((c =? 0xC2) && ((d =? 0x85) || (d =? 0xA0))) eqn:E2.
    + intros Q. injection Q as <-. exists [c; d], r'. split; [|auto]. assert (c = 0xC2) by lia. assert (d = 0x85 \/ d = 0xA0) as [-> | ->] by lia; subst; cbn; tauto.
    + destruct r' as [|e r'']; [discriminate|].
      assert (K : forall b : bool, (if b then 3%nat else 0%nat) = S k -> b = true /\ k = 2%nat) by (intros []; [intros Q; injection Q as <-; auto|discriminate]).
      destruct ((c =? 0xE1) && (d =? 0x9A) && (e =? 0x80)) eqn:E3; [intros Q; injection Q as <-; exists [c; d; e], r''; split; [|auto]; assert (c = 0xE1 /\ d = 0x9A /\ e = 0x80) as (-> & -> & ->) by lia; cbn; tauto|].
      destruct ((c =? 0xE2) && (d =? 0x80) && (((0x80 <=? e) && (e <=? 0x8A)) || (e =? 0xA8) || (e =? 0xA9) || (e =? 0xAF))) eqn:E4.
      { intros Q. injection Q as <-. exists [c; d; e], r''. split; [|auto]. assert (c = 0xE2 /\ d = 0x80) as (-> & ->) by lia.
        assert (e = 0x80 \/ e = 0x81 \/ e = 0x82 \/ e = 0x83 \/ e = 0x84 \/ e = 0x85 \/ e = 0x86 \/ e = 0x87 \/ e = 0x88 \/ e = 0x89 \/ e = 0x8A \/ e = 0xA8 \/ e = 0xA9 \/ e = 0xAF) as C by lia. clear E1 E2 E3 E4 K. repeat (destruct C as [->|C]; [cbn; tauto|]). subst. cbn. tauto. }
      destruct ((c =? 0xE2) && (d =? 0x81) && (e =? 0x9F)) eqn:E5; [intros Q; injection Q as <-; exists [c; d; e], r''; split; [|auto]; assert (c = 0xE2 /\ d = 0x81 /\ e = 0x9F) as (-> & -> & ->) by lia; cbn; tauto|].
      intros Q. apply K in Q. destruct Q as [Q ->]. exists [c; d; e], r''. split; [|auto]. assert (c = 0xE3 /\ d = 0x80 /\ e = 0x80) as (-> & -> & ->) by lia. cbn. tauto.
Qed.
Lemma spaces_tail sp : In sp spaces -> exists c t, sp = c :: t /\ ~ In 32 t.
Proof.
  assert (F : forallb (fun s => match s with [] => false | _ :: t => forallb (fun x => negb (x =? 32)) t end) spaces = true) by (vm_compute; reflexivity).
  intros I. rewrite forallb_forall in F. specialize (F sp I). destruct sp as [|c t]; [discriminate|]. exists c, t. split; [reflexivity|]. intros I32. rewrite forallb_forall in F. specialize (F 32 I32). discriminate.
Qed.
Definition no_space (w : bytes) : Prop := forall a s b, In s spaces -> w <> a ++ s ++ b.
Definition starts_word (rest : bytes) : Prop := rest = [] \/ exists r, rest = 32 :: r.
Lemma space_len_word c w rest : no_space (c :: w) -> starts_word rest -> space_len ((c :: w) ++ rest) = 0%nat.
Proof.
  intros N St. destruct (space_len ((c :: w) ++ rest)) as [|k] eqn:E; [reflexivity|]. exfalso. apply space_len_sound in E. destruct E as (sp & t & I & E & L).
  destruct (Nat.le_gt_cases (length sp) (length (c :: w))) as [Le|Gt].
  - assert (X : c :: w = sp ++ skipn (length sp) (c :: w)).
    { rewrite <- (firstn_skipn (length sp) (c :: w)) at 1. f_equal. assert (Q : firstn (length sp) ((c :: w) ++ rest) = firstn (length sp) (sp ++ t)) by (now rewrite E). rewrite !firstn_app in Q. rewrite Nat.sub_diag in Q. replace (length sp - length (c :: w))%nat with 0%nat in Q by lia. cbn [firstn] in Q. rewrite !app_nil_r, firstn_all in Q. exact Q. }
    exact (N [] sp _ I X).
  - destruct St as [->|(r & ->)].
    + rewrite app_nil_r in E. rewrite E, app_length in Gt. lia.
    + destruct (spaces_tail sp I) as (c' & t' & -> & Nt). cbn [app] in E. injection E as <- E. apply Nt. cbn [length] in Gt.
      assert (Q : nth_error (w ++ 32 :: r) (length w) = Some 32) by (rewrite nth_error_app2, Nat.sub_diag by lia; reflexivity). rewrite E in Q. rewrite nth_error_app1 in Q by lia. eapply nth_error_In. exact Q.
Qed.
Lemma no_space_tail c w : no_space (c :: w) -> no_space w.
Proof. intros N a s b I E. apply (N (c :: a) s b I). now rewrite E. Qed.
Lemma fields_word rest : starts_word rest -> forall w cur, no_space w -> fields_from 0 cur (w ++ rest) = fields_from 0 (cur ++ w) rest.
Proof.
  intros St. induction w as [|c w IH]; intros cur N; [now rewrite app_nil_r|]. cbn [app fields_from]. change (c :: w ++ rest) with ((c :: w) ++ rest). rewrite space_len_word by auto. rewrite IH by (eapply no_space_tail; exact N). now rewrite <- app_assoc.
Qed.
Lemma fields_space cur r : fields_from 0 cur (32 :: r) = flush cur (fields_from 0 [] r).
Proof. reflexivity. Qed.
Lemma fields_join ws : Forall space_free ws -> Fields (Join ws) = ws.
Proof.
  unfold Fields. induction ws as [|w ws IH]; intros F; [reflexivity|]. inversion F as [|? ? [Ne N] F']. subst. destruct ws as [|w' ws].
  - cbn [Join]. rewrite <- (app_nil_r w) at 1. rewrite fields_word by (auto; now left). cbn. now destruct w.
  - change (Join (w :: w' :: ws)) with (w ++ 32 :: Join (w' :: ws)). rewrite fields_word by (auto; right; eauto). rewrite fields_space, IH by exact F'. cbn [app]. now destruct w.
Qed.
Lemma sentence_join ws : Join ws = sentence ws.
Proof.
  destruct ws as [|w ws]; [reflexivity|]. revert w. induction ws as [|w' ws IH]; intros w; [cbn; now rewrite app_nil_r|]. change (Join (w :: w' :: ws)) with (w ++ 32 :: Join (w' :: ws)). rewrite IH. reflexivity.
Qed.
Lemma split_word rest : forall w cur, ~ In 32 w -> split_from cur (w ++ rest) = split_from (cur ++ w) rest.
Proof. induction w as [|c w IH]; intros cur N; [now rewrite app_nil_r|]. cbn [app split_from]. replace (c =? 32) with false by (symmetry; apply Z.eqb_neq; intros ->; apply N; now left). rewrite IH by (intros I; apply N; now right). now rewrite <- app_assoc. Qed.
Lemma no_32 w : no_space w -> ~ In 32 w.
Proof. intros N I. apply in_split in I. destruct I as (a & b & E). apply (N a [32] b); [cbn; tauto|exact E]. Qed.
Lemma split_join ws : ws <> [] -> Forall space_free ws -> Split (Join ws) = ws.
Proof.
  unfold Split. induction ws as [|w ws IH]; intros Ne F; [congruence|]. inversion F as [|? ? [_ N] F']. subst. destruct ws as [|w' ws].
  - cbn [Join]. rewrite <- (app_nil_r w) at 1. rewrite split_word by (now apply no_32). reflexivity.
  - change (Join (w :: w' :: ws)) with (w ++ 32 :: Join (w' :: ws)). rewrite split_word by (now apply no_32). cbn [split_from app]. change (32 =? 32) with true. cbn [orb]. rewrite IH by (auto; discriminate). reflexivity.
Qed.
Lemma compare_spec a b : compareByteSlices a b = list_Z_eqb a b.
Proof.
  unfold compareByteSlices. revert b. induction a as [|x a IH]; intros [|y b]; try reflexivity.
  rewrite !len_cons. replace (1 + len a =? 1 + len b) with (len a =? len b) by lia. cbn [combine forallb fst snd list_Z_eqb]. rewrite <- IH. destruct (len a =? len b); cbn [negb]; [reflexivity|]. now rewrite andb_false_r.
Qed.

Section M.
Variable sha256 : bytes -> bytes.
Hypothesis sha_ok : forall b, length (sha256 b) = 32%nat /\ bytes_ok (sha256 b).
Variable W : list bytes.
Hypothesis W_good : good_list W.
Lemma W_len : length W = 2048%nat. Proof. apply W_good. Qed.
Lemma W_nodup : NoDup W. Proof. apply W_good. Qed.
Lemma W_free : Forall space_free W. Proof. apply W_good. Qed.
Lemma words_of_bip39 e : words_of sha256 W e = bip39_words sha256 W e.
Proof. reflexivity. Qed.
Lemma words_in e : Forall (fun w => In w W) (words_of sha256 W e) \/ ~ entropy_size (length e).
Proof.
  destruct (in_dec Nat.eq_dec (length e) [16; 20; 24; 28; 32]%nat) as [I|I]; [left|now right]. destruct (size_q e I) as (q & L & D & R). pose proof (checked_len sha256 sha_ok e q L D ltac:(lia)) as Lc. unfold words_of. rewrite D.
  apply Forall_forall. intros w Iw. apply in_map_iff in Iw. destruct Iw as (g & <- & Ig). apply nth_In. rewrite W_len. assert (X : forall k l, length l = (11 * k)%nat -> In g (groups k l) -> length g = 11%nat).
  { induction k as [|k IH]; intros l Ll Il; [destruct Il|]. destruct Il as [<-|Il]; [rewrite firstn_length; lia|]. apply (IH (skipn 11 l)); [rewrite skipn_length; lia|exact Il]. }
  specialize (X (3 * q)%nat (checked sha256 e) ltac:(rewrite Lc; lia) Ig). pose proof (bits_val_range g) as Rg. replace (len g) with 11 in Rg by (unfold len; lia). change (2 ^ 11) with 2048 in Rg. lia.
Qed.
Lemma words_free e : entropy_size (length e) -> Forall space_free (words_of sha256 W e).
Proof. intros S_. destruct (words_in e) as [F|F]; [|contradiction]. eapply Forall_impl; [|exact F]. intros w I. exact (proj1 (Forall_forall _ _) W_free w I). Qed.
(** C58. *)
Lemma mnemonic_roundtrip e : bytes_ok e -> entropy_size (length e) ->
  NewMnemonic sha256 W e = Ok (sentence (bip39_words sha256 W e)) /\ length (bip39_words sha256 W e) = (length e / 4 * 3)%nat /\ Forall (fun w => In w W) (bip39_words sha256 W e) /\
  EntropyFromMnemonic sha256 W (sentence (bip39_words sha256 W e)) = Ok e.
Proof.
  intros O S_. rewrite <- words_of_bip39. destruct (new_mnemonic sha256 sha_ok W W_len e O S_) as [N L]. rewrite <- sentence_join. split; [exact N|]. split; [rewrite L; lia|]. split; [destruct (words_in e); [assumption|contradiction]|].
  apply (decodes_back sha256 sha_ok W W_len W_nodup e _ O S_). apply fields_join. now apply words_free.
Qed.
Lemma mnemonic_checked m e : EntropyFromMnemonic sha256 W m = Ok e -> bytes_ok e /\ entropy_size (length e) /\ Fields m = bip39_words sha256 W e.
Proof. intros E. rewrite <- words_of_bip39. exact (accepted_words sha256 sha_ok W W_len m e E). Qed.

(** C85. *)
Lemma sum_decode : forall ws b v, decode_words W ws b = Ok v -> 0 <= b -> sum_words W ws b = v.
Proof.
  induction ws as [|w ws IH]; intros b v E Hb; cbn [decode_words sum_words] in *; [congruence|]. destruct (GetWordIndex W w) as [i|] eqn:G; [|discriminate]. destruct (get_index_inv W W_len _ _ G) as [R _]. rewrite u16_id, lor_2048 in E by lia. apply IH; [exact E|lia].
Qed.
Lemma decode_total : forall ws b, forallb (fun w => match GetWordIndex W w with Some _ => true | None => false end) ws = match decode_words W ws b with Ok _ => true | _ => false end.
Proof. induction ws as [|w ws IH]; intros b; cbn [forallb decode_words]; [reflexivity|]. destruct (GetWordIndex W w); [cbn [andb]; apply IH|reflexivity]. Qed.
Lemma decode_no_panic : forall ws b, decode_words W ws b <> Panic.
Proof. induction ws as [|w ws IH]; intros b; cbn [decode_words]; [discriminate|]. destruct (GetWordIndex W w); [apply IH|discriminate]. Qed.
Lemma decoders_agree m : Split m = Fields m ->
  (exists e, EntropyFromMnemonic sha256 W m = Ok e /\ MnemonicToByteArray sha256 W m true = Ok e) \/
  exists e1 e2, EntropyFromMnemonic sha256 W m = Err e1 /\ MnemonicToByteArray sha256 W m true = Err e2.
Proof.
  intros Sp. destruct (count_ok (len (Fields m))) eqn:C.
  2: { right. unfold EntropyFromMnemonic, splitMnemonicWords, MnemonicToByteArray, IsMnemonicValid. rewrite C. cbn [andb negb]. eauto. }
  destruct (count_q _ C) as (q & Lq & R). destruct (decode_words W (Fields m) 0) as [v|er|] eqn:D.
  2: { right. unfold EntropyFromMnemonic, splitMnemonicWords, MnemonicToByteArray, IsMnemonicValid. rewrite C. rewrite (decode_total _ 0). rewrite D. cbn [andb negb rbind]. eauto. }
  2: { elim (decode_no_panic _ _ D). }
  destruct (decode_inv W W_len _ _ _ D ltac:(lia)) as (l & Ll & M & V). rewrite Z.mul_0_l, Z.add_0_l in V. subst v. assert (Lf : length (Fields m) = (3 * q)%nat) by (unfold len in Lq; lia).
  destruct (efm sha256 sha_ok W W_len m q l R Lf D ltac:(lia)) as (a & c & e & h & r & -> & La & Lc & Le & Oe & Eb & Es & Hh & Ef).
  assert (Mb : MnemonicToByteArray sha256 W m true = if list_eq_dec bool_dec c (firstn q (byte_bits h)) then Ok e else Err "ErrChecksumIncorrect").
  { unfold MnemonicToByteArray. rewrite Sp, Lq. unfold IsMnemonicValid. rewrite C, (decode_total _ 0), D. cbn [andb negb]. rewrite (sum_decode _ _ _ D) by lia.
    replace (Z.rem (Z.of_nat (3 * q) * 11) 32) with (Z.of_nat q) by (rewrite Z.rem_mod_nonneg by lia; replace (Z.of_nat (3 * q) * 11) with (Z.of_nat q + Z.of_nat q * 32) by lia; rewrite Z.mod_add, Z.mod_small; lia).
    replace (Z.of_nat (3 * q) * 11 - Z.of_nat q) with (Z.of_nat (4 * q) * 8) by lia. rewrite Z.quot_mul by lia.
    replace (Z.of_nat (4 * q) + 1 - Z.rem (Z.of_nat (4 * q) + 1) 4) with (Z.of_nat (4 * q)) by (rewrite Z.rem_mod_nonneg by lia; replace (Z.of_nat (4 * q) + 1) with (1 + Z.of_nat q * 4) by lia; rewrite Z.mod_add, Z.mod_small; lia).
    pose proof (bits_val_range c) as Rc. replace (len c) with (Z.of_nat q) in Rc by (unfold len; lia).
    assert (Ev : bits_val (a ++ c) / 2 ^ Z.of_nat q = bits_val a) by (rewrite bits_val_app; replace (len c) with (Z.of_nat q) by (unfold len; lia); rewrite Z.div_add_l by lia; rewrite Z.div_small by exact Rc; lia). rewrite Ev.
    pose proof (bits_val_range a) as Ra. replace (len a) with (8 * Z.of_nat (4 * q)) in Ra by (unfold len; lia). rewrite Z.pow_mul_r in Ra by lia. change (2 ^ 8) with 256 in Ra.
    assert (Ee : padByteSlice (big_bytes (bits_val a)) (Z.of_nat (4 * q)) = e).
    { destruct (pad_big (bits_val a) (Z.of_nat (4 * q)) ltac:(lia) Ra) as (L1 & O1 & V1). apply set_bytes_inj; auto; [unfold len in L1; lia|]. rewrite V1, <- Eb. now apply bits_set. }
    rewrite Ee. rewrite (add_checksum sha256 sha_ok e Oe) by lia. cbn [rbind]. unfold checked. replace (length e / 4)%nat with q by (rewrite Le, Nat.mul_comm, Nat.div_mul; lia). rewrite (firstn_sha sha256 e h r q Es) by lia. rewrite Eb. rewrite compare_spec.
    assert (Bd : forall x : list bool, length x = q -> 0 <= bits_val (a ++ x) < 256 ^ (Z.of_nat (4 * q) + 1)).
    { intros x Lx. pose proof (bits_val_range (a ++ x)) as Rx. split; [lia|]. eapply Z.lt_le_trans; [apply Rx|]. change 256 with (2 ^ 8). rewrite <- Z.pow_mul_r by lia. apply Z.pow_le_mono_r; [lia|]. rewrite len_app. unfold len. lia. }
    assert (Lh : length (firstn q (byte_bits h)) = q) by (rewrite firstn_length, byte_bits_len; lia).
    destruct (list_eq_dec bool_dec c (firstn q (byte_bits h))) as [<-|Ne]; [now rewrite list_Z_eqb_refl|].
    replace (list_Z_eqb _ _) with false; [reflexivity|]. symmetry. apply list_Z_eqb_neq. intros Q. apply Ne. apply (f_equal set_bytes) in Q. rewrite !pad_val, !big_bytes_set in Q by apply bits_val_range. apply bits_val_inj in Q; [|rewrite !app_length; lia]. now apply app_inv_head in Q. }
  rewrite Ef, Mb. destruct (list_eq_dec bool_dec c (firstn q (byte_bits h))); [left|right]; eauto.
Qed.
Lemma single_spaced ws : ws <> [] -> Forall space_free ws -> Split (sentence ws) = Fields (sentence ws).
Proof. intros Ne F. rewrite <- sentence_join. now rewrite split_join, fields_join. Qed.
End M.
