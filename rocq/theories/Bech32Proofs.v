(** Bech32 encoding and decoding. *)
From Verif Require Import GoBase BaseLemmas Bech32Model Bech32Spec Bech32Poly.
From Coq Require Import ZifyBool ZifyNat.

Definition cchr (v : Z) : Z := nth (Z.to_nat v) charset 0.
Definition cval (c : Z) : Z := IndexByte charset c.

Lemma cchr_facts v : 0 <= v < 32 ->
  cval (cchr v) = v /\ printable (cchr v) /\ ~ is_upper (cchr v) /\ cchr v <> 49 /\ is_byte (cchr v).
Proof.
  intros H.
  assert (E : (32 <=? v) || ((cval (cchr v) =? v) && (33 <=? cchr v) && (cchr v <=? 126) &&
     negb ((65 <=? cchr v) && (cchr v <=? 90)) && negb (cchr v =? 49)) = true).
  { apply (all_bytes (fun v => (32 <=? v) || ((cval (cchr v) =? v) && (33 <=? cchr v) && (cchr v <=? 126) &&
     negb ((65 <=? cchr v) && (cchr v <=? 90)) && negb (cchr v =? 49)))); [vm_compute; reflexivity|unfold is_byte; lia]. }
  unfold printable, is_upper, is_byte. lia.
Qed.
Lemma cval_facts c : is_byte c -> cval c < 0 \/ (0 <= cval c < 32 /\ cchr (cval c) = c).
Proof.
  intros H. assert (E : (cval c <? 0) || ((0 <=? cval c) && (cval c <? 32) && (cchr (cval c) =? c)) = true).
  { apply (all_bytes (fun c => (cval c <? 0) || ((0 <=? cval c) && (cval c <? 32) && (cchr (cval c) =? c))));
      [vm_compute; reflexivity|exact H]. }
  lia.
Qed.
Lemma cchr_index v : 0 <= v < 32 -> index charset v = Ok (cchr v).
Proof.
  intros H. destruct (index_ok charset v) as (x & E & F). { change (len charset) with 32. lia. }
  rewrite E. unfold cchr. f_equal. symmetry. apply (nth_error_nth _ _ _ F).
Qed.

Lemma toChars_ok d : five_bit d -> toChars d = Ok (map cchr d).
Proof.
  induction 1 as [|v d Hv _ IH]; [reflexivity|]. cbn [toChars map]. change (len charset) with 32.
  destruct (32 <=? v) eqn:E; [lia|]. rewrite cchr_index by exact Hv. cbn [rbind]. rewrite IH. reflexivity.
Qed.
Lemma toChars_inv d t : bytes_ok d -> toChars d = Ok t -> five_bit d /\ t = map cchr d.
Proof.
  intros Hd; revert t; induction Hd as [|v d Hv _ IH]; intros t; cbn [toChars].
  - intros [= <-]. split; [constructor|reflexivity].
  - change (len charset) with 32. destruct (32 <=? v) eqn:E; [discriminate|].
    rewrite cchr_index by (unfold is_byte in Hv; lia). cbn [rbind]. destruct (toChars d) as [t'| |] eqn:F; try discriminate.
    intros [= <-]. destruct (IH t' eq_refl) as [A ->]. split; [constructor; [unfold is_byte in Hv; lia|exact A]|reflexivity].
Qed.

Lemma toBytes_ok t d : bytes_ok t -> (toBytes t = Ok d <-> five_bit d /\ t = map cchr d).
Proof.
  intros Ht; revert d; induction Ht as [|c t Hc _ IH]; intros d; cbn [toBytes].
  - split; [intros [= <-]; split; [constructor|reflexivity]|]. intros [_ E]. destruct d; [reflexivity|discriminate].
  - fold (cval c). destruct (cval c <? 0) eqn:E.
    + split; [discriminate|]. intros [H1 H2]. destruct d as [|v d]; [discriminate|]. cbn [map] in H2. inversion H2; subst.
      inversion H1 as [|? ? Hv]; subst. destruct (cchr_facts v Hv) as [A _]. lia.
    + destruct (cval_facts c Hc) as [A|[A B]]; [lia|].
      rewrite u8_id by lia. split.
      * destruct (toBytes t) as [d'| |] eqn:F; try discriminate. cbn [rbind]. intros [= <-].
        destruct (proj1 (IH d') eq_refl) as [C ->]. split; [constructor; assumption|]. cbn [map]. now rewrite B.
      * intros [H1 H2]. destruct d as [|v d]; [discriminate|]. cbn [map] in H2. inversion H2; subst. inversion H1 as [|? ? Hv Hd]; subst.
        rewrite (proj2 (IH d)) by (split; [exact Hd|reflexivity]). cbn [rbind]. f_equal. f_equal. apply cchr_facts, Hv.
Qed.
Lemma toBytes_no_panic t : toBytes t <> Panic.
Proof. induction t as [|c t IH]; cbn [toBytes]; [discriminate|]. destruct (_ <? 0); [discriminate|]. destruct (toBytes t); easy. Qed.

(** Position of the separator. *)
Lemma last_index_notin i s c f : ~ In c s -> last_index_from i s c f = f.
Proof.
  revert i f; induction s as [|x s IH]; intros i f H; cbn [last_index_from]; [reflexivity|].
  destruct (x =? c) eqn:E; [elim H; left; lia|]. apply IH. intro; apply H; now right.
Qed.
Lemma last_index_app i a b c f : last_index_from i (a ++ b) c f = last_index_from (i + len a) b c (last_index_from i a c f).
Proof.
  revert i f; induction a as [|x a IH]; intros i f; cbn [app last_index_from].
  - change (len (@nil Z)) with 0. now rewrite Z.add_0_r.
  - rewrite IH, len_cons. f_equal. lia.
Qed.
Lemma last_index_sep a b : ~ In 49 b -> LastIndexByte (a ++ [49] ++ b) 49 = len a.
Proof.
  intros H. unfold LastIndexByte. rewrite last_index_app. cbn [app last_index_from]. rewrite Z.eqb_refl.
  rewrite last_index_notin by exact H. lia.
Qed.
Lemma last_index_inv s : (~ In 49 s /\ LastIndexByte s 49 = -1) \/ exists a b, s = a ++ [49] ++ b /\ ~ In 49 b.
Proof.
  induction s as [|x s IH] using rev_ind; [left; split; [easy|reflexivity]|].
  destruct (Z.eq_dec x 49) as [->|Hx].
  - right. exists s, []. split; [reflexivity|easy].
  - destruct IH as [[H1 H2]|(a & b & -> & Hb)].
    + left. split; [intro H; apply in_app_or in H; destruct H as [H|[H|[]]]; auto|].
      unfold LastIndexByte in *. rewrite last_index_app. cbn [last_index_from]. rewrite H2. destruct (x =? 49) eqn:E; [lia|reflexivity].
    + right. exists a, (b ++ [x]). split; [now rewrite <- !app_assoc|]. intro H. apply in_app_or in H. destruct H as [H|[H|[]]]; auto.
Qed.

(** The checksum. *)
Lemma hrp_words h : bytes_ok h -> Forall word_ok (bech32HrpExpand h).
Proof.
  intros H. unfold bech32HrpExpand. repeat (apply Forall_app; split).
  - apply Forall_map. eapply Forall_impl; [|exact H]. intros c Hc. unfold is_byte in Hc. unfold word_ok.
    rewrite Z.shiftr_div_pow2 by lia. change (2 ^ 5) with 32. change (2 ^ 30) with 1073741824. lia.
  - constructor; [|constructor]. unfold word_ok. lia.
  - apply Forall_map. eapply Forall_impl; [|exact H]. intros c Hc. unfold word_ok. change 31 with (Z.ones 5).
    rewrite Z.land_ones by lia. change (2 ^ 5) with 32. change (2 ^ 30) with 1073741824. pose proof (Z.mod_pos_bound c 32). lia.
Qed.
Lemma five_words d : five_bit d -> Forall word_ok d.
Proof. intros H. eapply Forall_impl; [|exact H]. intros v Hv. unfold word_ok. change (2 ^ 30) with 1073741824. cbn in Hv. lia. Qed.
Lemma five_bytes d : five_bit d -> bytes_ok d.
Proof. intros H. eapply Forall_impl; [|exact H]. intros v Hv. unfold is_byte. cbn in Hv. lia. Qed.
Lemma one_word : word_ok 1. Proof. unfold word_ok. lia. Qed.

Lemma checksum_digits h d : bech32Checksum h d =
  map (digit5 (Z.lxor (run 1 (bech32HrpExpand h ++ d ++ [0;0;0;0;0;0])) 1)) [0;1;2;3;4;5].
Proof. reflexivity. Qed.
Lemma checksum_five h d : five_bit (bech32Checksum h d).
Proof. rewrite checksum_digits. cbn [map]. repeat (constructor; [apply digit5_range|]). constructor. Qed.
Lemma checksum_len6 h d : len (bech32Checksum h d) = 6.
Proof. reflexivity. Qed.

Lemma verify_iff h d c : bytes_ok h -> five_bit d -> five_bit c -> len c = 6 ->
  (bech32VerifyChecksum h (d ++ c) = true <-> c = bech32Checksum h d).
Proof.
  intros Hh Hd Hc Hl.
  destruct c as [|c0 c]; [discriminate|]. do 5 (destruct c as [|? c]; [discriminate|]). destruct c as [|? c].
  2:{ exfalso. rewrite !len_cons in Hl. pose proof (len_nonneg c). lia. }
  assert (Hc' := Hc). unfold five_bit in Hc'. rewrite !Forall_cons_iff in Hc'. destruct Hc' as (A0 & A1 & A2 & A3 & A4 & A5 & _).
  unfold bech32VerifyChecksum, bech32Polymod. fold (run 1 (bech32HrpExpand h ++ d ++ [c0; z; z0; z1; z2; z3])).
  rewrite checksum_digits. rewrite !app_assoc, !(run_app 1 (bech32HrpExpand h ++ d)). set (r := run 1 (bech32HrpExpand h ++ d)).
  set (p := run r [0; 0; 0; 0; 0; 0]). rewrite run6 by assumption. fold p.
  assert (Hp : word_ok p).
  { apply run_lt; [apply run_lt; [apply one_word|apply Forall_app; split; [now apply hrp_words|now apply five_words]]|].
    repeat constructor; unfold word_ok; lia. }
  assert (Hp1 : word_ok (Z.lxor p 1)) by (apply lxor_lt; [lia|exact Hp|apply one_word]).
  rewrite Z.eqb_eq. split; intros E.
  - replace (Z.lxor p 1) with (pack6 c0 z z0 z1 z2 z3); [now rewrite digits_pack6|].
    rewrite <- E, <- Z.lxor_assoc, Z.lxor_nilpotent, Z.lxor_0_l. reflexivity.
  - cbn [map] in E. inversion E. rewrite pack6_digits by exact Hp1.
    rewrite <- Z.lxor_assoc, Z.lxor_nilpotent, Z.lxor_0_l. reflexivity.
Qed.

Lemma printable_bytes s : Forall printable s -> bytes_ok s.
Proof. intros H. eapply Forall_impl; [|exact H]. intros c Hc. unfold printable in Hc. unfold is_byte. lia. Qed.
Lemma lowercase_printable s : Forall printable s -> Forall printable (lowercase s).
Proof.
  intros H. apply Forall_map. eapply Forall_impl; [|exact H]. intros c Hc. unfold printable, low in *.
  destruct ((65 <=? c) && (c <=? 90)) eqn:E; lia.
Qed.
Lemma charset_no_sep d : five_bit d -> ~ In 49 (map cchr d).
Proof. intros H Hin. apply in_map_iff in Hin. destruct Hin as (v & E & Hv). unfold five_bit in H. rewrite Forall_forall in H.
  destruct (cchr_facts v (H v Hv)) as (_ & _ & _ & A & _). congruence. Qed.
Lemma len_lowercase s : len (lowercase s) = len s. Proof. apply len_map. Qed.

Lemma existsb_printable s : existsb (fun c => (c <? 33) || (126 <? c)) s = false <-> Forall printable s.
Proof.
  induction s as [|c s IH]; cbn [existsb]; [split; [constructor|reflexivity]|].
  rewrite orb_false_iff, IH, Forall_cons_iff. unfold printable. split; intros [A B]; split; auto; lia.
Qed.

(** Both directions of decoding at once. *)
Definition one_case (s : bytes) : Prop := s = ToLower s \/ s = ToUpper s.
Definition encoding (h d : bytes) : bytes := h ++ [49] ++ map cchr (d ++ bech32Checksum h d).

Lemma sep_unique a b a' b' : ~ In 49 b -> ~ In 49 b' -> a ++ [49] ++ b = a' ++ [49] ++ b' -> a = a' /\ b = b'.
Proof.
  intros Hb Hb' E. assert (L : len a = len a'). { rewrite <- (last_index_sep a b Hb), E. now apply last_index_sep. }
  assert (L' : length a = length a') by (unfold len in L; lia).
  assert (a = a' /\ [49] ++ b = [49] ++ b') as [A B].
  { clear - E L'. revert a' E L'. induction a as [|x a IH]; intros [|y a'] E L; try discriminate; [auto|].
    cbn [app] in E. inversion E as [[Hx E']]. destruct (IH a' E') as [-> ?]; [now inversion L|]. auto. }
  split; [exact A|]. now inversion B.
Qed.

Lemma map_cchr_inj x y : five_bit x -> five_bit y -> map cchr x = map cchr y -> x = y.
Proof.
  intros Hx; revert y. induction Hx as [|v x Hv _ IH]; intros [|w y] Hy E; try discriminate; [reflexivity|].
  inversion Hy; subst. cbn [map] in E. inversion E as [[E1 E2]]. f_equal; [|now apply IH].
  rewrite <- (proj1 (cchr_facts v Hv)), E1. now apply cchr_facts.
Qed.
Lemma five_checked h d : five_bit d -> five_bit (d ++ bech32Checksum h d).
Proof. intros H. apply Forall_app; split; [exact H|apply checksum_five]. Qed.

(** The decoder after the separator has been located. *)
Lemma decode_values a b h d p c : ~ In 49 b -> five_bit (p ++ c) -> len c = 6 -> b = map cchr (p ++ c) -> five_bit d ->
  a ++ [49] ++ b = encoding h d -> a = h /\ p = d /\ c = bech32Checksum h d.
Proof.
  intros Hb Hpc Hc Eb Hd E. unfold encoding in E.
  apply sep_unique in E; [|exact Hb|apply charset_no_sep, five_checked, Hd]. destruct E as [-> E]. rewrite Eb in E.
  apply map_cchr_inj in E; [|exact Hpc|apply five_checked, Hd].
  apply app_inj_len in E; [tauto|]. apply (f_equal (@length Z)) in E. rewrite !app_length in E. unfold len in Hc.
  change (length (bech32Checksum h d)) with 6%nat in E. lia.
Qed.

Lemma decode_body_iff s h d : Forall printable s -> one_case s -> 8 <= len s <= 90 ->
  Bech32Decode s = Ok (h, d) <-> h <> [] /\ five_bit d /\ lowercase s = encoding h d.
Proof.
  intros Hp Hcase Hlen. unfold Bech32Decode.
  replace ((len s <? 8) || (90 <? len s)) with false by lia.
  rewrite (proj2 (existsb_printable s) Hp).
  replace (negb (list_Z_eqb s (ToLower s)) && negb (list_Z_eqb s (ToUpper s))) with false.
  2:{ destruct Hcase as [E|E]; rewrite <- E, list_Z_eqb_refl; [reflexivity|]. now rewrite andb_false_r. }
  change (ToLower s) with (lowercase s). pose proof (lowercase_printable s Hp) as Hlp. rewrite <- (len_lowercase s) in Hlen.
  set (l := lowercase s) in *. clearbody l. clear s Hp Hcase.
  assert (Hbl := printable_bytes l Hlp).
  destruct (last_index_inv l) as [[Hno Hidx]|(a & b & El & Hb)].
  - rewrite Hidx. change ((-1 <? 1) || (len l <? -1 + 7)) with true. cbn match. split; [discriminate|].
    intros (_ & _ & E). elim Hno. rewrite E. unfold encoding. apply in_or_app. right. now left.
  - assert (Hi : LastIndexByte l 49 = len a) by (rewrite El; now apply last_index_sep). rewrite Hi.
    assert (Hll : len l = len a + 1 + len b) by (rewrite El; len_simpl; lia).
    pose proof (len_nonneg a). pose proof (len_nonneg b).
    rewrite El in Hbl. apply bytes_ok_app in Hbl. destruct Hbl as [Hba Hbb]. apply bytes_ok_app in Hbb. destruct Hbb as [_ Hbb].
    destruct ((len a <? 1) || (len l <? len a + 7)) eqn:G.
    + split; [discriminate|]. intros (Hh & Hd & E). exfalso. unfold encoding in E. rewrite El in E.
      apply sep_unique in E; [|exact Hb|now apply charset_no_sep, five_checked]. destruct E as [-> ->].
      rewrite len_map, len_app, checksum_len6 in Hll. pose proof (len_nonneg d).
      assert (len h <> 0) by (intro A; now apply Hh, len_zero). pose proof (len_nonneg h). lia.
    + rewrite El at 1. rewrite slice_app_l. cbn [rbind].
      replace (slice l (len a + 1) (len l)) with (Ok b).
      2:{ rewrite Hll. replace (len a + 1) with (len (a ++ [49])) by (len_simpl; lia). rewrite El, app_assoc. symmetry. apply slice_app_r. }
      cbn [rbind]. destruct (toBytes b) as [dec|e|] eqn:T; cbn [rbind].
      * apply toBytes_ok in T; [|exact Hbb]. destruct T as [Hdec Eb].
        assert (Hld : len dec = len b) by (rewrite Eb, len_map; reflexivity).
        assert (Hsplit : exists p c, dec = p ++ c /\ len c = 6).
        { exists (firstn (length dec - 6) dec), (skipn (length dec - 6) dec). rewrite firstn_skipn. split; [reflexivity|].
          unfold len in *. rewrite skipn_length. lia. }
        destruct Hsplit as (p & c & -> & Hc). rewrite len_app, Hc. replace (len p + 6 - 6) with (len p) by lia.
        rewrite slice_app_l. cbn [rbind]. pose proof Hdec as Hdec'. apply Forall_app in Hdec'. destruct Hdec' as [Hp Hc5].
        pose proof (verify_iff a p c Hba Hp Hc5 Hc) as V. destruct (bech32VerifyChecksum a (p ++ c)) eqn:Vc; cbn [negb].
        -- assert (Ec : c = bech32Checksum a p) by now apply V. split.
           ++ intros [= <- <-]. split; [|split; [exact Hp|]].
              { intros ->. change (len (@nil Z)) with 0 in G. lia. }
              rewrite El, Eb, Ec. reflexivity.
           ++ intros (Hh & Hd & E). rewrite El in E.
              destruct (decode_values a b h d p c Hb Hdec Hc Eb Hd E) as (-> & -> & _). reflexivity.
        -- split; [discriminate|]. intros (Hh & Hd & E). rewrite El in E.
           destruct (decode_values a b h d p c Hb Hdec Hc Eb Hd E) as (-> & -> & Ec). assert (false = true) by now apply V. discriminate.
      * split; [discriminate|]. intros (Hh & Hd & E). exfalso. rewrite El in E. unfold encoding in E.
        apply sep_unique in E; [|exact Hb|now apply charset_no_sep, five_checked]. destruct E as [-> E].
        assert (toBytes b = Ok (d ++ bech32Checksum h d)) by (apply toBytes_ok; [exact Hbb|]; split; [now apply five_checked|exact E]).
        congruence.
      * exfalso. exact (toBytes_no_panic b T).
Qed.

Lemma decode_pre s h d : Bech32Decode s = Ok (h, d) -> Forall printable s /\ one_case s /\ 8 <= len s <= 90.
Proof.
  unfold Bech32Decode. destruct ((len s <? 8) || (90 <? len s)) eqn:E1; [discriminate|].
  destruct (existsb _ s) eqn:E2; [discriminate|].
  destruct (negb (list_Z_eqb s (ToLower s)) && negb (list_Z_eqb s (ToUpper s))) eqn:E3; [discriminate|].
  intros _. split; [now apply existsb_printable|]. split; [|lia]. unfold one_case.
  destruct (list_Z_eqb s (ToLower s)) eqn:A; [left; now apply list_Z_eqb_spec|].
  destruct (list_Z_eqb s (ToUpper s)) eqn:B; [right; now apply list_Z_eqb_spec|]. discriminate.
Qed.

Lemma decode_iff s h d : Bech32Decode s = Ok (h, d) <->
  Forall printable s /\ one_case s /\ 8 <= len s <= 90 /\ h <> [] /\ five_bit d /\ lowercase s = encoding h d.
Proof.
  split.
  - intros E. destruct (decode_pre s h d E) as (A & B & C). pose proof (proj1 (decode_body_iff s h d A B C) E). tauto.
  - intros (A & B & C & D). now apply decode_body_iff.
Qed.

Lemma decode_no_panic s : Bech32Decode s <> Panic.
Proof.
  unfold Bech32Decode. destruct ((len s <? 8) || (90 <? len s)) eqn:E1; [discriminate|].
  destruct (existsb _ s) eqn:E2; [discriminate|].
  destruct (negb _ && negb _) eqn:E3; [discriminate|]. change (ToLower s) with (lowercase s).
  set (l := lowercase s). clearbody l.
  destruct (last_index_inv l) as [[Hno Hidx]|(a & b & El & Hb)].
  - rewrite Hidx. change ((-1 <? 1) || (len l <? -1 + 7)) with true. discriminate.
  - assert (Hi : LastIndexByte l 49 = len a) by (rewrite El; now apply last_index_sep). rewrite Hi.
    assert (Hll : len l = len a + 1 + len b) by (rewrite El; len_simpl; lia).
    destruct ((len a <? 1) || (len l <? len a + 7)) eqn:G; [discriminate|].
    rewrite El at 1. rewrite slice_app_l. cbn [rbind].
    replace (slice l (len a + 1) (len l)) with (Ok b).
    2:{ rewrite Hll. replace (len a + 1) with (len (a ++ [49])) by (len_simpl; lia). rewrite El, app_assoc. symmetry. apply slice_app_r. }
    cbn [rbind]. destruct (toBytes b) as [dec|e|] eqn:T; cbn [rbind]; [|discriminate|now elim (toBytes_no_panic b)].
    assert (Hd : len dec = len b).
    { clear - T. revert dec T. induction b as [|c b IH]; intros dec; cbn [toBytes]; [intros [= <-]; reflexivity|].
      destruct (_ <? 0); [discriminate|]. destruct (toBytes b) as [d'| |]; try discriminate. cbn [rbind]. intros [= <-].
      rewrite !len_cons. now rewrite (IH d'). }
    unfold slice. rewrite Hd. pose proof (len_nonneg a). replace ((0 <=? 0) && (0 <=? len b - 6) && (len b - 6 <=? len b)) with true by lia.
    cbn [rbind]. destruct (bech32VerifyChecksum _ _); discriminate.
Qed.

(** Encoding. *)
Lemma encode_ok h d : five_bit d -> Bech32Encode h d = Ok (encoding h d).
Proof. intros H. unfold Bech32Encode. rewrite toChars_ok by now apply five_checked. reflexivity. Qed.

Lemma lower_id s : Forall (fun c => ~ is_upper c) s -> lowercase s = s.
Proof.
  induction 1 as [|c s Hc _ IH]; [reflexivity|]. cbn [lowercase map]. fold (lowercase s). rewrite IH. f_equal.
  unfold low, is_upper in *. destruct ((65 <=? c) && (c <=? 90)) eqn:E; [lia|reflexivity].
Qed.

Lemma encoding_chars h d : hrp_ok h -> five_bit d -> Forall (fun c => printable c /\ ~ is_upper c) (encoding h d).
Proof.
  intros [_ Hh] Hd. unfold encoding. repeat (apply Forall_app; split); [exact Hh| |].
  - constructor; [|constructor]. unfold printable, is_upper. lia.
  - apply Forall_map. eapply Forall_impl; [|exact (five_checked h d Hd)]. intros v Hv. pose proof (cchr_facts v Hv). tauto.
Qed.

Lemma encode_then_decode h d s : hrp_ok h -> five_bit d -> len h + len d + 7 <= 90 ->
  Bech32Encode h d = Ok s -> Bech32Decode s = Ok (h, d).
Proof.
  intros Hh Hd Hl E. rewrite encode_ok in E by exact Hd. inversion E as [E']; clear E. apply decode_iff.
  pose proof (encoding_chars h d Hh Hd) as Hc.
  assert (Hlow : lowercase (encoding h d) = encoding h d) by (apply lower_id; eapply Forall_impl; [|exact Hc]; cbn; tauto).
  split; [eapply Forall_impl; [|exact Hc]; cbn; tauto|].
  split; [left; symmetry; exact Hlow|]. split; [|split; [apply Hh|split; [exact Hd|exact Hlow]]].
  unfold encoding. len_simpl. rewrite checksum_len6. destruct Hh as [Hn _]. destruct h; [easy|]. rewrite len_cons in *.
  pose proof (len_nonneg h). pose proof (len_nonneg d). lia.
Qed.

Lemma encoding_len h d : len (encoding h d) = len h + len d + 7.
Proof. unfold encoding. len_simpl. rewrite checksum_len6. lia. Qed.

(** Substitutions. *)
Lemma distance_0 a b : length a = length b -> distance a b = O -> a = b.
Proof.
  revert b; induction a as [|x a IH]; intros [|y b] L; try discriminate; [reflexivity|]. cbn [distance].
  destruct (x =? y) eqn:E; [|discriminate]. intros H. f_equal; [lia|]. apply IH; [now inversion L|exact H].
Qed.
Lemma distance_S a b n : length a = length b -> distance a b = S n ->
  exists x u u' y y', a = x ++ u :: y /\ b = x ++ u' :: y' /\ u <> u' /\ length y = length y' /\ distance y y' = n.
Proof.
  revert b; induction a as [|v a IH]; intros [|w b] L; try discriminate. cbn [distance].
  destruct (v =? w) eqn:E.
  - intros H. destruct (IH b) as (x & u & u' & y & y' & -> & -> & A); [now inversion L|exact H|].
    exists (v :: x), u, u', y, y'. replace w with v by lia. auto.
  - intros [= H]. exists [], v, w, a, b. cbn. repeat split; auto; lia.
Qed.

Lemma verify_run h d : bech32VerifyChecksum h d = true <-> run 1 (bech32HrpExpand h ++ d) = 1.
Proof. unfold bech32VerifyChecksum. rewrite Z.eqb_eq. reflexivity. Qed.

Lemma substitution_detected h a b : bytes_ok h -> five_bit a -> five_bit b -> length a = length b ->
  (distance a b = 1%nat \/ distance a b = 2%nat /\ (length a <= 89)%nat) ->
  bech32VerifyChecksum h a = true -> bech32VerifyChecksum h b = false.
Proof.
  intros Hh Ha Hb L D V. destruct (bech32VerifyChecksum h b) eqn:V'; [exfalso|reflexivity].
  apply verify_run in V, V'. symmetry in V'. apply (eq_trans V) in V'. clear V. rename V' into V.
  assert (W : forall v, 0 <= v < 32 -> word_ok v) by (unfold word_ok; intros; change (2 ^ 30) with 1073741824; lia).
  destruct D as [D|[D L89]]; apply distance_S in D; try exact L;
    destruct D as (x & u & u' & y & y' & -> & -> & Hne & Ly & Dy);
    apply Forall_app in Ha, Hb; destruct Ha as [Hx Ha], Hb as [_ Hb]; inversion Ha as [|? ? Hu Hy]; inversion Hb as [|? ? Hu' Hy']; subst.
  - apply distance_0 in Dy; [subst y'|exact Ly]. rewrite !app_assoc in V. revert V.
    apply single_detected; auto using one_word. apply Forall_app; split; [now apply hrp_words|now apply five_words].
  - apply distance_S in Dy; [|exact Ly]. destruct Dy as (x2 & v & v' & z & z' & -> & -> & Hne2 & Lz & Dz).
    apply distance_0 in Dz; [subst z'|exact Lz].
    apply Forall_app in Hy, Hy'; destruct Hy as [Hx2 Hy], Hy' as [_ Hy']; inversion Hy; inversion Hy'; subst.
    rewrite !app_assoc in V. revert V. apply two_detected; auto using one_word, five_words.
    + apply Forall_app; split; [now apply hrp_words|now apply five_words].
    + rewrite !app_length in L89. cbn [length] in L89. rewrite app_length in L89. cbn [length] in L89. lia.
Qed.

Lemma decode_verify s h d : Bech32Decode s = Ok (h, d) -> bytes_ok h /\
  exists t, lowercase s = h ++ [49] ++ map cchr t /\ five_bit t /\ bech32VerifyChecksum h t = true /\ len h + len t + 1 <= 90 /\ h <> [].
Proof.
  intros E. apply decode_iff in E. destruct E as (Hp & _ & Hl & Hh & Hd & E).
  assert (Hbh : bytes_ok h). { pose proof (printable_bytes _ (lowercase_printable s Hp)) as B. rewrite E in B. now apply bytes_ok_app in B. }
  split; [exact Hbh|]. exists (d ++ bech32Checksum h d). split; [exact E|]. split; [now apply five_checked|].
  split; [apply verify_iff; auto using checksum_five|]. split; [|exact Hh].
  rewrite <- (len_lowercase s), E, encoding_len in Hl. len_simpl. rewrite checksum_len6. lia.
Qed.

Lemma distance_map_cchr a b : five_bit a -> five_bit b -> distance (map cchr a) (map cchr b) = distance a b.
Proof.
  intros Ha; revert b; induction Ha as [|v a Hv _ IH]; intros [|w b] Hb; try reflexivity. inversion Hb; subst.
  cbn [map distance]. rewrite IH by assumption. f_equal.
  destruct (Z.eq_dec v w) as [->|Hne]; [now rewrite !Z.eqb_refl|].
  replace (v =? w) with false by lia. destruct (cchr v =? cchr w) eqn:E; [|reflexivity]. exfalso. apply Hne.
  rewrite <- (proj1 (cchr_facts v Hv)). replace (cchr v) with (cchr w) by lia. now apply cchr_facts.
Qed.

Lemma substitution_rejected s s' h d t t' :
  Bech32Decode s = Ok (h, d) -> lowercase s = h ++ [49] ++ t -> ~ In 49 t ->
  lowercase s' = h ++ [49] ++ t' -> len t' = len t -> ~ In 49 t' ->
  (distance t t' = 1 \/ distance t t' = 2)%nat -> exists e, Bech32Decode s' = Err e.
Proof.
  intros E Es Ht Es' Hl Ht' D. destruct (Bech32Decode s') as [[h' d']|e|] eqn:E'; [exfalso|eauto|now elim (decode_no_panic s')].
  apply decode_verify in E, E'. destruct E as (Hbh & v & Ev & Fv & Vv & Lv & Hn), E' as (Hbh' & v' & Ev' & Fv' & Vv' & Lv' & Hn').
  rewrite Es in Ev. apply sep_unique in Ev; [|exact Ht|now apply charset_no_sep]. destruct Ev as [_ ->].
  rewrite Es' in Ev'. apply sep_unique in Ev'; [|exact Ht'|now apply charset_no_sep]. destruct Ev' as [<- ->].
  rewrite distance_map_cchr in D by assumption. rewrite !len_map in Hl.
  assert (bech32VerifyChecksum h v' = false); [|congruence].
  apply (substitution_detected h v v'); auto; [unfold len in Hl; lia|]. destruct D as [D|D]; [now left|right].
  split; [exact D|]. assert (len h <> 0) by (intro A; now apply Hn, len_zero). pose proof (len_nonneg h). unfold len in Lv, H, H0. lia.
Qed.

Lemma distance_sym a b : distance a b = distance b a.
Proof. revert b; induction a as [|x a IH]; intros [|y b]; try reflexivity. cbn [distance]. rewrite IH, Z.eqb_sym. reflexivity. Qed.

Lemma one_case_spec s : one_case s -> ~ ((exists c, In c s /\ is_upper c) /\ (exists c, In c s /\ is_lower c)).
Proof.
  intros O [(c & Hc & Hu) (c' & Hc' & Hl)]. unfold is_upper, is_lower in *. destruct O as [O|O].
  - rewrite O in Hc. unfold ToLower in Hc. apply in_map_iff in Hc. destruct Hc as (x & Ex & _).
    unfold lower1 in Ex. destruct (_ && _) eqn:E; lia.
  - rewrite O in Hc'. unfold ToUpper in Hc'. apply in_map_iff in Hc'. destruct Hc' as (x & Ex & _).
    unfold upper1 in Ex. destruct (_ && _) eqn:E; lia.
Qed.
Lemma bech32_canonical s h d : Bech32Decode s = Ok (h, d) ->
  Forall printable s /\ 8 <= len s <= 90 /\ ~ ((exists c, In c s /\ is_upper c) /\ (exists c, In c s /\ is_lower c)) /\
  five_bit d /\ h <> [] /\ Bech32Encode h d = Ok (lowercase s).
Proof.
  intros E. apply decode_iff in E. destruct E as (P & O & L & N & F & E). rewrite encode_ok by exact F. rewrite E.
  pose proof (one_case_spec s O). auto 10.
Qed.
Lemma bech32_same_decoding s s' h d : Bech32Decode s = Ok (h, d) -> Bech32Decode s' = Ok (h, d) -> lowercase s = lowercase s'.
Proof. intros A B. apply decode_iff in A, B. destruct A as (_ & _ & _ & _ & _ & A), B as (_ & _ & _ & _ & _ & B). congruence. Qed.
