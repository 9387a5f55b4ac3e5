(** Proofs of the buffer properties from the lemmas of [BufferProofs]. *)
From Verif Require Import GoBase BaseLemmas BufferModel BufferSpec BufferProofs.
From Coq Require Import ZifyBool ZifyNat ZifyN.

Lemma len_nat {A} (e : list A) n : len e = Z.of_nat n -> length e = n.
Proof. unfold len. lia. Qed.

Lemma fixed_width_roundtrip :
  wire_faithful 1 WriteU8 ReadU8 /\ wire_faithful 2 WriteU16 ReadU16 /\
  wire_faithful 4 WriteU32 ReadU32 /\ wire_faithful 8 WriteU64 ReadU64.
Proof.
  split; [|split; [|split]]; intros v H; (split; [intros b|intros e b consumed rest H0 H1 H2 H3 H4]).
  - exists [v]. simpl in *. unfold is_byte. repeat split; try lia; auto.
    constructor; [|constructor]. unfold is_byte; lia.
  - apply at_cursor_rbuf in H3. subst b. apply (len_nat _ 1) in H0. destruct e as [|x [|]]; try easy.
    cbn [app] in *. rewrite ReadU8_cons by exact H4. exists (rbuf (consumed ++ [x]) rest).
    split; [|now apply at_cursor_rbuf]. simpl in H2. subst. do 2 f_equal. lia.
  - simpl in H. exists (le_bytes 2 v). rewrite WriteU16_spec. unfold Bytes, Seek, Len; cbn [bdata bseek blength].
    rewrite le_bytes_len, le_value_le_bytes by (simpl; lia). repeat (split; [auto using le_bytes_ok; fail|]); auto.
  - apply at_cursor_rbuf in H3. subst b. rewrite ReadU16_bytes by (auto; now apply (len_nat _ 2)).
    eexists; split; [now rewrite H2|now apply at_cursor_rbuf].
  - simpl in H. exists (le_bytes 4 v). rewrite WriteU32_spec. unfold Bytes, Seek, Len; cbn [bdata bseek blength].
    rewrite le_bytes_len, le_value_le_bytes by (simpl; lia). repeat (split; [auto using le_bytes_ok; fail|]); auto.
  - apply at_cursor_rbuf in H3. subst b. rewrite ReadU32_bytes by (auto; now apply (len_nat _ 4)).
    eexists; split; [now rewrite H2|now apply at_cursor_rbuf].
  - simpl in H. exists (le_bytes 8 v). rewrite WriteU64_spec. unfold Bytes, Seek, Len; cbn [bdata bseek blength].
    rewrite le_bytes_len, le_value_le_bytes by (simpl; lia). repeat (split; [auto using le_bytes_ok; fail|]); auto.
  - apply at_cursor_rbuf in H3. subst b. rewrite ReadU64_bytes by (auto; now apply (len_nat _ 8)).
    eexists; split; [now rewrite H2|now apply at_cursor_rbuf].
Qed.

Lemma varint_roundtrip : forall v, 0 <= v < 2 ^ 64 -> exists e,
  len e = VarIntSerializeSize v /\ bytes_ok e /\
  (forall b, Bytes (WriteVarInt v b) = Bytes b ++ e /\ Seek (WriteVarInt v b) = Seek b /\
             Len (WriteVarInt v b) = Len b + len e) /\
  (forall b consumed rest, at_cursor b consumed (e ++ rest) -> len (consumed ++ e ++ rest) <= 2 ^ 48 ->
     exists b', ReadVarInt b = (Ok v, b') /\ at_cursor b' (consumed ++ e) rest).
Proof.
  intros v H. exists (varint_bytes v). rewrite varint_len. split; [reflexivity|].
  split; [now apply varint_ok|]. split.
  - intros b. rewrite WriteVarInt_spec by lia. auto.
  - intros b c r A L. apply at_cursor_rbuf in A. subst b. rewrite ReadVarInt_varint by auto.
    eexists; split; [reflexivity|now apply at_cursor_rbuf].
Qed.

Lemma NewBufferReader_rbuf d : NewBufferReader d = rbuf [] d.
Proof. reflexivity. Qed.

Lemma varint_minimal : forall d b' v,
  bytes_ok d -> len d <= 2 ^ 48 -> ReadVarInt (NewBufferReader d) = (Ok v, b') ->
  VarIntSerializeSize v <= Seek b'.
Proof.
  intros d b' v O L. rewrite NewBufferReader_rbuf. unfold ReadVarInt, bbind.
  assert (F : fits [] d) by exact L.
  rewrite ReadU8_any by auto. destruct d as [|x r]; [easy|].
  apply bytes_ok_cons in O as [Hx O].
  assert (F' : fits ([] ++ [x]) r) by exact L.
  assert (G : forall w rd, fixed_read w rd -> 0 <= Z.of_nat w <= 8 -> rd (rbuf ([] ++ [x]) r) = (Ok v, b') ->
     0 <= v < 256 ^ Z.of_nat w /\ Seek b' = 1 + Z.of_nat w).
  { intros w rd Hrd _ E. destruct (Hrd _ _ F' O) as [(e & t & -> & Le & R)|[_ R]]; rewrite R in E; [|easy].
    injection E as <- <-. apply bytes_ok_app in O as [O _]. pose proof (le_value_range e O) as HR.
    unfold len in HR. rewrite Le in HR. split; [exact HR|]. unfold Seek, rbuf; simpl.
    rewrite len_cons. unfold len. lia. }
  unfold VarIntSerializeSize.
  destruct (x =? 253) eqn:E1.
  { intros E. apply (G 2%nat) in E as [? ?]; [|apply fixed_ReadU16|lia]. change (256 ^ Z.of_nat 2) with (2 ^ 16) in *.
    destruct (v <? 253); [lia|]. destruct (v <=? 65535) eqn:?; lia. }
  destruct (x =? 254) eqn:E2.
  { intros E. apply (G 4%nat) in E as [? ?]; [|apply fixed_ReadU32|lia]. change (256 ^ Z.of_nat 4) with (2 ^ 32) in *.
    destruct (v <? 253); [lia|]. destruct (v <=? 65535) eqn:?; [lia|]. destruct (v <=? 4294967295) eqn:?; lia. }
  destruct (x =? 255) eqn:E3.
  { intros E. apply (G 8%nat) in E as [? ?]; [|apply fixed_ReadU64|lia]. change (256 ^ Z.of_nat 8) with (2 ^ 64) in *.
    destruct (v <? 253); [lia|]. destruct (v <=? 65535) eqn:?; [lia|]. destruct (v <=? 4294967295) eqn:?; lia. }
  intros [= <- <-]. unfold is_byte in Hx. replace (x <? 253) with true by lia.
  unfold Seek, rbuf; simpl. rewrite len_cons, len_nil. lia.
Qed.

Lemma le_bytes_inj n v w : 0 <= v < 256 ^ Z.of_nat n -> 0 <= w < 256 ^ Z.of_nat n -> le_bytes n v = le_bytes n w -> v = w.
Proof. intros Hv Hw E. rewrite <- (le_value_le_bytes n v), <- (le_value_le_bytes n w), E; auto. Qed.


Lemma varint_bytes_prefix_free v w r s : 0 <= v < 2 ^ 64 -> 0 <= w < 2 ^ 64 ->
  varint_bytes v ++ r = varint_bytes w ++ s -> v = w /\ r = s.
Proof.
  intros Hv Hw. unfold varint_bytes.
  destruct (v <? 253) eqn:V1; destruct (w <? 253) eqn:W1.
  { cbn [app]. intros [= -> ->]; auto. }
  1-2: destruct (v <=? 65535) eqn:V2; destruct (w <=? 65535) eqn:W2; destruct (v <=? 4294967295) eqn:V3;
       destruct (w <=? 4294967295) eqn:W3; cbn [app]; intros [=]; lia.
  destruct (v <=? 65535) eqn:V2; destruct (w <=? 65535) eqn:W2; destruct (v <=? 4294967295) eqn:V3;
    destruct (w <=? 4294967295) eqn:W3; try lia; cbn [app]; intros E; try discriminate E;
    apply (f_equal (@tl Z)) in E; cbn [tl] in E; apply app_inj_len in E as [E ->]; try (now rewrite !le_bytes_length);
    apply le_bytes_inj in E; simpl; auto; lia.
Qed.

Lemma varint_prefix_free : forall v w r s, 0 <= v < 2 ^ 64 -> 0 <= w < 2 ^ 64 ->
  Bytes (WriteVarInt v NewBuffer) ++ r = Bytes (WriteVarInt w NewBuffer) ++ s -> v = w /\ r = s.
Proof.
  intros v w r s Hv Hw. rewrite !WriteVarInt_spec by lia. unfold Bytes; simpl.
  now apply varint_bytes_prefix_free.
Qed.

(** Lengths only grow, so the final length bounds every argument. *)
Definition payload (x : value) : Z := match x with VBytes v | VVarBytes v | VVarString v => len v | _ => 0 end.
Lemma write_value_grow x b : len (bdata b) + payload x <= len (bdata (write_value x b)).
Proof.
  destruct x; cbn [write_value payload]; unfold WriteVarString, WriteVarBytes, WriteVarInt, WriteBytes, WriteU8, WriteU16, WriteU32, WriteU64; cbn [bdata bseek blength];
  repeat match goal with |- context [if ?c then _ else _] => destruct c end; cbn [bdata bseek blength];
  len_simpl; lia.
Qed.
Lemma write_values_grow xs b : len (bdata b) <= len (bdata (write_values xs b)).
Proof.
  revert b; induction xs as [|x xs IH]; intros b; cbn [write_values]; [lia|].
  pose proof (write_value_grow x b). specialize (IH (write_value x b)).
  assert (0 <= payload x) by (destruct x; simpl; try lia; apply len_nonneg). lia.
Qed.
Lemma enc_value_len x : value_ok x -> len (enc_value x) <= payload x + 9.
Proof.
  destruct x; cbn [enc_value payload]; intros _; len_simpl; rewrite ?le_bytes_len, ?varint_len;
    unfold VarIntSerializeSize; repeat match goal with |- context [if ?c then _ else _] => destruct c end; lia.
Qed.
Lemma write_values_bound xs b : Forall value_ok xs -> blength b = len (bdata b) ->
  len (bdata (write_values xs b)) <= 2 ^ 48 ->
  bdata (write_values xs b) = bdata b ++ concat (map enc_value xs).
Proof.
  revert b; induction xs as [|x xs IH]; intros b V L H; cbn [write_values map concat] in *.
  - now rewrite app_nil_r.
  - inversion V as [|? ? V1 V2]; subst.
    pose proof (write_values_grow xs (write_value x b)). pose proof (write_value_grow x b).
    pose proof (enc_value_len x V1). pose proof (len_nonneg (bdata b)).
    assert (W := write_value_spec x b V1 ltac:(lia)).
    rewrite IH; auto.
    + rewrite W. cbn [bdata]. now rewrite <- app_assoc.
    + rewrite W. cbn [bdata blength]. rewrite len_app. lia.
Qed.

Lemma buffer_is_a_queue : forall xs, Forall value_ok xs ->
  len (Bytes (write_values xs NewBuffer)) <= 2 ^ 48 ->
  exists b', read_values (map shape_of xs) (NewBufferReader (Bytes (write_values xs NewBuffer))) = (Ok xs, b') /\
             End b' = true /\ Remaining b' = Ok [].
Proof.
  intros xs V L. unfold Bytes in *. rewrite write_values_bound in * by auto. cbn [bdata NewBuffer app] in *.
  set (d := concat (map enc_value xs)) in *.
  assert (R := read_values_spec xs [] [] V). fold d in R. rewrite app_nil_r in R.
  exists (rbuf d []). split; [exact (R L)|]. split.
  - unfold End, rbuf; simpl. rewrite app_nil_r. lia.
  - unfold Remaining, rbuf; cbn [blength bseek bdata]. rewrite app_nil_r. rewrite Z.sub_diag. cbn [make_ok].
    unfold make_ok. simpl. pose proof (slice_mid d [] []). rewrite !app_nil_r, len_nil, Z.add_0_r in H. exact H.
Qed.

Lemma read_untrusted_refuted : exists d, bytes_ok d /\ fst (ReadVarBytes (NewBufferReader d)) = Panic.
Proof. exists (repeat 255 9). split; [bytes_ok_tac|reflexivity]. Qed.

Lemma i64_of_u64_big l : 2 ^ 63 <= l < 2 ^ 64 -> i64 l = l - 2 ^ 64.
Proof.
  intros. unfold i64. replace (l + 2 ^ 63) with ((l - 2 ^ 63) + 1 * 2 ^ 64) by lia.
  rewrite Z_mod_plus_full, Z.mod_small by lia. lia.
Qed.

Lemma varbytes_panics_iff : forall b b' l, reader_ok b -> ReadVarInt b = (Ok l, b') ->
  (fst (ReadVarBytes b) = Panic <-> 2 ^ 63 <= Seek b' + l).
Proof.
  intros b b' l R E. apply reader_ok_rbuf in R as (pre & rest & -> & F & O & _).
  unfold ReadVarBytes, bbind. rewrite E.
  destruct (ReadVarInt_any pre rest F O) as [(e & t & v & -> & _ & Hv & E')|(e & t & _ & E')];
    rewrite E' in E; [|easy]. injection E as -> <-.
  rewrite ReadBytes_panics_iff.
  - unfold Seek, rbuf; cbn [bseek]. pose proof (len_nonneg (pre ++ e)).
    destruct (Z_lt_ge_dec l (2 ^ 63)).
    + rewrite i64_id by lia. lia.
    + rewrite i64_of_u64_big by lia. lia.
  - now apply fits_shift.
  - pose proof (i64_range l). lia.
Qed.

Lemma read_value_untrusted s pre rest : fits pre rest -> bytes_ok rest -> caller_sized s ->
  exists r e t, read_value s (rbuf pre rest) = (r, rbuf (pre ++ e) t) /\ rest = e ++ t /\ r <> Panic.
Proof.
  intros F O C.
  assert (G : forall w rd (k : Z -> value), fixed_read w rd ->
     exists r e t, (do v <- rd; bret (k v)) (rbuf pre rest) = (r, rbuf (pre ++ e) t) /\ rest = e ++ t /\ r <> Panic).
  { intros w rd k Hrd. unfold bbind, bret. destruct (Hrd pre rest F O) as [(e & t & -> & _ & R)|[_ R]]; rewrite R.
    - do 3 eexists; repeat split; easy.
    - exists (Err "error.seek"), [], rest. rewrite app_nil_r. repeat split; easy. }
  destruct s; cbn [read_value] in *; try contradiction.
  - apply (G _ _ _ fixed_ReadU8). - apply (G _ _ _ fixed_ReadU16). - apply (G _ _ _ fixed_ReadU32). - apply (G _ _ _ fixed_ReadU64).
  - unfold bbind, bret. destruct (ReadVarInt_any pre rest F O) as [(e & t & v & -> & _ & _ & R)|(e & t & -> & R)]; rewrite R;
      do 3 eexists; repeat split; easy.
  - unfold bbind, bret. destruct (ReadBytes_any pre rest n F O C) as [(e & t & -> & _ & R)|[_ R]]; rewrite R.
    + do 3 eexists; repeat split; easy.
    + exists (Err "error.seek"), [], rest. rewrite app_nil_r. repeat split; easy.
Qed.

Lemma read_untrusted_partial : forall ss b, reader_ok b -> Forall caller_sized ss ->
  let (r, b') := read_values ss b in r <> Panic /\ reader_ok b' /\ Bytes b' = Bytes b.
Proof.
  induction ss as [|s ss IH]; intros b R C; cbn [read_values].
  - unfold bret. repeat split; try easy; apply R.
  - inversion C as [|? ? C1 C2]; subst. pose proof R as R0.
    apply reader_ok_rbuf in R0 as (pre & rest & -> & F & O & O').
    destruct (read_value_untrusted s pre rest F O C1) as (r & e & t & E & -> & N).
    apply bytes_ok_app in O as [O1 O2].
    assert (R1 : reader_ok (rbuf (pre ++ e) t)).
    { apply rbuf_reader_ok; auto using fits_shift. apply bytes_ok_app; auto. }
    unfold bbind at 1. rewrite E. specialize (IH _ R1 C2).
    assert (B : Bytes (rbuf (pre ++ e) t) = Bytes (rbuf pre (e ++ t))).
    { unfold Bytes, rbuf; simpl. now rewrite app_assoc. }
    destruct r as [x| |]; try (repeat split; try easy; apply R1).
    unfold bbind. destruct (read_values ss (rbuf (pre ++ e) t)) as [r' b'']. destruct IH as (N' & R' & B').
    destruct r'; unfold bret; repeat split; try easy; try apply R'; congruence.
Qed.
