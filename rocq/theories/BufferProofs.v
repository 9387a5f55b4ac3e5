(** Lemmas about the byte buffer. *)
From Verif Require Import GoBase BaseLemmas BufferModel BufferSpec.
From Coq Require Import ZifyBool ZifyNat ZifyN.

Fixpoint le_bytes (n : nat) (v : Z) : bytes :=
  match n with O => [] | S k => v mod 256 :: le_bytes k (v / 256) end.

Definition rbuf (pre rest : bytes) : buffer := Buf (len pre) (len (pre ++ rest)) (pre ++ rest).

Lemma at_cursor_rbuf b pre rest : at_cursor b pre rest <-> b = rbuf pre rest.
Proof.
  unfold at_cursor, rbuf, Bytes, Seek, Len. destruct b as [s l d]; simpl. split.
  - intros (-> & -> & ->). reflexivity.
  - intros [= -> -> ->]. auto.
Qed.

Lemma le_bytes_length n v : length (le_bytes n v) = n.
Proof. revert v; induction n; simpl; intros; auto. Qed.
Lemma le_bytes_len n v : len (le_bytes n v) = Z.of_nat n.
Proof. unfold len. now rewrite le_bytes_length. Qed.
Lemma le_bytes_ok n v : bytes_ok (le_bytes n v).
Proof. revert v; induction n; simpl; intros; constructor; [|apply IHn]. unfold is_byte. pose proof (Z.mod_pos_bound v 256). lia. Qed.
Lemma le_value_le_bytes n v : 0 <= v < 256 ^ (Z.of_nat n) -> le_value (le_bytes n v) = v.
Proof.
  revert v; induction n as [|n IH]; intros v H.
  - simpl in *. lia.
  - cbn [le_bytes le_value]. rewrite IH.
    + pose proof (Z.div_mod v 256). lia.
    + rewrite Nat2Z.inj_succ, Z.pow_succ_r in H by lia. split.
      * apply Z.div_pos; lia.
      * apply Z.div_lt_upper_bound; lia.
Qed.
Lemma le_value_range bs : bytes_ok bs -> 0 <= le_value bs < 256 ^ (len bs).
Proof.
  induction bs as [|b bs IH]; intros H.
  - simpl. lia.
  - apply bytes_ok_cons in H as [Hb H]. specialize (IH H). cbn [le_value].
    rewrite len_cons, Z.pow_add_r by (pose proof (len_nonneg bs); lia). unfold is_byte in Hb. lia.
Qed.
Lemma le_value_inj a b : bytes_ok a -> bytes_ok b -> length a = length b -> le_value a = le_value b -> a = b.
Proof.
  revert b; induction a as [|x a IH]; intros [|y b] Ha Hb L E; try easy.
  apply bytes_ok_cons in Ha as [? ?]; apply bytes_ok_cons in Hb as [? ?].
  unfold is_byte in *. cbn [le_value] in E. simpl in L.
  assert (x = y) by lia. subst. f_equal. apply IH; auto. lia.
Qed.
Lemma le_bytes_le_value bs : bytes_ok bs -> le_bytes (length bs) (le_value bs) = bs.
Proof.
  intros H. apply le_value_inj; auto using le_bytes_ok.
  - now rewrite le_bytes_length.
  - apply le_value_le_bytes. apply le_value_range in H. exact H.
Qed.

Lemma shr8 v : Z.shiftr v 8 = v / 256. Proof. apply (Z.shiftr_div_pow2 v 8); lia. Qed.
Lemma shr_div v k : 0 <= k -> Z.shiftr v k = v / 2 ^ k. Proof. apply Z.shiftr_div_pow2. Qed.

Lemma WriteU8_spec v b : 0 <= v < 256 ->
  WriteU8 v b = Buf (bseek b) (blength b + 1) (bdata b ++ le_bytes 1 v).
Proof. intros H. unfold WriteU8. simpl. now rewrite Z.mod_small. Qed.
Lemma WriteU16_spec v b :
  WriteU16 v b = Buf (bseek b) (blength b + 2) (bdata b ++ le_bytes 2 v).
Proof.
  unfold WriteU16, u8. rewrite <- !app_assoc. simpl. now rewrite shr_div by lia.
Qed.
Lemma WriteU32_spec v b :
  WriteU32 v b = Buf (bseek b) (blength b + 4) (bdata b ++ le_bytes 4 v).
Proof.
  unfold WriteU32, u8. rewrite <- !app_assoc. simpl. rewrite !shr_div by lia.
  rewrite !Z.div_div by lia. reflexivity.
Qed.
Lemma WriteU64_spec v b :
  WriteU64 v b = Buf (bseek b) (blength b + 8) (bdata b ++ le_bytes 8 v).
Proof.
  unfold WriteU64, u8. rewrite <- !app_assoc. simpl. rewrite !shr_div by lia.
  rewrite !Z.div_div by lia. reflexivity.
Qed.

Definition varint_bytes (v : Z) : bytes :=
  if v <? 0xfd then [v]
  else if v <=? 0xffff then 0xfd :: le_bytes 2 v
  else if v <=? 0xffffffff then 0xfe :: le_bytes 4 v
  else 0xff :: le_bytes 8 v.

Lemma varint_len v : len (varint_bytes v) = VarIntSerializeSize v.
Proof.
  unfold varint_bytes, VarIntSerializeSize.
  destruct (v <? 253); [reflexivity|]. destruct (v <=? 65535); [reflexivity|].
  destruct (v <=? 4294967295); reflexivity.
Qed.
Lemma varint_ok v : 0 <= v -> bytes_ok (varint_bytes v).
Proof.
  intros. unfold varint_bytes.
  destruct (v <? 253) eqn:E. { constructor; [unfold is_byte; lia|constructor]. }
  destruct (v <=? 65535); [constructor; [unfold is_byte; lia|apply le_bytes_ok]|].
  destruct (v <=? 4294967295); constructor; try (unfold is_byte; lia); apply le_bytes_ok.
Qed.

Lemma WriteVarInt_spec v b : 0 <= v < 2 ^ 64 ->
  WriteVarInt v b = Buf (bseek b) (blength b + VarIntSerializeSize v) (bdata b ++ varint_bytes v).
Proof.
  intros H. unfold WriteVarInt, VarIntSerializeSize, varint_bytes.
  destruct (v <? 253) eqn:E1.
  - rewrite u8_id by lia. unfold WriteU8. reflexivity.
  - destruct (v <=? 65535) eqn:E2; [|destruct (v <=? 4294967295) eqn:E3].
    + rewrite u32_id by lia. rewrite WriteU16_spec. unfold WriteU8; cbn [bseek blength bdata].
      rewrite <- app_assoc. f_equal; lia.
    + rewrite u32_id by lia. rewrite WriteU32_spec. unfold WriteU8; cbn [bseek blength bdata].
      rewrite <- app_assoc. f_equal; lia.
    + rewrite WriteU64_spec. unfold WriteU8; cbn [bseek blength bdata].
      rewrite <- app_assoc. f_equal; lia.
Qed.

Lemma WriteVarBytes_spec v b : len v < 2 ^ 64 ->
  WriteVarBytes v b = Buf (bseek b) (blength b + VarIntSerializeSize (len v) + len v) (bdata b ++ (varint_bytes (len v) ++ v)).
Proof.
  intros H. unfold WriteVarBytes. pose proof (len_nonneg v).
  rewrite u64_id by lia. rewrite WriteVarInt_spec by lia. unfold WriteBytes; cbn [bseek blength bdata].
  rewrite <- app_assoc. reflexivity.
Qed.

(** ** Reads. *)
Definition fits (pre rest : bytes) : Prop := len (pre ++ rest) <= 2 ^ 48.

Lemma fits_shift pre e rest : fits pre (e ++ rest) -> fits (pre ++ e) rest.
Proof. unfold fits. now rewrite app_assoc. Qed.

Lemma rbuf_shift pre e rest : Buf (len pre + len e) (len (pre ++ e ++ rest)) (pre ++ e ++ rest) = rbuf (pre ++ e) rest.
Proof. unfold rbuf. rewrite <- (len_app pre e), <- app_assoc. reflexivity. Qed.

Lemma check_rbuf pre e rest : fits pre (e ++ rest) -> check (rbuf pre (e ++ rest)) (len e) = true.
Proof.
  unfold check, fits. intros H. cbn [bseek blength rbuf].
  rewrite !len_app in *. pose proof (len_nonneg pre). pose proof (len_nonneg e). pose proof (len_nonneg rest).
  rewrite i64_id by lia. lia.
Qed.
Lemma check_rbuf_short pre rest l : fits pre rest -> len rest < l < 2 ^ 62 -> check (rbuf pre rest) l = false.
Proof.
  unfold check, fits. intros H Hl. cbn [bseek blength rbuf].
  rewrite !len_app in *. pose proof (len_nonneg pre). pose proof (len_nonneg rest).
  rewrite i64_id by lia. lia.
Qed.

Lemma index_rbuf0 {A} (pre : list A) x rest : index (pre ++ x :: rest) (len pre) = Ok x.
Proof. rewrite index_app_r by lia. rewrite Z.sub_diag. reflexivity. Qed.
Lemma index_rbufk {A} (pre : list A) rest k : 0 <= k -> index (pre ++ rest) (len pre + k) = index rest k.
Proof. intros. rewrite index_app_r by lia. f_equal. lia. Qed.

Lemma ReadU8_cons pre x rest : fits pre (x :: rest) ->
  ReadU8 (rbuf pre (x :: rest)) = (Ok x, rbuf (pre ++ [x]) rest).
Proof.
  intros F. unfold ReadU8. change (x :: rest) with ([x] ++ rest) in *.
  change 1 with (len [x]). rewrite check_rbuf by exact F.
  rewrite <- rbuf_shift. unfold rbuf. cbn [bdata bseek blength app]. rewrite index_rbuf0. reflexivity.
Qed.

Lemma u32_byte_shl b k : is_byte b -> 0 <= k <= 24 -> u32 (Z.shiftl b k) = b * 2 ^ k.
Proof.
  intros H Hk. rewrite Z.shiftl_mul_pow2 by lia. apply u32_id. unfold is_byte in H.
  assert (2 ^ k <= 2 ^ 24) by (apply Z.pow_le_mono_r; lia). assert (0 < 2 ^ k) by (apply Z.pow_pos_nonneg; lia). nia.
Qed.
Lemma u64_byte_shl b k : is_byte b -> 0 <= k <= 56 -> u64 (Z.shiftl b k) = b * 2 ^ k.
Proof.
  intros H Hk. rewrite Z.shiftl_mul_pow2 by lia. apply u64_id. unfold is_byte in H.
  assert (2 ^ k <= 2 ^ 56) by (apply Z.pow_le_mono_r; lia). assert (0 < 2 ^ k) by (apply Z.pow_pos_nonneg; lia). nia.
Qed.
Lemma lor_mul a b k : 0 <= k -> 0 <= a < 2 ^ k -> Z.lor a (b * 2 ^ k) = a + b * 2 ^ k.
Proof. intros. rewrite <- Z.shiftl_mul_pow2 by lia. rewrite lor_shl by lia. now rewrite Z.shiftl_mul_pow2 by lia. Qed.

Ltac lor_norm := repeat match goal with
  |- context [Z.lor ?a (?b * 2 ^ ?k)] =>
    lazymatch a with context [Z.lor _ _] => fail | _ => rewrite (lor_mul a b k) by lia end end.

Lemma ReadU16_bytes pre e rest : length e = 2%nat -> bytes_ok e -> fits pre (e ++ rest) ->
  ReadU16 (rbuf pre (e ++ rest)) = (Ok (le_value e), rbuf (pre ++ e) rest).
Proof.
  intros L O F. unfold ReadU16. replace 2 with (len e) at 1 by (unfold len; lia).
  rewrite check_rbuf by exact F. rewrite <- rbuf_shift.
  destruct e as [|b0 [|b1 [|]]]; try easy.
  unfold rbuf. cbn [bdata bseek blength app]. rewrite !index_rbufk, index_rbuf0 by lia.
  replace (index (b0 :: b1 :: rest) 1) with (Ok b1) by reflexivity.
  repeat (apply bytes_ok_cons in O as [? O]).
  rewrite u32_byte_shl by (auto; lia). unfold is_byte in *.
  rewrite lor_mul by lia. cbn [le_value]. f_equal. f_equal. lia.
Qed.

Lemma ReadU32_bytes pre e rest : length e = 4%nat -> bytes_ok e -> fits pre (e ++ rest) ->
  ReadU32 (rbuf pre (e ++ rest)) = (Ok (le_value e), rbuf (pre ++ e) rest).
Proof.
  intros L O F. unfold ReadU32. replace 4 with (len e) at 1 by (unfold len; lia).
  rewrite check_rbuf by exact F. rewrite <- rbuf_shift.
  destruct e as [|b0 [|b1 [|b2 [|b3 [|]]]]]; try easy.
  unfold rbuf. cbn [bdata bseek blength app]. rewrite !index_rbufk, index_rbuf0 by lia.
  replace (index (b0 :: b1 :: b2 :: b3 :: rest) 1) with (Ok b1) by reflexivity.
  replace (index (b0 :: b1 :: b2 :: b3 :: rest) 2) with (Ok b2) by reflexivity.
  replace (index (b0 :: b1 :: b2 :: b3 :: rest) 3) with (Ok b3) by reflexivity.
  repeat (apply bytes_ok_cons in O as [? O]).
  rewrite !u32_byte_shl by (auto; lia). unfold is_byte in *.
  lor_norm. cbn [le_value]. f_equal. f_equal. lia.
Qed.

Lemma ReadU64_bytes pre e rest : length e = 8%nat -> bytes_ok e -> fits pre (e ++ rest) ->
  ReadU64 (rbuf pre (e ++ rest)) = (Ok (le_value e), rbuf (pre ++ e) rest).
Proof.
  intros L O F. unfold ReadU64. replace 8 with (len e) at 1 by (unfold len; lia).
  rewrite check_rbuf by exact F. rewrite <- rbuf_shift.
  destruct e as [|b0 [|b1 [|b2 [|b3 [|b4 [|b5 [|b6 [|b7 [|]]]]]]]]]; try easy.
  unfold rbuf. cbn [bdata bseek blength app]. rewrite !index_rbufk, index_rbuf0 by lia.
  replace (index (b0 :: b1 :: b2 :: b3 :: b4 :: b5 :: b6 :: b7 :: rest) 1) with (Ok b1) by reflexivity.
  replace (index (b0 :: b1 :: b2 :: b3 :: b4 :: b5 :: b6 :: b7 :: rest) 2) with (Ok b2) by reflexivity.
  replace (index (b0 :: b1 :: b2 :: b3 :: b4 :: b5 :: b6 :: b7 :: rest) 3) with (Ok b3) by reflexivity.
  replace (index (b0 :: b1 :: b2 :: b3 :: b4 :: b5 :: b6 :: b7 :: rest) 4) with (Ok b4) by reflexivity.
  replace (index (b0 :: b1 :: b2 :: b3 :: b4 :: b5 :: b6 :: b7 :: rest) 5) with (Ok b5) by reflexivity.
  replace (index (b0 :: b1 :: b2 :: b3 :: b4 :: b5 :: b6 :: b7 :: rest) 6) with (Ok b6) by reflexivity.
  replace (index (b0 :: b1 :: b2 :: b3 :: b4 :: b5 :: b6 :: b7 :: rest) 7) with (Ok b7) by reflexivity.
  repeat (apply bytes_ok_cons in O as [? O]).
  rewrite !u64_byte_shl by (auto; lia). unfold is_byte in *.
  lor_norm. cbn [le_value]. f_equal. f_equal. lia.
Qed.

Lemma ReadU16_le pre v rest : 0 <= v < 2 ^ 16 -> fits pre (le_bytes 2 v ++ rest) ->
  ReadU16 (rbuf pre (le_bytes 2 v ++ rest)) = (Ok v, rbuf (pre ++ le_bytes 2 v) rest).
Proof.
  intros H F. rewrite ReadU16_bytes; auto using le_bytes_ok, le_bytes_length.
  now rewrite le_value_le_bytes by (simpl; lia).
Qed.
Lemma ReadU32_le pre v rest : 0 <= v < 2 ^ 32 -> fits pre (le_bytes 4 v ++ rest) ->
  ReadU32 (rbuf pre (le_bytes 4 v ++ rest)) = (Ok v, rbuf (pre ++ le_bytes 4 v) rest).
Proof.
  intros H F. rewrite ReadU32_bytes; auto using le_bytes_ok, le_bytes_length.
  now rewrite le_value_le_bytes by (simpl; lia).
Qed.
Lemma ReadU64_le pre v rest : 0 <= v < 2 ^ 64 -> fits pre (le_bytes 8 v ++ rest) ->
  ReadU64 (rbuf pre (le_bytes 8 v ++ rest)) = (Ok v, rbuf (pre ++ le_bytes 8 v) rest).
Proof.
  intros H F. rewrite ReadU64_bytes; auto using le_bytes_ok, le_bytes_length.
  now rewrite le_value_le_bytes by (simpl; lia).
Qed.

Lemma app_cons_assoc {A} (pre : list A) x e : (pre ++ [x]) ++ e = pre ++ x :: e.
Proof. now rewrite <- app_assoc. Qed.

Lemma ReadVarInt_varint pre v rest : 0 <= v < 2 ^ 64 -> fits pre (varint_bytes v ++ rest) ->
  ReadVarInt (rbuf pre (varint_bytes v ++ rest)) = (Ok v, rbuf (pre ++ varint_bytes v) rest).
Proof.
  intros H F. unfold ReadVarInt, bbind. unfold varint_bytes in *.
  destruct (v <? 253) eqn:E1.
  - cbn [app] in *. rewrite ReadU8_cons by exact F.
    replace (v =? 253) with false by lia. replace (v =? 254) with false by lia.
    replace (v =? 255) with false by lia. reflexivity.
  - destruct (v <=? 65535) eqn:E2; [|destruct (v <=? 4294967295) eqn:E3].
    + cbn [app] in F |- *. rewrite ReadU8_cons by exact F. rewrite Z.eqb_refl.
      rewrite ReadU16_le; [now rewrite app_cons_assoc|lia|].
      unfold fits in *. now rewrite app_cons_assoc.
    + cbn [app] in F |- *. rewrite ReadU8_cons by exact F.
      replace (254 =? 253) with false by reflexivity. rewrite Z.eqb_refl.
      rewrite ReadU32_le; [now rewrite app_cons_assoc|lia|].
      unfold fits in *. now rewrite app_cons_assoc.
    + cbn [app] in F |- *. rewrite ReadU8_cons by exact F.
      replace (255 =? 253) with false by reflexivity. replace (255 =? 254) with false by reflexivity. rewrite Z.eqb_refl.
      rewrite ReadU64_le; [now rewrite app_cons_assoc|lia|].
      unfold fits in *. now rewrite app_cons_assoc.
Qed.

Definition nilify (v : bytes) : obytes := match v with [] => None | _ => Some v end.
Lemma nilb_nilify v : nilb (nilify v) = v.
Proof. now destruct v. Qed.

Lemma ReadBytes_app pre v rest : fits pre (v ++ rest) ->
  ReadBytes (len v) (rbuf pre (v ++ rest)) = (Ok (nilify v), rbuf (pre ++ v) rest).
Proof.
  intros F. unfold ReadBytes. destruct v as [|x v'].
  - rewrite app_nil_r. reflexivity.
  - set (v := x :: v') in *. assert (0 < len v) by (unfold v; rewrite len_cons; pose proof (len_nonneg v'); lia).
    destruct (len v =? 0) eqn:E; [lia|].
    rewrite check_rbuf by exact F.
    assert (len pre + len v <= 2 ^ 48).
    { unfold fits in F. rewrite !len_app in F. pose proof (len_nonneg rest). lia. }
    pose proof (len_nonneg pre).
    unfold make_ok. replace ((0 <=? len v) && (len v * 1 <=? 2 ^ 48)) with true by lia.
    unfold rbuf at 1 2 3. cbn [bseek bdata blength]. rewrite i64_id by lia. rewrite slice_mid.
    rewrite <- rbuf_shift. reflexivity.
Qed.

Lemma ReadVarBytes_app pre v rest : fits pre ((varint_bytes (len v) ++ v) ++ rest) ->
  ReadVarBytes (rbuf pre ((varint_bytes (len v) ++ v) ++ rest)) = (Ok (nilify v), rbuf (pre ++ (varint_bytes (len v) ++ v)) rest).
Proof.
  intros F. unfold ReadVarBytes, bbind. rewrite <- app_assoc in *.
  assert (len v < 2 ^ 62).
  { unfold fits in F. rewrite !len_app in F. pose proof (len_nonneg rest). pose proof (len_nonneg pre).
    pose proof (len_nonneg (varint_bytes (len v))). lia. }
  pose proof (len_nonneg v).
  rewrite ReadVarInt_varint by (auto; lia). rewrite i64_id by lia.
  rewrite ReadBytes_app by (apply fits_shift; exact F). now rewrite app_assoc.
Qed.

(** ** Sequences of writes and reads. *)
Definition enc_value (x : value) : bytes :=
  match x with
  | VU8 v => [v] | VU16 v => le_bytes 2 v | VU32 v => le_bytes 4 v | VU64 v => le_bytes 8 v
  | VVarInt v => varint_bytes v
  | VBytes v => v | VVarBytes v | VVarString v => varint_bytes (len v) ++ v
  end.

Lemma write_value_spec x b : value_ok x -> len (enc_value x) < 2 ^ 64 ->
  write_value x b = Buf (bseek b) (blength b + len (enc_value x)) (bdata b ++ enc_value x).
Proof.
  destruct x; simpl; intros H L; auto.
  - apply WriteU16_spec. - apply WriteU32_spec. - apply WriteU64_spec.
  - rewrite WriteVarInt_spec by lia. now rewrite varint_len.
  - rewrite len_app in L. pose proof (len_nonneg (varint_bytes (len v))).
    rewrite WriteVarBytes_spec by lia. rewrite len_app, varint_len. f_equal. lia.
  - rewrite len_app in L. pose proof (len_nonneg (varint_bytes (len v))).
    unfold WriteVarString.
    rewrite WriteVarBytes_spec by lia. rewrite len_app, varint_len. f_equal. lia.
Qed.

Lemma read_value_spec x pre rest : value_ok x -> fits pre (enc_value x ++ rest) ->
  read_value (shape_of x) (rbuf pre (enc_value x ++ rest)) = (Ok x, rbuf (pre ++ enc_value x) rest).
Proof.
  destruct x; cbn [value_ok enc_value shape_of read_value]; intros H F; unfold bbind, bret.
  - cbn [app] in *. now rewrite ReadU8_cons.
  - rewrite ReadU16_le by (auto; lia). reflexivity.
  - now rewrite ReadU32_le.
  - now rewrite ReadU64_le.
  - now rewrite ReadVarInt_varint.
  - rewrite ReadBytes_app by exact F. now rewrite nilb_nilify.
  - rewrite ReadVarBytes_app by exact F. now rewrite nilb_nilify.
  - unfold ReadVarString, bbind, bret. rewrite ReadVarBytes_app by exact F. now rewrite nilb_nilify.
Qed.

Lemma write_values_spec xs b : Forall value_ok xs ->
  blength b = len (bdata b) -> len (bdata b) + len (concat (map enc_value xs)) < 2 ^ 64 ->
  write_values xs b = Buf (bseek b) (len (bdata b ++ concat (map enc_value xs))) (bdata b ++ concat (map enc_value xs)).
Proof.
  revert b; induction xs as [|x xs IH]; intros b V L F; simpl in *.
  - rewrite app_nil_r. destruct b; simpl in *; now subst.
  - inversion V as [|? ? V1 V2]; subst. rewrite len_app in F.
    pose proof (len_nonneg (enc_value x)). pose proof (len_nonneg (bdata b)).
    pose proof (len_nonneg (concat (map enc_value xs))).
    rewrite write_value_spec by (auto; lia). rewrite IH; cbn [bseek blength bdata]; auto.
    + now rewrite <- app_assoc.
    + rewrite len_app. lia.
    + rewrite len_app. lia.
Qed.

Lemma read_values_spec xs pre rest : Forall value_ok xs ->
  fits pre (concat (map enc_value xs) ++ rest) ->
  read_values (map shape_of xs) (rbuf pre (concat (map enc_value xs) ++ rest)) =
    (Ok xs, rbuf (pre ++ concat (map enc_value xs)) rest).
Proof.
  revert pre; induction xs as [|x xs IH]; intros pre V F; simpl in *.
  - now rewrite app_nil_r.
  - inversion V as [|? ? V1 V2]; subst. rewrite <- app_assoc in *.
    unfold bbind at 1. rewrite read_value_spec by auto.
    unfold bbind at 1. rewrite IH by (auto using fits_shift). unfold bret. now rewrite app_assoc.
Qed.

(** ** Arbitrary input. *)
Lemma reader_ok_rbuf b : reader_ok b -> exists pre rest, b = rbuf pre rest /\ fits pre rest /\ bytes_ok rest /\ bytes_ok pre.
Proof.
  destruct b as [s l d]. unfold reader_ok, Seek, Bytes, Len; simpl. intros (H1 & -> & H2 & O).
  exists (firstn (Z.to_nat s) d), (skipn (Z.to_nat s) d). unfold rbuf, fits. rewrite firstn_skipn.
  assert (len (firstn (Z.to_nat s) d) = s) as ->.
  { unfold len in *. rewrite firstn_length. lia. }
  auto using bytes_ok_firstn, bytes_ok_skipn.
Qed.
Lemma rbuf_reader_ok pre rest : fits pre rest -> bytes_ok rest -> bytes_ok pre -> reader_ok (rbuf pre rest).
Proof.
  unfold reader_ok, fits, rbuf, Seek, Bytes, Len; simpl. intros. rewrite len_app in *.
  pose proof (len_nonneg pre). pose proof (len_nonneg rest). repeat split; try lia.
  apply bytes_ok_app; auto.
Qed.

Lemma take_split (rest : bytes) (n : nat) : (n <= length rest)%nat ->
  exists e r, rest = e ++ r /\ length e = n.
Proof.
  intros H. exists (firstn n rest), (skipn n rest). rewrite firstn_skipn. split; auto.
  rewrite firstn_length. lia.
Qed.

Lemma ReadU8_any pre rest : fits pre rest ->
  ReadU8 (rbuf pre rest) = match rest with [] => (Err "error.seek", rbuf pre rest)
                           | x :: r => (Ok x, rbuf (pre ++ [x]) r) end.
Proof.
  intros F. destruct rest as [|x r].
  - unfold ReadU8. now rewrite check_rbuf_short by (auto; rewrite len_nil; lia).
  - now apply ReadU8_cons.
Qed.

(** Shape of a fixed-width read on arbitrary input. *)
Definition fixed_read (w : nat) (r : BM Z) : Prop := forall pre rest, fits pre rest -> bytes_ok rest ->
  (exists e t, rest = e ++ t /\ length e = w /\ r (rbuf pre rest) = (Ok (le_value e), rbuf (pre ++ e) t)) \/
  ((length rest < w)%nat /\ r (rbuf pre rest) = (Err "error.seek", rbuf pre rest)).

Lemma fixed_ReadU8 : fixed_read 1 ReadU8.
Proof.
  intros pre rest F O. rewrite ReadU8_any by auto. destruct rest as [|x r]; [right; simpl; auto|left].
  exists [x], r. cbn [le_value]. repeat split. f_equal. f_equal. lia.
Qed.
Lemma fixed_ReadU16 : fixed_read 2 ReadU16.
Proof.
  intros pre rest F O. destruct (le_lt_dec 2 (length rest)) as [H|H].
  - left. destruct (take_split rest 2 H) as (e & t & -> & L). exists e, t.
    apply bytes_ok_app in O as [O ?]. rewrite ReadU16_bytes; auto.
  - right. split; auto. unfold ReadU16. now rewrite check_rbuf_short by (auto; unfold len; lia).
Qed.
Lemma fixed_ReadU32 : fixed_read 4 ReadU32.
Proof.
  intros pre rest F O. destruct (le_lt_dec 4 (length rest)) as [H|H].
  - left. destruct (take_split rest 4 H) as (e & t & -> & L). exists e, t.
    apply bytes_ok_app in O as [O ?]. rewrite ReadU32_bytes; auto.
  - right. split; auto. unfold ReadU32. now rewrite check_rbuf_short by (auto; unfold len; lia).
Qed.
Lemma fixed_ReadU64 : fixed_read 8 ReadU64.
Proof.
  intros pre rest F O. destruct (le_lt_dec 8 (length rest)) as [H|H].
  - left. destruct (take_split rest 8 H) as (e & t & -> & L). exists e, t.
    apply bytes_ok_app in O as [O ?]. rewrite ReadU64_bytes; auto.
  - right. split; auto. unfold ReadU64. now rewrite check_rbuf_short by (auto; unfold len; lia).
Qed.

(** ReadVarInt on arbitrary input: consumes a prefix and yields a uint64, or errs. *)
Lemma ReadVarInt_any pre rest : fits pre rest -> bytes_ok rest ->
  (exists e t v, rest = e ++ t /\ (0 < length e)%nat /\ 0 <= v < 2 ^ 64 /\
     ReadVarInt (rbuf pre rest) = (Ok v, rbuf (pre ++ e) t)) \/
  (exists e t, rest = e ++ t /\ ReadVarInt (rbuf pre rest) = (Err "error.seek", rbuf (pre ++ e) t)).
Proof.
  intros F O. unfold ReadVarInt, bbind. rewrite ReadU8_any by auto.
  destruct rest as [|x r]. { right. exists [], []. split; [reflexivity|now rewrite app_nil_r]. }
  apply bytes_ok_cons in O as [Hx O].
  assert (F' : fits (pre ++ [x]) r) by (unfold fits in *; now rewrite app_cons_assoc).
  assert (G : forall w rd, fixed_read w rd -> 256 ^ Z.of_nat w <= 2 ^ 64 ->
    (exists e t v, x :: r = e ++ t /\ (0 < length e)%nat /\ 0 <= v < 2 ^ 64 /\
      rd (rbuf (pre ++ [x]) r) = (Ok v, rbuf (pre ++ e) t)) \/
    (exists e t, x :: r = e ++ t /\ rd (rbuf (pre ++ [x]) r) = (Err "error.seek", rbuf (pre ++ e) t))).
  { intros w rd Hrd Hw. destruct (Hrd _ _ F' O) as [(e & t & E & L & R)|[L R]].
    - left. exists (x :: e), t, (le_value e). rewrite R, app_cons_assoc.
      subst r. apply bytes_ok_app in O as [O ?].
      pose proof (le_value_range e O) as HR. unfold len in HR. rewrite L in HR.
      repeat split; simpl; try lia; auto.
    - right. exists [x], r. auto. }
  destruct (x =? 253); [apply (G 2%nat); [apply fixed_ReadU16|simpl; lia]|].
  destruct (x =? 254); [apply (G 4%nat); [apply fixed_ReadU32|simpl; lia]|].
  destruct (x =? 255); [apply (G 8%nat); [apply fixed_ReadU64|simpl; lia]|].
  left. exists [x], r, x. unfold is_byte in Hx. repeat split; simpl; auto; lia.
Qed.

Lemma ReadBytes_any pre rest l : fits pre rest -> bytes_ok rest -> 0 <= l < 2 ^ 62 ->
  (exists e t, rest = e ++ t /\ len e = l /\ ReadBytes l (rbuf pre rest) = (Ok (nilify e), rbuf (pre ++ e) t)) \/
  (len rest < l /\ ReadBytes l (rbuf pre rest) = (Err "error.seek", rbuf pre rest)).
Proof.
  intros F O H. destruct (Z_le_gt_dec l (len rest)) as [Hl|Hl].
  - left. destruct (take_split rest (Z.to_nat l)) as (e & t & -> & L); [unfold len in *; lia|].
    exists e, t. assert (len e = l) by (unfold len; lia). subst l. rewrite ReadBytes_app; auto.
  - right. split; [lia|]. unfold ReadBytes. pose proof (len_nonneg rest). destruct (l =? 0) eqn:E; [lia|].
    now rewrite check_rbuf_short by (auto; lia).
Qed.

Lemma ReadBytes_panics_iff pre rest l : fits pre rest -> - 2 ^ 63 <= l < 2 ^ 63 ->
  (fst (ReadBytes l (rbuf pre rest)) = Panic <-> l < 0 \/ 2 ^ 63 <= len pre + l).
Proof.
  intros F Hl. unfold fits in F. rewrite len_app in F. pose proof (len_nonneg pre). pose proof (len_nonneg rest).
  unfold ReadBytes. destruct (l =? 0) eqn:E0. { simpl. split; [easy|lia]. }
  unfold check. cbn [bseek blength bdata rbuf].
  destruct (Z_lt_ge_dec l 0) as [Hn|Hp].
  - rewrite i64_id by lia. rewrite len_app. replace (negb (len pre + len rest <? len pre + l)) with true by lia.
    unfold make_ok. replace ((0 <=? l) && (l * 1 <=? 2 ^ 48)) with false by lia. simpl. tauto.
  - destruct (Z_lt_ge_dec (len pre + l) (2 ^ 63)) as [Hs|Hs].
    + rewrite i64_id by lia. rewrite len_app.
      destruct (Z_le_gt_dec l (len rest)).
      * replace (negb (len pre + len rest <? len pre + l)) with true by lia.
        unfold make_ok. replace ((0 <=? l) && (l * 1 <=? 2 ^ 48)) with true by lia.
        unfold slice. rewrite len_app.
        replace ((0 <=? len pre) && (len pre <=? len pre + l) && (len pre + l <=? len pre + len rest)) with true by lia.
        simpl. split; [easy|lia].
      * replace (negb (len pre + len rest <? len pre + l)) with false by lia. simpl. split; [easy|lia].
    + assert (i64 (len pre + l) < 0).
      { unfold i64. replace (len pre + l + 2 ^ 63) with ((len pre + l - 2 ^ 63) + 1 * 2 ^ 64) by lia.
        rewrite Z_mod_plus_full. rewrite Z.mod_small by lia. lia. }
      rewrite len_app. replace (negb (len pre + len rest <? i64 (len pre + l))) with true by lia.
      unfold make_ok. replace ((0 <=? l) && (l * 1 <=? 2 ^ 48)) with false by lia. simpl. split; [lia|easy].
Qed.
