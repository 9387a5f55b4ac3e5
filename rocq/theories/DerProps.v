(** C71: signature encodings. *)

From Verif Require Import GoBase BaseLemmas BigInt BigIntProofs SecpModel SecpSpec SecpLink EcdsaModel EcdsaSpec EcdsaNonce EcdsaProps PubKeyProofs
  SchnorrModel SchnorrProofs MpcSchnorrProofs DerModel DerSpec DerProofs.
Local Open Scope Z_scope.

Lemma make_big_int_len : forall x n, 0 <= n -> - 256 ^ n <= x < 256 ^ n -> len (make_big_int x) <= n + 1.
Proof.
  intros x n Hn R. destruct (make_big_int_ok x) as (O & T & M).
  destruct (twos_range _ _ O T) as [_ S]. specialize (S M).
  destruct (Z_le_gt_dec (len (make_big_int x)) (n + 1)) as [L | L]; [exact L | exfalso].
  apply S; [lia | ]. assert (256 ^ (n + 1) <= 256 ^ (len (make_big_int x) - 1)) by (apply Z.pow_le_mono_r; lia).
  rewrite Z.pow_add_r in H by lia. change (256 ^ 1) with 256 in H. lia.
Qed.

Lemma tag_and_length_len : forall id n, 0 <= n < 2 ^ 31 -> len (tag_and_length id n) <= 6.
Proof.
  intros id n Hn. unfold tag_and_length, length_octets. destruct (128 <=? n).
  - rewrite !len_cons. pose proof (big_bytes_len n 4 ltac:(change (256 ^ 4) with (2 ^ 32); lia) ltac:(lia)). lia.
  - unfold len. cbn [length]. lia.
Qed.

Lemma body_len : forall r s n, 0 <= n <= 2 ^ 29 -> - 256 ^ n <= r < 256 ^ n -> - 256 ^ n <= s < 256 ^ n ->
  len (marshal_int r ++ marshal_int s) < 2 ^ 31.
Proof.
  intros r s n Hn Hr Hs. pose proof (make_big_int_len r n ltac:(lia) Hr) as L1. pose proof (make_big_int_len s n ltac:(lia) Hs) as L2.
  rewrite len_app. unfold marshal_int. cbv zeta. rewrite !len_app.
  pose proof (tag_and_length_len 2 (len (make_big_int r)) ltac:(pose proof (len_nonneg (make_big_int r)); lia)).
  pose proof (tag_and_length_len 2 (len (make_big_int s)) ltac:(pose proof (len_nonneg (make_big_int s)); lia)). lia.
Qed.

(** Serialize writes the DER encoding, and there is no other. *)
Theorem C71_der_encode : forall r s n, 0 <= n <= 2 ^ 29 -> - 256 ^ n <= r < 256 ^ n -> - 256 ^ n <= s < 256 ^ n ->
  exists b, SigSerialize r s = Ok b /\ bytes_ok b /\ der_sig b r s /\
    forall b', bytes_ok b' -> der_sig b' r s -> b' = b.
Proof.
  intros r s n Hn Hr Hs. pose proof (body_len r s n Hn Hr Hs) as L. destruct (marshal_sig_ok r s L) as [O D].
  exists (marshal_sig r s). split; [reflexivity | ]. split; [exact O | ]. split; [exact D | ].
  intros b' O' D'. apply (der_sig_unique b' _ r s); assumption.
Qed.
Print Assumptions C71_der_encode.

(** Deserialize returns r and s exactly for the strings which start with a
    SEQUENCE that starts with the DER of r and s: bytes may follow inside the
    SEQUENCE and after it. *)
Theorem C71_der_decode_exact : forall b r s, bytes_ok b ->
  SigDeserialize b = Ok (r, s) <->
  exists ir is junk t trail, der_int ir r /\ der_int is s /\ Z.of_nat (length (ir ++ is ++ junk)) < 2 ^ 31 /\
    tlv 48 (ir ++ is ++ junk) t /\ b = t ++ trail.
Proof. intros b r s Hb. apply (unmarshal_exact b r s Hb). Qed.
Print Assumptions C71_der_decode_exact.

Theorem C71_der_decode_total : forall b, SigDeserialize b <> Panic.
Proof. exact unmarshal_never. Qed.
Print Assumptions C71_der_decode_total.

Theorem C71_der_roundtrip : forall r s n b, 0 <= n <= 2 ^ 29 -> - 256 ^ n <= r < 256 ^ n -> - 256 ^ n <= s < 256 ^ n ->
  SigSerialize r s = Ok b -> SigDeserialize b = Ok (r, s).
Proof.
  intros r s n b Hn Hr Hs E. pose proof (body_len r s n Hn Hr Hs) as L. destruct (marshal_sig_ok r s L) as [O D].
  assert (EB : b = marshal_sig r s) by (unfold SigSerialize in E; congruence). subst b.
  apply (unmarshal_exact _ r s O). unfold marshal_sig. cbv zeta. set (B := marshal_int r ++ marshal_int s) in *.
  assert (LB : len (make_big_int r) < 2 ^ 31 /\ len (make_big_int s) < 2 ^ 31).
  { pose proof (make_big_int_len r n ltac:(lia) Hr). pose proof (make_big_int_len s n ltac:(lia) Hs). lia. }
  exists (marshal_int r), (marshal_int s), [], (tag_and_length 48 (len B) ++ B), []. rewrite !app_nil_r.
  split; [apply marshal_int_ok; tauto | ]. split; [apply marshal_int_ok; tauto | ]. split; [exact L | ].
  split; [apply tag_and_length_tlv; exact L | reflexivity].
Qed.
Print Assumptions C71_der_roundtrip.

(** Every string that decodes keeps doing so, to the same signature, whatever
    is appended to it; so a decoded string need not be the encoding. *)
Theorem C71_der_trailing : forall b r s trail, bytes_ok b -> bytes_ok trail ->
  SigDeserialize b = Ok (r, s) -> SigDeserialize (b ++ trail) = Ok (r, s).
Proof.
  intros b r s trail Hb Ht E. apply (unmarshal_exact b r s Hb) in E.
  destruct E as (ir & is & junk & t & tr & D1 & D2 & L & T & E).
  apply unmarshal_exact; [apply bytes_ok_app; tauto | ].
  exists ir, is, junk, t, (tr ++ trail). rewrite E, <- app_assoc. tauto.
Qed.
Print Assumptions C71_der_trailing.

(** Two strings for one signature, both different from the encoding: a byte
    after the SEQUENCE, and a byte inside it. *)
Theorem C71_der_unique_refuted : exists r s b b1 b2,
  SigSerialize r s = Ok b /\ bytes_ok b1 /\ bytes_ok b2 /\ b1 <> b /\ b2 <> b /\ b1 <> b2 /\
  SigDeserialize b1 = Ok (r, s) /\ SigDeserialize b2 = Ok (r, s).
Proof.
  exists 1, 200, [48; 7; 2; 1; 1; 2; 2; 0; 200], [48; 7; 2; 1; 1; 2; 2; 0; 200; 99], [48; 8; 2; 1; 1; 2; 2; 0; 200; 99].
  split; [vm_compute; reflexivity | ].
  split; [repeat constructor; discriminate | ]. split; [repeat constructor; discriminate | ].
  split; [discriminate | ]. split; [discriminate | ]. split; [discriminate | ].
  split; vm_compute; reflexivity.
Qed.
Print Assumptions C71_der_unique_refuted.

(** With nothing after r and s, in the SEQUENCE or after it, the string is the
    encoding. *)
Theorem C71_der_unique_partial : forall b r s, bytes_ok b -> SigDeserialize b = Ok (r, s) -> len b < 2 ^ 31 ->
  (forall b', bytes_ok b' -> len b' < len b -> SigDeserialize b' <> Ok (r, s)) ->
  SigSerialize r s = Ok b.
Proof.
  intros b r s Hb E Lb Short. apply (unmarshal_exact b r s Hb) in E.
  destruct E as (ir & is & junk & t & trail & D1 & D2 & L & T & E).
  assert (HI : bytes_ok (ir ++ is ++ junk)).
  { destruct T as (l & _ & T). rewrite E, T in Hb. cbn [app] in Hb. apply bytes_ok_cons in Hb. destruct Hb as [_ Hb].
    rewrite <- (app_assoc l) in Hb. apply bytes_ok_app in Hb. destruct Hb as [_ Hb]. apply bytes_ok_app in Hb. tauto. }
  assert (H1 := HI). apply bytes_ok_app in H1. destruct H1 as [H1 H2]. apply bytes_ok_app in H2. destruct H2 as [H3 H4].
  rewrite !len_app in L. pose proof (len_nonneg junk). pose proof (len_nonneg ir). pose proof (len_nonneg is).
  assert (LI : len (ir ++ is) < 2 ^ 31) by (rewrite len_app; lia).
  assert (T0 := tag_and_length_tlv 48 (ir ++ is) LI). set (t0 := tag_and_length 48 (len (ir ++ is)) ++ ir ++ is) in *.
  assert (Ot0 : bytes_ok t0) by (apply (tlv_ok 48 (ir ++ is)); [unfold is_byte; lia | apply bytes_ok_app; tauto | exact LI | exact T0]).
  assert (Dec : SigDeserialize t0 = Ok (r, s)).
  { apply (unmarshal_exact t0 r s Ot0). exists ir, is, [], t0, []. rewrite !app_nil_r. tauto. }
  assert (Mono : len t0 + len junk <= len t).
  { destruct T as (l & F & ->). destruct T0 as (l0 & F0 & ->). rewrite !len_cons, !len_app.
    assert (len l0 <= len l); [ | lia].
    change (Z.of_nat (length (ir ++ is ++ junk))) with (len (ir ++ is ++ junk)) in F.
    change (Z.of_nat (length (ir ++ is))) with (len (ir ++ is)) in F0. rewrite !len_app in F. rewrite len_app in F0.
    destruct F as [[S ->] | (S & k & K & P & ->)]; destruct F0 as [[S0 ->] | (S0 & k0 & K0 & P0 & ->)]; rewrite ?len_cons;
      unfold len; rewrite ?octets_length; cbn [length]; try lia.
    destruct (Z_le_gt_dec (Z.of_nat k0) (Z.of_nat k)) as [Q | Q]; [lia | exfalso].
    assert (256 ^ Z.of_nat k <= 256 ^ (Z.of_nat k0 - 1)) by (apply Z.pow_le_mono_r; lia). lia. }
  destruct (Z_lt_le_dec (len t0) (len b)) as [Lt | Le]; [exfalso; exact (Short t0 Ot0 Lt Dec) | ].
  rewrite E, len_app in Le. pose proof (len_nonneg trail).
  assert (EJ : junk = []) by (destruct junk; [reflexivity | rewrite len_cons in Mono; pose proof (len_nonneg junk); lia]).
  assert (ET : trail = []) by (destruct trail; [reflexivity | rewrite len_cons in Le; pose proof (len_nonneg trail); lia]).
  subst junk trail. rewrite !app_nil_r in *.
  assert (BL : len (marshal_int r ++ marshal_int s) < 2 ^ 31).
  { destruct (der_int_bytes ir r H1 D1) as (c1 & O1 & W1 & M1 & T1 & L1).
    destruct (der_int_bytes is s H3 D2) as (c2 & O2 & W2 & M2 & T2 & L2).
    destruct (make_big_int_ok r) as (O1' & W1' & M1'). destruct (make_big_int_ok s) as (O2' & W2' & M2').
    assert (E1 : c1 = make_big_int r) by (apply (twos_unique c1 _ r); assumption).
    assert (E2 : c2 = make_big_int s) by (apply (twos_unique c2 _ s); assumption).
    assert (ir = marshal_int r) by (apply (tlv_unique 2 c1); [exact T1 | rewrite E1; apply tag_and_length_tlv; rewrite <- E1; lia]).
    assert (is = marshal_int s) by (apply (tlv_unique 2 c2); [exact T2 | rewrite E2; apply tag_and_length_tlv; rewrite <- E2; lia]).
    subst ir is. exact LI. }
  destruct (marshal_sig_ok r s BL) as [O D]. unfold SigSerialize. f_equal.
  apply (der_sig_unique _ b r s); [exact O | exact Hb | exact D | ].
  exists ir, is. rewrite E. tauto.
Qed.
Print Assumptions C71_der_unique_partial.

(** What EcdsaSign returns, EcdsaVerify accepts; and it is the DER of a valid
    signature with a low s. *)
Theorem C71_sign_verify : forall hmac fuel key D pub hash sig,
  bytes_ok key -> bytes_ok hash ->
  PrvKeyFromBytes key = Ok (D, pub) -> EcdsaSign hmac fuel D hash = Some (Ok sig) ->
  EcdsaVerify (fst pub) (snd pub) hash sig = Ok tt /\
  exists r s, der_sig sig r s /\ 1 <= r < order_n /\ 1 <= s <= order_n / 2.
Proof.
  intros hmac fuel key D pub hash sig Hk Hh K E. unfold EcdsaSign in E.
  destruct (Sign hmac fuel D hash) as [[[r s] | e | ] | ] eqn:ES; try discriminate E.
  cbn [rbind] in E. assert (E' : SigSerialize r s = Ok sig) by congruence. clear E.
  pose proof (C64_sign_verify _ _ _ _ _ _ _ _ Hk Hh K ES) as V.
  assert (HD : 0 <= D).
  { unfold PrvKeyFromBytes in K. destruct (ScalarBaseMult key) as [q | | ]; cbn [rbind] in K; try discriminate K.
    assert (D = set_bytes key) by congruence. subst D. apply set_bytes_nonneg. exact Hk. }
  destruct (gof_ex (SecpGroup.gmul D SecpOrder.gG)) as (Q & HQ).
  assert (MQ : multiple base D Q) by (apply (gof_multiple _ _ _ _ gof_base); [lia | exact HQ]).
  destruct (C64_sign hmac fuel D hash r s Q Hh HD ES MQ) as (_ & Br & Bs).
  assert (NN : order_n < 256 ^ 32) by (vm_compute; reflexivity).
  assert (N2 : order_n / 2 < 256 ^ 32) by (vm_compute; reflexivity).
  assert (R1 : - 256 ^ 32 <= r < 256 ^ 32) by lia. assert (R2 : - 256 ^ 32 <= s < 256 ^ 32) by lia.
  split.
  - unfold EcdsaVerify. rewrite (C71_der_roundtrip r s 32 sig ltac:(lia) R1 R2 E'). cbn [rbind].
    rewrite V. reflexivity.
  - exists r, s. destruct (C71_der_encode r s 32 ltac:(lia) R1 R2) as (b & EB & _ & DB & _).
    assert (b = sig) by congruence. subst b. tauto.
Qed.
Print Assumptions C71_sign_verify.

(** A signature that verifies still does with any bytes after it. *)
Theorem C71_verify_malleable : forall x y hash sig trail, bytes_ok sig -> bytes_ok trail ->
  EcdsaVerify x y hash sig = Ok tt -> EcdsaVerify x y hash (sig ++ trail) = Ok tt.
Proof.
  intros x y hash sig trail Hs Ht E. unfold EcdsaVerify in *.
  destruct (SigDeserialize sig) as [[r s] | | ] eqn:D; try discriminate E.
  rewrite (C71_der_trailing sig r s trail Hs Ht D). exact E.
Qed.
Print Assumptions C71_verify_malleable.

(** ** The Schnorr encoding *)

Theorem C71_schnorr_roundtrip : forall r s, 0 <= r < 2 ^ 256 -> 0 <= s < 2 ^ 256 ->
  exists b, SchnorrSerialize r s = Ok b /\ length b = 64%nat /\ be (firstn 32 b) = r /\ be (skipn 32 b) = s /\
    SchnorrDeserialize b = Ok (r, s).
Proof.
  intros r s Hr Hs. exists (octets 32 r ++ octets 32 s). split.
  { unfold SchnorrSerialize. rewrite !IntToByte_ok by lia. reflexivity. }
  assert (L1 := octets_length 32 r). assert (L2 := octets_length 32 s). assert (V1 := octets_back r Hr). assert (V2 := octets_back s Hs).
  assert (D := Deserialize_ok r s Hr Hs). revert L1 L2 V1 V2 D.
  generalize (octets 32 r) (octets 32 s). intros a b L1 L2 V1 V2 D.
  split; [rewrite app_length; lia | ].
  replace (firstn 32 (a ++ b)) with a by (rewrite <- L1, firstn_app, Nat.sub_diag, firstn_O, app_nil_r, firstn_all; reflexivity).
  replace (skipn 32 (a ++ b)) with b by (rewrite <- L1, skipn_app, Nat.sub_diag, skipn_O, skipn_all; reflexivity).
  rewrite !be_set_bytes. tauto.
Qed.
Print Assumptions C71_schnorr_roundtrip.

(** Deserialize reads any string of at least 32 bytes, and panics on a shorter
    one. *)
Theorem C71_schnorr_decode_exact : forall b,
  (32 <= len b -> SchnorrDeserialize b = Ok (be (firstn 32 b), be (skipn 32 b))) /\
  (len b < 32 -> SchnorrDeserialize b = Panic).
Proof.
  intro b. unfold SchnorrDeserialize, slice. pose proof (len_nonneg b). split; intro L.
  - replace ((0 <=? 0) && (0 <=? 32) && (32 <=? len b)) with true by (symmetry; rewrite !andb_true_iff, !Z.leb_le; lia).
    cbn [rbind].
    replace ((0 <=? 32) && (32 <=? len b) && (len b <=? len b)) with true by (symmetry; rewrite !andb_true_iff, !Z.leb_le; lia).
    cbn [rbind]. rewrite !be_set_bytes. f_equal. f_equal.
    change (Z.to_nat 32) with 32%nat. f_equal. apply firstn_all2. rewrite skipn_length. unfold len. lia.
  - replace ((0 <=? 0) && (0 <=? 32) && (32 <=? len b)) with false by (symmetry; rewrite !andb_false_iff, !Z.leb_gt; lia).
    reflexivity.
Qed.
Print Assumptions C71_schnorr_decode_exact.

(** A string of 64 bytes is the encoding of what it decodes to; longer or
    shorter strings decode too and are not. *)
Theorem C71_schnorr_unique_partial : forall b r s, bytes_ok b -> len b = 64 ->
  SchnorrDeserialize b = Ok (r, s) -> SchnorrSerialize r s = Ok b.
Proof.
  intros b r s Hb L E. rewrite (proj1 (C71_schnorr_decode_exact b)) in E by lia.
  assert (Er : r = be (firstn 32 b)) by congruence. assert (Es : s = be (skipn 32 b)) by congruence. clear E.
  rewrite be_set_bytes in Er, Es.
  assert (HS := Hb). rewrite <- (firstn_skipn 32 b) in HS. apply bytes_ok_app in HS. destruct HS as [H1 H2].
  assert (L1 : length (firstn 32 b) = 32%nat) by (rewrite firstn_length; unfold len in L; lia).
  assert (L2 : length (skipn 32 b) = 32%nat) by (rewrite skipn_length; unfold len in L; lia).
  assert (R1 : 0 <= r < 2 ^ 256).
  { rewrite Er. split; [apply set_bytes_nonneg; exact H1 | ]. pose proof (set_bytes_lt _ H1) as X. unfold len in X. rewrite L1 in X. exact X. }
  assert (R2 : 0 <= s < 2 ^ 256).
  { rewrite Es. split; [apply set_bytes_nonneg; exact H2 | ]. pose proof (set_bytes_lt _ H2) as X. unfold len in X. rewrite L2 in X. exact X. }
  unfold SchnorrSerialize. rewrite !IntToByte_ok by lia. cbn [rbind]. f_equal.
  rewrite <- (firstn_skipn 32 b) at 1. f_equal.
  - rewrite Er. rewrite <- L1 at 1. apply octets_set. exact H1.
  - rewrite Es. rewrite <- L2 at 1. apply octets_set. exact H2.
Qed.
Print Assumptions C71_schnorr_unique_partial.

Theorem C71_schnorr_second_encoding : forall r s, 0 <= r < 2 ^ 256 -> 0 <= s < 2 ^ 256 ->
  exists b b', SchnorrSerialize r s = Ok b /\ b' <> b /\ SchnorrDeserialize b' = Ok (r, s).
Proof.
  intros r s Hr Hs. destruct (C71_schnorr_roundtrip r s Hr Hs) as (b & E & L & Er & Es & D).
  exists b, (firstn 32 b ++ 0 :: skipn 32 b). split; [exact E | ].
  assert (LL : length (firstn 32 b ++ 0 :: skipn 32 b) = 65%nat).
  { rewrite app_length. cbn [length]. rewrite firstn_length, skipn_length. lia. }
  split; [intro Q; rewrite Q in LL; lia | ].
  rewrite (proj1 (C71_schnorr_decode_exact _)) by (unfold len; lia).
  assert (L1 : length (firstn 32 b) = 32%nat) by (rewrite firstn_length; lia).
  revert Er Es L1. generalize (firstn 32 b) (skipn 32 b). intros a c Er Es L1.
  rewrite <- L1, firstn_app, Nat.sub_diag, firstn_O, app_nil_r, firstn_all.
  rewrite skipn_app, Nat.sub_diag, skipn_O, skipn_all. cbn [app].
  rewrite Er. rewrite be_set_bytes in *. rewrite set_bytes_cons, Es. f_equal.
Qed.
Print Assumptions C71_schnorr_second_encoding.

Theorem C71_schnorr_unique_refuted : exists r s b b',
  SchnorrSerialize r s = Ok b /\ b' <> b /\ SchnorrDeserialize b' = Ok (r, s).
Proof.
  exists 5, 7. apply C71_schnorr_second_encoding; split; try discriminate; reflexivity.
Qed.
Print Assumptions C71_schnorr_unique_refuted.

(** The hypotheses hold: a negative and a positive number, and a long length. *)
Example ex_der : SigSerialize (-129) (256 ^ 130) = Ok ([48; 129; 138; 2; 2; 255; 127; 2; 129; 131; 1] ++ repeat 0 130).
Proof. vm_compute. reflexivity. Qed.
Example ex_der_back : SigDeserialize ([48; 129; 138; 2; 2; 255; 127; 2; 129; 131; 1] ++ repeat 0 130) = Ok (-129, 256 ^ 130).
Proof. vm_compute. reflexivity. Qed.
