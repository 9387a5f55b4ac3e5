(** Proofs about the model of BIP 32. *)

From Verif Require Import GoBase BaseLemmas BigInt BigIntProofs NumTheory BigMod SecpModel SecpGroup SecpOrder SecpOrderN SecpProofs SecpCyclic SecpSpec SecpLink EcdsaModel EcdsaSpec EcdsaNonce EcdsaProofs PubKeyModel PubKeySpec PubKeyProofs SchnorrProofs PubKeyProps Base58Model Base58Spec Base58Proofs AddressSpec Bip32Model Bip32Spec.
Local Open Scope Z_scope.

(** How the program holds an extended key. *)
Definition represents (h : hdkey) (x : xkey) : Prop :=
  match x with
  | Xprv d fp num c k => exists K, multiple base k K /\
      h = MkHDKey num fp c d true (Some (k, (px K, py K))) None
  | Xpub d fp num c K => h = MkHDKey num fp c d false None (Some (px K, py K))
  end.

(** ** Bytes *)
Lemma ser32_ok : forall i, 0 <= i < 2 ^ 32 -> uint32ToBytes i = ser32 i.
Proof.
  intros i Hi. unfold uint32ToBytes, ser32, u8. cbn [octets app].
  rewrite !Z.shiftr_div_pow2 by lia. rewrite !Z.div_div by lia.
  reflexivity.
Qed.

Lemma ser32_len : forall i, len (ser32 i) = 4.
Proof. intro i. rewrite <- len_length. unfold ser32. rewrite octets_length. reflexivity. Qed.

Lemma slice_head : forall (l : bytes) n, 0 <= n <= len l -> slice l 0 n = Ok (firstn (Z.to_nat n) l).
Proof.
  intros l n H. rewrite <- (firstn_skipn (Z.to_nat n) l) at 1.
  assert (E : n = len (firstn (Z.to_nat n) l)).
  { unfold len in *. rewrite firstn_length. lia. }
  rewrite E at 3. apply slice_app_l.
Qed.

Lemma slice_tail : forall (l : bytes) n, 0 <= n <= len l -> slice l n (len l) = Ok (skipn (Z.to_nat n) l).
Proof.
  intros l n H. pose proof (slice_app_r (firstn (Z.to_nat n) l) (skipn (Z.to_nat n) l)) as E.
  rewrite firstn_skipn in E.
  assert (E1 : len (firstn (Z.to_nat n) l) = n).
  { unfold len in *. rewrite firstn_length. lia. }
  assert (E2 : len (skipn (Z.to_nat n) l) = len l - n).
  { unfold len in *. rewrite skipn_length. lia. }
  rewrite E1, E2 in E. replace (n + (len l - n)) with (len l) in E by lia. exact E.
Qed.

Lemma point_bounds : forall K, good K -> 0 <= px K < 2 ^ 256 /\ 0 <= py K < 2 ^ 256.
Proof.
  intros [[x y] | ] G; [apply good_bounds in G; cbn; tauto | ]. cbn [px py].
  split; (split; [discriminate | reflexivity]).
Qed.

Lemma serialize_ok : forall K, good K -> Serialize (px K, py K) = Ok (serP K).
Proof. intros K G. apply SecMarshal_ok. apply (point_bounds K G). Qed.

Lemma serP_ok : forall K, bytes_ok (serP K) /\ len (serP K) = 33.
Proof.
  intro K. split.
  - apply bytes_ok_cons. split; [ | apply octets_ok]. unfold is_byte, parity.
    pose proof (Z.mod_pos_bound (py K) 2 ltac:(lia)). lia.
  - rewrite <- len_length. unfold serP. cbn [length]. rewrite octets_length. reflexivity.
Qed.

Lemma multiple_good : forall k K, multiple base k K -> good K.
Proof.
  intros k K H. pose proof (multiple_nonneg _ _ _ H) as P.
  apply (gof_multiple _ _ _ _ gof_base P) in H. exact (gof_is_good _ _ H).
Qed.

Lemma multiple_enc : forall k K, multiple base k K -> (px K, py K) = enc (gmul k gG).
Proof.
  intros k K H. pose proof (multiple_nonneg _ _ _ H) as P.
  apply (gof_multiple _ _ _ _ gof_base P) in H. symmetry. exact (gof_enc _ _ H).
Qed.

Lemma multiple_ex : forall k, 0 <= k -> exists K, multiple base k K.
Proof.
  intros k P. destruct (gof_ex (gmul k gG)) as (K & H). exists K.
  apply (gof_multiple _ _ _ _ gof_base P). exact H.
Qed.

Lemma multiple_fun : forall k K K', multiple base k K -> multiple base k K' -> K = K'.
Proof.
  intros k K K' H H'. pose proof (multiple_nonneg _ _ _ H) as P.
  apply (gof_multiple _ _ _ _ gof_base P) in H, H'. exact (gof_inj _ _ _ H H').
Qed.

Lemma prv_from : forall b K, bytes_ok b -> multiple base (be b) K ->
  PrvKeyFromBytes b = Ok (be b, (px K, py K)).
Proof.
  intros b K Hb H. unfold PrvKeyFromBytes. rewrite ScalarBaseMult_ok by exact Hb. cbn [rbind].
  rewrite (multiple_enc _ _ H), be_set_bytes. reflexivity.
Qed.

Lemma be_octets : forall k, 0 <= k < 2 ^ 256 -> be (octets 32 k) = k.
Proof. intros k H. rewrite be_set_bytes. apply octets_back. exact H. Qed.

Lemma be_nonneg : forall b, bytes_ok b -> 0 <= be b.
Proof. intros b H. rewrite be_set_bytes. apply set_bytes_nonneg. exact H. Qed.

Lemma be_lt32 : forall b, bytes_ok b -> len b = 32 -> 0 <= be b < 2 ^ 256.
Proof.
  intros b H L. pose proof (set_bytes_lt b H) as B. rewrite L in B.
  change (256 ^ 32) with (2 ^ 256) in B. rewrite be_set_bytes. split; [ | exact B].
  apply set_bytes_nonneg. exact H.
Qed.

Lemma prv_ser : forall k, 0 <= k < 2 ^ 256 -> PrvSerialize k = ser256 k.
Proof. intros k H. apply pad_octets. exact H. Qed.

Lemma prv_add : forall k b K, 0 <= k -> bytes_ok b -> multiple base ((be b + k) mod order_n) K ->
  PrvAdd k b = Ok ((be b + k) mod order_n, (px K, py K)).
Proof.
  intros k b K Hk Hb H. unfold PrvAdd. rewrite order_n_eq in *. rewrite be_set_bytes in *.
  rewrite (Z.add_comm k). unfold PrvKeyFromBytes.
  pose proof (Z.mod_pos_bound (set_bytes b + k) curveN N_pos) as R.
  rewrite base_mult_big by apply R. cbn [rbind].
  rewrite big_bytes_set by apply R. rewrite (multiple_enc _ _ H). reflexivity.
Qed.

Lemma order_lt : 0 < order_n < 2 ^ 256.
Proof. split; reflexivity. Qed.

Lemma fields_next : forall (h : bytes -> bytes) d i fp c, (forall b, len (h b) = 20 /\ bytes_ok (h b)) ->
  bytes_ok c -> len c = 32 -> fields_ok ((d + 1) mod 256) (firstn 4 (h fp)) (ser32 i) c.
Proof.
  intros h d i fp c Hh Hc Lc. pose proof (Hh fp) as [L O].
  split; [apply Z.mod_pos_bound; lia | ]. split; [ | split; [ | tauto]].
  - split; [apply bytes_ok_firstn; exact O | ]. unfold len in *. rewrite firstn_length. lia.
  - split; [apply octets_ok | apply ser32_len].
Qed.

Lemma split64 : forall b, len b = 64 -> bytes_ok b ->
  exists IL IR, b = IL ++ IR /\ len IL = 32 /\ len IR = 32 /\ bytes_ok IL /\ bytes_ok IR /\
    slice b 32 (len b) = Ok IR /\ slice b 0 32 = Ok IL.
Proof.
  intros b L O. exists (firstn 32 b), (skipn 32 b).
  split; [symmetry; apply firstn_skipn | ].
  split; [unfold len in *; rewrite firstn_length; lia | ].
  split; [unfold len in *; rewrite skipn_length; lia | ].
  split; [apply bytes_ok_firstn; exact O | ]. split; [apply bytes_ok_skipn; exact O | ].
  split; [apply (slice_tail b 32); lia | apply (slice_head b 32); lia].
Qed.

Lemma hash_head : forall (hash : bytes -> bytes), (forall b, len (hash b) = 20 /\ bytes_ok (hash b)) ->
  forall b, slice (hash b) 0 4 = Ok (firstn 4 (hash b)).
Proof. intros hash HH b. apply (slice_head _ 4). destruct (HH b). lia. Qed.

Section Hd.
Variable hmac512 : bytes -> bytes -> bytes.
Variable hash160 : bytes -> bytes.
Hypothesis HM : forall k d, len (hmac512 k d) = 64 /\ bytes_ok (hmac512 k d).
Hypothesis HH : forall b, len (hash160 b) = 20 /\ bytes_ok (hash160 b).

(** What is hashed. *)
Lemma getI_prv : forall d fp num c k K i, 0 <= k < 2 ^ 256 -> good K -> 0 <= i < 2 ^ 32 ->
  getIntermediary hmac512 (MkHDKey num fp c d true (Some (k, (px K, py K))) None) i =
  Ok (hmac512 c ((if i <? 2 ^ 31 then serP K else 0 :: ser256 k) ++ ser32 i)).
Proof.
  intros d fp num c k K i Hk G Hi. unfold getIntermediary. cbn [hk_prv hk_isPrivate hk_chainCode need rbind fst snd].
  rewrite serialize_ok by exact G. rewrite prv_ser by exact Hk. rewrite ser32_ok by exact Hi.
  unfold HardenedKeyStart. change 2147483648 with (2 ^ 31).
  destruct (2 ^ 31 <=? i) eqn:A; destruct (i <? 2 ^ 31) eqn:B; try reflexivity; exfalso.
  - apply Z.leb_le in A. apply Z.ltb_lt in B. lia.
  - apply Z.leb_gt in A. apply Z.ltb_ge in B. lia.
Qed.

Lemma derive_prv : forall x h i, xkey_ok x -> represents h x -> (exists d fp num c k, x = Xprv d fp num c k) ->
  0 <= i < 2 ^ 32 ->
  exists y h', ckd_priv hmac512 hash160 x i y /\ xkey_ok y /\ Derive hmac512 hash160 h i = Ok h' /\ represents h' y.
Proof.
  intros x h i Ox Hx (d & fp & num & c & k & ->) Hi. destruct Hx as (K & MK & ->). destruct Ox as (F & Hk).
  pose proof (multiple_good _ _ MK) as G.
  set (data := (if i <? 2 ^ 31 then serP K else 0 :: ser256 k) ++ ser32 i).
  destruct (HM c data) as (L & O). destruct (split64 _ L O) as (IL & IR & E & LL & LR & OL & OR & S1 & S2).
  pose proof order_lt as (ON1 & ON2).
  pose proof (Z.mod_pos_bound (be IL + k) order_n ON1) as R.
  destruct (multiple_ex _ (proj1 R)) as (K' & MK').
  exists (Xprv ((d + 1) mod 256) (firstn 4 (hash160 (serP K))) (ser32 i) IR ((be IL + k) mod order_n)).
  eexists. split; [ | split; [ | split]].
  - apply ckd_priv_intro; [exact MK | exact LL | exact E].
  - split; [apply fields_next; assumption | ].
    split; [exact (proj1 R) | exact (Z.lt_trans _ _ _ (proj2 R) ON2)].
  - unfold Derive. rewrite getI_prv by assumption. fold data.
    cbn [hk_isPrivate negb andb rbind hk_prv need fst snd hk_depth].
    rewrite S1, S2. cbn [rbind]. rewrite serialize_ok by exact G. cbn [rbind].
    rewrite (hash_head hash160 HH). cbn [rbind]. rewrite (prv_add k IL K') by (assumption || apply Hk). cbn [rbind].
    rewrite ser32_ok by exact Hi. reflexivity.
  - exists K'. split; [exact MK' | reflexivity].
Qed.

Lemma pub_unc : forall Q, good Q -> Q <> None ->
  exists u, SerializeUncompressed (px Q, py Q) = Ok u /\ PubKeyFromBytes u = Ok (px Q, py Q).
Proof.
  intros [[x y] | ] G N; [ | congruence]. cbn [px py].
  destruct (C70_roundtrip x y G) as (_ & E & _ & H). eexists. split; [exact E | ].
  apply (H SerializeUncompressed); [cbn; tauto | exact E].
Qed.

Lemma derive_pub : forall x h i, xkey_ok x -> represents h x -> (exists d fp num c K, x = Xpub d fp num c K) ->
  0 <= i < 2 ^ 31 ->
  (exists y h', ckd_pub hmac512 hash160 x i y /\ xkey_ok y /\ Derive hmac512 hash160 h i = Ok h' /\ represents h' y)
  \/ (exists d fp num c K IL IR, x = Xpub d fp num c K /\
      hmac512 c (serP K ++ ser32 i) = IL ++ IR /\ len IL = 32 /\ be IL mod order_n = 0 /\
      Derive hmac512 hash160 h i = Err "pubkey.point.is.not.on.the.curve").
Proof.
  intros x h i Ox Hx (d & fp & num & c & K & ->) Hi. cbn in Hx. subst h. destruct Ox as (F & G).
  set (data := serP K ++ ser32 i).
  destruct (HM c data) as (L & O). destruct (split64 _ L O) as (IL & IR & E & LL & LR & OL & OR & S1 & S2).
  pose proof (be_nonneg IL OL) as PL. destruct (multiple_ex (be IL) PL) as (Q & MQ).
  assert (I32 : 0 <= i < 2 ^ 32) by (split; [apply Hi | apply Z.lt_trans with (2 ^ 31); [apply Hi | reflexivity]]).
  assert (B : HardenedKeyStart <=? i = false) by (apply Z.leb_gt; apply Hi).
  assert (EQ : Derive hmac512 hash160 (MkHDKey num fp c d false None (Some (px K, py K))) i =
     let! unc := SerializeUncompressed (px Q, py Q) in
     let! p2 := PubKeyFromBytes unc in
     let! child := PubAdd (px K, py K) p2 in
     Ok (MkHDKey (ser32 i) (firstn 4 (hash160 (serP K))) IR ((d + 1) mod 256) false None (Some child))).
  { unfold Derive, getIntermediary. cbn [hk_isPrivate hk_pub hk_chainCode hk_depth]. rewrite B. cbn [negb andb need rbind].
    rewrite serialize_ok by exact G. cbn [rbind]. rewrite ser32_ok by exact I32. fold data. rewrite S1, S2. cbn [rbind].
    rewrite (hash_head hash160 HH). cbn [rbind]. rewrite (prv_from IL Q) by assumption. reflexivity. }
  destruct Q as [[qx qy] | ] eqn:EQQ.
  - left. pose proof (multiple_good _ _ MQ) as GQ.
    destruct (pub_unc (Some (qx, qy)) GQ ltac:(discriminate)) as (u & U1 & U2).
    apply (gof_multiple _ _ _ _ gof_base PL) in MQ. destruct (gof_good _ G) as (a & Ga).
    destruct (gof_ex (gadd (gmul (be IL) gG) a)) as (R & HR).
    exists (Xpub ((d + 1) mod 256) (firstn 4 (hash160 (serP K))) (ser32 i) IR R). eexists.
    split; [ | split; [ | split]].
    + apply ckd_pub_intro with (IL := IL) (Q := Some (qx, qy)); try assumption.
      * apply Hi.
      * apply (gof_multiple _ _ _ _ gof_base PL). exact MQ.
      * apply (gof_sum _ _ _ _ _ MQ Ga). exact HR.
    + split; [apply fields_next; assumption | exact (gof_is_good _ _ HR)].
    + rewrite EQ, U1. cbn [rbind]. rewrite U2. cbn [rbind].
      unfold PubAdd. rewrite <- (gof_enc _ _ Ga), <- (gof_enc _ _ MQ). rewrite curveAdd_ok. cbn [rbind].
      reflexivity.
    + cbn [represents]. rewrite gadd_comm. rewrite (gof_enc _ _ HR). reflexivity.
  - right. exists d, fp, num, c, K, IL, IR. split; [reflexivity | ]. split; [exact E | ]. split; [exact LL | ].
    split.
    + apply (gof_multiple _ _ _ _ gof_base PL) in MQ.
      assert (Z0 : gmul (be IL) gG = g0) by (apply enc_inj; rewrite (gof_enc _ _ MQ); reflexivity).
      apply gmul_G_0 in Z0. rewrite order_n_eq. exact Z0.
    + rewrite EQ. reflexivity.
Qed.
End Hd.

(** ** Strings *)
Lemma slice_at : forall (a b c : bytes) i j, i = len a -> j = len a + len b -> slice (a ++ b ++ c) i j = Ok b.
Proof. intros a b c i j -> ->. apply slice_mid. Qed.

Lemma slice_at0 : forall (a b : bytes) j, j = len a -> slice (a ++ b) 0 j = Ok a.
Proof. intros a b j ->. apply slice_app_l. Qed.

Lemma slice_atr : forall (a b : bytes) i j, i = len a -> j = len a + len b -> slice (a ++ b) i j = Ok b.
Proof. intros a b i j -> ->. apply slice_app_r. Qed.

Lemma index_at : forall (a : bytes) x c i, i = len a -> index (a ++ x :: c) i = Ok x.
Proof. intros a x c i ->. rewrite index_app_r by lia. replace (len a - len a) with 0 by lia. reflexivity. Qed.

Lemma cut_at : forall (l : bytes) n, (n <= length l)%nat -> exists a b, l = a ++ b /\ len a = Z.of_nat n /\ length b = (length l - n)%nat.
Proof.
  intros l n H. exists (firstn n l), (skipn n l). split; [symmetry; apply firstn_skipn | ].
  split; [rewrite <- len_length, firstn_length; lia | apply skipn_length].
Qed.

(** The seven fields of 82 bytes. *)
Lemma cut82 : forall data : bytes, len data = 82 -> exists v d fp num c m kb cs,
  data = (v ++ [d] ++ fp ++ num ++ c ++ (m :: kb)) ++ cs /\
  len v = 4 /\ len fp = 4 /\ len num = 4 /\ len c = 32 /\ len kb = 32 /\ len cs = 4.
Proof.
  intros data L. assert (L' : length data = 82%nat) by (rewrite <- len_length in L; lia).
  destruct (cut_at data 4 ltac:(lia)) as (v & r1 & -> & Lv & L1). rewrite L' in L1.
  destruct r1 as [ | d r1]; [discriminate L1 | ]. cbn [length] in L1.
  destruct (cut_at r1 4 ltac:(lia)) as (fp & r2 & -> & Lf & L2).
  destruct (cut_at r2 4 ltac:(lia)) as (num & r3 & -> & Ln & L3).
  destruct (cut_at r3 32 ltac:(lia)) as (c & r4 & -> & Lc & L4).
  destruct r4 as [ | m r4]; [cbn [length] in L4; lia | ]. cbn [length] in L4.
  destruct (cut_at r4 32 ltac:(lia)) as (kb & cs & -> & Lk & L5).
  exists v, d, fp, num, c, m, kb, cs. split.
  - cbn [app]. repeat (rewrite <- app_assoc; cbn [app]). reflexivity.
  - repeat (split; [assumption | ]). rewrite <- len_length. lia.
Qed.

Section Str.
Variable sha256 : bytes -> bytes.
Hypothesis HS : hash32 sha256.

Lemma import_eq : forall s v d fp num c m kb cs,
  Base58Decode s = (v ++ [d] ++ fp ++ num ++ c ++ (m :: kb)) ++ cs ->
  len v = 4 -> len fp = 4 -> len num = 4 -> len c = 32 -> len kb = 32 -> len cs = 4 ->
  NewHDKeyFromString sha256 s =
  (let! k := if m =? 0 then
       let! prv := PrvKeyFromBytes kb in Ok (MkHDKey num fp c d true (Some prv) None)
     else
       let! pub := PubKeyFromBytes (m :: kb) in Ok (MkHDKey num fp c d false None (Some pub)) in
   if list_Z_eqb (firstn 4 (sha256 (sha256 (v ++ [d] ++ fp ++ num ++ c ++ (m :: kb))))) cs
   then Ok k else Err "hdkey.checksum.mismatch").
Proof.
  intros s v d fp num c m kb cs E Lv Lf Ln Lc Lk Ls.
  set (body := v ++ [d] ++ fp ++ num ++ c ++ (m :: kb)) in *.
  assert (L1 : len (m :: kb) = 33) by (change (m :: kb) with ([m] ++ kb); rewrite len_app, Lk; reflexivity).
  assert (LB : len body = 78) by (unfold body; rewrite !len_app, Lv, Lf, Ln, Lc, L1; reflexivity).
  assert (LD : len (body ++ cs) = 82) by (rewrite len_app, LB, Ls; reflexivity).
  unfold NewHDKeyFromString. rewrite E, LD.
  change (negb (82 =? serializedKeyLen + 4)) with false. cbv iota.
  assert (I4 : index (body ++ cs) 4 = Ok d).
  { unfold body. rewrite <- app_assoc. cbn [app]. apply index_at. lia. }
  assert (S5 : slice (body ++ cs) 5 9 = Ok fp).
  { unfold body. replace ((v ++ [d] ++ fp ++ num ++ c ++ m :: kb) ++ cs)
      with ((v ++ [d]) ++ fp ++ (num ++ c ++ (m :: kb) ++ cs)) by (rewrite <- !app_assoc; reflexivity).
    apply slice_at; rewrite len_app, Lv; [ | rewrite Lf]; reflexivity. }
  assert (S9 : slice (body ++ cs) 9 13 = Ok num).
  { unfold body. replace ((v ++ [d] ++ fp ++ num ++ c ++ m :: kb) ++ cs)
      with ((v ++ [d] ++ fp) ++ num ++ (c ++ (m :: kb) ++ cs)) by (rewrite <- !app_assoc; reflexivity).
    apply slice_at; rewrite !len_app, Lv, Lf; [ | rewrite Ln]; reflexivity. }
  assert (S13 : slice (body ++ cs) 13 45 = Ok c).
  { unfold body. replace ((v ++ [d] ++ fp ++ num ++ c ++ m :: kb) ++ cs)
      with ((v ++ [d] ++ fp ++ num) ++ c ++ ((m :: kb) ++ cs)) by (rewrite <- !app_assoc; reflexivity).
    apply slice_at; rewrite !len_app, Lv, Lf, Ln; [ | rewrite Lc]; reflexivity. }
  assert (I45 : index (body ++ cs) 45 = Ok m).
  { unfold body. replace ((v ++ [d] ++ fp ++ num ++ c ++ m :: kb) ++ cs)
      with ((v ++ [d] ++ fp ++ num ++ c) ++ m :: (kb ++ cs)) by (rewrite <- !app_assoc; reflexivity).
    apply index_at. rewrite !len_app, Lv, Lf, Ln, Lc. reflexivity. }
  assert (S46 : slice (body ++ cs) 46 78 = Ok kb).
  { unfold body. replace ((v ++ [d] ++ fp ++ num ++ c ++ m :: kb) ++ cs)
      with ((v ++ [d] ++ fp ++ num ++ c ++ [m]) ++ kb ++ cs) by (rewrite <- !app_assoc; reflexivity).
    apply slice_at; rewrite !len_app, Lv, Lf, Ln, Lc; [ | rewrite Lk]; reflexivity. }
  assert (S45 : slice (body ++ cs) 45 78 = Ok (m :: kb)).
  { unfold body. replace ((v ++ [d] ++ fp ++ num ++ c ++ m :: kb) ++ cs)
      with ((v ++ [d] ++ fp ++ num ++ c) ++ (m :: kb) ++ cs) by (rewrite <- !app_assoc; reflexivity).
    apply slice_at; rewrite !len_app, Lv, Lf, Ln, Lc; [ | rewrite L1]; reflexivity. }
  assert (SB : slice (body ++ cs) 0 (82 - 4) = Ok body) by (apply slice_at0; rewrite LB; reflexivity).
  assert (SC : slice (body ++ cs) (82 - 4) 82 = Ok cs) by (apply slice_atr; rewrite LB; [ | rewrite Ls]; reflexivity).
  rewrite I4. cbn [rbind]. rewrite S5. cbn [rbind]. rewrite S9. cbn [rbind]. rewrite S13. cbn [rbind].
  rewrite I45. cbn [rbind].
  assert (SH : slice (sha256 (sha256 body)) 0 4 = Ok (firstn 4 (sha256 (sha256 body)))).
  { apply (slice_head _ 4). destruct (HS (sha256 body)) as (Q & _). rewrite Q. lia. }
  destruct (m =? 0).
  - rewrite S46. cbn [rbind]. destruct (PrvKeyFromBytes kb); cbn [rbind]; [ | reflexivity | reflexivity].
    rewrite SB. cbn [rbind]. rewrite SH. cbn [rbind]. rewrite SC. reflexivity.
  - rewrite S45. cbn [rbind]. destruct (PubKeyFromBytes (m :: kb)); cbn [rbind]; [ | reflexivity | reflexivity].
    rewrite SB. cbn [rbind]. rewrite SH. cbn [rbind]. rewrite SC. reflexivity.
Qed.

Lemma check_iff4 : forall b cs, len cs = 4 -> (firstn 4 (sha256 (sha256 b)) = cs <-> check_bytes sha256 b cs).
Proof.
  intros b cs L. destruct (HS (sha256 b)) as (Q & _). split.
  - intro E. split; [exact L | ]. exists (skipn 4 (sha256 (sha256 b))). rewrite <- E.
    symmetry. apply firstn_skipn.
  - intros (_ & r & E). rewrite E. rewrite <- len_length in L.
    replace 4%nat with (length cs + 0)%nat by lia. rewrite firstn_app_2. cbn. apply app_nil_r.
Qed.

(** The keys that a string can stand for. *)
Definition importable (x : xkey) : Prop :=
  xkey_ok x /\ match x with Xpub _ _ _ _ None => False | _ => True end.

Lemma payload_len : forall v x, xkey_ok x -> len v = 4 -> len (payload v x) = 78.
Proof.
  intros v [d fp num c k | d fp num c K] ((_ & (_ & Lf) & (_ & Ln) & (_ & Lc)) & _) Lv; unfold payload.
  - rewrite !len_app, Lv, Lf, Ln, Lc. unfold ser256. rewrite <- (len_length (octets 32 k)), octets_length. reflexivity.
  - rewrite !len_app, Lv, Lf, Ln, Lc. rewrite (proj2 (serP_ok K)). reflexivity.
Qed.

Lemma payload_ok : forall v x, xkey_ok x -> bytes_ok v -> bytes_ok (payload v x).
Proof.
  intros v x Ox Ov. assert (One : forall b, is_byte b -> bytes_ok [b]) by (intros b Hb; apply Forall_cons; [exact Hb | constructor]).
  destruct x as [d fp num c k | d fp num c K]; destruct Ox as ((Hd & (Of & _) & (On & _) & (Oc & _)) & _); unfold payload;
    rewrite !bytes_ok_app.
  - split; [exact Ov | ]. split; [apply One; exact Hd | ]. split; [exact Of | ]. split; [exact On | ]. split; [exact Oc | ].
    split; [apply One; unfold is_byte; lia | apply octets_ok].
  - split; [exact Ov | ]. split; [apply One; exact Hd | ]. split; [exact Of | ]. split; [exact On | ]. split; [exact Oc | ].
    apply serP_ok.
Qed.

(** Reading the bytes of a key. *)
Lemma import_payload : forall s v x cs, importable x -> len v = 4 -> Base58Decode s = payload v x ++ cs ->
  check_bytes sha256 (payload v x) cs ->
  exists h, NewHDKeyFromString sha256 s = Ok h /\ represents h x.
Proof.
  intros s v x cs (Ox & Ix) Lv E C. pose proof (proj1 C) as Ls. apply (check_iff4 _ _ Ls) in C.
  destruct x as [d fp num c k | d fp num c K]; cbn [payload] in *.
  - destruct Ox as ((_ & (_ & Lf) & (_ & Ln) & (_ & Lc)) & Hk).
    rewrite (import_eq s v d fp num c 0 (ser256 k) cs E) by
      (assumption || (unfold ser256; rewrite <- len_length, octets_length; reflexivity)).
    destruct (multiple_ex k (proj1 Hk)) as (K & MK).
    change (0 =? 0) with true. cbv iota. unfold ser256. rewrite (prv_from (octets 32 k) K).
    + cbn [rbind]. unfold ser256 in C. cbn [app] in C |- *. rewrite C, list_Z_eqb_refl. eexists. split; [reflexivity | ].
      exists K. split; [exact MK | ]. rewrite be_octets by exact Hk. reflexivity.
    + apply octets_ok.
    + rewrite be_octets by exact Hk. exact MK.
  - destruct Ox as ((_ & (_ & Lf) & (_ & Ln) & (_ & Lc)) & G). destruct K as [[x y] | ]; [ | contradiction].
    unfold serP in *. cbn [px py] in *.
    rewrite (import_eq s v d fp num c (2 + parity y) (octets 32 x) cs E) by
      (assumption || (rewrite <- len_length, octets_length; reflexivity)).
    assert (N : (2 + parity y =? 0) = false).
    { apply Z.eqb_neq. unfold parity. pose proof (Z.mod_pos_bound y 2 ltac:(lia)). lia. }
    rewrite N. destruct (C70_roundtrip x y G) as (S1 & _ & _ & H).
    destruct (H SerializeCompressed _ ltac:(cbn; tauto) S1) as (_ & PK). rewrite PK. cbn [rbind].
    rewrite C, list_Z_eqb_refl. eexists. split; reflexivity.
Qed.

Lemma import_inv : forall s, 
  (exists v x cs h, importable x /\ bytes_ok v /\ len v = 4 /\ Base58Decode s = payload v x ++ cs /\
     check_bytes sha256 (payload v x) cs /\ NewHDKeyFromString sha256 s = Ok h /\ represents h x)
  \/ (exists e, NewHDKeyFromString sha256 s = Err e).
Proof.
  intro s. destruct (len (Base58Decode s) =? 82) eqn:L.
  2:{ right. unfold NewHDKeyFromString. change (serializedKeyLen + 4) with 82. rewrite L. eexists. reflexivity. }
  apply Z.eqb_eq in L. destruct (cut82 _ L) as (v & d & fp & num & c & m & kb & cs & E & Lv & Lf & Ln & Lc & Lk & Ls).
  pose proof (base58_decode_bytes s) as O. rewrite E in O.
  apply bytes_ok_app in O. destruct O as (O & Os). apply bytes_ok_app in O. destruct O as (Ov & O).
  apply bytes_ok_app in O. destruct O as (Od & O). apply bytes_ok_app in O. destruct O as (Of & O).
  apply bytes_ok_app in O. destruct O as (On & O). apply bytes_ok_app in O. destruct O as (Oc & Om).
  assert (Hd : is_byte d) by (apply bytes_ok_cons in Od; apply Od).
  assert (F : fields_ok d fp num c) by (repeat split; assumption || apply Hd).
  pose proof (import_eq s v d fp num c m kb cs E Lv Lf Ln Lc Lk Ls) as Q.
  set (body := v ++ [d] ++ fp ++ num ++ c ++ m :: kb) in *.
  destruct (m =? 0) eqn:M.
  - apply Z.eqb_eq in M. subst m. apply bytes_ok_cons in Om. destruct Om as (_ & Ok_).
    pose proof (be_lt32 kb Ok_ Lk) as Hk. destruct (multiple_ex (be kb) (proj1 Hk)) as (K & MK).
    rewrite (prv_from kb K Ok_ MK) in Q. cbn [rbind] in Q.
    destruct (list_Z_eqb (firstn 4 (sha256 (sha256 body))) cs) eqn:C; [ | right; eexists; exact Q].
    apply list_Z_eqb_spec in C. apply (check_iff4 _ _ Ls) in C. left.
    assert (EP : payload v (Xprv d fp num c (be kb)) = body).
    { unfold body, payload, ser256. rewrite <- len_length in Lk. rewrite be_set_bytes.
      replace 32%nat with (length kb) by lia. rewrite octets_set by exact Ok_. reflexivity. }
    exists v, (Xprv d fp num c (be kb)), cs. eexists. rewrite EP.
    split; [split; [split; [exact F | exact Hk] | exact I] | ].
    split; [exact Ov | ]. split; [exact Lv | ]. split; [exact E | ]. split; [exact C | ].
    split; [exact Q | ]. exists K. split; [exact MK | reflexivity].
  - destruct (PubKeyFromBytes (m :: kb)) as [[x y] | e | ] eqn:PK.
    + cbn [rbind] in Q.
      destruct (list_Z_eqb (firstn 4 (sha256 (sha256 body))) cs) eqn:C; [ | right; eexists; exact Q].
      apply list_Z_eqb_spec in C. apply (check_iff4 _ _ Ls) in C. left.
      assert (LM : length (m :: kb) = 33%nat) by (cbn [length]; rewrite <- len_length in Lk; lia).
      apply (C70_parse_exact _ _ _ Om) in PK.
      assert (EM : m :: kb = (2 + parity y) :: octets 32 x /\ good (Some (x, y))).
      { destruct PK as [[EN G] | [EN G]].
        - apply encodes_inv in EN. destruct EN as [EN | [EN | EN]]; [split; assumption | exfalso | exfalso];
            rewrite EN in LM; cbn [length] in LM; rewrite app_length, !octets_length in LM; discriminate LM.
        - exfalso. rewrite EN in LM. cbn [length] in LM. rewrite app_length, !octets_length in LM. discriminate LM. }
      destruct EM as (EM & G).
      assert (EP : payload v (Xpub d fp num c (Some (x, y))) = body).
      { unfold body. rewrite EM. reflexivity. }
      exists v, (Xpub d fp num c (Some (x, y))), cs. eexists. rewrite EP.
      split; [split; [split; [exact F | exact G] | exact I] | ].
      split; [exact Ov | ]. split; [exact Lv | ]. split; [exact E | ]. split; [exact C | ].
      split; [exact Q | ]. reflexivity.
    + right. exists e. exact Q.
    + exfalso. exact (C70_total _ Om PK).
Qed.

(** Writing a key. *)
Lemma export_eq : forall prvID pubID h x, xkey_ok x -> represents h x ->
  ToString sha256 prvID pubID h =
  Ok (Base58Encode (let b := payload (match x with Xprv _ _ _ _ _ => prvID | _ => pubID end) x in
                    b ++ firstn 4 (sha256 (sha256 b)))).
Proof.
  intros prvID pubID h [d fp num c k | d fp num c K] (_ & Ok_) R.
  - destruct R as (K & MK & ->). unfold ToString. cbn [hk_isPrivate hk_prv need rbind fst hk_depth hk_parentFP hk_childNum hk_chainCode].
    rewrite prv_ser by exact Ok_. cbn [payload].
    rewrite (slice_head _ 4) by (destruct (HS (sha256 (prvID ++ [d] ++ fp ++ num ++ c ++ [0] ++ ser256 k))) as (Q & _); rewrite Q; lia).
    reflexivity.
  - cbn in R. subst h. unfold ToString. cbn [hk_isPrivate hk_pub need rbind hk_depth hk_parentFP hk_childNum hk_chainCode].
    rewrite serialize_ok by exact Ok_. cbn [rbind payload].
    rewrite (slice_head _ 4) by (destruct (HS (sha256 (pubID ++ [d] ++ fp ++ num ++ c ++ serP K))) as (Q & _); rewrite Q; lia).
    reflexivity.
Qed.
End Str.

(** ** Paths *)
Definition no_slash (s : bytes) : Prop := ~ In 47 s.

Lemma split_text : forall s cur steps, no_slash s -> Forall no_slash steps ->
  split_slash (s ++ concat (map (cons 47) steps)) cur = (cur ++ s) :: steps.
Proof.
  intro s. induction s as [ | c s IH]; intros cur steps Hs Ht.
  - rewrite app_nil_r. cbn [app]. revert cur. induction Ht as [ | t ts Hn _ IH]; intro cur; [reflexivity | ].
    cbn [map concat app split_slash]. change (47 =? 47) with true. cbv iota. f_equal.
    clear cur. change (t :: ts) with (([] ++ t) :: ts). generalize (@nil Z) as cur. revert Hn. clear - IH.
    induction t as [ | c t IHt]; intros Hn cur; cbn [app].
    + rewrite app_nil_r. apply IH.
    + cbn [split_slash]. destruct (c =? 47) eqn:E.
      * apply Z.eqb_eq in E. subst c. exfalso. apply Hn. left. reflexivity.
      * rewrite IHt by (intro Q; apply Hn; right; exact Q). rewrite <- app_assoc. reflexivity.
  - cbn [app split_slash]. destruct (c =? 47) eqn:E.
    + apply Z.eqb_eq in E. subst c. exfalso. apply Hs. left. reflexivity.
    + rewrite IH by (try assumption; intro Q; apply Hs; right; exact Q). rewrite <- app_assoc. reflexivity.
Qed.

Lemma split_inv : forall p cur, no_slash cur -> exists s steps, split_slash p cur = s :: steps /\
  cur ++ p = s ++ concat (map (cons 47) steps) /\ Forall no_slash (s :: steps).
Proof.
  induction p as [ | c p IH]; intros cur Hc.
  - exists cur, []. split; [reflexivity | ]. split; [reflexivity | ]. constructor; [exact Hc | constructor].
  - cbn [split_slash]. destruct (c =? 47) eqn:E.
    + apply Z.eqb_eq in E. subst c. destruct (IH [] ltac:(intros [])) as (s & steps & E1 & E2 & F).
      exists cur, (s :: steps). rewrite E1. split; [reflexivity | ]. cbn [map concat]. split.
      * f_equal. cbn [app] in E2 |- *. f_equal. exact E2.
      * constructor; [exact Hc | exact F].
    + apply Z.eqb_neq in E. destruct (IH (cur ++ [c])) as (s & steps & E1 & E2 & F).
      * intro Q. apply in_app_iff in Q. destruct Q as [Q | [Q | []]]; [exact (Hc Q) | congruence].
      * exists s, steps. rewrite <- app_assoc in E2. split; [exact E1 | ]. split; [exact E2 | exact F].
Qed.

Lemma digits_range : forall s n, digits s n -> 0 <= n /\ Forall (fun c => 48 <= c <= 57) s.
Proof.
  induction 1 as [ | c s v Hc _ (IH1 & IH2)]; [split; [lia | constructor] | ].
  split; [ | constructor; assumption]. pose proof (Z.pow_nonneg 10 (Z.of_nat (length s)) ltac:(lia)). nia.
Qed.

Lemma digits_fold : forall s n acc, digits s n ->
  fold_left (fun acc c => acc * 10 + (c - 48)) s acc = acc * 10 ^ Z.of_nat (length s) + n.
Proof.
  intros s n acc H. revert acc. induction H as [ | c s v Hc _ IH]; intro acc.
  - cbn. lia.
  - cbn [fold_left length]. rewrite IH. rewrite Nat2Z.inj_succ, Z.pow_succ_r by lia. ring.
Qed.

Lemma digits_ex : forall s, forallb is_digit s = true -> exists n, digits s n.
Proof.
  induction s as [ | c s IH]; intro H; [exists 0; constructor | ].
  cbn [forallb] in H. apply andb_true_iff in H. destruct H as (H1 & H2). destruct (IH H2) as (n & D).
  unfold is_digit in H1. apply andb_true_iff in H1. destruct H1 as (A & B). apply Z.leb_le in A, B.
  eexists. constructor; [split; assumption | exact D].
Qed.

Lemma parse_ok : forall s n, s <> [] -> digits s n -> n < 2 ^ 32 -> ParseUint32 s = Some n.
Proof.
  intros s n N D B. unfold ParseUint32. destruct (digits_range s n D) as (_ & F).
  assert (E : (0 <? len s) && forallb is_digit s = true).
  { apply andb_true_iff. split.
    - apply Z.ltb_lt. rewrite <- len_length. destruct s; [congruence | cbn; lia].
    - apply forallb_forall. intros c Hc. rewrite Forall_forall in F. specialize (F c Hc).
      unfold is_digit. apply andb_true_iff. split; apply Z.leb_le; lia. }
  rewrite E. rewrite (digits_fold s n 0 D).
  replace (0 * 10 ^ Z.of_nat (length s) + n) with n by lia.
  replace (n <=? 2 ^ 32 - 1) with true by (symmetry; apply Z.leb_le; lia). reflexivity.
Qed.

Lemma parse_inv : forall s n, ParseUint32 s = Some n -> s <> [] /\ digits s n /\ n < 2 ^ 32.
Proof.
  intros s n. unfold ParseUint32. destruct ((0 <? len s) && forallb is_digit s) eqn:E; [ | discriminate].
  apply andb_true_iff in E. destruct E as (E1 & E2). destruct (digits_ex s E2) as (v & D).
  rewrite (digits_fold s v 0 D). replace (0 * 10 ^ Z.of_nat (length s) + v) with v by lia.
  destruct (v <=? 2 ^ 32 - 1) eqn:B; [ | discriminate]. intro Q. injection Q as <-.
  apply Z.leb_le in B. split; [ | split; [exact D | lia]]. intros ->. discriminate E1.
Qed.

Lemma digits_no : forall s n c, digits s n -> (c < 48 \/ 57 < c) -> ~ In c s.
Proof.
  intros s n c D H Q. destruct (digits_range _ _ D) as (_ & F). rewrite Forall_forall in F.
  specialize (F c Q). lia.
Qed.

Lemma step_no_slash : forall s t, step_text s t -> no_slash s.
Proof.
  intros s t H. destruct H as [s n N D | s n N D]; intro Q.
  - revert Q. apply (digits_no s n); [exact D | lia].
  - apply in_app_iff in Q. destruct Q as [Q | [Q | []]]; [ | discriminate].
    revert Q. apply (digits_no s n); [exact D | lia].
Qed.

Section Path.
Variable hmac512 : bytes -> bytes -> bytes.
Variable hash160 : bytes -> bytes.

(** Deriving the named children one by one. *)
Fixpoint derive_all (h : hdkey) (is : list Z) : res hdkey :=
  match is with
  | [] => Ok h
  | i :: r => let! h' := Derive hmac512 hash160 h i in derive_all h' r
  end.

Lemma last_app : forall (s : bytes) c, index (s ++ [c]) (len (s ++ [c]) - 1) = Ok c.
Proof. intros s c. apply index_at. rewrite len_app. change (len [c]) with 1. lia. Qed.

(** What one step of the loop does. *)
Lemma loop_step : forall h s t rest, step_text s t -> fst t < 2 ^ 32 ->
  path_loop hmac512 hash160 h (s :: rest) =
  let! h' := Derive hmac512 hash160 h (child_index t mod 2 ^ 32) in path_loop hmac512 hash160 h' rest.
Proof.
  intros h s t rest H B. destruct H as [s n N D | s n N D]; cbn [fst] in B; cbn [path_loop child_index fst snd].
  - assert (exists s' c, s = s' ++ [c]) as (s' & c & ->) by
      (destruct (exists_last N) as (s' & c & E); exists s', c; exact E).
    rewrite last_app. cbn [rbind].
    assert (Hc : c <> 39).
    { intros ->. apply (digits_no _ n 39 D); [lia | ]. apply in_app_iff. right. left. reflexivity. }
    replace (c =? 39) with false by (symmetry; apply Z.eqb_neq; exact Hc). cbv iota.
    rewrite (parse_ok _ n N D B). reflexivity.
  - rewrite last_app. cbn [rbind]. change (39 =? 39) with true. cbv iota.
    rewrite app_length. cbn [length]. replace (length s + 1 - 1)%nat with (length s + 0)%nat by lia.
    rewrite firstn_app_2. cbn [firstn]. rewrite app_nil_r. rewrite (parse_ok _ n N D B).
    unfold u64, HardenedKeyStart. change 2147483648 with (2 ^ 31).
    rewrite (Z.mod_small (n + 2 ^ 31)); [reflexivity | ].
    pose proof (proj1 (digits_range _ _ D)). split; [lia | ].
    apply Z.lt_trans with (2 ^ 32 + 2 ^ 31); [lia | reflexivity].
Qed.

(** A step of any text. *)
Lemma loop_cases : forall s, no_slash s -> 
  (s = [] /\ forall h rest, path_loop hmac512 hash160 h (s :: rest) = Panic) \/
  (exists t, step_text s t /\ fst t < 2 ^ 32) \/
  (s <> [] /\ (forall t, step_text s t -> 2 ^ 32 <= fst t) /\
   forall h rest, path_loop hmac512 hash160 h (s :: rest) = Err "hdkey.derive.path.invalid").
Proof.
  intros s _. destruct s as [ | c0 s0].
  { left. split; [reflexivity | ]. intros h rest. reflexivity. }
  right. assert (N : c0 :: s0 <> []) by discriminate. revert N. generalize (c0 :: s0) as s. intros s N.
  destruct (exists_last N) as (s' & c & E).
  destruct (c =? 39) eqn:H.
  - apply Z.eqb_eq in H. subst c. destruct (ParseUint32 s') as [n | ] eqn:P.
    + left. destruct (parse_inv _ _ P) as (N' & D & B). exists (n, true). rewrite E. split; [constructor; assumption | exact B].
    + right. split; [exact N | ]. split.
      * intros t T. destruct T as [s n Nn D | s n Nn D].
        -- exfalso. apply (digits_no _ n 39 D); [lia | ]. rewrite E. apply in_app_iff. right. left. reflexivity.
        -- apply app_inj_tail in E. destruct E as (-> & _). cbn [fst].
           destruct (Z_lt_le_dec n (2 ^ 32)) as [B | B]; [ | exact B].
           rewrite (parse_ok _ n Nn D B) in P. discriminate P.
      * intros h rest. rewrite E. cbn [path_loop]. rewrite last_app. cbn [rbind]. change (39 =? 39) with true. cbv iota.
        rewrite app_length. cbn [length]. replace (length s' + 1 - 1)%nat with (length s' + 0)%nat by lia.
        rewrite firstn_app_2. cbn [firstn]. rewrite app_nil_r. rewrite P. reflexivity.
  - destruct (ParseUint32 s) as [n | ] eqn:P.
    + left. destruct (parse_inv _ _ P) as (N' & D & B). exists (n, false). split; [constructor; assumption | exact B].
    + right. split; [exact N | ]. split.
      * intros t T. destruct T as [s n Nn D | s n Nn D].
        -- cbn [fst]. destruct (Z_lt_le_dec n (2 ^ 32)) as [B | B]; [ | exact B].
           rewrite (parse_ok _ n Nn D B) in P. discriminate P.
        -- apply app_inj_tail in E. destruct E as (_ & <-). discriminate H.
      * intros h rest. cbn [path_loop]. rewrite E at 1 2. rewrite last_app. cbn [rbind]. rewrite H. rewrite P. reflexivity.
Qed.

Lemma loop_steps : forall steps sems h, Forall2 step_text steps sems -> Forall (fun t => fst t < 2 ^ 32) sems ->
  path_loop hmac512 hash160 h steps = derive_all h (map (fun t => child_index t mod 2 ^ 32) sems).
Proof.
  intros steps sems h F. revert h. induction F as [ | s t ss ts H _ IH]; intros h B; [reflexivity | ].
  apply Forall_cons_iff in B. destruct B as (B1 & B2).
  rewrite (loop_step h s t ss H B1). cbn [map derive_all].
  destruct (Derive hmac512 hash160 h (child_index t mod 2 ^ 32)) as [h' | e | ]; cbn [rbind]; [ | reflexivity | reflexivity].
  apply IH. exact B2.
Qed.

Lemma loop_inv : forall steps h h', Forall no_slash steps -> path_loop hmac512 hash160 h steps = Ok h' ->
  exists sems, Forall2 step_text steps sems /\ Forall (fun t => fst t < 2 ^ 32) sems.
Proof.
  induction steps as [ | s ss IH]; intros h h' F E; [exists []; split; constructor | ].
  apply Forall_cons_iff in F. destruct F as (F1 & F2).
  destruct (loop_cases s F1) as [(_ & Q) | [(t & T & B) | (_ & _ & Q)]].
  - rewrite Q in E. discriminate E.
  - rewrite (loop_step h s t ss T B) in E.
    destruct (Derive hmac512 hash160 h (child_index t mod 2 ^ 32)) as [h1 | e | ]; cbn [rbind] in E; try discriminate E.
    destruct (IH h1 h' F2 E) as (sems & G1 & G2). exists (t :: sems). split; constructor; assumption.
  - rewrite Q in E. discriminate E.
Qed.

(** When it panics, for keys whose Derive does not. *)
Lemma loop_panic : forall (ok : hdkey -> Prop),
  (forall h i, ok h -> 0 <= i < 2 ^ 32 -> Derive hmac512 hash160 h i <> Panic) ->
  (forall h i h', ok h -> 0 <= i < 2 ^ 32 -> Derive hmac512 hash160 h i = Ok h' -> ok h') ->
  forall steps h, ok h -> Forall no_slash steps ->
  (path_loop hmac512 hash160 h steps = Panic <->
   exists ss ts sems h', steps = ss ++ [] :: ts /\ Forall2 step_text ss sems /\ Forall (fun t => fst t < 2 ^ 32) sems /\
     derive_all h (map (fun t => child_index t mod 2 ^ 32) sems) = Ok h').
Proof.
  intros ok NP PR. induction steps as [ | s ss IH]; intros h Hh F.
  - split; [discriminate | ]. intros (ss & ts & _ & _ & E & _). destruct ss; discriminate E.
  - apply Forall_cons_iff in F. destruct F as (F1 & F2).
    destruct (loop_cases s F1) as [(-> & Q) | [(t & T & B) | (N & G & Q)]].
    + rewrite Q. split; [intros _ | reflexivity]. exists [], ss, [], h.
      split; [reflexivity | ]. split; [constructor | ]. split; [constructor | reflexivity].
    + rewrite (loop_step h s t ss T B).
      pose proof (Z.mod_pos_bound (child_index t) (2 ^ 32) ltac:(reflexivity)) as R.
      split.
      * destruct (Derive hmac512 hash160 h (child_index t mod 2 ^ 32)) as [h1 | e | ] eqn:E; cbn [rbind].
        -- intro Q. apply (IH h1 (PR _ _ _ Hh R E) F2) in Q.
           destruct Q as (ss' & ts & sems & h' & -> & Q1 & Q2 & Q3).
           exists (s :: ss'), ts, (t :: sems), h'. split; [reflexivity | ]. split; [constructor; assumption | ].
           split; [constructor; assumption | ]. cbn [map derive_all]. rewrite E. exact Q3.
        -- discriminate.
        -- exfalso. exact (NP _ _ Hh R E).
      * intros (ss' & ts & sems & h' & E & Q1 & Q2 & Q3).
        destruct Q1 as [ | s1 t1 ss1 ts1 T1 Q1].
        -- exfalso. cbn [app] in E. injection E as -> _. inversion T as [s0 n0 N0 D0 | s0 n0 N0 D0 EE].
           ++ congruence.
           ++ destruct s0; discriminate EE.
        -- cbn [app] in E. injection E as -> ->. apply Forall_cons_iff in Q2. destruct Q2 as (B1 & Q2).
           assert (ET : t1 = t).
           { clear - T T1. inversion T as [a n N D E1 E2 | a n N D E1 E2]; inversion T1 as [a' n' N' D' E1' E2' | a' n' N' D' E1' E2']; subst.
             - f_equal. pose proof (digits_fold _ _ 0 D) as Q1. pose proof (digits_fold _ _ 0 D') as Q2. lia.
             - exfalso. apply (digits_no _ n 39 D); [lia | ]. apply in_app_iff. right. left. reflexivity.
             - exfalso. apply (digits_no _ n' 39 D'); [lia | ]. apply in_app_iff. right. left. reflexivity.
             - apply app_inj_tail in E1'. destruct E1' as (-> & _).
               f_equal. pose proof (digits_fold _ _ 0 D) as Q1. pose proof (digits_fold _ _ 0 D') as Q2. lia. }
           subst t1. cbn [map derive_all] in Q3.
           destruct (Derive hmac512 hash160 h (child_index t mod 2 ^ 32)) as [h1 | e | ] eqn:E; cbn [rbind] in Q3 |- *; try discriminate Q3.
           apply (IH h1 (PR _ _ _ Hh R E) F2). exists ss1, ts, ts1, h'. auto.
    + rewrite Q. split; [discriminate | ]. intros (ss' & ts & sems & h' & E & Q1 & Q2 & Q3). exfalso.
      destruct Q1 as [ | s1 t1 ss1 ts1 T1 Q1].
      * cbn [app] in E. injection E as -> _. congruence.
      * cbn [app] in E. injection E as -> _. apply Forall_cons_iff in Q2. destruct Q2 as (B1 & _).
        pose proof (G _ T1) as G1. cbn beta in B1. exact (Zle_not_lt _ _ G1 B1).
Qed.
End Path.
