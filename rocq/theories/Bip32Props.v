(** C54, C55, C56, C57, C95, C96: BIP 32 extended keys. *)

From Verif Require Import GoBase BaseLemmas BigInt BigIntProofs NumTheory BigMod Sha256 Sha256Proofs SecpModel SecpGroup SecpOrder SecpOrderN SecpProofs SecpCyclic SecpSpec SecpLink EcdsaModel EcdsaSpec EcdsaNonce EcdsaProofs PubKeyModel PubKeySpec PubKeyProofs SchnorrProofs PubKeyProps Base58Model Base58Spec Base58Proofs Base58Props AddressSpec Bip32Model Bip32Spec Bip32Proofs.
Local Open Scope Z_scope.

(** HMAC-SHA512 and HASH160, as far as the library relies on them. *)
Definition mac64 (f : bytes -> bytes -> bytes) : Prop := forall k d, len (f k d) = 64 /\ bytes_ok (f k d).
Definition hash20 (f : bytes -> bytes) : Prop := forall b, len (f b) = 20 /\ bytes_ok (f b).

Definition is_private (x : xkey) : Prop := exists d fp num c k, x = Xprv d fp num c k.
Definition is_public (x : xkey) : Prop := exists d fp num c K, x = Xpub d fp num c K.

Lemma represents_fun : forall h h' x, represents h x -> represents h' x -> h = h'.
Proof.
  intros h h' [d fp num c k | d fp num c K]; cbn.
  - intros (K & M & ->) (K' & M' & ->). rewrite (multiple_fun _ _ _ M M'). reflexivity.
  - congruence.
Qed.

Lemma ckd_priv_inv : forall hm hh d fp num c k i y, ckd_priv hm hh (Xprv d fp num c k) i y ->
  exists K IL IR, multiple base k K /\ len IL = 32 /\
    hm c ((if i <? 2 ^ 31 then serP K else 0 :: ser256 k) ++ ser32 i) = IL ++ IR /\
    y = Xprv ((d + 1) mod 256) (firstn 4 (hh (serP K))) (ser32 i) IR ((be IL + k) mod order_n).
Proof. intros hm hh d fp num c k i y C. inversion C; subst. repeat eexists; eassumption. Qed.

Lemma ckd_pub_inv : forall hm hh d fp num c K i y, ckd_pub hm hh (Xpub d fp num c K) i y ->
  exists IL IR Q R, len IL = 32 /\ hm c (serP K ++ ser32 i) = IL ++ IR /\
    multiple base (be IL) Q /\ sum_of Q K R /\
    y = Xpub ((d + 1) mod 256) (firstn 4 (hh (serP K))) (ser32 i) IR R.
Proof. intros hm hh d fp num c K i y C. inversion C; subst. repeat eexists; eassumption. Qed.

Lemma left_half : forall X IL IR : bytes, X = IL ++ IR -> len IL = 32 -> IL = firstn 32 X.
Proof.
  intros X IL IR -> L. rewrite <- len_length in L. replace 32%nat with (length IL + 0)%nat by lia.
  rewrite firstn_app_2. cbn. symmetry. apply app_nil_r.
Qed.

(** ** C54 *)

(** A key written for a network and read again is the same key; the string is
    the Base58 of the 78 bytes and a four-byte checksum. *)
Theorem C54_roundtrip : forall sha256 prvID pubID h x, hash32 sha256 ->
  bytes_ok prvID -> len prvID = 4 -> bytes_ok pubID -> len pubID = 4 ->
  importable x -> represents h x ->
  exists s c version, ToString sha256 prvID pubID h = Ok s /\ NewHDKeyFromString sha256 s = Ok h /\
    version = match x with Xprv _ _ _ _ _ => prvID | Xpub _ _ _ _ _ => pubID end /\
    Base58Decode s = payload version x ++ c /\ check_bytes sha256 (payload version x) c.
Proof.
  intros sha prvID pubID h x HS O1 L1 O2 L2 Hx R. pose proof (proj1 Hx) as Ox.
  rewrite (export_eq sha HS prvID pubID h x Ox R).
  set (v := match x with Xprv _ _ _ _ _ => prvID | Xpub _ _ _ _ _ => pubID end).
  assert (Hv : bytes_ok v /\ len v = 4) by (unfold v; destruct x; split; assumption). destruct Hv as (Ov & Lv).
  set (cs := firstn 4 (sha (sha (payload v x)))).
  assert (LC : len cs = 4) by (unfold cs; destruct (HS (sha (payload v x))) as (Q & _); unfold len in *; rewrite firstn_length; lia).
  assert (OC : bytes_ok cs) by (apply bytes_ok_firstn; apply HS).
  assert (C : check_bytes sha (payload v x) cs) by (apply (check_iff4 sha HS); [exact LC | reflexivity]).
  eexists. exists cs, v. split; [reflexivity | ]. cbv zeta. fold cs.
  assert (D : Base58Decode (Base58Encode (payload v x ++ cs)) = payload v x ++ cs).
  { apply C05_base58_decode_encode. apply bytes_ok_app. split; [apply payload_ok; assumption | exact OC]. }
  split; [ | split; [reflexivity | split; [exact D | exact C]]].
  destruct (import_payload sha HS _ v x cs Hx Lv D C) as (h' & E & R').
  rewrite E. f_equal. exact (represents_fun _ _ _ R' R).
Qed.
Print Assumptions C54_roundtrip.

(** The secret one at depth 255. *)
Definition ex_prv : xkey := Xprv 255 [1; 2; 3; 4] [128; 0; 0; 0] (repeat 7 32) 258.
Definition ex_pub : xkey := Xpub 0 [0; 0; 0; 0] [0; 0; 0; 0] (repeat 0 32) base.
Lemma base_is_good : good base.
Proof. exact (gof_is_good _ _ gof_base). Qed.
Example ex_importable : importable ex_prv /\ importable ex_pub /\
  (exists h, represents h ex_prv) /\ (exists h, represents h ex_pub).
Proof.
  assert (B : forall l, forallb (fun b => (0 <=? b) && (b <? 256)) l = true -> bytes_ok l).
  { intros l H. apply Forall_forall. intros b Hb. rewrite forallb_forall in H. specialize (H b Hb).
    apply andb_true_iff in H. destruct H as (P & Q). apply Z.leb_le in P. apply Z.ltb_lt in Q. split; assumption. }
  split; [ | split; [ | split]].
  - split; [ | exact I]. split; [ | split; [discriminate | reflexivity]].
    split; [split; [discriminate | reflexivity] | ]. repeat split; try reflexivity; apply B; reflexivity.
  - split; [ | exact I]. split; [ | exact base_is_good].
    split; [split; [discriminate | reflexivity] | ]. repeat split; try reflexivity; apply B; reflexivity.
  - destruct (multiple_ex 258 ltac:(lia)) as (K & M). eexists. exists K. split; [exact M | reflexivity].
  - eexists. reflexivity.
Qed.

(** ** C96 *)

(** What NewHDKeyFromString accepts, and what it returns, for every string. *)
Theorem C96_exact : forall sha256 s h, hash32 sha256 ->
  NewHDKeyFromString sha256 s = Ok h <->
  exists version x c, len version = 4 /\ importable x /\ represents h x /\
    Base58Decode s = payload version x ++ c /\ check_bytes sha256 (payload version x) c.
Proof.
  intros sha s h HS. split.
  - intro E. destruct (import_inv sha HS s) as [(v & x & cs & h' & I1 & _ & Lv & D & C & E' & R) | (e & E')].
    + rewrite E in E'. injection E' as <-. exists v, x, cs. auto.
    + rewrite E in E'. discriminate E'.
  - intros (v & x & cs & Lv & Hx & R & D & C).
    destruct (import_payload sha HS s v x cs Hx Lv D C) as (h' & E & R').
    rewrite E. f_equal. exact (represents_fun _ _ _ R' R).
Qed.
Print Assumptions C96_exact.

Theorem C96_total : forall sha256 s, hash32 sha256 -> NewHDKeyFromString sha256 s <> Panic.
Proof.
  intros sha s HS. destruct (import_inv sha HS s) as [(v & x & cs & h' & _ & _ & _ & _ & _ & E & _) | (e & E)];
    rewrite E; discriminate.
Qed.
Print Assumptions C96_total.

(** BIP 32 version bytes: main and test network, public and private. *)
Definition known_version (v : bytes) : Prop :=
  In v [[4; 136; 173; 228]; [4; 136; 178; 30]; [4; 53; 131; 148]; [4; 53; 135; 207]].

(** The version is not looked at, so a private key is accepted under the version
    of a public one and under a version of no network. *)
Theorem C96_version_refuted : exists s h version x c,
  NewHDKeyFromString sha256 s = Ok h /\ represents h x /\ is_private x /\
  Base58Decode s = payload version x ++ c /\ len version = 4 /\ ~ known_version version.
Proof.
  destruct ex_importable as (I1 & _ & (h & R) & _).
  assert (O : bytes_ok [0; 1; 2; 3]) by (apply bytes_ok_forallb; reflexivity).
  destruct (C54_roundtrip sha256 [0; 1; 2; 3] [0; 1; 2; 3] h ex_prv C06_hypothesis O eq_refl O eq_refl I1 R)
    as (s & c & v & _ & E & Ev & D & _).
  exists s, h, v, ex_prv, c. split; [exact E | ]. split; [exact R | ].
  split; [repeat eexists | ]. split; [exact D | ]. subst v. split; [reflexivity | ].
  intros [Q | [Q | [Q | [Q | []]]]]; discriminate Q.
Qed.
Print Assumptions C96_version_refuted.

(** Secrets of 0 and of the order and above are accepted. *)
Theorem C96_secret_refuted : exists s0 s1 h0 h1,
  NewHDKeyFromString sha256 s0 = Ok h0 /\ option_map fst (hk_prv h0) = Some 0 /\
  NewHDKeyFromString sha256 s1 = Ok h1 /\ option_map fst (hk_prv h1) = Some order_n.
Proof.
  assert (H : forall k, 0 <= k < 2 ^ 256 -> exists s h, NewHDKeyFromString sha256 s = Ok h /\ option_map fst (hk_prv h) = Some k).
  { intros k Hk. set (x := Xprv 255 [1; 2; 3; 4] [128; 0; 0; 0] (repeat 7 32) k).
    destruct (multiple_ex k (proj1 Hk)) as (K & M).
    assert (R : represents (MkHDKey [128; 0; 0; 0] [1; 2; 3; 4] (repeat 7 32) 255 true (Some (k, (px K, py K))) None) x)
      by (exists K; split; [exact M | reflexivity]).
    destruct ex_importable as (((F & _) & _) & _).
    assert (Hx : importable x) by (split; [split; [exact F | exact Hk] | exact I]).
    assert (O : bytes_ok [4; 136; 173; 228]) by (apply bytes_ok_forallb; reflexivity).
    destruct (C54_roundtrip sha256 _ _ _ x C06_hypothesis O eq_refl O eq_refl Hx R) as (s & c & v & _ & E & _).
    exists s. eexists. split; [exact E | reflexivity]. }
  destruct (H 0) as (s0 & h0 & E0 & P0); [split; [discriminate | reflexivity] | ].
  destruct (H order_n) as (s1 & h1 & E1 & P1); [split; [discriminate | reflexivity] | ].
  exists s0, s1, h0, h1. auto.
Qed.
Print Assumptions C96_secret_refuted.

(** The first test vector of BIP 32, and the same with a character changed. *)
Example ex_vector1 : exists h,
  NewHDKeyFromString sha256 (str_bytes "xprv9s21ZrQH143K3QTDL4LXw2F7HEK3wJUD2nW2nRk4stbPy6cq3jPPqjiChkVvvNKmPGJxWUtg6LnF5kejMRNNU3TGtRBeJgk33yuGBxrMPHi") = Ok h /\
  option_map fst (hk_prv h) = Some 0xe8f32e723decf4051aefac8e2c93c9c5b214313817cdb01a1494b917c8436b35 /\
  hk_chainCode h = hx "873dff81c02f525623fd1fe5167eac3a55a049de3d314bb42ee227ffed37d508" /\
  hk_depth h = 0 /\ hk_childNum h = [0; 0; 0; 0] /\ hk_parentFP h = [0; 0; 0; 0].
Proof.
  set (k := 0xe8f32e723decf4051aefac8e2c93c9c5b214313817cdb01a1494b917c8436b35).
  destruct (multiple_ex k ltac:(discriminate)) as (K & M).
  eexists. split.
  - apply (C96_exact sha256 _ (MkHDKey [0; 0; 0; 0] [0; 0; 0; 0] (hx "873dff81c02f525623fd1fe5167eac3a55a049de3d314bb42ee227ffed37d508") 0 true (Some (k, (px K, py K))) None) C06_hypothesis).
    exists [4; 136; 173; 228], (Xprv 0 [0; 0; 0; 0] [0; 0; 0; 0] (hx "873dff81c02f525623fd1fe5167eac3a55a049de3d314bb42ee227ffed37d508") k), (hx "e77e9d71").
    split; [reflexivity | ]. split.
    { split; [ | exact I]. split; [ | split; [discriminate | reflexivity]].
      split; [split; [discriminate | reflexivity] | ]. repeat split; try reflexivity; apply bytes_ok_forallb; reflexivity. }
    split; [exists K; split; [exact M | reflexivity] | ]. split; [vm_compute; reflexivity | ].
    split; [reflexivity | ]. eexists. vm_compute. reflexivity.
  - repeat split.
Qed.
Example ex_bad_checksum :
  NewHDKeyFromString sha256 (str_bytes "xprv9s21ZrQH143K3QTDL4LXw2F7HEK3wJUD2nW2nRk4stbPy6cq3jPPqjiChkVvvNKmPGJxWUtg6LnF5kejMRNNU3TGtRBeJgk33yuGBxrMP") = Err "hdkey.serialized.key.wrong.size".
Proof. vm_compute. reflexivity. Qed.

(** ** C95: the formulas of BIP 32 *)

(** The master key. *)
Theorem C95_master : forall hmac512 seed, mac64 hmac512 ->
  exists h IL IR, NewHDKey hmac512 seed = Ok h /\ hmac512 (str_bytes "Bitcoin seed") seed = IL ++ IR /\ len IL = 32 /\
    represents h (Xprv 0 [0; 0; 0; 0] [0; 0; 0; 0] IR (be IL)) /\
    xkey_ok (Xprv 0 [0; 0; 0; 0] [0; 0; 0; 0] IR (be IL)).
Proof.
  intros hmac seed HM. set (data := hmac (str_bytes "Bitcoin seed") seed).
  destruct (HM (str_bytes "Bitcoin seed") seed) as (L & O).
  destruct (split64 _ L O) as (IL & IR & E & LL & LR & OL & OR & S1 & S2).
  pose proof (be_lt32 IL OL LL) as B. destruct (multiple_ex (be IL) (proj1 B)) as (K & M).
  eexists. exists IL, IR. split; [ | split; [exact E | split; [exact LL | split]]].
  - unfold NewHDKey. rewrite S2. cbn [rbind]. rewrite S1. cbn [rbind]. rewrite (prv_from IL K OL M). reflexivity.
  - exists K. split; [exact M | reflexivity].
  - split; [ | exact B]. split; [split; [discriminate | reflexivity] | ].
    split; [split; [apply bytes_ok_forallb; reflexivity | reflexivity] | ].
    split; [split; [apply bytes_ok_forallb; reflexivity | reflexivity] | ]. split; assumption.
Qed.
Print Assumptions C95_master.

(** The child of a private key is CKDpriv, for every index. *)
Theorem C95_private : forall hmac512 hash160 h x i, mac64 hmac512 -> hash20 hash160 ->
  xkey_ok x -> is_private x -> represents h x -> 0 <= i < 2 ^ 32 ->
  exists h' y, Derive hmac512 hash160 h i = Ok h' /\ ckd_priv hmac512 hash160 x i y /\ represents h' y /\ xkey_ok y.
Proof.
  intros hmac hash h x i HM HH Ox Px R Hi.
  destruct (derive_prv hmac hash HM HH x h i Ox R Px Hi) as (y & h' & C & Oy & E & R').
  exists h', y. auto.
Qed.
Print Assumptions C95_private.

(** The child of a public key is CKDpub, unless the left half of the HMAC is a
    multiple of the order; then there is an error. *)
Theorem C95_public : forall hmac512 hash160 h d fp num c K i, mac64 hmac512 -> hash20 hash160 ->
  xkey_ok (Xpub d fp num c K) -> represents h (Xpub d fp num c K) -> 0 <= i < 2 ^ 31 ->
  (be (firstn 32 (hmac512 c (serP K ++ ser32 i))) mod order_n <> 0 /\
   exists h' y, Derive hmac512 hash160 h i = Ok h' /\ ckd_pub hmac512 hash160 (Xpub d fp num c K) i y /\
     represents h' y /\ xkey_ok y)
  \/ (be (firstn 32 (hmac512 c (serP K ++ ser32 i))) mod order_n = 0 /\
      Derive hmac512 hash160 h i = Err "pubkey.point.is.not.on.the.curve").
Proof.
  intros hmac hash h d fp num c K i HM HH Ox R Hi.
  assert (F : forall IL IR, hmac c (serP K ++ ser32 i) = IL ++ IR -> len IL = 32 ->
              firstn 32 (hmac c (serP K ++ ser32 i)) = IL).
  { intros IL IR -> L. rewrite <- len_length in L. replace 32%nat with (length IL + 0)%nat by lia.
    rewrite firstn_app_2. cbn. apply app_nil_r. }
  destruct (Z.eq_dec (be (firstn 32 (hmac c (serP K ++ ser32 i))) mod order_n) 0) as [Z0 | NZ].
  - right. split; [exact Z0 | ].
    destruct (derive_pub hmac hash HM HH _ h i Ox R ltac:(repeat eexists) Hi) as [(y & h' & C & Oy & E & R') | (d1 & fp1 & num1 & c1 & K1 & IL & IR & Q & _ & _ & _ & E)]; [ | exact E].
    exfalso. apply ckd_pub_inv in C. destruct C as (IL & IR & Q & Rr & LL & EH & MQ & SU & ->).
    rewrite (F _ _ EH LL) in Z0.
    pose proof (multiple_nonneg _ _ _ MQ) as P. apply (gof_multiple _ _ _ _ gof_base P) in MQ.
    rewrite order_n_eq in Z0. apply gmul_G_0 in Z0. rewrite Z0 in MQ.
    assert (Q = None) by exact (gof_inj _ _ _ MQ gof_inf). subst Q.
    (* the program refuses the point at infinity *)
    cbn in R. subst h. revert E. unfold Derive, getIntermediary.
    cbn [hk_isPrivate hk_pub hk_chainCode hk_depth].
    assert (B : HardenedKeyStart <=? i = false) by (apply Z.leb_gt; apply Hi). rewrite B. cbn [negb andb need rbind].
    assert (I32 : 0 <= i < 2 ^ 32) by (split; [apply Hi | apply Z.lt_trans with (2 ^ 31); [apply Hi | reflexivity]]).
    rewrite serialize_ok by apply Ox. cbn [rbind]. rewrite ser32_ok by exact I32.
    destruct (HM c (serP K ++ ser32 i)) as (L & O).
    destruct (split64 _ L O) as (IL2 & IR2 & E2 & LL2 & LR2 & OL2 & OR2 & S1 & S2). rewrite S1, S2. cbn [rbind].
    rewrite (hash_head hash HH). cbn [rbind].
    assert (IL2 = IL) by (rewrite <- (F _ _ EH LL), <- (F _ _ E2 LL2); reflexivity). subst IL2.
    unfold PrvKeyFromBytes. rewrite ScalarBaseMult_ok by exact OL2. cbn [rbind snd].
    rewrite be_set_bytes in Z0. rewrite Z0. discriminate.
  - left. split; [exact NZ | ].
    destruct (derive_pub hmac hash HM HH _ h i Ox R ltac:(repeat eexists) Hi) as [(y & h' & C & Oy & E & R') | (d1 & fp1 & num1 & c1 & K1 & IL & IR & Q & EH & LL & Z0 & _)].
    + exists h', y. auto.
    + exfalso. injection Q as <- <- <- <- <-. rewrite (F _ _ EH LL) in NZ. exact (NZ Z0).
Qed.
Print Assumptions C95_public.

(** BIP 32 declares a master key or a child invalid when the left half of the
    HMAC is not below the order or the secret is zero; the program returns them. *)
Theorem C95_invalid_refuted : exists hmac512 hash160 seed h h' IL,
  mac64 hmac512 /\ hash20 hash160 /\
  firstn 32 (hmac512 (str_bytes "Bitcoin seed") seed) = IL /\ order_n <= be IL /\
  NewHDKey hmac512 seed = Ok h /\ option_map fst (hk_prv h) = Some (be IL) /\
  Derive hmac512 hash160 h 0 = Ok h' /\ option_map fst (hk_prv h') = Some 0.
Proof.
  (* the master secret is the order, and the HMAC of the first child is the order too *)
  set (hm := fun _ _ : bytes => octets 32 order_n ++ repeat 1 32).
  assert (HM : mac64 hm) by (intros k d; split; [reflexivity | apply bytes_ok_forallb; reflexivity]).
  assert (HL : forall k d, firstn 32 (hm k d) = octets 32 order_n) by reflexivity.
  assert (ON : 0 <= order_n < 2 ^ 256) by (split; [discriminate | reflexivity]).
  clearbody hm.
  exists hm, (fun _ => repeat 9 20), [].
  assert (HH : hash20 (fun _ => repeat 9 20)) by (intro b; split; [reflexivity | apply bytes_ok_forallb; reflexivity]).
  destruct (C95_master hm [] HM) as (h & IL & IR & E & EH & LL & R & Ox).
  destruct (C95_private hm _ h _ 0 HM HH Ox ltac:(repeat eexists) R ltac:(split; [discriminate | reflexivity])) as (h' & y & E' & C & R' & _).
  assert (EI : be IL = order_n) by (rewrite (left_half _ _ _ EH LL), HL; apply be_octets; exact ON).
  apply ckd_priv_inv in C. destruct C as (K1 & IL1 & IR1 & M1 & LL1 & EH1 & ->).
  assert (EI1 : be IL1 = order_n) by (rewrite (left_half _ _ _ EH1 LL1), HL; apply be_octets; exact ON).
  exists h, h', IL. split; [exact HM | ]. split; [exact HH | ]. split; [symmetry; exact (left_half _ _ _ EH LL) | ].
  split; [rewrite EI; apply Z.le_refl | ].
  split; [exact E | ]. split; [destruct R as (K & _ & ->); reflexivity | ]. split; [exact E' | ].
  destruct R' as (K' & _ & ->). cbn [hk_prv option_map fst]. f_equal. rewrite EI, EI1. reflexivity.
Qed.
Print Assumptions C95_invalid_refuted.

(** ** C55 *)

(** Deriving and then taking the public key is taking the public key and then
    deriving. *)
Theorem C55_agree : forall hmac512 hash160 h d fp num c k K i, mac64 hmac512 -> hash20 hash160 ->
  xkey_ok (Xprv d fp num c k) -> represents h (Xprv d fp num c k) -> 0 <= i < 2 ^ 31 ->
  multiple base k K ->
  be (firstn 32 (hmac512 c (serP K ++ ser32 i))) mod order_n <> 0 ->
  exists h' hp hp', Derive hmac512 hash160 h i = Ok h' /\ HDPublicKey h = Ok hp /\ HDPublicKey h' = Ok hp' /\
    Derive hmac512 hash160 hp i = Ok hp'.
Proof.
  intros hmac hash h d fp num c k K i HM HH Ox R Hi MK NZ.
  assert (I32 : 0 <= i < 2 ^ 32) by (split; [apply Hi | apply Z.lt_trans with (2 ^ 31); [apply Hi | reflexivity]]).
  destruct (C95_private hmac hash h _ i HM HH Ox ltac:(repeat eexists) R I32) as (h' & y & E & C & R' & Oy).
  pose proof (multiple_good _ _ MK) as GK.
  assert (Op : xkey_ok (Xpub d fp num c K)) by (split; [apply Ox | exact GK]).
  set (hp := MkHDKey num fp c d false None (Some (px K, py K))).
  assert (Rp : represents hp (Xpub d fp num c K)) by reflexivity.
  destruct (C95_public hmac hash hp d fp num c K i HM HH Op Rp Hi) as [(_ & hp' & yp & Ep & Cp & Rp' & _) | (Z0 & _)]; [ | contradiction].
  destruct R as (K0 & M0 & ->). rewrite (multiple_fun _ _ _ M0 MK) in *. clear K0 M0.
  exists h', hp, hp'. split; [exact E | ]. split; [reflexivity | ]. split; [ | exact Ep].
  apply ckd_priv_inv in C. destruct C as (K1 & IL & IR & M1 & LL & EH & ->).
  rewrite (multiple_fun _ _ _ M1 MK) in *.
  apply ckd_pub_inv in Cp. destruct Cp as (IL2 & IR2 & Q2 & R2 & LL2 & EH2 & MQ2 & SU2 & ->).
  replace (i <? 2 ^ 31) with true in EH by (symmetry; apply Z.ltb_lt; apply Hi).
  assert (S : IL2 = IL /\ IR2 = IR).
  { rewrite EH in EH2. clear - EH2 LL LL2. rewrite <- len_length in LL, LL2. 
    assert (LQ : length IL = length IL2) by lia.
    apply (f_equal (firstn (length IL))) in EH2 as F1. apply (f_equal (skipn (length IL))) in EH2 as F2.
    rewrite LQ in F1 at 2. rewrite LQ in F2 at 2.
    rewrite !firstn_app, !Nat.sub_diag, !firstn_all, !firstn_O, !app_nil_r in F1.
    rewrite !skipn_app, !Nat.sub_diag, !skipn_all, !skipn_O in F2. cbn [app] in F2. auto. }
  destruct S as (-> & ->).
  cbn in Rp'. subst hp'. destruct R' as (K' & M' & ->).
  unfold HDPublicKey. cbn [hk_pub hk_prv need rbind snd hk_childNum hk_parentFP hk_chainCode hk_depth].
  do 3 f_equal.
  (* the points *)
  rewrite (multiple_enc _ _ M'). pose proof (multiple_nonneg _ _ _ MK) as Pk. pose proof (multiple_nonneg _ _ _ MQ2) as PL.
  apply (gof_multiple _ _ _ _ gof_base PL) in MQ2. apply (gof_multiple _ _ _ _ gof_base Pk) in MK.
  apply (gof_sum _ _ _ _ _ MQ2 MK) in SU2. rewrite <- (gof_enc _ _ SU2), <- gmul_add.
  rewrite order_n_eq, gmul_N. reflexivity.
Qed.
Print Assumptions C55_agree.

(** Without the condition on the HMAC the two differ: the private side returns
    the parent's secret as the child and the public side fails. *)
Theorem C55_always_refuted : exists hmac512 hash160 h hp h' e, mac64 hmac512 /\ hash20 hash160 /\
  represents h ex_prv /\ HDPublicKey h = Ok hp /\
  Derive hmac512 hash160 h 0 = Ok h' /\ hk_prv h' = hk_prv h /\ Derive hmac512 hash160 hp 0 = Err e.
Proof.
  set (hm := fun _ _ : bytes => repeat 0 64). set (hh := fun _ : bytes => repeat 9 20).
  assert (HM : mac64 hm) by (intros k d; split; [reflexivity | apply bytes_ok_forallb; reflexivity]).
  assert (HH : hash20 hh) by (intro b; split; [reflexivity | apply bytes_ok_forallb; reflexivity]).
  destruct ex_importable as ((Ox & _) & _ & (h & R) & _).
  destruct (C95_private hm hh h _ 0 HM HH Ox ltac:(repeat eexists) R ltac:(split; [discriminate | reflexivity])) as (h' & y & E & C & R' & _).
  destruct R as (K & M & Eh). set (hp := MkHDKey [128; 0; 0; 0] [1; 2; 3; 4] (repeat 7 32) 255 false None (Some (px K, py K))).
  exists hm, hh, h, hp, h'. eexists. split; [exact HM | ]. split; [exact HH | ].
  split; [exists K; split; [exact M | exact Eh] | ]. split; [rewrite Eh; reflexivity | ]. split; [exact E | ].
  split.
  - apply ckd_priv_inv in C. destruct C as (K1 & IL & IR & M1 & LL & EH & ->).
    assert (EI : IL = repeat 0 32) by (rewrite (left_half _ _ _ EH LL); reflexivity).
    rewrite EI in *. rewrite Eh.
    destruct R' as (K' & M' & ->). cbn [hk_prv]. change ((be (repeat 0 32) + 258) mod order_n) with 258 in *.
    rewrite (multiple_fun _ _ _ M' M). reflexivity.
  - destruct (C95_public hm hh hp 255 [1; 2; 3; 4] [128; 0; 0; 0] (repeat 7 32) K 0 HM HH) as [(NZ & _) | (_ & Q)].
    + split; [apply Ox | exact (multiple_good _ _ M)].
    + reflexivity.
    + split; [discriminate | reflexivity].
    + exfalso. apply NZ. reflexivity.
    + exact Q.
Qed.
Print Assumptions C55_always_refuted.

(** The hypotheses of C55 hold for an HMAC whose left half is 1. *)
Example ex_agree : exists h h' hp hp',
  let hm := fun _ _ : bytes => octets 32 1 ++ repeat 5 32 in let hh := fun _ : bytes => repeat 9 20 in
  represents h ex_prv /\ Derive hm hh h 7 = Ok h' /\ HDPublicKey h = Ok hp /\ HDPublicKey h' = Ok hp' /\
  Derive hm hh hp 7 = Ok hp' /\ option_map fst (hk_prv h') = Some 259.
Proof.
  set (hm := fun _ _ : bytes => octets 32 1 ++ repeat 5 32). set (hh := fun _ : bytes => repeat 9 20).
  assert (HM : mac64 hm) by (intros k d; split; [reflexivity | apply bytes_ok_forallb; reflexivity]).
  assert (HH : hash20 hh) by (intro b; split; [reflexivity | apply bytes_ok_forallb; reflexivity]).
  destruct ex_importable as ((Ox & _) & _ & (h & R) & _).
  destruct (multiple_ex 258 ltac:(lia)) as (K & M).
  destruct (C55_agree hm hh h 255 [1; 2; 3; 4] [128; 0; 0; 0] (repeat 7 32) 258 K 7 HM HH Ox R ltac:(split; [discriminate | reflexivity]) M ltac:(cbv zeta; discriminate))
    as (h' & hp & hp' & E1 & E2 & E3 & E4).
  exists h, h', hp, hp'. split; [exact R | ]. split; [exact E1 | ]. split; [exact E2 | ]. split; [exact E3 | ]. split; [exact E4 | ].
  destruct (C95_private hm hh h _ 7 HM HH Ox ltac:(repeat eexists) R ltac:(split; [discriminate | reflexivity])) as (h2 & y & E & C & R' & _).
  rewrite E1 in E. injection E as <-. apply ckd_priv_inv in C. destruct C as (K1 & IL & IR & M1 & LL & EH & ->).
  assert (EI : IL = octets 32 1) by (rewrite (left_half _ _ _ EH LL); reflexivity). rewrite EI in *.
  destruct R' as (K' & M' & ->). reflexivity.
Qed.

(** ** C56 *)
Theorem C56_hardened : forall hmac512 hash160 h i, hk_isPrivate h = false -> 2 ^ 31 <= i ->
  exists e, Derive hmac512 hash160 h i = Err e.
Proof.
  intros hmac hash h i P Hi. unfold Derive. rewrite P.
  replace (HardenedKeyStart <=? i) with true by (symmetry; apply Z.leb_le; exact Hi). eexists. reflexivity.
Qed.
Print Assumptions C56_hardened.

(** Along any path. *)
Theorem C56_stays_public : forall hmac512 hash160 h p h', hk_isPrivate h = false -> hk_prv h = None ->
  DeriveByPath hmac512 hash160 h p = Ok h' -> hk_isPrivate h' = false /\ hk_prv h' = None.
Proof.
  intros hmac hash h p h' P N.
  assert (D : forall h i h', hk_isPrivate h = false -> Derive hmac hash h i = Ok h' -> hk_isPrivate h' = false /\ hk_prv h' = None).
  { clear. intros h i h' P. unfold Derive. rewrite P. cbn [negb andb].
    destruct (HardenedKeyStart <=? i); [discriminate | ].
    destruct (getIntermediary hmac h i) as [b | e | ]; cbn [rbind]; try discriminate.
    destruct (slice b 32 (len b)) as [cc | e | ]; cbn [rbind]; try discriminate.
    destruct (slice b 0 32) as [kb | e | ]; cbn [rbind]; try discriminate.
    destruct (need (hk_pub h)) as [pub | e | ]; cbn [rbind]; try discriminate.
    destruct (Serialize pub) as [ps | e | ]; cbn [rbind]; try discriminate.
    destruct (slice (hash ps) 0 4) as [fp | e | ]; cbn [rbind]; try discriminate.
    destruct (PrvKeyFromBytes kb) as [pk | e | ]; cbn [rbind]; try discriminate.
    destruct (SerializeUncompressed (snd pk)) as [u | e | ]; cbn [rbind]; try discriminate.
    destruct (PubKeyFromBytes u) as [p2 | e | ]; cbn [rbind]; try discriminate.
    destruct (PubAdd pub p2) as [ch | e | ]; cbn [rbind]; try discriminate.
    intro E. injection E as <-. split; reflexivity. }
  unfold DeriveByPath. destruct (len p =? 0); [intro E; injection E as <-; auto | ].
  destruct (split_slash p []) as [ | s0 steps]; [discriminate | ].
  destruct (negb (list_Z_eqb s0 (str_bytes "m"))); [discriminate | ]. revert h P N.
  induction steps as [ | s steps IH]; intros h P N; cbn [path_loop].
  - intro E. injection E as <-. auto.
  - destruct (index s (len s - 1)) as [l | e | ]; cbn [rbind]; try discriminate. cbv zeta.
    destruct (ParseUint32 _) as [n | ]; [ | discriminate].
    match goal with |- context [Derive hmac hash h ?i] => destruct (Derive hmac hash h i) as [h1 | e | ] eqn:E1 end;
      cbn [rbind]; try discriminate.
    destruct (D _ _ _ P E1) as (P1 & N1). apply IH; assumption.
Qed.
Print Assumptions C56_stays_public.

(** ** C57 *)

(** m/i1/i2'/…: the steps one by one. *)
Theorem C57_steps : forall hmac512 hash160 h steps sems, Forall2 step_text steps sems ->
  Forall (fun t => fst t < 2 ^ 31) sems ->
  DeriveByPath hmac512 hash160 h (path_text steps) = derive_all hmac512 hash160 h (map child_index sems).
Proof.
  intros hmac hash h steps sems F B. unfold DeriveByPath, path_text.
  assert (NS : Forall no_slash steps).
  { clear B. induction F as [ | s t ss ts H _ IH]; constructor; [exact (step_no_slash _ _ H) | exact IH]. }
  assert (L : len (109 :: concat (map (cons 47) steps)) =? 0 = false).
  { apply Z.eqb_neq. rewrite <- len_length. cbn [length]. lia. }
  rewrite L. change (109 :: concat (map (cons 47) steps)) with ([109] ++ concat (map (cons 47) steps)).
  rewrite split_text; [ | intros [Q | []]; discriminate Q | exact NS]. cbn [app].
  change (list_Z_eqb [109] (str_bytes "m")) with true. cbn [negb]. cbv iota.
  assert (B' : Forall (fun t : Z * bool => fst t < 2 ^ 32) sems).
  { apply (Forall_impl _) with (2 := B). intros t Ht. cbn beta in Ht. apply Z.lt_trans with (2 ^ 31); [exact Ht | reflexivity]. }
  rewrite (loop_steps hmac hash steps sems h F B'). f_equal.
  clear L NS B'. induction F as [ | s t ss ts H _ IH]; [reflexivity | ].
  apply Forall_cons_iff in B. destruct B as (B1 & B2). cbn [map]. f_equal; [ | exact (IH B2)].
  assert (P : 0 <= fst t) by (destruct H as [s n _ D | s n _ D]; apply (digits_range _ _ D)).
  apply Z.mod_small. unfold child_index. change (2 ^ 32) with (2 ^ 31 + 2 ^ 31). destruct (snd t); lia.
Qed.
Print Assumptions C57_steps.

(** A public key and a path, for C56 and C57. *)
Example ex_public : exists h h', represents h ex_pub /\ hk_isPrivate h = false /\ hk_prv h = None /\
  DeriveByPath (fun _ _ : bytes => octets 32 1 ++ repeat 5 32) (fun _ => repeat 9 20) h (str_bytes "m/7/8") = Ok h'.
Proof.
  set (hm := fun _ _ : bytes => octets 32 1 ++ repeat 5 32). set (hh := fun _ : bytes => repeat 9 20).
  assert (HM : mac64 hm) by (intros k d; split; [reflexivity | apply bytes_ok_forallb; reflexivity]).
  assert (HH : hash20 hh) by (intro b; split; [reflexivity | apply bytes_ok_forallb; reflexivity]).
  destruct ex_importable as (_ & (Ox & _) & _ & (h & R)).
  destruct (C95_public hm hh h _ _ _ _ _ 7 HM HH Ox R ltac:(split; [discriminate | reflexivity])) as [(_ & h1 & y & E & C & R1 & O1) | (Z0 & _)]; [ | discriminate Z0].
  apply ckd_pub_inv in C. destruct C as (IL2 & IR2 & Q2 & R2 & LL2 & EH2 & MQ2 & SU2 & ->).
  destruct (C95_public hm hh h1 _ _ _ _ _ 8 HM HH O1 R1 ltac:(split; [discriminate | reflexivity])) as [(_ & h2 & y2 & E2 & _) | (Z0 & _)]; [ | discriminate Z0].
  exists h, h2. split; [exact R | ]. split; [rewrite R; reflexivity | ]. split; [rewrite R; reflexivity | ].
  change (str_bytes "m/7/8") with (path_text [[55]; [56]]).
  rewrite (C57_steps hm hh h _ [(7, false); (8, false)]).
  - cbn [map derive_all child_index snd fst]. rewrite E. cbn [rbind]. rewrite E2. reflexivity.
  - constructor; [ | constructor; [ | constructor]].
    + apply step_plain; [discriminate | ]. apply (digits_cons 55 [] 0); [lia | constructor].
    + apply step_plain; [discriminate | ]. apply (digits_cons 56 [] 0); [lia | constructor].
  - repeat constructor.
Qed.

(** What is accepted, and what it means, for every string: the empty path, and
    the paths whose numbers are below 2^32; the index is taken modulo 2^32. *)
Theorem C57_accepts : forall hmac512 hash160 h p h',
  DeriveByPath hmac512 hash160 h p = Ok h' <->
  (p = [] /\ h' = h) \/
  (exists steps sems, p = path_text steps /\ Forall2 step_text steps sems /\ Forall (fun t => fst t < 2 ^ 32) sems /\
    derive_all hmac512 hash160 h (map (fun t => child_index t mod 2 ^ 32) sems) = Ok h').
Proof.
  intros hmac hash h p h'. destruct p as [ | c p].
  { split.
    - intro E. left. split; [reflexivity | ]. cbn in E. injection E as <-. reflexivity.
    - intros [(_ & ->) | (steps & sems & E & _)]; [reflexivity | discriminate E]. }
  assert (L : len (c :: p) =? 0 = false) by (apply Z.eqb_neq; rewrite <- len_length; cbn [length]; lia).
  split.
  - unfold DeriveByPath. rewrite L. destruct (split_inv (c :: p) [] ltac:(intros [])) as (s & steps & E1 & E2 & F).
    rewrite E1. destruct (negb (list_Z_eqb s (str_bytes "m"))) eqn:M; [discriminate | ].
    apply negb_false_iff, list_Z_eqb_spec in M. subst s. apply Forall_cons_iff in F. destruct F as (_ & F).
    intro E. destruct (loop_inv hmac hash steps h h' F E) as (sems & G1 & G2).
    rewrite (loop_steps hmac hash steps sems h G1 G2) in E. right. exists steps, sems. auto.
  - intros [(E & _) | (steps & sems & E & F & B & D)]; [discriminate E | ]. rewrite E.
    unfold DeriveByPath. rewrite <- E, L, E. unfold path_text.
    assert (NS : Forall no_slash steps).
    { clear - F. induction F as [ | s t ss ts H _ IH]; constructor; [exact (step_no_slash _ _ H) | exact IH]. }
    change (109 :: concat (map (cons 47) steps)) with ([109] ++ concat (map (cons 47) steps)).
    rewrite split_text; [ | intros [Q | []]; discriminate Q | exact NS]. cbn [app].
    change (list_Z_eqb [109] (str_bytes "m")) with true. cbn [negb]. cbv iota.
    rewrite (loop_steps hmac hash steps sems h F B). exact D.
Qed.
Print Assumptions C57_accepts.

(** When it panics: at an empty component after components that all derive. *)
Theorem C57_panics : forall hmac512 hash160 h x p, mac64 hmac512 -> hash20 hash160 -> xkey_ok x -> represents h x ->
  DeriveByPath hmac512 hash160 h p = Panic <->
  exists steps rest sems h', p = path_text (steps ++ [] :: rest) /\ Forall no_slash rest /\
    Forall2 step_text steps sems /\ Forall (fun t => fst t < 2 ^ 32) sems /\
    derive_all hmac512 hash160 h (map (fun t => child_index t mod 2 ^ 32) sems) = Ok h'.
Proof.
  intros hmac hash h x p HM HH Ox R.
  set (ok := fun h => exists x, xkey_ok x /\ represents h x).
  assert (OK : ok h) by (exists x; auto).
  assert (ST : forall h i, ok h -> 0 <= i < 2 ^ 32 -> (exists e, Derive hmac hash h i = Err e) \/
                 (exists h', Derive hmac hash h i = Ok h' /\ ok h')).
  { clear - HM HH. intros h i (x & Ox & R) Hi. destruct x as [d fp num c k | d fp num c K].
    - destruct (C95_private hmac hash h _ i HM HH Ox ltac:(repeat eexists) R Hi) as (h' & y & E & _ & R' & O').
      right. exists h'. split; [exact E | ]. exists y. auto.
    - destruct (Z_lt_le_dec i (2 ^ 31)) as [B | B].
      + destruct (C95_public hmac hash h _ _ _ _ _ i HM HH Ox R (conj (proj1 Hi) B)) as [(_ & h' & y & E & _ & R' & O') | (_ & E)].
        * right. exists h'. split; [exact E | ]. exists y. auto.
        * left. eexists. exact E.
      + left. apply C56_hardened; [rewrite R; reflexivity | exact B]. }
  assert (NP : forall h i, ok h -> 0 <= i < 2 ^ 32 -> Derive hmac hash h i <> Panic).
  { intros h0 i H0 Hi. destruct (ST h0 i H0 Hi) as [(e & ->) | (h' & -> & _)]; discriminate. }
  assert (PR : forall h i h', ok h -> 0 <= i < 2 ^ 32 -> Derive hmac hash h i = Ok h' -> ok h').
  { intros h0 i h' H0 Hi E. destruct (ST h0 i H0 Hi) as [(e & E') | (h2 & E' & O2)]; rewrite E in E'; [discriminate E' | ].
    injection E' as ->. exact O2. }
  pose proof (loop_panic hmac hash ok NP PR) as LP.
  assert (NS : forall steps sems, Forall2 step_text steps sems -> Forall no_slash steps).
  { intros steps sems F. induction F as [ | s t ss ts H _ IH]; constructor; [exact (step_no_slash _ _ H) | exact IH]. }
  destruct p as [ | c p].
  { split; [discriminate | ]. intros (steps & rest & sems & h' & E & _). discriminate E. }
  assert (L : len (c :: p) =? 0 = false) by (apply Z.eqb_neq; rewrite <- len_length; cbn [length]; lia).
  split.
  - unfold DeriveByPath. rewrite L. destruct (split_inv (c :: p) [] ltac:(intros [])) as (s & steps & E1 & E2 & F).
    rewrite E1. destruct (negb (list_Z_eqb s (str_bytes "m"))) eqn:M; [discriminate | ].
    apply negb_false_iff, list_Z_eqb_spec in M. subst s. apply Forall_cons_iff in F. destruct F as (_ & F).
    intro E. apply (LP steps h OK F) in E. destruct E as (ss & ts & sems & h' & -> & Q1 & Q2 & Q3).
    exists ss, ts, sems, h'. split; [exact E2 | ]. split; [ | auto].
    apply Forall_app in F. destruct F as (_ & F). apply Forall_cons_iff in F. apply F.
  - intros (steps & rest & sems & h' & E & Fr & Q1 & Q2 & Q3).
    unfold DeriveByPath. rewrite L, E. unfold path_text.
    assert (FA : Forall no_slash (steps ++ [] :: rest)).
    { apply Forall_app. split; [exact (NS _ _ Q1) | ]. constructor; [intros [] | exact Fr]. }
    change (109 :: concat (map (cons 47) (steps ++ [] :: rest))) with ([109] ++ concat (map (cons 47) (steps ++ [] :: rest))).
    rewrite split_text; [ | intros [Q | []]; discriminate Q | exact FA]. cbn [app].
    change (list_Z_eqb [109] (str_bytes "m")) with true. cbn [negb]. cbv iota.
    apply (LP _ h OK FA). exists steps, rest, sems, h'. auto.
Qed.
Print Assumptions C57_panics.

(** An ill-formed path need not give an error: m/ panics for every key. *)
Theorem C57_ill_formed_refuted : exists p, p = str_bytes "m/" /\
  forall hmac512 hash160 h, DeriveByPath hmac512 hash160 h p = Panic.
Proof. eexists. split; [reflexivity | ]. reflexivity. Qed.
Print Assumptions C57_ill_formed_refuted.

(** An apostrophe does not always give a hardened child, and a number alone can
    give one: 2147483648' is child 0 and 2147483648 is child 0 hardened. *)
Theorem C57_apostrophe_refuted : forall hmac512 hash160 h,
  DeriveByPath hmac512 hash160 h (str_bytes "m/2147483648'") = Derive hmac512 hash160 h 0 /\
  DeriveByPath hmac512 hash160 h (str_bytes "m/2147483648") = Derive hmac512 hash160 h (2 ^ 31) /\
  DeriveByPath hmac512 hash160 h (str_bytes "m/0'") = Derive hmac512 hash160 h (2 ^ 31).
Proof.
  intros hmac hash h.
  assert (D : forall i, (let! hd := Derive hmac hash h i in Ok hd) = Derive hmac hash h i)
    by (intro i; destruct (Derive hmac hash h i); reflexivity).
  split; [ | split]; rewrite <- D; reflexivity.
Qed.
Print Assumptions C57_apostrophe_refuted.

(** The path of the repository's documentation and what else is refused. *)
Example ex_path_text : path_text [str_bytes "44'"; str_bytes "007"] = str_bytes "m/44'/007" /\
  Forall2 step_text [str_bytes "44'"; str_bytes "007"] [(44, true); (7, false)].
Proof.
  split; [reflexivity | ]. constructor; [ | constructor; [ | constructor]].
  - apply (step_hard [52; 52] 44); [discriminate | ].
    apply (digits_cons 52 [52] 4); [lia | ]. apply (digits_cons 52 [] 0); [lia | constructor].
  - apply (step_plain [48; 48; 55] 7); [discriminate | ].
    apply (digits_cons 48 [48; 55] 7); [lia | ]. apply (digits_cons 48 [55] 7); [lia | ]. apply (digits_cons 55 [] 0); [lia | constructor].
Qed.
Example ex_refused_paths : forall hmac hash h,
  DeriveByPath hmac hash h (str_bytes "M/1") = Err "hdkey.derive.path.invalid" /\
  DeriveByPath hmac hash h (str_bytes "m/4294967296") = Err "hdkey.derive.path.invalid" /\
  DeriveByPath hmac hash h (str_bytes "m/-1") = Err "hdkey.derive.path.invalid" /\
  DeriveByPath hmac hash h (str_bytes "m/'") = Err "hdkey.derive.path.invalid" /\
  DeriveByPath hmac hash h (str_bytes "m/1h") = Err "hdkey.derive.path.invalid".
Proof. intros. repeat split. Qed.
