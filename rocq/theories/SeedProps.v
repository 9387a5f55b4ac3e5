(** C103: from the mnemonic and the password to the seed and the master key. *)
From Verif Require Import GoBase BaseLemmas Sha256 Sha256Proofs Bech32Poly Bip39Model Bip39Spec Bip39Proofs Bip39More Bip39Words Bip39Lists Bip39Props.
From Verif Require Import Pbkdf2Model Pbkdf2Spec Pbkdf2Props SeedModel EcdsaSpec SecpSpec AddressSpec Base58Spec PubKeySpec Bip32Model Bip32Spec Bip32Proofs Bip32Props.
Local Open Scope Z_scope.

(** BIP 39, "From mnemonic to seed": PBKDF2 with HMAC-SHA512 keyed by the sentence, the salt "mnemonic" followed by
    the password, 2048 rounds, 64 octets. *)
Definition bip39_seed (hmac512 : bytes -> bytes -> bytes) (mnemonic password : bytes) : bytes :=
  pbkdf2 (hmac512 mnemonic) 64 ([109; 110; 101; 109; 111; 110; 105; 99] ++ password) 2048 64.

Lemma xor_octets : forall l, Forall (fun x => 0 <= x < 256) l -> 0 <= fold_right Z.lxor 0 l < 256.
Proof.
  induction 1 as [ | x l Hx _ IH]; cbn [fold_right]; [lia | ]. change 256 with (2 ^ 8) in *. apply lxor_lt; [lia | assumption | assumption].
Qed.

Lemma pbkdf2_octets : forall prf hLen salt c n, (forall m, bytes_ok (prf m)) -> bytes_ok (pbkdf2 prf hLen salt c n).
Proof.
  intros prf hLen salt c n H. unfold pbkdf2. cbv zeta. apply bytes_ok_firstn. apply Forall_flat_map. apply Forall_forall. intros i _.
  unfold T. apply Forall_map. apply Forall_forall. intros x _. unfold T_octet. apply xor_octets. apply Forall_map.
  apply Forall_forall. intros j _.
  assert (B : bytes_ok (U prf salt (Z.of_nat i) j)) by (destruct j; apply H).
  destruct (Nat.lt_ge_cases x (length (U prf salt (Z.of_nat i) j))) as [L | L].
  - apply (proj1 (Forall_forall _ _) B). apply nth_In. exact L.
  - rewrite nth_overflow by exact L. lia.
Qed.

(** The seed of any string is BIP 39's; there is no panic. *)
Theorem C103_seed : forall hmac512 m p, mac64 hmac512 ->
  NewSeed hmac512 m p = Ok (bip39_seed hmac512 m p) /\ len (bip39_seed hmac512 m p) = 64 /\ bytes_ok (bip39_seed hmac512 m p).
Proof.
  intros hmac m p HM. unfold NewSeed, bip39_seed.
  assert (L : forall x, length (hmac m x) = 64%nat) by (intro x; destruct (HM m x) as [A _]; unfold len in A; lia).
  destruct (C73_key (hmac m) 64 (str_bytes "mnemonic" ++ p) 2048 64 L ltac:(lia) ltac:(lia) ltac:(lia)) as [E N].
  change (Z.of_nat 64) with 64 in E. change (Z.to_nat 2048) with 2048%nat in *. change (Z.to_nat 64) with 64%nat in *.
  split; [exact E | ]. split.
  - unfold len. change (str_bytes "mnemonic") with [109; 110; 101; 109; 111; 110; 105; 99] in N. rewrite N. reflexivity.
  - apply pbkdf2_octets. intro x. apply HM.
Qed.
Print Assumptions C103_seed.

Lemma to_bytes_raw : forall sha W m, match MnemonicToByteArray sha W m true with
  | Ok _ => exists b, MnemonicToByteArray sha W m false = Ok b
  | Err e => MnemonicToByteArray sha W m false = Err e
  | Panic => MnemonicToByteArray sha W m false = Panic end.
Proof.
  intros sha W m. unfold MnemonicToByteArray. cbv zeta. destruct (negb _); [reflexivity | ]. destruct (addChecksum _ _) as [a | e | ]; cbn [rbind]; [ | reflexivity | reflexivity].
  destruct (negb _); [reflexivity | eexists; reflexivity].
Qed.

(** From entropy to the wallet: the sentence made of the entropy passes the check, its seed is BIP 39's and the master
    key is BIP 32's for that seed. *)
Theorem C103_wallet : forall sha256 hmac512 W e p, (forall b, length (sha256 b) = 32%nat /\ bytes_ok (sha256 b)) -> mac64 hmac512 ->
  good_list W -> bytes_ok e -> entropy_size (length e) ->
  exists m seed h IL IR, NewMnemonic sha256 W e = Ok m /\ m = sentence (bip39_words sha256 W e) /\
    NewSeedWithErrorChecking sha256 hmac512 W m p = Ok seed /\ NewSeed hmac512 m p = Ok seed /\ seed = bip39_seed hmac512 m p /\
    NewHDKey hmac512 seed = Ok h /\ hmac512 (str_bytes "Bitcoin seed") seed = IL ++ IR /\ len IL = 32 /\
    represents h (Xprv 0 [0; 0; 0; 0] [0; 0; 0; 0] IR (be IL)).
Proof.
  intros sha hmac W e p HS HM G B S. destruct (proj1 (C58_mnemonic_roundtrip sha HS W G e B) S) as (E & L & F & D).
  set (m := sentence (bip39_words sha W e)) in *. destruct (C103_seed hmac m p HM) as (ES & _ & _).
  destruct (C95_master hmac (bip39_seed hmac m p) HM) as (h & IL & IR & EH & EI & LI & R & _).
  exists m, (bip39_seed hmac m p), h, IL, IR.
  assert (NE : bip39_words sha W e <> []). { intro X. rewrite X in L. cbn [length] in L. red in S. destruct S as [Q|[Q|[Q|[Q|[Q|[]]]]]]; rewrite <- Q in L; discriminate L. }
  assert (SF : Forall space_free (bip39_words sha W e)).
  { apply Forall_forall. intros w I. apply (proj1 (Forall_forall _ _) F) in I. destruct G as (_ & _ & G). exact (proj1 (Forall_forall _ _) G w I). }
  split; [exact E | ]. split; [reflexivity | ]. split; [ | split; [exact ES | split; [reflexivity | split; [exact EH | split; [exact EI | split; [exact LI | exact R]]]]]].
  unfold NewSeedWithErrorChecking. pose proof (to_bytes_raw sha W m) as T.
  destruct (C85_decoders_agree_partial sha HS W G _ NE SF) as [(e' & _ & E2) | (e1 & e2 & E1 & _)].
  - fold m in E2. rewrite E2 in T. destruct T as (b & ->). cbn [rbind]. exact ES.
  - fold m in E1. congruence.
Qed.
Print Assumptions C103_wallet.

Lemma entropy_of_fields : forall sha W a b, Fields a = Fields b -> EntropyFromMnemonic sha W a = EntropyFromMnemonic sha W b.
Proof. intros sha W a b E. unfold EntropyFromMnemonic, splitMnemonicWords. rewrite E. reflexivity. Qed.

(** The check never panics. *)
Theorem C103_no_panic : forall sha256 hmac512 W m p, (forall b, length (sha256 b) = 32%nat /\ bytes_ok (sha256 b)) -> mac64 hmac512 ->
  NewSeedWithErrorChecking sha256 hmac512 W m p <> Panic.
Proof.
  intros sha hmac W m p HS HM. unfold NewSeedWithErrorChecking. rewrite (proj1 (C103_seed hmac m p HM)).
  unfold MnemonicToByteArray. cbv zeta. destruct (negb _); [discriminate | ]. unfold addChecksum.
  match goal with |- context [index (sha ?d) 0] => destruct (sha d) as [ | x l] eqn:E; [destruct (HS d) as [L _]; rewrite E in L; discriminate L | ] end.
  change (index (x :: l) 0) with (Ok x). cbn [rbind].
  destruct (negb _); cbn [rbind]; discriminate.
Qed.
Print Assumptions C103_no_panic.

(** A string that strings.Split and strings.Fields cut alike passes exactly when its words are those BIP 39 gives to
    some entropy; the full claim is that every string does. *)
Theorem C103_checked_partial : forall sha256 hmac512 W m p, (forall b, length (sha256 b) = 32%nat /\ bytes_ok (sha256 b)) -> mac64 hmac512 ->
  good_list W -> Split m = Fields m ->
  (NewSeedWithErrorChecking sha256 hmac512 W m p = Ok (bip39_seed hmac512 m p) /\
     exists e, bytes_ok e /\ entropy_size (length e) /\ Fields m = bip39_words sha256 W e) \/
  ((exists er, NewSeedWithErrorChecking sha256 hmac512 W m p = Err er) /\
     ~ exists e, bytes_ok e /\ entropy_size (length e) /\ Fields m = bip39_words sha256 W e).
Proof.
  intros sha hmac W m p HS HM G SP. unfold NewSeedWithErrorChecking. rewrite (proj1 (C103_seed hmac m p HM)).
  pose proof (to_bytes_raw sha W m) as T.
  destruct (C85_decoders_agree_more_partial sha HS W G m SP) as [(e & E1 & E2) | (e1 & e2 & E1 & E2)]; rewrite E2 in T.
  - left. destruct T as (b & ->). cbn [rbind]. split; [reflexivity | ]. exists e. exact (C59_only_valid_checksums sha HS W G m e E1).
  - right. rewrite T. split; [exists e2; reflexivity | ]. intros (e & B & S & F).
    destruct (proj1 (C58_mnemonic_roundtrip sha HS W G e B) S) as (_ & _ & I & D).
    assert (SF : Forall space_free (bip39_words sha W e)).
    { apply Forall_forall. intros w Iw. apply (proj1 (Forall_forall _ _) I) in Iw. destruct G as (_ & _ & G). exact (proj1 (Forall_forall _ _) G w Iw). }
    rewrite (entropy_of_fields sha W _ m) in D; [congruence | ]. rewrite F, <- sentence_join. apply fields_join. exact SF.
Qed.
Print Assumptions C103_checked_partial.

(** Twelve words with a wrong checksum, behind three spaces: Split gives fifteen words, the empty ones count as
    "abandon", and that checksum is right. *)
Definition spaced : bytes := str_bytes "   auction wave sausage worth useful legal winner thank year wave sausage witness".

Theorem C103_checked_refuted : exists m, forall hmac512 p, mac64 hmac512 ->
  NewSeedWithErrorChecking sha256 hmac512 English m p = Ok (bip39_seed hmac512 m p) /\
  EntropyFromMnemonic sha256 English m = Err "ErrChecksumIncorrect" /\
  ~ exists e, bytes_ok e /\ entropy_size (length e) /\ Fields m = bip39_words sha256 English e.
Proof.
  exists spaced. intros hmac p HM.
  assert (E : EntropyFromMnemonic sha256 English spaced = Err "ErrChecksumIncorrect") by (vm_compute; reflexivity).
  split; [ | split; [exact E | ]].
  - unfold NewSeedWithErrorChecking. rewrite (proj1 (C103_seed hmac spaced p HM)).
    assert (exists b, MnemonicToByteArray sha256 English spaced false = Ok b) as (b & ->) by (vm_compute; eexists; reflexivity).
    reflexivity.
  - intros (e & B & S & F). destruct (proj1 (C58_mnemonic_roundtrip sha256 real_sha_ok English english_good e B) S) as (_ & _ & I & D).
    assert (SF : Forall space_free (bip39_words sha256 English e)).
    { apply Forall_forall. intros w Iw. apply (proj1 (Forall_forall _ _) I) in Iw. destruct english_good as (_ & _ & G). exact (proj1 (Forall_forall _ _) G w Iw). }
    rewrite (entropy_of_fields sha256 English _ spaced) in D; [congruence | ]. rewrite F, <- sentence_join. apply fields_join. exact SF.
Qed.
Print Assumptions C103_checked_refuted.

(** A toy HMAC: the key's and the message's lengths and the message's last octet. *)
Definition toy512 (k d : bytes) : bytes := repeat 0 61 ++ [u8 (len k); u8 (len d); u8 (last d 0)].
Lemma toy512_ok : mac64 toy512.
Proof.
  intros k d. split; [reflexivity | ]. unfold toy512. apply Forall_app. split; [apply bytes_ok_forallb; reflexivity | ].
  repeat (apply Forall_cons; [unfold u8; apply Z.mod_pos_bound; lia | ]). constructor.
Qed.

Example C103_example : NewMnemonic sha256 English (repeat 127 16) = Ok legal /\ mac64 toy512 /\
  NewSeedWithErrorChecking sha256 toy512 English legal (str_bytes "TREZOR") = Ok (bip39_seed toy512 legal (str_bytes "TREZOR")) /\
  NewSeedWithErrorChecking sha256 toy512 English (legal ++ [32; 32]) [] = Err "ErrChecksumIncorrect" /\
  Split legal = Fields legal.
Proof.
  split; [exact (proj1 C58_example) | ]. split; [exact toy512_ok | ].
  split; [ | split; [unfold NewSeedWithErrorChecking; assert (MnemonicToByteArray sha256 English (legal ++ [32; 32]) false = Err "ErrChecksumIncorrect") as -> by (vm_compute; reflexivity); reflexivity | vm_compute; reflexivity]].
  unfold NewSeedWithErrorChecking. rewrite (proj1 (proj2 C85_example)). cbn [rbind]. apply C103_seed. exact toy512_ok.
Qed.
