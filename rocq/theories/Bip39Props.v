(** C58, C59, C85: mnemonics. *)
From Verif Require Import GoBase BaseLemmas Sha256 Sha256Proofs Bip39Model Bip39Spec Bip39Proofs Bip39More Bip39Words Bip39Lists.

Lemma real_sha_ok b : length (sha256 b) = 32%nat /\ bytes_ok (sha256 b).
Proof. split; [|apply sha256_ok]. pose proof (sha256_len b) as L. unfold len in L. lia. Qed.
Definition legal : bytes := str_bytes "legal winner thank year wave sausage worth useful legal winner thank yellow".

(** C58: entropy of the five sizes becomes the words BIP39 gives it and comes back; other sizes are refused. *)
Theorem C58_mnemonic_roundtrip : forall sha256, (forall b, length (sha256 b) = 32%nat /\ bytes_ok (sha256 b)) -> forall W, good_list W -> forall e, bytes_ok e ->
  (entropy_size (length e) ->
     NewMnemonic sha256 W e = Ok (sentence (bip39_words sha256 W e)) /\ length (bip39_words sha256 W e) = (length e / 4 * 3)%nat /\
     Forall (fun w => In w W) (bip39_words sha256 W e) /\ EntropyFromMnemonic sha256 W (sentence (bip39_words sha256 W e)) = Ok e) /\
  (~ entropy_size (length e) -> NewMnemonic sha256 W e = Err "ErrEntropyLengthInvalid").
Proof. intros sha256 H W G e B. split; [exact (mnemonic_roundtrip sha256 H W G e B)|exact (other_sizes sha256 W e)]. Qed.
Print Assumptions C58_mnemonic_roundtrip.
(** The word lists the code ships meet the condition: 2048 distinct words, none empty or holding a space of any kind. *)
Theorem C58_word_lists : good_list English /\ good_list Chinese /\ good_list Japanese.
Proof. split; [exact english_good|]. split; [exact chinese_good|exact japanese_good]. Qed.
Print Assumptions C58_word_lists.
Example C58_example : NewMnemonic sha256 English (repeat 127 16) = Ok legal /\ EntropyFromMnemonic sha256 English legal = Ok (repeat 127 16) /\ entropy_size 16 /\ ~ entropy_size 17.
Proof. split; [vm_compute; reflexivity|]. split; [vm_compute; reflexivity|]. split; [cbn; tauto|]. intros I. cbn in I. lia. Qed.

(** C59: what decodes is the encoding of the result. *)
Theorem C59_only_valid_checksums : forall sha256, (forall b, length (sha256 b) = 32%nat /\ bytes_ok (sha256 b)) -> forall W, good_list W -> forall m e,
  EntropyFromMnemonic sha256 W m = Ok e -> bytes_ok e /\ entropy_size (length e) /\ Fields m = bip39_words sha256 W e.
Proof. exact mnemonic_checked. Qed.
Print Assumptions C59_only_valid_checksums.
Example C59_example : EntropyFromMnemonic sha256 English (legal ++ [10; 9]) = Ok (repeat 127 16) /\
  EntropyFromMnemonic sha256 English (str_bytes "legal winner thank year wave sausage worth useful legal winner thank year") = Err "ErrChecksumIncorrect".
Proof. split; vm_compute; reflexivity. Qed.

(** C85: the two decoders agree on single-spaced sentences ... *)
Theorem C85_decoders_agree_partial : forall sha256, (forall b, length (sha256 b) = 32%nat /\ bytes_ok (sha256 b)) -> forall W, good_list W -> forall ws, ws <> [] -> Forall space_free ws ->
  (exists e, EntropyFromMnemonic sha256 W (sentence ws) = Ok e /\ MnemonicToByteArray sha256 W (sentence ws) true = Ok e) \/
  (exists e1 e2, EntropyFromMnemonic sha256 W (sentence ws) = Err e1 /\ MnemonicToByteArray sha256 W (sentence ws) true = Err e2).
Proof. intros sha256 H W G ws N F. apply (decoders_agree sha256 H W G). now apply single_spaced. Qed.
Print Assumptions C85_decoders_agree_partial.
(** ... and on every string that splits alike both ways ... *)
Theorem C85_decoders_agree_more_partial : forall sha256, (forall b, length (sha256 b) = 32%nat /\ bytes_ok (sha256 b)) -> forall W, good_list W -> forall m, Split m = Fields m ->
  (exists e, EntropyFromMnemonic sha256 W m = Ok e /\ MnemonicToByteArray sha256 W m true = Ok e) \/
  (exists e1 e2, EntropyFromMnemonic sha256 W m = Err e1 /\ MnemonicToByteArray sha256 W m true = Err e2).
Proof. exact decoders_agree. Qed.
Print Assumptions C85_decoders_agree_more_partial.
(** ... but not on all: a trailing space passes IsMnemonicValid and EntropyFromMnemonic, and fails MnemonicToByteArray. *)
Theorem C85_decoders_agree_refuted : exists m e, IsMnemonicValid English m = true /\ EntropyFromMnemonic sha256 English m = Ok e /\ MnemonicToByteArray sha256 English m true = Err "ErrChecksumIncorrect".
Proof. exists (legal ++ [32]), (repeat 127 16). split; [|split]; vm_compute; reflexivity. Qed.
Print Assumptions C85_decoders_agree_refuted.
Example C85_example : MnemonicToByteArray sha256 English legal true = Ok (repeat 127 16) /\ MnemonicToByteArray sha256 English legal false = Ok (7 :: repeat 247 15 ++ [248]) /\ Split legal = Fields legal.
Proof. split; [|split]; vm_compute; reflexivity. Qed.
