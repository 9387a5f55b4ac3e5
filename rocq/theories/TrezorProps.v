(** C152: the seed of a new mnemonic. *)
From Verif Require Import GoBase BaseLemmas Sha256 Sha256Proofs Bech32Poly Bip39Model Bip39Spec Bip39Proofs Bip39More Bip39Words Bip39Lists Bip39Props.
From Verif Require Import Pbkdf2Model Pbkdf2Spec Pbkdf2Props SeedModel EcdsaSpec SecpSpec AddressSpec Base58Spec PubKeySpec Bip32Model Bip32Spec Bip32Proofs Bip32Props SeedProps RandModel RandProps.
Local Open Scope Z_scope.

(** "TREZOR". *)
Definition trezor : bytes := [84; 82; 69; 90; 79; 82].
(** What is returned for every new mnemonic is its seed under the password "TREZOR", and this is the only password
    under which another wallet finds its keys, unless PBKDF2 collides. *)
Theorem C152_password_partial : forall sha256 gen hmac512 l now, digest32 sha256 -> fills gen -> mac64 hmac512 ->
  exists e b, fst (NewBIP39 sha256 gen l now) = Ok b /\ b39_entropy b = e /\ b39_mnemonic b = sentence (bip39_words sha256 (words_of l) e) /\
    Seed hmac512 b = Ok (bip39_seed hmac512 (sentence (bip39_words sha256 (words_of l) e)) trezor) /\
    forall p, (bip39_seed hmac512 (b39_mnemonic b) p = bip39_seed hmac512 (b39_mnemonic b) trezor -> p = trezor) ->
      (Seed hmac512 b = NewSeed hmac512 (b39_mnemonic b) p <-> p = trezor).
Proof.
  intros sha gen hmac l now HS HF HM. destruct (C109_new sha gen l now HS HF) as (e & E & _). exists e. eexists. split; [exact E|]. split; [reflexivity|]. split; [reflexivity|].
  cbn [b39_mnemonic]. unfold Seed. cbn [b39_mnemonic]. change (str_bytes "TREZOR") with trezor.
  set (m := sentence _) in *. rewrite (proj1 (C103_seed hmac m trezor HM)). split; [reflexivity|].
  intros p N. rewrite (proj1 (C103_seed hmac m p HM)). split; intro Q; [apply N; congruence|subst p; reflexivity].
Qed.
Print Assumptions C152_password_partial.

(** A code that answers 64 ones to what is 18 octets long, and 64 zeros to the rest. *)
Definition toy_mac (k m : bytes) : bytes := if Nat.eqb (length m) 18 then repeat 1 64 else repeat 0 64.
Lemma toy_mac64 : mac64 toy_mac.
Proof.
  intros k m. unfold toy_mac. destruct (Nat.eqb _ _); (split; [reflexivity|]); apply Forall_forall; intros x I; apply repeat_spec in I; subst x; split; discriminate || reflexivity.
Qed.
Lemma toy_later : forall k salt i j, U (toy_mac k) salt i (S j) = repeat 0 64.
Proof.
  intros k salt i j. cbn [U]. unfold toy_mac at 1.
  assert (L : length (U (toy_mac k) salt i j) = 64%nat) by (destruct j; cbn [U]; unfold toy_mac at 1; destruct (Nat.eqb _ _); reflexivity).
  rewrite L. reflexivity.
Qed.
Lemma toy_octet : forall k salt c i x, (x < 64)%nat -> T_octet (toy_mac k) salt (S c) i x = nth x (toy_mac k (salt ++ octets 4 i)) 0.
Proof.
  intros k salt c i x X. unfold T_octet. cbn [seq map fold_right U].
  assert (Z0 : fold_right Z.lxor 0 (map (fun j => nth x (U (toy_mac k) salt i j) 0) (seq 1 c)) = 0).
  { rewrite <- seq_shift, map_map. induction (seq 0 c) as [|a r IH]; [reflexivity|]. cbn [map fold_right]. rewrite toy_later, IH, nth_repeat. reflexivity. }
  rewrite Z0. apply Z.lxor_0_r.
Qed.
Lemma toy_seed : forall m p, nth 0 (bip39_seed toy_mac m p) 7 = nth 0 (toy_mac m (([109; 110; 101; 109; 111; 110; 105; 99] ++ p) ++ octets 4 1)) 0.
Proof.
  intros m p. unfold bip39_seed, pbkdf2. change ((64 + 64 - 1) / 64)%nat with 1%nat. cbv zeta. cbn [seq flat_map]. rewrite app_nil_r. change (Z.of_nat 1) with 1. unfold T.
  change (seq 0 64) with (0%nat :: seq 1 63). cbn [map]. change (firstn 64 (?a :: ?l)) with (a :: firstn 63 l). cbn [nth].
  change 2048%nat with (S 2047). apply toy_octet. lia.
Qed.
(** C152 is false: without a password another wallet makes another seed of the same words. *)
Theorem C152_words_alone_refuted : exists hmac512, mac64 hmac512 /\ forall sha256 gen l now b, digest32 sha256 -> fills gen ->
  fst (NewBIP39 sha256 gen l now) = Ok b ->
  Seed hmac512 b <> NewSeed hmac512 (b39_mnemonic b) [] /\ NewSeed hmac512 (b39_mnemonic b) [] = Ok (bip39_seed hmac512 (b39_mnemonic b) []).
Proof.
  exists toy_mac. split; [exact toy_mac64|]. intros sha gen l now b HS HF E. rewrite (proj1 (C103_seed toy_mac (b39_mnemonic b) [] toy_mac64)). split; [|reflexivity].
  unfold Seed. rewrite (proj1 (C103_seed toy_mac (b39_mnemonic b) _ toy_mac64)). intro Q.
  assert (Q' : bip39_seed toy_mac (b39_mnemonic b) (str_bytes "TREZOR") = bip39_seed toy_mac (b39_mnemonic b) []) by congruence.
  apply (f_equal (fun s => nth 0 s 7)) in Q'. rewrite !toy_seed in Q'. change (str_bytes "TREZOR") with trezor in Q'. revert Q'. generalize (b39_mnemonic b). intro m. vm_compute. discriminate.
Qed.
Print Assumptions C152_words_alone_refuted.
Example C152_example : digest32 sha256 /\ fills toy /\ mac64 toy_mac /\ Seed toy_mac {| b39_entropy := []; b39_mnemonic := [97] |} = Ok (bip39_seed toy_mac [97] trezor) /\
  nth 0 (bip39_seed toy_mac [97] trezor) 7 = 1 /\ nth 0 (bip39_seed toy_mac [97] []) 7 = 0.
Proof.
  split; [intro b; split; [pose proof (sha256_len b) as L; unfold len in L; lia|apply sha256_ok]|]. split; [exact toy_fills|]. split; [exact toy_mac64|]. split; [apply (proj1 (C103_seed toy_mac [97] trezor toy_mac64))|]. rewrite !toy_seed. split; reflexivity.
Qed.
