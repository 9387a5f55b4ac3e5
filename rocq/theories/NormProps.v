(** C163: seeds and the normalisation BIP 39 asks for. *)
From Verif Require Import GoBase BaseLemmas Sha256 Sha256Proofs Bech32Poly Bip39Model Bip39Spec Bip39Proofs Bip39More Bip39Words Bip39Lists Bip39Props.
From Verif Require Import Pbkdf2Model Pbkdf2Spec Pbkdf2Props SeedModel EcdsaSpec SecpSpec AddressSpec Base58Spec PubKeySpec Bip32Model Bip32Spec Bip32Proofs Bip32Props SeedProps.
Local Open Scope Z_scope.

(** UTF-8 of U+00E9 (e with acute), of e followed by U+0301 (combining acute), and of U+3000 (the space of Japanese text). *)
Definition e_acute : bytes := [0xc3; 0xa9].
Definition e_combining : bytes := [0x65; 0xcc; 0x81].
Definition wide_space : bytes := [0xe3; 0x80; 0x80].
Definition ascii (s : bytes) : Prop := Forall (fun c => 0 <= c < 128) s.
(** What is used here of Unicode's normal form NFKD, as a function of UTF-8 text: ASCII text is normal, the composed
    letter is taken apart, and the wide space becomes a space. *)
Definition like_nfkd (nfkd : bytes -> bytes) : Prop :=
  (forall s, ascii s -> nfkd s = s) /\ nfkd e_acute = e_combining /\ forall a b, nfkd (a ++ wide_space ++ b) = nfkd a ++ [0x20] ++ nfkd b.
(** BIP 39: the seed of the sentence and password, both in NFKD. *)
Definition normal_seed (nfkd : bytes -> bytes) (hmac512 : bytes -> bytes -> bytes) (m p : bytes) : bytes := bip39_seed hmac512 (nfkd m) (nfkd p).

Definition ascii_b (s : bytes) : bool := forallb (fun c => (0 <=? c) && (c <? 128)) s.
Lemma ascii_ok s : ascii_b s = true -> ascii s.
Proof. unfold ascii_b, ascii. rewrite forallb_forall, Forall_forall. intros H x I. specialize (H x I). apply andb_prop in H. destruct H. lia. Qed.
Lemma english_ascii : Forall ascii English.
Proof. assert (H : forallb ascii_b English = true) by (vm_compute; reflexivity). rewrite forallb_forall in H. apply Forall_forall. intros w I. apply ascii_ok. now apply H. Qed.
Lemma sentence_ascii ws : Forall ascii ws -> ascii (sentence ws).
Proof.
  intros F. destruct F as [|w r H F]; [constructor|]. cbn [sentence]. apply Forall_app. split; [exact H|].
  induction F as [|x r Hx _ IH]; [constructor|]. cbn [map concat]. apply Forall_app. split; [|exact IH]. constructor; [lia|exact Hx].
Qed.

(** C163, what holds: for English mnemonics the library makes and passwords in ASCII the seed is the standard one. *)
Theorem C163_ascii_partial : forall nfkd sha256 hmac512 e p, like_nfkd nfkd -> (forall b, length (sha256 b) = 32%nat /\ bytes_ok (sha256 b)) -> mac64 hmac512 ->
  bytes_ok e -> entropy_size (length e) -> ascii p ->
  exists m, NewMnemonic sha256 English e = Ok m /\ NewSeed hmac512 m p = Ok (normal_seed nfkd hmac512 m p) /\ NewSeedWithErrorChecking sha256 hmac512 English m p = Ok (normal_seed nfkd hmac512 m p).
Proof.
  intros nfkd sha hmac e p (NA & _) HS HM B S A. destruct (C103_wallet sha hmac English e p HS HM (proj1 C58_word_lists) B S) as (m & seed & h & IL & IR & E & Em & W & N & Es & _).
  destruct (proj1 (C58_mnemonic_roundtrip sha HS English (proj1 C58_word_lists) e B) S) as (_ & _ & I & _).
  assert (Am : ascii m). { rewrite Em. apply sentence_ascii. eapply Forall_impl; [|exact I]. intros w Iw. exact (proj1 (Forall_forall _ _) english_ascii w Iw). }
  exists m. unfold normal_seed. rewrite (NA m Am), (NA p A). rewrite W, N, Es. auto.
Qed.
Print Assumptions C163_ascii_partial.

(** A code that answers 64 ones when key or message contain the byte c3 or e3 and the message is not 64 octets long. *)
Definition marked (s : bytes) : bool := existsb (fun c => (c =? 0xc3) || (c =? 0xe3)) s.
Definition mark_mac (k m : bytes) : bytes := if negb (Nat.eqb (length m) 64) && marked (k ++ m) then repeat 1 64 else repeat 0 64.
Lemma mark_mac64 : mac64 mark_mac.
Proof. intros k m. unfold mark_mac. destruct (_ && _)%bool; (split; [reflexivity|]); apply Forall_forall; intros x I; apply repeat_spec in I; subst x; split; discriminate || reflexivity. Qed.
Lemma mark_later : forall k salt i j, U (mark_mac k) salt i (S j) = repeat 0 64.
Proof.
  intros k salt i j. cbn [U]. unfold mark_mac at 1.
  assert (L : length (U (mark_mac k) salt i j) = 64%nat) by (destruct j; cbn [U]; unfold mark_mac at 1; destruct (_ && _)%bool; reflexivity).
  rewrite L. reflexivity.
Qed.
Lemma mark_octet : forall k salt c i x, (x < 64)%nat -> T_octet (mark_mac k) salt (S c) i x = nth x (mark_mac k (salt ++ octets 4 i)) 0.
Proof.
  intros k salt c i x X. unfold T_octet. cbn [seq map fold_right U].
  assert (Z0 : fold_right Z.lxor 0 (map (fun j => nth x (U (mark_mac k) salt i j) 0) (seq 1 c)) = 0).
  { rewrite <- seq_shift, map_map. induction (seq 0 c) as [|a r IH]; [reflexivity|]. cbn [map fold_right]. rewrite mark_later, IH, nth_repeat. reflexivity. }
  rewrite Z0. apply Z.lxor_0_r.
Qed.
Lemma mark_seed : forall m p, nth 0 (bip39_seed mark_mac m p) 7 = nth 0 (mark_mac m (([109; 110; 101; 109; 111; 110; 105; 99] ++ p) ++ octets 4 1)) 0.
Proof.
  intros m p. unfold bip39_seed, pbkdf2. change ((64 + 64 - 1) / 64)%nat with 1%nat. cbv zeta. cbn [seq flat_map]. rewrite app_nil_r. change (Z.of_nat 1) with 1. unfold T.
  change (seq 0 64) with (0%nat :: seq 1 63). cbn [map]. change (firstn 64 (?a :: ?l)) with (a :: firstn 63 l). cbn [nth].
  change 2048%nat with (S 2047). apply mark_octet. lia.
Qed.
Lemma marked_app a b : marked (a ++ b) = (marked a || marked b)%bool. Proof. apply existsb_app. Qed.
Lemma ascii_unmarked s : ascii s -> marked s = false.
Proof. induction 1 as [|c s H _ IH]; [reflexivity|]. cbn [marked existsb] in *. unfold marked in IH. rewrite IH. destruct (c =? 195) eqn:E1; [lia|]. destruct (c =? 227) eqn:E2; [lia|reflexivity]. Qed.

(** Words joined by the wide space. *)
Fixpoint wide_sentence (ws : list bytes) : bytes := match ws with [] => [] | [w] => w | w :: r => w ++ wide_space ++ wide_sentence r end.
Definition legal : list bytes := map str_bytes ["legal"; "winner"; "thank"; "year"; "wave"; "sausage"; "worth"; "useful"; "legal"; "winner"; "thank"; "yellow"]%string.
Lemma wide_normal nfkd : like_nfkd nfkd -> nfkd (wide_sentence legal) = sentence legal.
Proof.
  intros (NA & _ & NW).
  assert (G : forall ws, Forall ascii ws -> nfkd (wide_sentence ws) = sentence ws).
  { intros ws F. induction F as [|w r H F IH]; [apply NA; constructor|]. destruct r as [|x r]; [cbn; rewrite app_nil_r; now apply NA|].
    change (wide_sentence (w :: x :: r)) with (w ++ wide_space ++ wide_sentence (x :: r)). rewrite NW, IH, (NA w H). reflexivity. }
  apply G. unfold legal. repeat (constructor; [apply ascii_ok; vm_compute; reflexivity|]). constructor.
Qed.

(** C163 is false of a password with a composed letter, whatever the mnemonic in ASCII; and of a mnemonic the library
    accepts, written with the wide spaces of Japanese text. *)
Theorem C163_normal_refuted : exists hmac512, mac64 hmac512 /\ forall nfkd, like_nfkd nfkd ->
  (forall m, ascii m -> NewSeed hmac512 m e_acute <> Ok (normal_seed nfkd hmac512 m e_acute)) /\
  exists m, IsMnemonicValid English m = true /\ (exists e, EntropyFromMnemonic sha256 English m = Ok e) /\
    forall p, ascii p -> (length p < 50)%nat -> NewSeed hmac512 m p <> Ok (normal_seed nfkd hmac512 m p).
Proof.
  exists mark_mac. split; [exact mark_mac64|]. intros nfkd N. split.
  - intros m A. rewrite (proj1 (C103_seed mark_mac m e_acute mark_mac64)). intros Q. assert (Q' : bip39_seed mark_mac m e_acute = normal_seed nfkd mark_mac m e_acute) by congruence.
    apply (f_equal (fun s => nth 0 s 7)) in Q'. unfold normal_seed in Q'. destruct N as (NA & NE & _). rewrite NE, (NA m A), !mark_seed in Q'.
    unfold mark_mac in Q'. rewrite !(marked_app m), (ascii_unmarked m A) in Q'. vm_compute in Q'. discriminate Q'.
  - exists (wide_sentence legal). split; [vm_compute; reflexivity|]. split.
    { eexists. vm_compute. reflexivity. }
    intros p A L. rewrite (proj1 (C103_seed mark_mac _ p mark_mac64)). intros Q. assert (Q' : bip39_seed mark_mac (wide_sentence legal) p = normal_seed nfkd mark_mac (wide_sentence legal) p) by congruence.
    apply (f_equal (fun s => nth 0 s 7)) in Q'. unfold normal_seed in Q'. rewrite (wide_normal nfkd N) in Q'. destruct N as (NA & _ & _). rewrite (NA p A), !mark_seed in Q'.
    unfold mark_mac in Q'. rewrite !marked_app, (ascii_unmarked p A) in Q'.
    replace (Nat.eqb (length (([109; 110; 101; 109; 111; 110; 105; 99] ++ p) ++ octets 4 1)) 64) with false in Q'.
    2: { symmetry. apply Nat.eqb_neq. rewrite !app_length. change (length (octets 4 1)) with 4%nat. cbn [length]. lia. }
    replace (marked (sentence legal)) with false in Q' by (vm_compute; reflexivity). replace (marked (wide_sentence legal)) with true in Q' by (vm_compute; reflexivity).
    vm_compute in Q'. discriminate Q'.
Qed.
Print Assumptions C163_normal_refuted.

(** Such a function exists: replace the two characters. *)
Fixpoint small_nfkd (s : bytes) : bytes :=
  match s with
  | [] => []
  | c :: r =>
      if c =? 0xe3 then match r with x :: ((y :: r') as _) => if (x =? 0x80) && (y =? 0x80) then 0x20 :: small_nfkd r' else c :: small_nfkd r | _ => c :: small_nfkd r end
      else if c =? 0xc3 then match r with x :: r' => if x =? 0xa9 then e_combining ++ small_nfkd r' else c :: small_nfkd r | [] => [c] end
      else c :: small_nfkd r
  end.
Lemma small_cons c r : small_nfkd (c :: r) =
  (if c =? 0xe3 then match r with x :: ((y :: r') as _) => if (x =? 0x80) && (y =? 0x80) then 0x20 :: small_nfkd r' else c :: small_nfkd r | _ => c :: small_nfkd r end
   else if c =? 0xc3 then match r with x :: r' => if x =? 0xa9 then e_combining ++ small_nfkd r' else c :: small_nfkd r | [] => [c] end
   else c :: small_nfkd r).
Proof. reflexivity. Qed.
Lemma small_wide : forall n a b, (length a <= n)%nat -> small_nfkd (a ++ wide_space ++ b) = small_nfkd a ++ [0x20] ++ small_nfkd b.
Proof.
  induction n as [|n IH]; intros a b L; [destruct a; [reflexivity|cbn in L; lia]|]. destruct a as [|c r]; [reflexivity|]. cbn [length] in L.
  change ((c :: r) ++ wide_space ++ b) with (c :: (r ++ wide_space ++ b)). rewrite (small_cons c (r ++ wide_space ++ b)), (small_cons c r). destruct (c =? 0xe3).
  - destruct r as [|x [|y r']].
    + change ([] ++ wide_space ++ b) with (0xe3 :: 0x80 :: 0x80 :: b). reflexivity.
    + change ([x] ++ wide_space ++ b) with (x :: 0xe3 :: 0x80 :: 0x80 :: b). assert (F : ((x =? 0x80) && (0xe3 =? 0x80))%bool = false) by (destruct (x =? 0x80); reflexivity). cbv iota beta. rewrite F.
      change (x :: 0xe3 :: 0x80 :: 0x80 :: b) with ([x] ++ wide_space ++ b). rewrite IH by lia. reflexivity.
    + change ((x :: y :: r') ++ wide_space ++ b) with (x :: y :: (r' ++ wide_space ++ b)). cbv iota beta. destruct ((x =? 0x80) && (y =? 0x80))%bool.
      * rewrite IH by (cbn in L; lia). reflexivity.
      * change (x :: y :: (r' ++ wide_space ++ b)) with ((x :: y :: r') ++ wide_space ++ b). rewrite IH by lia. reflexivity.
  - destruct (c =? 0xc3).
    + destruct r as [|x r'].
      * change ([] ++ wide_space ++ b) with (0xe3 :: 0x80 :: 0x80 :: b). reflexivity.
      * change ((x :: r') ++ wide_space ++ b) with (x :: (r' ++ wide_space ++ b)). cbv iota beta. destruct (x =? 0xa9).
        -- rewrite IH by (cbn in L; lia). now rewrite <- app_assoc.
        -- change (x :: (r' ++ wide_space ++ b)) with ((x :: r') ++ wide_space ++ b). rewrite IH by lia. reflexivity.
    + rewrite IH by lia. reflexivity.
Qed.
Example C163_example : like_nfkd small_nfkd /\ mac64 mark_mac /\ ascii (str_bytes "a password") /\ small_nfkd (e_acute ++ wide_space ++ [65]) = e_combining ++ [32; 65] /\
  EntropyFromMnemonic sha256 English (wide_sentence legal) = Ok (repeat 0x7f 16).
Proof.
  split.
  - split; [|split; [reflexivity|intros a b; apply (small_wide (length a)); lia]].
    induction 1 as [|c r H _ IH]; [reflexivity|]. rewrite small_cons. destruct (c =? 0xe3) eqn:E1; [lia|]. destruct (c =? 0xc3) eqn:E2; [lia|]. now rewrite IH.
  - split; [exact mark_mac64|]. split; [apply ascii_ok; reflexivity|]. split; [reflexivity|]. vm_compute. reflexivity.
Qed.
