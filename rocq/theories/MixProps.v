(** C160: addresses and extended keys are not taken for each other. *)
From Verif Require Import GoBase BaseLemmas BigInt BigIntProofs Sha256 Sha256Proofs Base58Model Base58Spec Base58Proofs Base58Props Bech32Model Bech32Spec Bech32Proofs WitnessModel WitnessProofs
  AddressModel AddressSpec AddressProofs AddressProps PubKeyModel PubKeySpec Bip32Model Bip32Spec Bip32Proofs Bip32Props PrefixProps.
From Coq Require Import ZifyBool ZifyNat.
Local Open Scope Z_scope.

Lemma encode_longer b : bytes_ok b -> len b <= len (Base58Encode b).
Proof.
  intros B. destruct (split_zeros b) as (n & c & -> & Hc). apply Forall_app in B. destruct B as [_ B]. rewrite encode_split by assumption. rewrite !len_app. unfold len at 1 3. rewrite !repeat_length.
  enough (len c <= len (map chr (rev (BigInt.digits 58 (set_bytes c))))) by lia. unfold len at 2. rewrite map_length, rev_length. fold (len (BigInt.digits 58 (set_bytes c))).
  pose proof (set_bytes_nonneg c B) as P. destruct c as [|x c]; [unfold len; cbn [length]; lia|]. cbn [hd] in Hc. inversion B as [|? ? Bx Bc]; subst.
  pose proof (le_val_lt 58 ltac:(lia) _ (digits_ok 58 ltac:(lia) _ P)) as U. rewrite (digits_val 58 ltac:(lia) _ P) in U. rewrite set_bytes_cons in U. pose proof (set_bytes_nonneg c Bc) as Pc. rewrite <- set_bytes_cons in U.
  set (L := len (BigInt.digits 58 (set_bytes (x :: c)))) in *. assert (L0 : 0 <= L) by apply len_nonneg. rewrite set_bytes_cons in U. pose proof (len_nonneg c) as Lc. rewrite len_cons.
  assert (Q : 256 ^ len c < 256 ^ L). { apply Z.le_lt_trans with (x * 256 ^ len c + set_bytes c); [|apply Z.lt_le_trans with (58 ^ L); [exact U|apply Z.pow_le_mono_l; lia]]. assert (0 < 256 ^ len c) by (apply Z.pow_pos_nonneg; lia). unfold is_byte in Bx. nia. }
  apply Z.pow_lt_mono_r_iff in Q; lia.
Qed.
Lemma decode_shorter s : bytes_ok s -> len (Base58Decode s) <= len s.
Proof.
  intros B. destruct (forallb b58_charb s) eqn:F.
  - assert (A : Forall is_b58_char s) by (apply Forall_forall; intros c Hc; apply b58_charb_spec; now apply (proj1 (forallb_forall _ _) F)).
    rewrite <- (base58_encode_decode s A) at 2. apply encode_longer. apply base58_decode_bytes.
  - rewrite base58_decode_invalid; [apply len_nonneg|exact B|]. apply not_true_iff_false in F. rewrite forallb_forall in F.
    assert (X : ~ Forall is_b58_char s) by (intros A; apply F; intros c Hc; apply b58_charb_spec; rewrite Forall_forall in A; auto).
    clear -X. induction s as [|c s IH]; [elim X; constructor|]. destruct (b58_charb c) eqn:Q; [|exists c; split; [now left|intros A; apply b58_charb_spec in A; congruence]].
    destruct IH as (d & Hd & Nd); [intros A; apply X; constructor; [now apply b58_charb_spec|exact A]|]. exists d. split; [now right|exact Nd].
Qed.

(** C160: an address is no extended key. *)
Theorem C160_address_no_key : forall sha256 net a, hash32 sha256 -> known_net net -> address_ok a -> exists e, NewHDKeyFromString sha256 (AddressModel.ToString sha256 a net) = Err e.
Proof.
  intros sha256 net a Hs K [B L].
  assert (X : len (Base58Decode (AddressModel.ToString sha256 a net)) < 82).
  { assert (C : forall h v, bytes_ok h -> len h = 20 -> is_byte v -> len (Base58Decode (Base58CheckEncode sha256 h v)) = 25).
    { intros h v Bh Lh Bv. unfold Base58CheckEncode. rewrite base58_decode_encode; [rewrite !len_app, Lh, checksum_len by apply Hs; reflexivity|].
      apply Forall_app. split; [constructor; assumption|apply checksum_ok; apply Hs]. }
    assert (W : forall p, bytes_ok p -> len p = 20 \/ len p = 32 -> len (Base58Decode (witness_string net p)) < 82).
    { intros p Bp Lp. assert (Ln : exists n, len (witness_string net p) = n /\ n <= 62 /\ bytes_ok (witness_string net p)).
      { destruct (witness_begins net p (if len p =? 20 then 42 else 62) K Bp) as (r & _ & Q); [destruct Lp as [-> | ->]; auto|]. eexists. split; [exact Q|]. split; [destruct (len p =? 20); lia|].
        unfold witness_string, WitnessEncode. destruct (to5 p Bp) as (d & k & E & F & _). rewrite E. cbn [rbind]. assert (F0 : five_bit ([0] ++ d)) by (constructor; [lia|exact F]). rewrite encode_ok by exact F0.
        pose proof (encoding_chars (Bech32HRPSegwit net) ([0] ++ d) (proj1 (hrp2 net K)) F0) as G. apply printable_bytes. eapply Forall_impl; [|exact G]. intros c Hc. apply Hc. }
      destruct Ln as (n & Q & Le & Bw). pose proof (decode_shorter _ Bw). lia. }
    destruct a as [h|h|p|p]; cbn [addr_hash addr_len AddressModel.ToString] in *.
    - rewrite C; [lia|exact B|exact L|destruct K as [->| ->]; unfold is_byte; cbn; lia].
    - rewrite C; [lia|exact B|exact L|destruct K as [->| ->]; unfold is_byte; cbn; lia].
    - apply W; auto.
    - apply W; auto. }
  unfold NewHDKeyFromString. replace (len (Base58Decode (AddressModel.ToString sha256 a net)) =? serializedKeyLen + 4) with false by (unfold serializedKeyLen; lia). eexists. reflexivity.
Qed.
Print Assumptions C160_address_no_key.
Example C160_example : hash32 sha256 /\ known_net MainNet /\ address_ok (PayToPubKeyHashAddress (hx "751e76e8199196d454941c45d1b3a323f1433bd6")) /\ (exists e, NewHDKeyFromString sha256 (str_bytes "bc1qw508d6qejxtdg4y5r3zarvary0c5xw7kv8f3t4") = Err e).
Proof. split; [exact C06_hypothesis|]. split; [now left|]. split; [split; [bytes_ok_tac|reflexivity]|]. eexists. vm_compute. reflexivity. Qed.

(** C160: an extended key is no address, on any network. *)
Theorem C160_key_no_address : forall sha256 net net' h x s, hash32 sha256 -> known_net net -> known_net net' -> xkey_ok x -> represents h x ->
  Bip32Model.ToString sha256 (HDPrivateKeyID net) (HDPublicKeyID net) h = Ok s -> exists e, DecodeAddress sha256 s net' = Err e.
Proof.
  intros sha256 net net' h x s Hs K K' Ox R E.
  assert (F : exists c r, s = c :: r /\ (c = 120 \/ c = 116) /\ hd 0 r = 112).
  { destruct (C159_extended_keys sha256 h x Hs Ox R) as (s1 & s2 & E1 & E2 & M). destruct K as [->| ->]; [assert (s1 = s) by congruence; subst s1|assert (s2 = s) by congruence; subst s2]; destruct x; destruct M as [(r1 & M1 & _) (r2 & M2 & _)]; rewrite ?M1, ?M2; eexists _, _; (split; [reflexivity|]); auto. }
  destruct F as (c & r & Es & Hc & Hr).
  assert (V : bytes_ok (match x with Xprv _ _ _ _ _ => HDPrivateKeyID net | _ => HDPublicKeyID net end) /\ len (match x with Xprv _ _ _ _ _ => HDPrivateKeyID net | _ => HDPublicKeyID net end) = 4).
  { destruct K as [->| ->]; destruct x; (split; [apply bytes_ok_forallb; reflexivity|reflexivity]). }
  rewrite (export_eq sha256 Hs _ _ h x Ox R) in E. set (v := match x with Xprv _ _ _ _ _ => HDPrivateKeyID net | _ => HDPublicKeyID net end) in *. cbv zeta in E.
  set (d := payload v x ++ firstn 4 (sha256 (sha256 (payload v x)))) in *. assert (Es' : s = Base58Encode d) by congruence.
  assert (Bd : bytes_ok d).
  { apply Forall_app. split; [apply payload_ok; [exact Ox|apply V]|]. pose proof (proj2 (Hs (sha256 (payload v x)))) as Z0. rewrite <- (firstn_skipn 4 (sha256 (sha256 (payload v x)))) in Z0. apply Forall_app in Z0. apply Z0. }
  assert (Ld : len d = 82). { unfold d. rewrite len_app, (payload_len v x Ox (proj2 V)). pose proof (proj1 (Hs (sha256 (payload v x)))) as Z0. unfold len in *. rewrite firstn_length. lia. }
  assert (Bs : bytes_ok s). { rewrite Es'. eapply Forall_impl; [|exact (base58_encode_chars d Bd)]. intros a Ha. now apply b58_byte. }
  rewrite (decode_not_witness sha256 net' s K' Bs).
  - unfold decode_base58. destruct (Base58CheckDecode sha256 s) as [[p w]|e|] eqn:C; [|eauto|exfalso; exact (C06_check_never_panics sha256 Hs s C)].
    apply (proj1 (C06_check_iff sha256 Hs s p w)) in C. destruct C as (ck & D & Ck). rewrite Es', base58_decode_encode in D by exact Bd.
    apply (f_equal len) in D. rewrite Ld, !len_app in D. change (len [w]) with 1 in D. apply checksum_spec in Ck; try apply Hs. subst ck. rewrite checksum_len in D by apply Hs.
    replace (len p =? 20) with false by lia. eauto.
  - intros (q & Q). rewrite Es in Q. destruct K' as [->| ->]; cbn in Q; injection Q as Q1 Q2; [destruct Hc; lia|]. destruct r as [|r1 r]; [discriminate|]. cbn in Hr. injection Q2 as Q2 _. lia.
Qed.
Print Assumptions C160_key_no_address.
Example C160_key_example : hash32 sha256 /\ known_net TestNet /\ xkey_ok ex_prv /\ (exists h s, represents h ex_prv /\ Bip32Model.ToString sha256 (HDPrivateKeyID TestNet) (HDPublicKeyID TestNet) h = Ok s) /\
  (exists e, DecodeAddress sha256 (str_bytes "xprv9s21ZrQH143K3QTDL4LXw2F7HEK3wJUD2nW2nRk4stbPy6cq3jPPqjiChkVvvNKmPGJxWUtg6LnF5kejMRNNU3TGtRBeJgk33yuGBxrMPHi") MainNet = Err e).
Proof.
  destruct ex_importable as (I1 & _ & (h & R) & _). split; [exact C06_hypothesis|]. split; [now right|]. split; [exact (proj1 I1)|]. split; [|eexists; vm_compute; reflexivity].
  exists h. eexists. split; [exact R|exact (export_eq sha256 C06_hypothesis _ _ h ex_prv (proj1 I1) R)].
Qed.
