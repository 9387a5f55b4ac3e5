(** C159: the first characters of addresses and extended keys. *)
From Verif Require Import GoBase BaseLemmas BigInt BigIntProofs Sha256 Sha256Proofs Base58Model Base58Spec Base58Proofs Base58Props Bech32Model Bech32Spec Bech32Proofs WitnessModel WitnessProofs
  AddressModel AddressSpec AddressProofs AddressProps PubKeyModel PubKeySpec Bip32Model Bip32Spec Bip32Proofs Bip32Props.
From Coq Require Import ZifyBool ZifyNat.
Local Open Scope Z_scope.

(** What is left of the number after [k] digits are cut off is written first. *)
Lemma low_digits k : forall m, 0 <= m < 58 ^ Z.of_nat k -> exists lo, length lo = k /\ Forall (digit_ok 58) lo /\ le_val 58 lo = m.
Proof.
  induction k as [|k IH]; intros m Hm; [exists []; repeat split; [constructor|cbn in *; lia]|].
  rewrite Nat2Z.inj_succ, Z.pow_succ_r in Hm by lia. assert (Q : 0 <= m / 58 < 58 ^ Z.of_nat k) by (split; [apply Z.div_pos; lia|apply Z.div_lt_upper_bound; lia]).
  destruct (IH _ Q) as (lo & L & D & V). exists (m mod 58 :: lo). split; [cbn; lia|]. split; [constructor; [unfold digit_ok; apply Z.mod_pos_bound; lia|exact D]|].
  cbn [le_val]. rewrite V. pose proof (Z.div_mod m 58). lia.
Qed.
Lemma base58_begins b k q : bytes_ok b -> hd 0 b <> 0 -> 0 < q -> q * 58 ^ Z.of_nat k <= set_bytes b < (q + 1) * 58 ^ Z.of_nat k ->
  exists r, Base58Encode b = map chr (rev (BigInt.digits 58 q)) ++ r /\ length r = k.
Proof.
  intros B H Q R. assert (Pk : 0 < 58 ^ Z.of_nat k) by (apply Z.pow_pos_nonneg; lia).
  destruct (low_digits k (set_bytes b - q * 58 ^ Z.of_nat k) ltac:(lia)) as (lo & L & D & V).
  pose proof (encode_split 0 b B ltac:(destruct b; cbn in *; congruence)) as E. cbn [repeat app] in E. rewrite E.
  assert (Ds : BigInt.digits 58 (set_bytes b) = lo ++ BigInt.digits 58 q).
  { pose proof (digits_ok 58 ltac:(lia) q ltac:(lia)) as Dq. pose proof (digits_val 58 ltac:(lia) q ltac:(lia)) as Vq. pose proof (digits_top 58 ltac:(lia) q ltac:(lia)) as Tq.
    replace (set_bytes b) with (le_val 58 (lo ++ BigInt.digits 58 q)) by (rewrite le_val_app, V, Vq; unfold len; rewrite L; lia).
    apply digits_le_val; [lia|apply Forall_app; split; assumption|]. unfold top_nonzero in *. destruct (BigInt.digits 58 q) as [|d l] eqn:X; [cbn in Vq; lia|].
    clear -Tq. induction lo as [|a lo IH]; [exact Tq|]. cbn [app]. destruct (lo ++ d :: l) eqn:Y; [destruct lo; discriminate|exact IH]. }
  rewrite Ds, rev_app_distr, map_app. eexists. split; [reflexivity|]. now rewrite map_length, rev_length.
Qed.
(** The version bytes decide. *)
Lemma versioned v rest k qs : bytes_ok v -> hd 0 v <> 0 -> bytes_ok rest -> Forall (fun q => 0 < q) qs ->
  (forall x, set_bytes v * 256 ^ len rest <= x < (set_bytes v + 1) * 256 ^ len rest -> exists q, In q qs /\ q * 58 ^ Z.of_nat k <= x < (q + 1) * 58 ^ Z.of_nat k) ->
  exists q r, In q qs /\ Base58Encode (v ++ rest) = map chr (rev (BigInt.digits 58 q)) ++ r /\ length r = k.
Proof.
  intros Bv Hv Br Fq X. destruct (X (set_bytes (v ++ rest))) as (q & Hq & R).
  { rewrite set_bytes_app. pose proof (set_bytes_nonneg rest Br). pose proof (set_bytes_lt rest Br). lia. }
  rewrite Forall_forall in Fq. destruct (base58_begins (v ++ rest) k q) as (r & E & L); [apply Forall_app; auto|destruct v; [cbn in Hv; congruence|exact Hv]|now apply Fq|exact R|]. eauto.
Qed.
Lemma check_begins sha256 h v k qs : hash32 sha256 -> bytes_ok h -> len h = 20 -> 0 < v < 256 -> Forall (fun q => 0 < q) qs ->
  (forall x, v * 256 ^ 24 <= x < (v + 1) * 256 ^ 24 -> exists q, In q qs /\ q * 58 ^ Z.of_nat k <= x < (q + 1) * 58 ^ Z.of_nat k) ->
  exists q r, In q qs /\ Base58CheckEncode sha256 h v = map chr (rev (BigInt.digits 58 q)) ++ r /\ length r = k.
Proof.
  intros Hs B L Rv F X. unfold Base58CheckEncode. rewrite <- app_assoc. apply versioned; [constructor; [unfold is_byte; lia|constructor]|cbn; lia| |exact F|].
  - apply Forall_app. split; [exact B|]. apply checksum_ok; apply Hs.
  - rewrite len_app, L, checksum_len by apply Hs. change (set_bytes [v]) with (0 * 256 + v). replace (0 * 256 + v) with v by lia. exact X.
Qed.

(** C159: addresses of a key hash. *)
Definition begins (p : string) (n : Z) (s : bytes) : Prop := exists r, s = str_bytes p ++ r /\ len s = n.
Lemma one_first sha256 h : exists r, AddressModel.ToString sha256 (PayToPubKeyHashAddress h) MainNet = str_bytes "1" ++ r.
Proof.
  cbn [AddressModel.ToString PubKeyHashAddrID MainNet]. unfold Base58CheckEncode, Base58Encode. change ([0] ++ h) with (0 :: h). cbn [app].
  set (l := h ++ checksum sha256 (0 :: h)). change (leading 0 (0 :: l)) with (S (leading 0 l)). rewrite rev_app_distr, rev_repeat. cbn [repeat app]. eexists. reflexivity.
Qed.
Lemma check_string sha256 h v k qs ps : hash32 sha256 -> bytes_ok h -> len h = 20 -> 0 < v < 256 -> Forall (fun q => 0 < q) qs -> map (fun q => map chr (rev (BigInt.digits 58 q))) qs = map str_bytes ps ->
  (forall x, v * 256 ^ 24 <= x < (v + 1) * 256 ^ 24 -> exists q, In q qs /\ q * 58 ^ Z.of_nat k <= x < (q + 1) * 58 ^ Z.of_nat k) ->
  exists p, In p ps /\ begins p (len (str_bytes p) + Z.of_nat k) (Base58CheckEncode sha256 h v).
Proof.
  intros Hs B L Rv F M X. destruct (check_begins sha256 h v k qs Hs B L Rv F X) as (q & r & Hq & E & Lr).
  assert (I : In (map chr (rev (BigInt.digits 58 q))) (map str_bytes ps)) by (rewrite <- M; exact (in_map _ _ _ Hq)). apply in_map_iff in I. destruct I as (p & Ep & Hp).
  exists p. split; [exact Hp|]. exists r. rewrite E, <- Ep. split; [reflexivity|]. rewrite len_app. unfold len. rewrite Lr. lia.
Qed.
Lemma witness_begins net p n : known_net net -> bytes_ok p -> (len p = 20 /\ n = 42 \/ len p = 32 /\ n = 62) -> exists r, witness_string net p = Bech32HRPSegwit net ++ str_bytes "1q" ++ r /\ len (witness_string net p) = n.
Proof.
  intros K B L. unfold witness_string, WitnessEncode. destruct (to5 p B) as (d & k & E & F & Bt & Lk). rewrite E. cbn [rbind].
  assert (F0 : five_bit ([0] ++ d)) by (constructor; [lia|exact F]). rewrite encode_ok by exact F0.
  exists (map cchr (d ++ bech32Checksum (Bech32HRPSegwit net) ([0] ++ d))). split.
  - unfold encoding. rewrite <- app_assoc. reflexivity.
  - rewrite encoding_len, len_app. change (len [0]) with 1. destruct (hrp2 net K) as (_ & -> & _). apply (f_equal (@length bool)) in Bt. rewrite app_length, repeat_length, !bits_of_length in Bt. unfold len in *. lia.
Qed.

(** C159: what addresses begin with, and how long they are. *)
Theorem C159_addresses : forall sha256 h p, hash32 sha256 -> bytes_ok h -> len h = 20 -> bytes_ok p -> len p = 32 ->
  (exists r, AddressModel.ToString sha256 (PayToPubKeyHashAddress h) MainNet = str_bytes "1" ++ r) /\
  begins "3" 34 (AddressModel.ToString sha256 (PayToScriptHashAddress h) MainNet) /\
  begins "bc1q" 42 (AddressModel.ToString sha256 (PayToWitnessV0PubKeyHashAddress h) MainNet) /\
  begins "bc1q" 62 (AddressModel.ToString sha256 (PayToWitnessV0ScriptHashAddress p) MainNet) /\
  (begins "m" 34 (AddressModel.ToString sha256 (PayToPubKeyHashAddress h) TestNet) \/ begins "n" 34 (AddressModel.ToString sha256 (PayToPubKeyHashAddress h) TestNet)) /\
  begins "2" 35 (AddressModel.ToString sha256 (PayToScriptHashAddress h) TestNet) /\
  begins "tb1q" 42 (AddressModel.ToString sha256 (PayToWitnessV0PubKeyHashAddress h) TestNet) /\
  begins "tb1q" 62 (AddressModel.ToString sha256 (PayToWitnessV0ScriptHashAddress p) TestNet).
Proof.
  intros sha256 h p Hs B L Bp Lp.
  assert (W : forall net s n, known_net net -> bytes_ok s -> (len s = 20 /\ n = 42 \/ len s = 32 /\ n = 62) -> begins (if list_Z_eqb (Bech32HRPSegwit net) (str_bytes "bc") then "bc1q" else "tb1q") n (witness_string net s)).
  { intros net s n K Bs Ls. destruct (witness_begins net s n K Bs Ls) as (r & E & Ln). exists r. split; [|exact Ln]. rewrite E. destruct K as [->| ->]; reflexivity. }
  assert (Km : known_net MainNet) by (left; reflexivity). assert (Kt : known_net TestNet) by (right; reflexivity).
  split; [apply one_first|]. split.
  { destruct (check_string sha256 h 5 33 [2] ["3"%string] Hs B L ltac:(lia) ltac:(repeat constructor) eq_refl) as (q & [<-|[]] & E); [|exact E].
    intros x Hx. exists 2. split; [now left|]. split; [apply Z.le_trans with (5 * 256 ^ 24); [vm_compute; discriminate|apply Hx]|apply Z.lt_le_trans with ((5 + 1) * 256 ^ 24); [apply Hx|vm_compute; discriminate]]. }
  split; [exact (W MainNet h 42 Km B (or_introl (conj L eq_refl)))|]. split; [exact (W MainNet p 62 Km Bp (or_intror (conj Lp eq_refl)))|]. split.
  { destruct (check_string sha256 h 0x6f 33 [44; 45] ["m"%string; "n"%string] Hs B L ltac:(lia) ltac:(repeat constructor) eq_refl) as (q & [<-|[<-|[]]] & E); [|left; exact E|right; exact E].
    intros x Hx. destruct (Z_lt_le_dec x (45 * 58 ^ Z.of_nat 33)) as [Lx|Gx]; [exists 44; split; [now left|]|exists 45; split; [right; now left|]];
      (split; [|]); try assumption; try (eapply Z.le_trans; [|apply (proj1 Hx)]; vm_compute; discriminate); try (eapply Z.lt_le_trans; [apply (proj2 Hx)|]; vm_compute; discriminate). }
  split.
  { destruct (check_string sha256 h 0xc4 34 [1] ["2"%string] Hs B L ltac:(lia) ltac:(repeat constructor) eq_refl) as (q & [<-|[]] & E); [|exact E].
    intros x Hx. exists 1. split; [now left|]. split; [apply Z.le_trans with (0xc4 * 256 ^ 24); [vm_compute; discriminate|apply Hx]|apply Z.lt_le_trans with ((0xc4 + 1) * 256 ^ 24); [apply Hx|vm_compute; discriminate]]. }
  split; [exact (W TestNet h 42 Kt B (or_introl (conj L eq_refl)))|exact (W TestNet p 62 Kt Bp (or_intror (conj Lp eq_refl)))].
Qed.
Print Assumptions C159_addresses.
Example C159_example : hash32 sha256 /\ bytes_ok (hx "751e76e8199196d454941c45d1b3a323f1433bd6") /\ AddressModel.ToString sha256 (PayToScriptHashAddress (hx "751e76e8199196d454941c45d1b3a323f1433bd6")) TestNet = str_bytes "2N3vVYSK5XRgVSGWy21PnsRmBUywSQNdCsf" /\
  AddressModel.ToString sha256 (PayToPubKeyHashAddress (hx "751e76e8199196d454941c45d1b3a323f1433bd6")) MainNet = str_bytes "1BgGZ9tcN4rm9KBzDn7KprQz87SZ26SAMH".
Proof. split; [exact C06_hypothesis|]. split; [bytes_ok_tac|]. vm_compute. split; reflexivity. Qed.

Lemma extended sha256 v x q p : hash32 sha256 -> xkey_ok x -> bytes_ok v -> len v = 4 -> hd 0 v <> 0 -> 0 < q -> map chr (rev (BigInt.digits 58 q)) = str_bytes p -> length (str_bytes p) = 4%nat ->
  q * 58 ^ Z.of_nat 107 <= set_bytes v * 256 ^ 78 -> (set_bytes v + 1) * 256 ^ 78 <= (q + 1) * 58 ^ Z.of_nat 107 ->
  begins p 111 (Base58Encode (let b := payload v x in b ++ firstn 4 (sha256 (sha256 b)))).
Proof.
  intros Hs Ox Bv Lv Hv Q Ep L4 Lo Hi. cbv zeta. assert (P : exists w, payload v x = v ++ w) by (destruct x; eexists; reflexivity). destruct P as (w & P).
  pose proof (payload_len v x Ox Lv) as Ln. pose proof (payload_ok v x Ox Bv) as B. assert (Lc : len (firstn 4 (sha256 (sha256 (payload v x)))) = 4) by (pose proof (proj1 (Hs (sha256 (payload v x)))); unfold len in *; rewrite firstn_length; lia).
  assert (Bc : bytes_ok (firstn 4 (sha256 (sha256 (payload v x))))) by (pose proof (proj2 (Hs (sha256 (payload v x)))) as Z0; rewrite <- (firstn_skipn 4 (sha256 (sha256 (payload v x)))) in Z0; apply Forall_app in Z0; apply Z0).
  set (cs := firstn 4 _) in *. rewrite P in *. rewrite <- app_assoc. apply Forall_app in B. destruct B as [_ Bw].
  destruct (versioned v (w ++ cs) 107 [q] Bv Hv) as (q' & r & [<-|[]] & E & Lr).
  - apply Forall_app. auto.
  - repeat constructor. exact Q.
  - rewrite len_app in Ln. rewrite len_app, Lc. replace (len w + 4) with 78 by lia. intros y Hy. exists q. split; [now left|lia].
  - exists r. rewrite E, Ep. split; [reflexivity|]. rewrite len_app. unfold len. rewrite Lr, L4. reflexivity.
Qed.
(** C159: extended keys. *)
Theorem C159_extended_keys : forall sha256 h x, hash32 sha256 -> xkey_ok x -> represents h x ->
  exists s t, Bip32Model.ToString sha256 (HDPrivateKeyID MainNet) (HDPublicKeyID MainNet) h = Ok s /\ Bip32Model.ToString sha256 (HDPrivateKeyID TestNet) (HDPublicKeyID TestNet) h = Ok t /\
    match x with
    | Xprv _ _ _ _ _ => begins "xprv" 111 s /\ begins "tprv" 111 t
    | Xpub _ _ _ _ _ => begins "xpub" 111 s /\ begins "tpub" 111 t
    end.
Proof.
  intros sha256 h x Hs Ox R. eexists _, _. split; [exact (export_eq sha256 Hs _ _ h x Ox R)|]. split; [exact (export_eq sha256 Hs _ _ h x Ox R)|].
  destruct x; split.
  - apply (extended sha256 _ _ 10892163 "xprv" Hs Ox); [apply bytes_ok_forallb; reflexivity|reflexivity|discriminate|reflexivity|vm_compute; reflexivity|reflexivity|vm_compute; discriminate|vm_compute; discriminate].
  - apply (extended sha256 _ _ 10111715 "tprv" Hs Ox); [apply bytes_ok_forallb; reflexivity|reflexivity|discriminate|reflexivity|vm_compute; reflexivity|reflexivity|vm_compute; discriminate|vm_compute; discriminate].
  - apply (extended sha256 _ _ 10892318 "xpub" Hs Ox); [apply bytes_ok_forallb; reflexivity|reflexivity|discriminate|reflexivity|vm_compute; reflexivity|reflexivity|vm_compute; discriminate|vm_compute; discriminate].
  - apply (extended sha256 _ _ 10111870 "tpub" Hs Ox); [apply bytes_ok_forallb; reflexivity|reflexivity|discriminate|reflexivity|vm_compute; reflexivity|reflexivity|vm_compute; discriminate|vm_compute; discriminate].
Qed.
Print Assumptions C159_extended_keys.
Example C159_extended_example : hash32 sha256 /\ importable ex_prv /\ exists h, represents h ex_prv.
Proof. destruct ex_importable as (I1 & _ & E & _). split; [exact C06_hypothesis|]. split; [exact I1|exact E]. Qed.
