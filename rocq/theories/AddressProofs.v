(** Addresses and their string forms. *)
From Verif Require Import GoBase BaseLemmas BigInt BigIntProofs Base58Model Base58Spec Base58Proofs
  Bech32Model Bech32Spec Bech32Poly Bech32Proofs WitnessModel WitnessProofs AddressModel AddressSpec.
From Coq Require Import ZifyBool ZifyNat.

(** Leading base-58 digit of a number between two multiples of a power of 58. *)
Lemma top_digit k a b x : 0 < a -> b <= 58 -> a * 58 ^ Z.of_nat k <= x < b * 58 ^ Z.of_nat k ->
  exists ds d, digits 58 x = ds ++ [d] /\ length ds = k /\ a <= d < b.
Proof.
  intros Ha Hb Hx. assert (0 < 58 ^ Z.of_nat k) by (apply Z.pow_pos_nonneg; lia).
  assert (Hx0 : 0 < x) by nia.
  pose proof (digits_ok 58 ltac:(lia) x ltac:(lia)) as Hok. pose proof (digits_top 58 ltac:(lia) x ltac:(lia)) as Ht.
  pose proof (digits_val 58 ltac:(lia) x ltac:(lia)) as Hv.
  assert (Hne : digits 58 x <> []) by (intro A; rewrite A in Hv; cbn in Hv; lia).
  destruct (exists_last Hne) as (ds & d & E). rewrite E in *. exists ds, d. split; [reflexivity|].
  apply Forall_app in Hok. destruct Hok as [Hok Hd]. inversion Hd as [|? ? Hd' _]. unfold digit_ok in Hd'.
  unfold top_nonzero in Ht. rewrite last_last in Ht.
  rewrite le_val_app in Hv. cbn [le_val] in Hv. rewrite Z.mul_0_r, Z.add_0_r in Hv.
  pose proof (le_val_nonneg 58 ltac:(lia) ds Hok) as L0. pose proof (le_val_lt 58 ltac:(lia) ds Hok) as L1.
  assert (0 < 58 ^ len ds) by (apply Z.pow_pos_nonneg; [lia|apply len_nonneg]).
  assert (Hl : length ds = k).
  { destruct (lt_eq_lt_dec (length ds) k) as [[C|C]|C]; [exfalso|exact C|exfalso].
    - assert (M : 58 ^ (len ds + 1) <= 58 ^ Z.of_nat k) by (apply Z.pow_le_mono_r; unfold len; lia).
      rewrite Z.pow_add_r, Z.pow_1_r in M by (try lia; apply len_nonneg). nia.
    - assert (M : 58 ^ (Z.of_nat k + 1) <= 58 ^ len ds) by (apply Z.pow_le_mono_r; unfold len; lia).
      rewrite Z.pow_add_r, Z.pow_1_r in M by lia. nia. }
  split; [exact Hl|]. unfold len in *. rewrite Hl in *. nia.
Qed.

Section Addr.
Context (sha256 : bytes -> bytes) (Hs : hash32 sha256).

Lemma Hlen b : len (sha256 b) = 32. Proof. apply Hs. Qed.
Lemma Hok b : bytes_ok (sha256 b). Proof. apply Hs. Qed.

(** First character of the base58 form of a 20-byte hash with a given version byte. *)
Lemma first_char v h k a b : 0 < v < 256 -> bytes_ok h -> len h = 20 -> 0 < a -> b <= 58 ->
  a * 58 ^ Z.of_nat k <= v * 256 ^ 24 -> (v + 1) * 256 ^ 24 <= b * 58 ^ Z.of_nat k ->
  exists d r, Base58CheckEncode sha256 h v = chr d :: r /\ a <= d < b.
Proof.
  intros Hv Hh Hl Ha Hb H1 H2. unfold Base58CheckEncode. set (c := checksum sha256 ([v] ++ h)).
  assert (Hc : bytes_ok c) by (apply (checksum_ok _ Hok)). assert (Lc : len c = 4) by (apply (checksum_len _ Hlen Hok)).
  replace (([v] ++ h) ++ c) with (repeat 0 0 ++ (v :: h ++ c)) by reflexivity.
  assert (Hb' : bytes_ok (v :: h ++ c)). { apply bytes_ok_cons. split; [unfold is_byte; lia|]. apply bytes_ok_app; auto. }
  rewrite encode_split; [|exact Hb'|cbn [hd]; lia]. cbn [repeat app].
  assert (Hx : v * 256 ^ 24 <= set_bytes (v :: h ++ c) < (v + 1) * 256 ^ 24).
  { assert (Hhc : bytes_ok (h ++ c)) by (apply bytes_ok_app; auto).
    rewrite set_bytes_cons. pose proof (set_bytes_nonneg (h ++ c) Hhc). pose proof (set_bytes_lt (h ++ c) Hhc).
    rewrite len_app, Hl, Lc in *. change (20 + 4) with 24 in *. lia. }
  destruct (top_digit k a b (set_bytes (v :: h ++ c)) Ha Hb) as (ds & d & E & _ & Hd); [lia|].
  rewrite E, rev_app_distr. cbn [rev app map]. exists d, (map chr (rev ds)). split; [reflexivity|exact Hd].
Qed.

(** None of the four base58 version bytes gives a string starting with 'b' or 't'. *)
Lemma base58_first net h v : known_net net -> v = PubKeyHashAddrID net \/ v = ScriptHashAddrID net -> bytes_ok h -> len h = 20 ->
  exists c r, Base58CheckEncode sha256 h v = c :: r /\ c <> 98 /\ c <> 116.
Proof.
  intros Hn Hv Hh Hl.
  assert (Hcases : v = 0 \/ v = 5 \/ v = 111 \/ v = 196).
  { destruct Hn as [->| ->], Hv as [-> | ->]; cbn; lia. }
  assert (N : forall d, 0 <= d < 58 -> chr d = 98 -> d = 34 /\ True).
  { intros d Hd E. split; [|exact I]. change 98 with (chr 34) in E. apply chr_inj in E; lia. }
  assert (N2 : forall d, 0 <= d < 58 -> chr d = 116 -> d = 51 /\ True).
  { intros d Hd E. split; [|exact I]. change 116 with (chr 51) in E. apply chr_inj in E; lia. }
  destruct Hcases as [->|[->|[->| ->]]].
  - unfold Base58CheckEncode. set (c := checksum sha256 ([0] ++ h)).
    destruct (split_zeros (h ++ c)) as (n & x & E & Hx).
    replace (([0] ++ h) ++ c) with (repeat 0 (S n) ++ x) by (cbn [repeat app]; rewrite <- E; reflexivity).
    rewrite encode_split; [|eapply proj2; apply bytes_ok_app; rewrite <- E; apply bytes_ok_app; split; [exact Hh|apply (checksum_ok _ Hok)]|exact Hx].
    cbn [repeat app]. eexists _, _. split; [reflexivity|lia].
  - destruct (first_char 5 h 33 2 3) as (d & r & E & Hd); try lia; try assumption; try (vm_compute; discriminate).
    exists (chr d), r. split; [exact E|]. split; intro A; [apply N in A|apply N2 in A]; lia.
  - destruct (first_char 111 h 33 44 46) as (d & r & E & Hd); try lia; try assumption; try (vm_compute; discriminate).
    exists (chr d), r. split; [exact E|]. split; intro A; [apply N in A|apply N2 in A]; lia.
  - destruct (first_char 196 h 34 1 2) as (d & r & E & Hd); try lia; try assumption; try (vm_compute; discriminate).
    exists (chr d), r. split; [exact E|]. split; intro A; [apply N in A|apply N2 in A]; lia.
Qed.

Lemma hrp2 net : known_net net -> hrp_ok (Bech32HRPSegwit net) /\ len (Bech32HRPSegwit net) = 2 /\
  exists a b, Bech32HRPSegwit net = [a; b] /\ (a = 98 \/ a = 116) /\ b <> 49 /\ (a =? 49) = false.
Proof.
  intros [-> | ->]; (split; [split; [discriminate|repeat constructor; cbv; intuition discriminate]|]; split; [reflexivity|]);
    eexists _, _; (split; [reflexivity|]); cbn; lia.
Qed.

Lemma prefix_first s net : known_net net -> IndexByte s 49 = 2 -> slice s 0 2 = Ok (Bech32HRPSegwit net) ->
  exists c r, s = c :: r /\ (c = 98 \/ c = 116).
Proof.
  intros Hn _ Hp. destruct (hrp2 net Hn) as (_ & _ & a & b & E & Ha & _). rewrite E in Hp.
  unfold slice in Hp. destruct s as [|c [|c2 r]]; cbn [len length] in Hp; try discriminate.
  exists c, (c2 :: r). split; [reflexivity|]. destruct (_ && _); [|discriminate]. cbn in Hp. injection Hp as -> _. exact Ha.
Qed.

(** Base58 part. *)
Lemma decode_base58_encode net h v a : known_net net -> bytes_ok h -> len h = 20 ->
  (v = PubKeyHashAddrID net /\ a = PayToPubKeyHashAddress h \/ v = ScriptHashAddrID net /\ a = PayToScriptHashAddress h) ->
  decode_base58 sha256 (Base58CheckEncode sha256 h v) net = Ok (Some a).
Proof.
  intros Hn Hh Hl Hv. unfold decode_base58. rewrite (check_roundtrip _ Hlen Hok); [|exact Hh|].
  2:{ destruct Hn as [-> | ->], Hv as [[-> _]|[-> _]]; cbn; unfold is_byte; lia. }
  rewrite Hl. cbn. unfold addr_of, NewPayToPubKeyHashAddress, NewPayToScriptHashAddress. rewrite Hl.
  destruct Hn as [-> | ->], Hv as [[-> ->]|[-> ->]]; reflexivity.
Qed.

Lemma decode_base58_sound s net a : bytes_ok s -> decode_base58 sha256 s net = Ok a -> exists h v,
  s = Base58CheckEncode sha256 h v /\ bytes_ok h /\ len h = 20 /\
  (v = PubKeyHashAddrID net /\ a = Some (PayToPubKeyHashAddress h) \/ v = ScriptHashAddrID net /\ a = Some (PayToScriptHashAddress h)).
Proof.
  intros Bs. unfold decode_base58. destruct (Base58CheckDecode sha256 s) as [[h v]|e|] eqn:E; try discriminate.
  apply (check_iff _ Hlen Hok) in E. destruct E as (c & E & C).
  pose proof (base58_decode_bytes s) as Hb. rewrite E in Hb. apply bytes_ok_app in Hb. destruct Hb as [Hv Hb]. apply bytes_ok_app in Hb.
  destruct (len h =? 20) eqn:Hl; [|discriminate]. apply Z.eqb_eq in Hl.
  unfold addr_of, NewPayToPubKeyHashAddress, NewPayToScriptHashAddress. rewrite Hl. cbn [negb Z.eqb Pos.eqb].
  intros R. exists h, v.
  assert (Es : s = Base58CheckEncode sha256 h v).
  { rewrite <- (base58_encode_decode s).
    - rewrite E. unfold Base58CheckEncode. rewrite app_assoc. do 2 f_equal.
      apply (checksum_spec _ Hlen Hok) in C. exact C.
    - apply Forall_forall. intros x Hx. assert (D : is_b58_char x \/ ~ is_b58_char x) by (unfold is_b58_char; lia). destruct D as [Y|Y]; [exact Y|exfalso].
      rewrite (base58_decode_invalid s) in E; [discriminate|exact Bs|eauto]. }
  split; [exact Es|]. split; [tauto|]. split; [exact Hl|].
  destruct (v =? PubKeyHashAddrID net) eqn:E1; [left; split; [lia|now injection R as <-]|].
  destruct (v =? ScriptHashAddrID net) eqn:E2; [right; split; [lia|now injection R as <-]|discriminate].
Qed.
(** Witness part. *)
Lemma index2 a b r : (a =? 49) = false -> b <> 49 -> IndexByte (a :: b :: 49 :: r) 49 = 2.
Proof. intros Ha Hb. unfold IndexByte. cbn [index_byte_from]. rewrite Ha. replace (b =? 49) with false by lia. reflexivity. Qed.

Lemma decode_witness net s : known_net net -> (exists r, s = Bech32HRPSegwit net ++ [49] ++ r) ->
  DecodeAddress sha256 s net =
    let! (_, version, witnessProgram) := WitnessDecode s in
    if version =? 0 then
      if len witnessProgram =? 20 then Ok (Some (PayToWitnessV0PubKeyHashAddress witnessProgram))
      else if len witnessProgram =? 32 then Ok (Some (PayToWitnessV0ScriptHashAddress witnessProgram))
      else decode_base58 sha256 s net
    else Err "witness version unsupported".
Proof.
  intros Hn (r & Es). destruct (hrp2 net Hn) as (_ & _ & a & b & E & Ha & Hb & Ha'). unfold DecodeAddress.
  assert (Hi : IndexByte s 49 = 2) by (rewrite Es, E; now apply index2).
  assert (Hp : slice s 0 2 = Ok [a; b]). { rewrite Es, E. exact (slice_app_l [a; b] ([49] ++ r)). }
  rewrite Hi. cbn [Z.eqb Pos.eqb].
  rewrite Hp, E. cbn [rbind]. rewrite list_Z_eqb_refl.
  destruct (WitnessDecode s) as [[[h v] p]| |]; cbn [rbind]; try reflexivity.
  destruct (v =? 0); [|reflexivity]. unfold addr_of, NewPayToWitnessV0PubKeyHashAddress, NewPayToWitnessV0ScriptHashAddress.
  destruct (len p =? 20); [reflexivity|]. destruct (len p =? 32); reflexivity.
Qed.

Lemma decode_not_witness net s : known_net net -> bytes_ok s -> ~ (exists r, s = Bech32HRPSegwit net ++ [49] ++ r) ->
  DecodeAddress sha256 s net = decode_base58 sha256 s net.
Proof.
  intros Hn Bs Hno. destruct (hrp2 net Hn) as (_ & _ & a & b & E & Ha & Hb & Ha'). unfold DecodeAddress.
  destruct (IndexByte s 49 =? 2) eqn:Hi; [|reflexivity]. apply Z.eqb_eq in Hi.
  destruct s as [|x [|y [|z r]]].
  - discriminate.
  - unfold IndexByte in Hi; cbn [index_byte_from] in Hi. destruct (x =? 49); lia.
  - unfold IndexByte in Hi; cbn [index_byte_from] in Hi. destruct (x =? 49), (y =? 49); lia.
  - assert (z = 49) as ->.
    { unfold IndexByte in Hi; cbn [index_byte_from] in Hi. destruct (x =? 49), (y =? 49), (z =? 49) eqn:Z; try lia.
      assert (G : forall l i, 3 <= i -> index_byte_from i l 49 = 2 -> False).
      { induction l as [|w l IH]; intros i Hi' G; cbn [index_byte_from] in G; [lia|]. destruct (w =? 49); [lia|]. apply (IH (i + 1)); lia. }
      exfalso. apply (G r 3); [lia|exact Hi]. }
    rewrite Hi. change (slice (x :: y :: 49 :: r) 0 2) with (slice ([x; y] ++ 49 :: r) 0 (len [x; y])). rewrite slice_app_l. cbn [rbind].
    destruct (list_Z_eqb [x; y] (Bech32HRPSegwit net)) eqn:Ex; [|reflexivity].
    apply list_Z_eqb_spec in Ex. exfalso. apply Hno. exists r. rewrite <- Ex. reflexivity.
Qed.

Lemma witness_string_facts net p : known_net net -> bytes_ok p -> len p <= 32 ->
  WitnessDecode (witness_string net p) = Ok (Bech32HRPSegwit net, 0, p) /\
  exists r, witness_string net p = Bech32HRPSegwit net ++ [49] ++ r.
Proof.
  intros Hn Hp Hl. destruct (hrp2 net Hn) as (Hh & L2 & _). unfold witness_string.
  destruct (witness_encode_ok (Bech32HRPSegwit net) 0 p ltac:(lia) Hp) as (s & E & B1 & B2). rewrite E.
  split; [apply witness_roundtrip; auto; lia|].
  destruct (to5 p Hp) as (d & k & Ed & Fd & _). unfold WitnessEncode in E. rewrite Ed in E. cbn [rbind] in E.
  rewrite encode_ok in E by (constructor; [lia|exact Fd]). injection E as <-. unfold encoding. eexists. reflexivity.
Qed.

Theorem address_roundtrip net a : known_net net -> address_ok a -> DecodeAddress sha256 (ToString sha256 a net) net = Ok (Some a).
Proof.
  intros Hn [Hb Hl]. destruct a as [h|h|p|p]; cbn [addr_hash addr_len ToString] in *.
  1,2: rewrite decode_not_witness;
    [apply decode_base58_encode; auto
    |exact Hn
    |eapply Forall_impl; [|apply base58_encode_chars; repeat (apply bytes_ok_app; split); try assumption; try apply (checksum_ok _ Hok);
       apply bytes_ok_cons; (split; [|constructor]); destruct Hn as [-> | ->]; cbv; intuition discriminate];
       intros c Hc; unfold is_b58_char, is_byte in *; lia
    |intros (r & E); edestruct (base58_first net h) as (c & r' & E' & N1 & N2); [exact Hn| |exact Hb|exact Hl|rewrite E' in E;
       destruct (hrp2 net Hn) as (_ & _ & x & y & Ex & Hx & _); rewrite Ex in E; injection E as -> _; lia]; auto].
  1,2: destruct (witness_string_facts net p Hn Hb ltac:(lia)) as [E R]; rewrite decode_witness by assumption; rewrite E; cbn [rbind];
    rewrite Hl; reflexivity.
Qed.

Lemma base58_no_prefix net net' s a : known_net net -> known_net net' -> bytes_ok s -> (exists r, s = Bech32HRPSegwit net' ++ [49] ++ r) ->
  decode_base58 sha256 s net <> Ok a.
Proof.
  intros Hn Hn' Bs (r & E) D. destruct (decode_base58_sound s net a Bs D) as (h & v & E' & Hh & Hl & Hv).
  destruct (base58_first net h v) as (c & r' & E'' & N1 & N2); [exact Hn|tauto|exact Hh|exact Hl|].
  destruct (hrp2 net' Hn') as (_ & _ & x & y & Ex & Hx & _). rewrite Ex in E. cbn [app] in E.
  rewrite E', E'' in E. injection E as -> _. lia.
Qed.

(** Every accepted string: the canonical one, or a witness string whose human-readable part continues after the first separator. *)
Theorem decode_sound net s a : known_net net -> bytes_ok s -> DecodeAddress sha256 s net = Ok a ->
  exists a', a = Some a' /\ address_ok a' /\
    (s = ToString sha256 a' net \/
     exists x, WitnessEncode (Bech32HRPSegwit net ++ [49] ++ x) 0 (addr_hash a') = Ok s /\ len s <= 90).
Proof.
  intros Hn Bs D.
  assert (DD : (exists r, s = Bech32HRPSegwit net ++ [49] ++ r) \/ ~ (exists r, s = Bech32HRPSegwit net ++ [49] ++ r)).
  { destruct (hrp2 net Hn) as (_ & _ & x & y & Ex & _). rewrite Ex.
    destruct s as [|x' [|y' [|z r]]]; try (right; intros (r & A); discriminate).
    destruct (Z.eq_dec x' x) as [->|N]; [|right; intros (r' & A); injection A; congruence].
    destruct (Z.eq_dec y' y) as [->|N]; [|right; intros (r' & A); injection A; congruence].
    destruct (Z.eq_dec z 49) as [->|N]; [|right; intros (r' & A); injection A; congruence].
    left. exists r. reflexivity. }
  destruct DD as [Hw|Hw].
  - rewrite decode_witness in D by assumption.
    destruct (WitnessDecode s) as [[[h v] p]| |] eqn:W; cbn [rbind] in D; try discriminate.
    destruct (v =? 0) eqn:Hv; [|discriminate]. apply Z.eqb_eq in Hv. subst v.
    assert (G : forall a', addr_hash a' = p -> bytes_ok p /\ (len s <= 90) /\ exists x, (x = [] \/ exists y, x = [49] ++ y) /\
       WitnessEncode (Bech32HRPSegwit net ++ x) 0 p = Ok s).
    { intros a' _. apply witness_decode_sound in W. destruct W as (_ & Hp & N & L & O & P & d & Fd & Cd & Lo).
      split; [exact Hp|]. split; [lia|].
      destruct (hrp2 net Hn) as (Hh & _ & x & y & Ex & Hx & _). destruct Hw as (r & Er).
      assert (Ls : lowercase s = s).
      { destruct O as [O|O].
        - symmetry. exact O.
        - exfalso. rewrite Er, Ex in O. cbn in O. injection O as O _. destruct Hx as [-> | ->]; vm_compute in O; discriminate. }
      rewrite Ls in Lo. unfold WitnessEncode. rewrite Cd. cbn [rbind].
      assert (F0 : five_bit ([0] ++ d)) by (constructor; [lia|exact Fd]).
      rewrite Er in Lo. unfold encoding in Lo.
      assert (Hsp : exists x, h = Bech32HRPSegwit net ++ x /\ (x = [] \/ exists y, x = [49] ++ y)).
      { rewrite Ex in *. cbn [app] in Lo. destruct h as [|h1 [|h2 [|h3 h]]].
        - congruence.
        - cbn [app] in Lo. injection Lo as -> A _. destruct (hrp2 net Hn) as (_ & _ & x' & y' & Ex' & _ & Hy & _). congruence.
        - cbn [app] in Lo. injection Lo as -> -> _. exists []. auto.
        - cbn [app] in Lo. injection Lo as -> -> <- _. exists ([49] ++ h). split; [reflexivity|]. right; eauto. }
      destruct Hsp as (t & -> & Ht). exists t. split; [exact Ht|]. rewrite encode_ok by exact F0. f_equal. unfold encoding. rewrite <- Lo, Er. reflexivity. }
    assert (K : forall a', addr_hash a' = p -> len p = addr_len a' -> ToString sha256 a' net = witness_string net p ->
       exists a'0, Some a' = Some a'0 /\ address_ok a'0 /\
        (s = ToString sha256 a'0 net \/ exists x, WitnessEncode (Bech32HRPSegwit net ++ [49] ++ x) 0 (addr_hash a'0) = Ok s /\ len s <= 90)).
    { intros a' E1 E2 E3. destruct (G a' E1) as (Hp & L & x & Hx & En). exists a'. split; [reflexivity|].
      split; [split; rewrite E1; assumption|]. rewrite E3, E1. destruct Hx as [-> |(y & ->)].
      - left. rewrite app_nil_r in En. unfold witness_string. rewrite En. reflexivity.
      - right. exists y. auto. }
    destruct (len p =? 20) eqn:L20; [injection D as <-; apply K; auto; cbn; lia|].
    destruct (len p =? 32) eqn:L32; [injection D as <-; apply K; auto; cbn; lia|].
    exfalso. exact (base58_no_prefix net net s a Hn Hn Bs Hw D).
  - rewrite decode_not_witness in D by assumption. apply decode_base58_sound in D; [|exact Bs].
    destruct D as (h & v & Es & Hh & Hl & [[-> ->]|[-> ->]]); eexists; (split; [reflexivity|]); (split; [split; assumption|]); left; exact Es.
Qed.

(** No string is accepted by both networks. *)
Theorem one_network s a b : bytes_ok s -> DecodeAddress sha256 s MainNet = Ok a -> DecodeAddress sha256 s TestNet = Ok b -> False.
Proof.
  intros Bs A B. assert (Hm : known_net MainNet) by (left; reflexivity). assert (Ht : known_net TestNet) by (right; reflexivity).
  assert (W : forall n n', known_net n -> known_net n' -> Bech32HRPSegwit n <> Bech32HRPSegwit n' -> (exists r, s = Bech32HRPSegwit n ++ [49] ++ r) ->
     forall c, DecodeAddress sha256 s n' <> Ok c).
  { intros n n' Kn Kn' Hne Hw c C.
    rewrite decode_not_witness in C; [now apply (base58_no_prefix n' n s c)|exact Kn'|exact Bs|].
    intros (r' & E'). destruct Hw as (r & E). rewrite E in E'. apply app_inj_len in E'; [tauto|].
    destruct Kn as [-> | ->], Kn' as [-> | ->]; reflexivity. }
  assert (X : forall n c, known_net n -> DecodeAddress sha256 s n = Ok c -> (exists r, s = Bech32HRPSegwit n ++ [49] ++ r) \/
     exists h v, s = Base58CheckEncode sha256 h v /\ bytes_ok h /\ len h = 20 /\ (v = PubKeyHashAddrID n \/ v = ScriptHashAddrID n)).
  { intros n c Kn C. destruct (decode_sound n s c Kn Bs C) as (a' & _ & [Hb Hl] & [Es|(x & Ew & _)]).
    - destruct a' as [h|h|p|p]; cbn [addr_hash addr_len ToString] in *.
      + right. exists h, (PubKeyHashAddrID n). auto.
      + right. exists h, (ScriptHashAddrID n). auto.
      + left. rewrite Es. apply (witness_string_facts n p Kn Hb). lia.
      + left. rewrite Es. apply (witness_string_facts n p Kn Hb). lia.
    - left. destruct (to5 (addr_hash a') Hb) as (d & k & Ed & Fd & _). unfold WitnessEncode in Ew. rewrite Ed in Ew. cbn [rbind] in Ew.
      rewrite encode_ok in Ew by (constructor; [lia|exact Fd]). injection Ew as <-. unfold encoding. rewrite <- !app_assoc. eexists. reflexivity. }
  destruct (X _ _ Hm A) as [Hw|(h & v & E & Hh & Hl & Hv)]; [exact (W MainNet TestNet Hm Ht ltac:(discriminate) Hw b B)|].
  destruct (X _ _ Ht B) as [Hw|(h' & v' & E' & Hh' & Hl' & Hv')]; [exact (W TestNet MainNet Ht Hm ltac:(discriminate) Hw a A)|].
  assert (R : Ok (h, v) = Ok (h', v')).
  { rewrite <- (check_roundtrip _ Hlen Hok h v Hh), <- (check_roundtrip _ Hlen Hok h' v' Hh').
    - now rewrite <- E, <- E'.
    - destruct Hv' as [-> | ->]; cbn; unfold is_byte; lia.
    - destruct Hv as [-> | ->]; cbn; unfold is_byte; lia. }
  injection R as _ ->. cbn in *. lia.
Qed.

(** DecodeAddress panics exactly on well-formed witness strings with an empty data part. *)
Theorem decode_panics_iff net s : known_net net -> bytes_ok s ->
  (DecodeAddress sha256 s net = Panic <-> (exists r, s = Bech32HRPSegwit net ++ [49] ++ r) /\ exists h, Bech32Decode s = Ok (h, [])).
Proof.
  intros Hn Bs.
  assert (NP : decode_base58 sha256 s net <> Panic).
  { unfold decode_base58. pose proof (check_never_panics _ Hlen Hok s). destruct (Base58CheckDecode sha256 s) as [[d v]| |]; [|discriminate|congruence].
    unfold addr_of. destruct (len d =? 20); [|discriminate]. destruct (v =? _); [discriminate|]. destruct (v =? _); discriminate. }
  assert (DD : (exists r, s = Bech32HRPSegwit net ++ [49] ++ r) \/ ~ (exists r, s = Bech32HRPSegwit net ++ [49] ++ r)).
  { destruct (hrp2 net Hn) as (_ & _ & x & y & Ex & _). rewrite Ex.
    destruct s as [|x' [|y' [|z r]]]; try (right; intros (r & A); discriminate).
    destruct (Z.eq_dec x' x) as [->|N]; [|right; intros (r' & A); injection A; congruence].
    destruct (Z.eq_dec y' y) as [->|N]; [|right; intros (r' & A); injection A; congruence].
    destruct (Z.eq_dec z 49) as [->|N]; [|right; intros (r' & A); injection A; congruence].
    left. exists r. reflexivity. }
  destruct DD as [Hw|Hw].
  - rewrite decode_witness by assumption. rewrite <- witness_panics_iff.
    destruct (WitnessDecode s) as [[[h v] p]| |]; cbn [rbind].
    + split; [|intros [_ A]; discriminate]. destruct (v =? 0); [|discriminate].
      destruct (len p =? 20); [discriminate|]. destruct (len p =? 32); [discriminate|]. intros A; congruence.
    + split; [discriminate|intros [_ A]; discriminate].
    + tauto.
  - rewrite decode_not_witness by assumption. split; [congruence|tauto].
Qed.

Theorem other_network_refused net net' a : known_net net -> known_net net' -> net <> net' -> address_ok a ->
  exists e, DecodeAddress sha256 (ToString sha256 a net) net' = Err e.
Proof.
  intros Hn Hn' Hne Ha. pose proof (address_roundtrip net a Hn Ha) as R. set (s := ToString sha256 a net) in *.
  assert (Bs : bytes_ok s).
  { destruct Ha as [Hb Hl]. subst s. destruct a as [h|h|p|p]; cbn [addr_hash addr_len ToString] in *.
    1,2: eapply Forall_impl; [|apply base58_encode_chars; repeat (apply bytes_ok_app; split); try assumption; try apply (checksum_ok _ Hok);
       apply bytes_ok_cons; (split; [|constructor]); destruct Hn as [-> | ->]; cbv; intuition discriminate];
       intros c Hc; unfold is_b58_char, is_byte in *; lia.
    1,2: destruct (witness_string_facts net p Hn Hb ltac:(lia)) as [E _]; apply witness_decode_sound in E;
       destruct E as (_ & _ & _ & _ & _ & P & _); eapply Forall_impl; [|exact P]; unfold printable, is_byte; lia. }
  destruct (DecodeAddress sha256 s net') as [c|e|] eqn:D; [exfalso|eauto|exfalso].
  - destruct Hn as [-> | ->], Hn' as [-> | ->]; try congruence; [exact (one_network s _ _ Bs R D)|exact (one_network s _ _ Bs D R)].
  - apply decode_panics_iff in D; [|exact Hn'|exact Bs]. destruct D as [(r & E) _].
    destruct Ha as [Hb Hl]. subst s. destruct (hrp2 net' Hn') as (_ & _ & x & y & Ex & Hx & _).
    destruct a as [h|h|p|p]; cbn [addr_hash addr_len ToString] in *.
    1,2: edestruct (base58_first net h) as (c & r' & E' & N1 & N2); [exact Hn| |exact Hb|exact Hl|rewrite E' in E;
       rewrite Ex in E; injection E as -> _; lia]; auto.
    1,2: destruct (witness_string_facts net p Hn Hb ltac:(lia)) as [_ (r' & E')]; rewrite E' in E;
       destruct Hn as [-> | ->], Hn' as [-> | ->]; congruence || discriminate.
Qed.
End Addr.
