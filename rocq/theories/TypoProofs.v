(** Mistyped witness addresses. *)
From Verif Require Import GoBase BaseLemmas BigInt BigIntProofs Base58Model Base58Spec Base58Proofs
  Bech32Model Bech32Spec Bech32Poly Bech32Proofs Bech32Code WitnessModel WitnessProofs AddressModel AddressSpec AddressProofs TypoSpec.
From Coq Require Import ZifyBool ZifyNat.

(** Base58 addresses are short. *)
Lemma digits_short x n : 0 <= x < 58 ^ Z.of_nat n -> (length (digits 58 x) <= n)%nat.
Proof.
  intros Hx. pose proof (digits_ok 58 ltac:(lia) x ltac:(lia)) as Hok. pose proof (digits_top 58 ltac:(lia) x ltac:(lia)) as Ht.
  pose proof (digits_val 58 ltac:(lia) x ltac:(lia)) as Hv. destruct (list_eq_dec Z.eq_dec (digits 58 x) []) as [E|Hne]; [rewrite E; cbn; lia|].
  destruct (exists_last Hne) as (ds & d & E). rewrite E in *. apply Forall_app in Hok. destruct Hok as [Hok Hd]. inversion Hd as [|? ? Hd' _]. unfold digit_ok in Hd'.
  unfold top_nonzero in Ht. rewrite last_last in Ht. rewrite le_val_app in Hv. cbn [le_val] in Hv. rewrite Z.mul_0_r, Z.add_0_r in Hv.
  pose proof (le_val_nonneg 58 ltac:(lia) ds Hok) as L0. rewrite app_length. cbn [length].
  destruct (le_lt_dec (length ds + 1) n) as [|C]; [lia|exfalso].
  assert (M : 58 ^ Z.of_nat n <= 58 ^ len ds) by (apply Z.pow_le_mono_r; unfold len; lia). nia.
Qed.
Lemma pow_table : forallb (fun n => 256 ^ Z.of_nat (25 - n) <=? 58 ^ Z.of_nat (35 - n)) (seq 0 26) = true.
Proof. vm_compute. reflexivity. Qed.
Lemma base58_short b : bytes_ok b -> len b = 25 -> len (Base58Encode b) <= 35.
Proof.
  intros Hb Hl. destruct (split_zeros b) as (n & c & -> & Hc). apply bytes_ok_app in Hb. destruct Hb as [_ Hb]. rewrite encode_split by assumption.
  rewrite len_app in *. unfold len in *. rewrite map_length, rev_length, !repeat_length in *.
  assert (L : (length (digits 58 (set_bytes c)) <= 35 - n)%nat); [|lia]. apply digits_short. split; [now apply set_bytes_nonneg|].
  pose proof (set_bytes_lt c Hb) as U. unfold len in U. replace (length c) with (25 - n)%nat in U by lia.
  pose proof pow_table as P. rewrite forallb_forall in P. specialize (P n ltac:(apply in_seq; lia)). lia.
Qed.

Section Typo.
Context (sha256 : bytes -> bytes) (Hs : hash32 sha256).

Lemma check_short h v : bytes_ok h -> len h = 20 -> is_byte v -> len (Base58CheckEncode sha256 h v) <= 35.
Proof.
  intros Hh Hl Hv. apply base58_short.
  - repeat (apply bytes_ok_app; split); auto. + constructor; [exact Hv|constructor]. + apply (checksum_ok _ (Hok _ Hs)).
  - rewrite !len_app, (checksum_len _ (Hlen _ Hs) (Hok _ Hs)), Hl. reflexivity.
Qed.

Lemma witness_encode_form h p s : bytes_ok p -> WitnessEncode h 0 p = Ok s -> exists d, five_bit d /\ s = encoding h ([0] ++ d) /\
  5 * len d < 8 * len p + 5 /\ 8 * len p <= 5 * len d.
Proof.
  intros Hp E. destruct (to5 p Hp) as (d & k & Ed & Fd & Bd & Hk). unfold WitnessEncode in E. rewrite Ed in E. cbn [rbind] in E.
  rewrite encode_ok in E by (constructor; [lia|exact Fd]). injection E as <-. exists d. split; [exact Fd|]. split; [reflexivity|].
  apply (f_equal (@length bool)) in Bd. rewrite app_length, !bits_of_length, repeat_length in Bd. unfold len. lia.
Qed.
Lemma witness_string_form net p : known_net net -> bytes_ok p -> exists d, five_bit d /\ witness_string net p = encoding (Bech32HRPSegwit net) ([0] ++ d) /\
  5 * len d < 8 * len p + 5 /\ 8 * len p <= 5 * len d.
Proof.
  intros Hn Hp. unfold witness_string. destruct (witness_encode_ok (Bech32HRPSegwit net) 0 p ltac:(lia) Hp) as (s & E & _). rewrite E.
  exact (witness_encode_form _ p s Hp E).
Qed.

Lemma hrp_distances net net' : known_net net -> known_net net' ->
  distance (bech32HrpExpand (Bech32HRPSegwit net)) (bech32HrpExpand (Bech32HRPSegwit net')) = distance (Bech32HRPSegwit net) (Bech32HRPSegwit net').
Proof. intros [->| ->] [->| ->]; reflexivity. Qed.

Lemma encoding_distance net net' d d' : known_net net -> known_net net' -> five_bit d -> five_bit d' -> len d = len d' -> len d <= 78 ->
  (1 <= distance (encoding (Bech32HRPSegwit net) d) (encoding (Bech32HRPSegwit net') d') <= 4)%nat -> False.
Proof.
  intros Hn Hn' Hd Hd' L L78 D. pose proof (hrp_distances net net' Hn Hn') as HD.
  destruct (hrp2 net Hn) as (O & L2 & _), (hrp2 net' Hn') as (O' & L2' & _). set (h := Bech32HRPSegwit net) in *. set (h' := Bech32HRPSegwit net') in *.
  assert (B : forall x, hrp_ok x -> bytes_ok x). { intros x [_ Hx]. eapply Forall_impl; [|exact Hx]. intros c [P _]. unfold printable in P. unfold is_byte. lia. }
  unfold encoding in D. rewrite distance_app in D by (unfold len in *; lia). rewrite (distance_app [49] _ [49]) in D by reflexivity. change (distance [49] [49]) with 0%nat in D.
  rewrite distance_map_cchr in D by now apply five_checked. rewrite <- HD in D.
  assert (V : forall x y, hrp_ok x -> five_bit y -> run 1 (bech32HrpExpand x ++ y ++ bech32Checksum x y) = 1).
  { intros x y Hx Hy. apply verify_run, verify_iff; auto using checksum_five, checksum_len6. }
  pose proof (V h d O Hd) as V1. pose proof (V h' d' O' Hd') as V2. apply (fun e => eq_trans V1 (eq_sym e)) in V2. clear V1. rename V2 into V1. pose proof (checksum_len6 h d). pose proof (checksum_len6 h' d'). clear V.
  apply four_detected in V1; [exact V1|..].
  - apply Forall_app; split; [now apply hrp_symbols, B|now apply five_checked].
  - apply Forall_app; split; [now apply hrp_symbols, B|now apply five_checked].
  - rewrite !app_length, !hrp_length. unfold len in *. lia.
  - rewrite !app_length, !hrp_length. unfold len in *. lia.
  - rewrite distance_app by (rewrite !hrp_length; unfold len in *; lia). lia.
Qed.

Lemma witness_string_len net p d : known_net net -> witness_string net p = encoding (Bech32HRPSegwit net) ([0] ++ d) -> len (witness_string net p) = len d + 10.
Proof. intros Hn ->. destruct (hrp2 net Hn) as (_ & L2 & _). rewrite encoding_len, L2, len_app. change (len [0]) with 1. lia. Qed.

Lemma address_string_short net a : known_net net -> address_ok a -> 35 < len (ToString sha256 a net) -> ToString sha256 a net = witness_string net (addr_hash a).
Proof.
  intros Hn [Hb Hl] L. destruct a as [h|h|p|p]; cbn [ToString addr_hash addr_len] in *; try reflexivity; exfalso.
  - pose proof (check_short h (PubKeyHashAddrID net) Hb Hl ltac:(destruct Hn as [->| ->]; cbv; intuition discriminate)). lia.
  - pose proof (check_short h (ScriptHashAddrID net) Hb Hl ltac:(destruct Hn as [->| ->]; cbv; intuition discriminate)). lia.
Qed.

(** Where an extra separator must stand for a mistyped string to be accepted. *)
Lemma mistyped_accepted net net' p s' b : known_net net -> known_net net' -> bytes_ok p -> (len p = 20 \/ len p = 32) -> bytes_ok s' ->
  length s' = length (witness_string net p) -> (1 <= distance (witness_string net p) s' <= 4)%nat -> DecodeAddress sha256 s' net' = Ok b ->
  len p = 32 /\ nth 22 s' 0 = 49.
Proof.
  intros Hn Hn' Hp Hl Bs Ls D A. destruct (decode_sound sha256 Hs net' s' b Hn' Bs A) as (a & -> & Ha & Es).
  destruct (witness_string_form net p Hn Hp) as (d & Fd & Ed & L1 & L2). pose proof (witness_string_len net p d Hn Ed) as Ld.
  assert (Ls' : len s' = len d + 10) by (unfold len in *; lia).
  destruct Es as [Es|(x & Es & _)].
  - exfalso. assert (35 < len s') by lia. rewrite Es in H. rewrite (address_string_short net' a Hn' Ha H) in Es. destruct Ha as [Hb Hla].
    destruct (witness_string_form net' (addr_hash a) Hn' Hb) as (d' & Fd' & Ed' & L1' & L2'). pose proof (witness_string_len net' _ d' Hn' Ed') as Ld'. rewrite <- Es in Ld'.
    rewrite Ed, Es, Ed' in D. apply encoding_distance in D; auto; try (constructor; [lia|assumption]); rewrite !len_app; change (len [0]) with 1; lia.
  - destruct Ha as [Hb Hla]. destruct (witness_encode_form _ _ _ Hb Es) as (d' & Fd' & -> & L1' & L2'). destruct (hrp2 net' Hn') as (_ & Lh & u & w & Eh & _).
    rewrite encoding_len, !len_app, Lh in Ls'. change (len [49]) with 1 in Ls'. change (len [0]) with 1 in Ls'. pose proof (len_nonneg x).
    assert (Hl2 : len (addr_hash a) = 20 \/ len (addr_hash a) = 32) by (rewrite Hla; destruct a; cbn; auto).
    assert (len p = 32 /\ len x = 19) as [-> Lx] by lia. split; [reflexivity|]. unfold encoding. rewrite Eh. rewrite <- !app_assoc. cbn [app nth]. rewrite app_nth2 by (unfold len in Lx; lia).
    replace (19 - length x)%nat with 0%nat by (unfold len in Lx; lia). reflexivity.
Qed.

Lemma low_49 c : low c = 49 -> c = 49.
Proof. unfold low. destruct ((65 <=? c) && (c <=? 90)) eqn:E; lia. Qed.

Theorem mistyped_form net net' a s' b : known_net net -> known_net net' -> address_ok a -> witness_address a -> bytes_ok s' ->
  mistyped (ToString sha256 a net) s' -> DecodeAddress sha256 s' net' = Ok b ->
  (exists p, a = PayToWitnessV0ScriptHashAddress p) /\ nth 22 s' 0 = 49 /\ exists p', b = Some (PayToWitnessV0PubKeyHashAddress p').
Proof.
  intros Hn Hn' [Hb Hl] W Bs [L D] A.
  assert (E : ToString sha256 a net = witness_string net (addr_hash a)) by (destruct a; try destruct W; reflexivity). rewrite E in *.
  assert (P : len (addr_hash a) = 32 /\ nth 22 s' 0 = 49).
  { apply (mistyped_accepted net net' (addr_hash a) s' b); auto; [rewrite Hl; destruct a; cbn; auto|unfold len in L; lia]. }
  destruct P as [P1 P2]. split; [destruct a; try destruct W; cbn in *; [lia|eauto]|]. split; [exact P2|].
  destruct (witness_string_form net (addr_hash a) Hn Hb) as (d & Fd & Ed & L1 & L2). pose proof (witness_string_len net _ d Hn Ed) as Ld.
  destruct (decode_sound sha256 Hs net' s' b Hn' Bs A) as (a' & -> & Ha & [Es|(x & Es & _)]).
  - exfalso. assert (LL : 35 < len (ToString sha256 a' net')) by (rewrite <- Es; lia). rewrite (address_string_short net' a' Hn' Ha LL) in Es. destruct Ha as [Hb' Hl'].
    destruct (witness_string_form net' (addr_hash a') Hn' Hb') as (d' & Fd' & Ed' & _). rewrite Ed' in Es.
    assert (N : ~ In 49 (map cchr (([0] ++ d') ++ bech32Checksum (Bech32HRPSegwit net') ([0] ++ d')))) by (apply charset_no_sep, five_checked; constructor; [lia|exact Fd']).
    apply N. destruct (hrp2 net' Hn') as (_ & _ & u & w & Eh & _). unfold encoding in Es. rewrite Eh in Es at 1. cbn [app] in Es.
    rewrite Es in P2. cbn [nth] in P2. rewrite <- P2. apply nth_In.
    apply (f_equal (@length Z)) in Es. cbn [length] in Es. cbn [app map length] in *. unfold len in *. lia.
  - destruct Ha as [Hb' Hl']. destruct (witness_encode_form _ _ _ Hb' Es) as (d' & _ & -> & L1' & L2'). destruct (hrp2 net' Hn') as (_ & Lh & _).
    rewrite encoding_len, !len_app, Lh in L. change (len [49]) with 1 in L. change (len [0]) with 1 in L. pose proof (len_nonneg x).
    assert (K : exists p', a' = PayToWitnessV0PubKeyHashAddress p'); [|destruct K as [p' ->]; eauto].
    assert (W2 : exists r, encoding (Bech32HRPSegwit net' ++ [49] ++ x) ([0] ++ d') = Bech32HRPSegwit net' ++ [49] ++ r) by (eexists; unfold encoding; rewrite <- !app_assoc; reflexivity).
    pose proof A as A0. rewrite decode_witness in A by assumption. destruct (WitnessDecode _) as [[[h' v] q]| |] eqn:WD; cbn [rbind] in A; try discriminate.
    destruct (v =? 0); [|discriminate]. destruct (len q =? 20); [injection A as <-; eauto|].
    destruct (len q =? 32) eqn:L32; [injection A as <-; cbn in *; exfalso; lia|]. exfalso. exact (base58_no_prefix sha256 Hs net' net' _ _ Hn' Hn' Bs W2 A).
Qed.

Theorem mistyped_refused net net' a s' : known_net net -> known_net net' -> address_ok a -> witness_address a -> bytes_ok s' ->
  mistyped (ToString sha256 a net) s' -> ~ In 49 (skipn 3 s') -> exists e, DecodeAddress sha256 s' net' = Err e.
Proof.
  intros Hn Hn' Ha W Bs M N. destruct (DecodeAddress sha256 s' net') as [b|e|] eqn:E; [exfalso|eauto|exfalso].
  - destruct (mistyped_form net net' a s' b Hn Hn' Ha W Bs M E) as (_ & P & _). apply N. destruct s' as [|? [|? [|? r]]]; try discriminate P. cbn [skipn]. cbn [nth] in P.
    destruct (le_lt_dec (length r) 19) as [G|G]; [rewrite nth_overflow in P by exact G; discriminate P|]. rewrite <- P. apply nth_In. exact G.
  - apply (decode_panics_iff sha256 Hs net' s' Hn' Bs) in E. destruct E as [_ (h & E)]. apply decode_iff in E. destruct E as (_ & _ & _ & _ & _ & E).
    destruct Ha as [Hb Hl]. assert (T : ToString sha256 a net = witness_string net (addr_hash a)) by (destruct a; try destruct W; reflexivity). destruct M as [L _]. rewrite T in L.
    destruct (witness_string_form net (addr_hash a) Hn Hb) as (d & _ & Ed & L1 & L2). rewrite (witness_string_len net _ d Hn Ed) in L.
    assert (20 <= len (addr_hash a)) by (rewrite Hl; destruct a; cbn; lia).
    pose proof (len_lowercase s') as LL. rewrite E, encoding_len in LL. change (len []) with 0 in LL.
    apply N. assert (P : nth (length h) s' 0 = 49).
    { apply low_49. change 0 with (low 0) at 1. rewrite <- map_nth. fold (lowercase s'). rewrite E. unfold encoding. change (low 0) with 0. rewrite app_nth2 by lia. rewrite Nat.sub_diag. reflexivity. }
    destruct s' as [|? [|? [|? r]]]; try (unfold len in *; cbn [length] in *; lia). cbn [skipn].
    destruct (length h) as [|[|[|k]]] eqn:Lk; try (unfold len in *; lia). cbn [nth] in P. rewrite <- P. apply nth_In. unfold len in *. cbn [length] in *. lia.
Qed.
End Typo.
