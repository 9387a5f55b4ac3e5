(** C154: the depth of an extended key. *)
From Verif Require Import GoBase BaseLemmas BigInt BigIntProofs NumTheory BigMod Sha256 Sha256Proofs SecpModel SecpGroup SecpOrder SecpOrderN SecpProofs SecpCyclic SecpSpec SecpLink EcdsaModel EcdsaSpec EcdsaNonce EcdsaProofs PubKeyModel PubKeySpec PubKeyProofs SchnorrProofs PubKeyProps Base58Model Base58Spec Base58Proofs Base58Props AddressSpec Bip32Model Bip32Spec Bip32Proofs Bip32Props.
Local Open Scope Z_scope.

(** BIP 32, test vector 5: a key of depth zero is a master key; its parent's fingerprint and its child number are zero. *)
Definition root_ok (h : hdkey) : Prop := hk_depth h = 0 -> hk_parentFP h = [0; 0; 0; 0] /\ hk_childNum h = [0; 0; 0; 0].

Lemma derive_depth : forall hmac hash h i h', Derive hmac hash h i = Ok h' -> hk_depth h' = (hk_depth h + 1) mod 256.
Proof.
  intros hmac hash h i h' E. unfold Derive in E. destruct (negb (hk_isPrivate h) && _); [discriminate|].
  destruct (getIntermediary hmac h i) as [m| |]; cbn [rbind] in E; [|discriminate..].
  destruct (slice m 32 (len m)) as [c| |]; cbn [rbind] in E; [|discriminate..]. destruct (slice m 0 32) as [l| |]; cbn [rbind] in E; [|discriminate..].
  destruct (hk_isPrivate h).
  - destruct (need (hk_prv h)) as [prv| |]; cbn [rbind] in E; [|discriminate..]. destruct (Serialize (snd prv)) as [b| |]; cbn [rbind] in E; [|discriminate..].
    destruct (slice (hash b) 0 4) as [f| |]; cbn [rbind] in E; [|discriminate..]. destruct (PrvAdd (fst prv) l) as [k| |]; cbn [rbind] in E; [|discriminate..].
    match type of E with Ok ?x = Ok _ => assert (Q : x = h') by congruence; rewrite <- Q; reflexivity end.
  - destruct (need (hk_pub h)) as [pub| |]; cbn [rbind] in E; [|discriminate..]. destruct (Serialize pub) as [b| |]; cbn [rbind] in E; [|discriminate..].
    destruct (slice (hash b) 0 4) as [f| |]; cbn [rbind] in E; [|discriminate..]. destruct (PrvKeyFromBytes l) as [k| |]; cbn [rbind] in E; [|discriminate..].
    destruct (SerializeUncompressed (snd k)) as [u| |]; cbn [rbind] in E; [|discriminate..]. destruct (PubKeyFromBytes u) as [p2| |]; cbn [rbind] in E; [|discriminate..].
    destruct (PubAdd pub p2) as [ch| |]; cbn [rbind] in E; [|discriminate..].
    match type of E with Ok ?x = Ok _ => assert (Q : x = h') by congruence; rewrite <- Q; reflexivity end.
Qed.

(** The depth is the number of steps, counted by 256. *)
Theorem C154_steps_partial : forall hmac512 hash160 is h h', 0 <= hk_depth h -> derive_all hmac512 hash160 h is = Ok h' ->
  is <> [] -> hk_depth h' = (hk_depth h + len is) mod 256 /\ (hk_depth h + len is < 256 -> hk_depth h' = hk_depth h + len is /\ root_ok h').
Proof.
  intros hmac hash is.
  assert (G : forall is h h', derive_all hmac hash h is = Ok h' -> hk_depth h' mod 256 = (hk_depth h + len is) mod 256 /\ (is <> [] -> hk_depth h' mod 256 = hk_depth h')).
  { clear is. induction is as [|i is IH]; intros h h' E; cbn [derive_all] in E.
    - assert (h = h') as -> by congruence. split; [f_equal; unfold len; cbn [length]; lia|congruence].
    - destruct (Derive hmac hash h i) as [h1| |] eqn:D; cbn [rbind] in E; [|discriminate..]. pose proof (derive_depth _ _ _ _ _ D) as D1. destruct (IH h1 h' E) as [A B]. split.
      + rewrite A, D1, Zplus_mod_idemp_l. f_equal. unfold len. cbn [length]. lia.
      + intros _. destruct is as [|j is]; [|apply B; discriminate]. cbn [derive_all] in E. assert (h1 = h') as -> by congruence. rewrite D1. apply Z.mod_mod. lia. }
  intros h h' P E N. destruct (G _ _ _ E) as [A B]. rewrite (B N) in A. split; [exact A|]. intro L.
  assert (1 <= len is) by (destruct is; [congruence|unfold len; cbn [length]; lia]). rewrite Z.mod_small in A by lia. split; [exact A|]. intro Z0. lia.
Qed.
Print Assumptions C154_steps_partial.

(** C154 is false: every child of a key of depth 255 has depth 0 and yet a parent and a number; it is written as a string and read back, and
    BIP 32 calls that string invalid. *)
Theorem C154_root_refuted : forall hmac512 hash160 sha256 prvID pubID h fp num c k i, mac64 hmac512 -> hash20 hash160 -> hash32 sha256 ->
  bytes_ok prvID -> len prvID = 4 -> bytes_ok pubID -> len pubID = 4 ->
  xkey_ok (Xprv 255 fp num c k) -> represents h (Xprv 255 fp num c k) -> 0 < i < 2 ^ 32 ->
  exists h' s, Derive hmac512 hash160 h i = Ok h' /\ hk_depth h' = 0 /\ hk_childNum h' = ser32 i /\ ~ root_ok h' /\
    ToString sha256 prvID pubID h' = Ok s /\ NewHDKeyFromString sha256 s = Ok h'.
Proof.
  intros hmac hash sha prvID pubID h fp num c k i HM HH HS O1 L1 O2 L2 Ox R Hi.
  destruct (C95_private hmac hash h _ i HM HH Ox ltac:(do 5 eexists; reflexivity) R ltac:(lia)) as (h' & y & D & C & R' & Oy).
  destruct (ckd_priv_inv _ _ _ _ _ _ _ _ _ C) as (K & IL & IR & _ & _ & _ & ->).
  destruct (C54_roundtrip sha prvID pubID h' _ HS O1 L1 O2 L2 (conj Oy I) R') as (s & _ & _ & T & N & _).
  exists h', s. split; [exact D|]. destruct R' as (K' & _ & ->). cbn [hk_depth hk_childNum]. split; [reflexivity|]. split; [reflexivity|]. split; [|split; assumption].
  intro Q. destruct (Q eq_refl) as [_ Q2]. cbn [hk_childNum] in Q2. unfold ser32, octets in Q2. cbn in Q2. injection Q2 as A B C' D'.
  Z.to_euclidean_division_equations. lia.
Qed.
Print Assumptions C154_root_refuted.
Example C154_example : exists h, xkey_ok (Xprv 255 [1; 2; 3; 4] [128; 0; 0; 0] (repeat 7 32) 5) /\ represents h (Xprv 255 [1; 2; 3; 4] [128; 0; 0; 0] (repeat 7 32) 5).
Proof.
  destruct (Bip32Proofs.multiple_ex 5 ltac:(lia)) as (K & M). eexists. split; [|exists K; split; [exact M|reflexivity]].
  split; [|lia]. repeat split; try reflexivity; try (apply bytes_ok_forallb; reflexivity); try lia.
Qed.
