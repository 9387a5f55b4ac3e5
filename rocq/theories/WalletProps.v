(** C102: what a wallet that knows only the extended public key can receive, the one with the private key can spend. *)
From Coq Require Import Znumtheory.
From Verif Require Import GoBase BaseLemmas SecpModel SecpGroup SecpOrder SecpProofs SecpCyclic SecpSpec SecpLink EcdsaModel EcdsaSpec EcdsaNonce EcdsaProofs PubKeyModel PubKeySpec PubKeyProps
  Bip32Model Bip32Spec Bip32Proofs Bip32Props LockSpec TxModel TxSpec TxSignSpec WholeModel WholeProofs WholeProps.
Local Open Scope Z_scope.

Section Walk.
Variable hmac512 : bytes -> bytes -> bytes.
Variable hash160 : bytes -> bytes.
Hypothesis HM : mac64 hmac512.
Hypothesis HH : hash20 hash160.

Definition private_key (h : hdkey) : Prop := exists x, xkey_ok x /\ is_private x /\ represents h x.

Lemma follow : forall h hp i hp', private_key h -> HDPublicKey h = Ok hp -> 0 <= i < 2 ^ 32 -> Derive hmac512 hash160 hp i = Ok hp' ->
  exists h', Derive hmac512 hash160 h i = Ok h' /\ private_key h' /\ HDPublicKey h' = Ok hp'.
Proof.
  intros h hp i hp' (x & Ox & (d & fp & num & c & k & ->) & R) Ep Hi E. pose proof R as (K & MK & Eh).
  assert (Ehp : hp = MkHDKey num fp c d false None (Some (px K, py K))) by (rewrite Eh in Ep; cbn in Ep; congruence).
  destruct (Z_lt_le_dec i (2 ^ 31)) as [B | B].
  2:{ destruct (C56_hardened hmac512 hash160 hp i) as (e & C); [rewrite Ehp; reflexivity | exact B | congruence]. }
  assert (I31 : 0 <= i < 2 ^ 31) by (split; [apply Hi | exact B]).
  assert (Op : xkey_ok (Xpub d fp num c K)) by (split; [apply Ox | exact (multiple_good _ _ MK)]).
  destruct (C95_public hmac512 hash160 hp d fp num c K i HM HH Op Ehp I31) as [(NZ & _) | (_ & C)]; [ | congruence].
  destruct (C55_agree hmac512 hash160 h d fp num c k K i HM HH Ox R I31 MK NZ) as (h' & hp0 & hp1 & E1 & E2 & E3 & E4).
  destruct (C95_private hmac512 hash160 h _ i HM HH Ox ltac:(repeat eexists) R Hi) as (h2 & y & E5 & C & Ry & Oy).
  exists h'. split; [exact E1 | ]. assert (h2 = h') by congruence. subst h2. split.
  - exists y. split; [exact Oy | ]. split; [ | exact Ry]. inversion C. repeat eexists.
  - assert (hp0 = hp) by congruence. subst hp0. congruence.
Qed.

Lemma follow_all : forall is h hp hp', private_key h -> HDPublicKey h = Ok hp -> Forall (fun i => 0 <= i < 2 ^ 32) is ->
  derive_all hmac512 hash160 hp is = Ok hp' ->
  exists h', derive_all hmac512 hash160 h is = Ok h' /\ private_key h' /\ HDPublicKey h' = Ok hp'.
Proof.
  induction is as [ | i is IH]; intros h hp hp' P E F D; cbn [derive_all] in *.
  - exists h. assert (hp = hp') by congruence. subst hp'. auto.
  - apply Forall_cons_iff in F. destruct F as [Fi F].
    destruct (Derive hmac512 hash160 hp i) as [hp1 | e | ] eqn:E1; cbn [rbind] in D; try discriminate D.
    destruct (follow h hp i hp1 P E Fi E1) as (h1 & D1 & P1 & Q1). rewrite D1. cbn [rbind]. exact (IH h1 hp1 hp' P1 Q1 F D).
Qed.
End Walk.

(** Whatever path the public side can follow, the private side can follow too, and arrives at the key that the public
    side sees. *)
Theorem C102_watch_only : forall hmac512 hash160 h x hp p hp', mac64 hmac512 -> hash20 hash160 ->
  xkey_ok x -> is_private x -> represents h x -> HDPublicKey h = Ok hp -> DeriveByPath hmac512 hash160 hp p = Ok hp' ->
  exists h', DeriveByPath hmac512 hash160 h p = Ok h' /\ HDPublicKey h' = Ok hp' /\
    exists D P, hk_prv h' = Some (D, P) /\ PublicKey hp' = Ok (Some P) /\ PublicKey h' = Ok (Some P) /\ 0 <= D < 2 ^ 256 /\
      exists K, multiple base D K /\ P = (px K, py K).
Proof.
  intros hmac hash h x hp p hp' HM HH Ox Px R E D. assert (P : private_key h) by (exists x; auto).
  assert (X : exists h', DeriveByPath hmac hash h p = Ok h' /\ private_key h' /\ HDPublicKey h' = Ok hp').
  { apply C57_accepts in D. destruct D as [(-> & ->) | (steps & sems & Ep & F & B & D)].
    - exists h. auto.
    - destruct (follow_all hmac hash HM HH _ h hp hp' P E ltac:(apply Forall_map, Forall_forall; intros t _; apply Z.mod_pos_bound; reflexivity) D) as (h' & D' & P' & E').
      exists h'. split; [ | auto]. apply C57_accepts. right. exists steps, sems. auto. }
  destruct X as (h' & D' & (y & Oy & (d & fp & num & c & k & ->) & K & MK & Eh) & E'). exists h'. split; [exact D' | ]. split; [exact E' | ].
  exists k, (px K, py K). rewrite Eh in E'. cbn in E'. assert (EP : hp' = MkHDKey num fp c d false None (Some (px K, py K))) by congruence.
  rewrite Eh, EP. split; [reflexivity | ]. split; [reflexivity | ]. split; [reflexivity | ]. split; [apply Oy | ]. exists K. auto.
Qed.
Print Assumptions C102_watch_only.

(** [key] is what the public wallet [hp] offers at [path]; the point at infinity, (0, 0), is no key. *)
Definition receives (hmac512 : bytes -> bytes -> bytes) (sha256 : bytes -> bytes) (hp : hdkey) (path key : bytes) : Prop :=
  exists hp' P, DeriveByPath hmac512 (Hash160 sha256) hp path = Ok hp' /\ PublicKey hp' = Ok (Some P) /\ P <> (0, 0) /\ SerializeCompressed P = Ok key.
(** [k] is what the private wallet [h] has there. *)
Definition holds (hmac512 : bytes -> bytes -> bytes) (sha256 : bytes -> bytes) (h : hdkey) (path : bytes) (k : prvkey) : Prop :=
  exists h', DeriveByPath hmac512 (Hash160 sha256) h path = Ok h' /\ hk_prv h' = Some (proj1_sig k).

Lemma hash20_whole : forall sha256, hash32 sha256 -> hash20 (Hash160 sha256).
Proof. intros sha Hs b. destruct (proj1 (hashes sha Hs) b). auto. Qed.

Theorem C102_held : forall hmac512 sha256 h x hp path key, mac64 hmac512 -> hash32 sha256 ->
  xkey_ok x -> is_private x -> represents h x -> HDPublicKey h = Ok hp -> receives hmac512 sha256 hp path key ->
  exists k, holds hmac512 sha256 h path k /\ PubKeyBytes k true = key.
Proof.
  intros hmac sha h x hp path key HM Hs Ox Px R E (hp' & P & D & EP & NP & EK).
  destruct (C102_watch_only hmac (Hash160 sha) h x hp path hp' HM (hash20_whole sha Hs) Ox Px R E D) as (h' & D' & E' & k & P' & H1 & H2 & _ & Rk & K & MK & EPK).
  assert (EP' : P' = P) by congruence. rewrite EP' in *. clear EP' P'. pose proof (multiple_nonneg _ _ _ MK) as Pk.
  assert (MD : made_key (k, P)).
  { set (b := octets 32 k). assert (Eb : be b = k) by (apply be_octets; exact Rk).
    exists b. split; [apply octets_ok | ]. split; [rewrite <- Eb in MK; rewrite (prv_from b K (octets_ok _ _) MK), Eb, EPK; reflexivity | ].
    rewrite Eb. intro Z0. apply NP. rewrite EPK. rewrite order_n_eq in Z0. apply gmul_G_0 in Z0.
    apply (gof_multiple _ _ _ _ gof_base Pk) in MK. rewrite <- (gof_enc _ _ MK), Z0. exact enc_g0. }
  exists (exist _ (k, P) MD). split; [exists h'; auto | ]. unfold PubKeyBytes. cbn [proj1_sig snd]. rewrite EK. reflexivity.
Qed.
Print Assumptions C102_held.

(** A transaction whose inputs spend outputs locked to keys of the public wallet is signed with the private wallet's keys. *)
Theorem C102_spend : forall hmac512 sha256 hmac fuel ht h x hp t paths, mac64 hmac512 -> hash32 sha256 -> 0 <= ht < 256 ->
  xkey_ok x -> is_private x -> represents h x -> HDPublicKey h = Ok hp ->
  Forall2 (fun path i => exists key, receives hmac512 sha256 hp path key /\
    (spends_p2pkh (Hash160 sha256 key) i \/ spends_p2wpkh (Hash160 sha256 key) i)) paths (tx_ins t) ->
  exists ks, Forall2 (holds hmac512 sha256 h) paths ks /\
    forall t', sign_each sha256 prvkey PubKeyBytes (SignHash hmac fuel) (DoubleSha256 sha256) true ht 0 (map (fun k => [k]) ks) t = Ok t' ->
      WVerify sha256 t' = Ok tt.
Proof.
  intros hmac512 sha hmac fuel ht h x hp t paths HM Hs Hh Ox Px R E F.
  assert (X : exists ks, Forall2 (holds hmac512 sha h) paths ks /\ Forall2 (signers (Hash160 sha) sha prvkey PubKeyBytes true) (map (fun k => [k]) ks) (tx_ins t)).
  { revert F. generalize (tx_ins t). intros ins F. induction F as [ | path i paths ins (key & Rc & Sp) F IH]; [exists []; split; constructor | ].
    destruct IH as (ks & H1 & H2). destruct (C102_held hmac512 sha h x hp path key HM Hs Ox Px R E Rc) as (k & Hk & Ek).
    exists (k :: ks). split; [constructor; assumption | ]. cbn [map]. constructor; [ | exact H2]. rewrite <- Ek in Sp.
    destruct Sp as [Sp | Sp]; [apply can_p2pkh | apply can_p2wpkh]; exact Sp. }
  destruct X as (ks & H1 & H2). exists ks. split; [exact H1 | ]. intros t' S. exact (C97_signed_verifies sha hmac fuel true ht _ t t' Hs Hh H2 S).
Qed.
Print Assumptions C102_spend.

(** The secret 1, whose child 7 is the secret 2 under a stand-in for HMAC; the input is that of C97's example. *)
Definition ex_mac (_ _ : bytes) : bytes := octets 32 1 ++ repeat 5 32.
Definition ex_wallet : xkey := Xprv 0 [0; 0; 0; 0] [0; 0; 0; 0] (repeat 7 32) 1.
Definition ex_master : hdkey := MkHDKey [0; 0; 0; 0] [0; 0; 0; 0] (repeat 7 32) 0 true (Some (1, (px base, py base))) None.
Definition ex_watch : hdkey := MkHDKey [0; 0; 0; 0] [0; 0; 0; 0] (repeat 7 32) 0 false None (Some (px base, py base)).
Example C102_example : mac64 ex_mac /\ xkey_ok ex_wallet /\ is_private ex_wallet /\ represents ex_master ex_wallet /\ HDPublicKey ex_master = Ok ex_watch /\
  receives ex_mac ex_sha ex_watch (str_bytes "m/7") (PubKeyBytes ex_key true) /\
  exists i, nth_error (tx_ins ex_unsigned) 0 = Some i /\ spends_p2pkh (Hash160 ex_sha (PubKeyBytes ex_key true)) i.
Proof.
  split; [intros k d; split; [reflexivity | apply is_bytes_ok; vm_compute; reflexivity] | ].
  split; [ | split; [repeat eexists | split]].
  - split; [ | split; [discriminate | reflexivity]].
    split; [split; [discriminate | reflexivity] | ]. split; [split; [apply is_bytes_ok | ]; reflexivity | ]. split; [split; [apply is_bytes_ok | ]; reflexivity | ].
    split; [apply is_bytes_ok | ]; reflexivity.
  - exists base. split; [ | reflexivity]. assert (P1 : 0 <= 1) by discriminate. apply (proj2 (gof_multiple _ _ _ _ gof_base P1)). rewrite gmul_1. exact gof_base.
  - split; [reflexivity | ]. split.
    + eexists. exists (snd ex_two). split; [vm_compute; reflexivity | ]. split; [reflexivity | ]. split; [discriminate | vm_compute; reflexivity].
    + eexists. split; [reflexivity | ]. replace (Hash160 ex_sha (PubKeyBytes ex_key true)) with ex_h by (vm_compute; reflexivity). repeat split.
Qed.
