(** C148: what a child's private key tells about its parent's. *)
From Coq Require Import Znumtheory.
From Verif Require Import GoBase BaseLemmas SecpModel SecpGroup SecpOrder SecpProofs SecpCyclic SecpSpec SecpLink EcdsaModel EcdsaSpec EcdsaNonce EcdsaProofs PubKeyModel PubKeySpec PubKeyProps
  Bip32Model Bip32Spec Bip32Proofs Bip32Props LockSpec TxModel TxSpec TxSignSpec WholeModel WholeProofs WholeProps WalletProps.
Local Open Scope Z_scope.

(** What somebody who has the extended public key computes: the sum of the left halves on the way down. *)
Fixpoint way_down (hmac512 : bytes -> bytes -> bytes) (hash160 : bytes -> bytes) (hp : hdkey) (is : list Z) : Z :=
  match is, hk_pub hp with
  | i :: r, Some P =>
      be (firstn 32 (hmac512 (hk_chainCode hp) (serP (Some P) ++ ser32 i))) +
      match Derive hmac512 hash160 hp i with Ok hp1 => way_down hmac512 hash160 hp1 r | _ => 0 end
  | _, _ => 0
  end.

Lemma serP_enc K : serP (Some (px K, py K)) = serP K.
Proof. destruct K as [[x y]|]; reflexivity. Qed.

(** C148 is false of children that are not hardened, any number of steps down. *)
Theorem C148_parent_refuted : forall hmac512 hash160 is h d fp num c k hp hp', mac64 hmac512 -> hash20 hash160 ->
  xkey_ok (Xprv d fp num c k) -> represents h (Xprv d fp num c k) -> HDPublicKey h = Ok hp ->
  Forall (fun i => 0 <= i < 2 ^ 32) is -> derive_all hmac512 hash160 hp is = Ok hp' ->
  exists h' D P, derive_all hmac512 hash160 h is = Ok h' /\ hk_prv h' = Some (D, P) /\
    k mod order_n = (D - way_down hmac512 hash160 hp is) mod order_n.
Proof.
  intros hmac hash is. induction is as [|i is IH]; intros h d fp num c k hp hp' HM HH Ox R Ep F D; cbn [derive_all] in *.
  - destruct R as (K & M & ->). exists (MkHDKey num fp c d true (Some (k, (px K, py K))) None), k, (px K, py K). split; [reflexivity|]. split; [reflexivity|]. cbn [way_down]. now rewrite Z.sub_0_r.
  - apply Forall_cons_iff in F. destruct F as [Fi F]. destruct (Derive hmac hash hp i) as [hp1|e|] eqn:E1; cbn [rbind] in D; try discriminate D.
    assert (Pk : private_key h) by (exists (Xprv d fp num c k); split; [exact Ox|]; split; [repeat eexists|exact R]).
    destruct (follow hmac hash HM HH h hp i hp1 Pk Ep Fi E1) as (h1 & D1 & _ & Q1).
    destruct (C95_private hmac hash h _ i HM HH Ox ltac:(repeat eexists) R Fi) as (h2 & y & E5 & C & Ry & Oy). assert (h2 = h1) as -> by congruence.
    apply ckd_priv_inv in C. destruct C as (K1 & IL & IR & M1 & LL & EH & ->).
    assert (Lo : i < 2 ^ 31).
    { destruct (Z_lt_le_dec i (2 ^ 31)) as [B|B]; [exact B|]. destruct R as (K & M & ->). cbn in Ep.
      destruct (C56_hardened hmac hash hp i) as (e & C); [|exact B|congruence]. assert (Eh : hp = MkHDKey num fp c d false None (Some (px K, py K))) by congruence. now rewrite Eh. }
    replace (i <? 2 ^ 31) with true in EH by (symmetry; apply Z.ltb_lt; exact Lo).
    destruct (IH h1 _ _ _ _ _ hp1 hp' HM HH Oy Ry Q1 F D) as (h' & X & P & Dx & Hx & Kx). exists h', X, P. rewrite D1. cbn [rbind]. split; [exact Dx|]. split; [exact Hx|].
    destruct R as (K & M & ->). rewrite (multiple_fun _ _ _ M1 M) in *. cbn in Ep. assert (Eh : hp = MkHDKey num fp c d false None (Some (px K, py K))) by congruence.
    rewrite Zmod_mod in Kx. cbn [way_down]. rewrite E1. revert Kx. generalize (way_down hmac hash hp1 is). intros w Kx. rewrite Eh. cbn [hk_pub hk_chainCode]. rewrite serP_enc, <- (left_half _ _ _ EH LL).
    replace (X - (be IL + w)) with ((X - w) - be IL) by ring. rewrite Zminus_mod, <- Kx, <- Zminus_mod. f_equal. ring.
Qed.
Print Assumptions C148_parent_refuted.

(** A private key that lies below the order is found exactly. *)
Theorem C148_parent_exact_refuted : forall hmac512 hash160 is h d fp num c k hp hp', mac64 hmac512 -> hash20 hash160 ->
  xkey_ok (Xprv d fp num c k) -> represents h (Xprv d fp num c k) -> k < order_n -> HDPublicKey h = Ok hp ->
  Forall (fun i => 0 <= i < 2 ^ 32) is -> derive_all hmac512 hash160 hp is = Ok hp' ->
  exists h' D P, derive_all hmac512 hash160 h is = Ok h' /\ hk_prv h' = Some (D, P) /\ k = (D - way_down hmac512 hash160 hp is) mod order_n.
Proof.
  intros hmac hash is h d fp num c k hp hp' HM HH Ox R Hk Ep F D. destruct (C148_parent_refuted hmac hash is h d fp num c k hp hp' HM HH Ox R Ep F D) as (h' & X & P & D1 & D2 & E).
  exists h', X, P. split; [exact D1|]. split; [exact D2|]. rewrite <- E. symmetry. apply Z.mod_small. destruct Ox as (_ & Hk0 & _). split; assumption.
Qed.
Print Assumptions C148_parent_exact_refuted.

(** What holds of hardened children: every secret can be the child's, under an HMAC that differs only at the one
    message with the parent's secret in it.  All children of all extended public keys stay what they were. *)
Theorem C148_hardened_partial : forall hmac512 hash160 h d fp num c k i D, mac64 hmac512 -> hash20 hash160 ->
  xkey_ok (Xprv d fp num c k) -> represents h (Xprv d fp num c k) -> 2 ^ 31 <= i < 2 ^ 32 -> 0 <= D < order_n ->
  exists hmac512', mac64 hmac512' /\
    (forall c' m, (c', m) <> (c, 0 :: ser256 k ++ ser32 i) -> hmac512' c' m = hmac512 c' m) /\
    (forall hp y j, xkey_ok y -> is_public y -> represents hp y -> Derive hmac512' hash160 hp j = Derive hmac512 hash160 hp j) /\
    exists h' P, Derive hmac512' hash160 h i = Ok h' /\ hk_prv h' = Some (D, P).
Proof.
  intros hmac hash h d fp num c k i D HM HH Ox R Hi HD.
  set (m0 := 0 :: ser256 k ++ ser32 i). set (v := octets 32 ((D - k) mod order_n) ++ repeat 7 32).
  set (hm := fun c' m => if list_Z_eqb c' c && list_Z_eqb m m0 then v else hmac c' m).
  assert (Ln : len (octets 32 ((D - k) mod order_n)) = 32) by (unfold len; rewrite octets_length; reflexivity).
  assert (HM' : mac64 hm).
  { intros c' m. unfold hm. destruct (_ && _); [|apply HM]. unfold v. split; [rewrite len_app, Ln; reflexivity|]. apply bytes_ok_app. split; [apply octets_ok|apply is_bytes_ok; reflexivity]. }
  exists hm. split; [exact HM'|].
  assert (Same : forall c' m, (c', m) <> (c, m0) -> hm c' m = hmac c' m).
  { intros c' m N. unfold hm. destruct (list_Z_eqb c' c) eqn:E1; [|reflexivity]. destruct (list_Z_eqb m m0) eqn:E2; [|reflexivity]. apply list_Z_eqb_spec in E1, E2. subst. now contradiction N. }
  split; [exact Same|]. split.
  - intros hp y j Oy (d1 & fp1 & num1 & c1 & K & ->) Rp. cbn in Rp. rewrite Rp. unfold Derive. cbn [hk_isPrivate negb andb]. destruct (HardenedKeyStart <=? j) eqn:Hj; [reflexivity|].
    replace (getIntermediary hm (MkHDKey num1 fp1 c1 d1 false None (Some (px K, py K))) j) with (getIntermediary hmac (MkHDKey num1 fp1 c1 d1 false None (Some (px K, py K))) j); [reflexivity|].
    unfold getIntermediary. rewrite Hj. cbn [hk_isPrivate hk_pub hk_chainCode need rbind]. rewrite serialize_ok by apply Oy. cbn [rbind]. f_equal. symmetry. apply Same.
    unfold m0, serP. cbn [app]. intros E. assert (Z0 : 2 + parity (py K) = 0) by congruence. unfold parity in Z0. pose proof (Z.mod_pos_bound (py K) 2 eq_refl) as [B _]. clear -Z0 B. lia.
  - assert (I32 : 0 <= i < 2 ^ 32) by (split; [apply Z.le_trans with (2 ^ 31); [discriminate|apply Hi]|apply Hi]).
    destruct (C95_private hm hash h _ i HM' HH Ox ltac:(repeat eexists) R I32) as (h' & y & E & C & Ry & _).
    apply ckd_priv_inv in C. destruct C as (K1 & IL & IR & M1 & LL & EH & ->). destruct Ry as (K & M & ->). exists (MkHDKey (ser32 i) (firstn 4 (hash (serP K1))) IR ((d + 1) mod 256) true (Some ((be IL + k) mod order_n, (px K, py K))) None).
    exists (px K, py K). split; [exact E|]. cbn [hk_prv]. do 2 f_equal.
    replace (i <? 2 ^ 31) with false in EH by (symmetry; apply Z.ltb_ge; apply Hi). cbn [app] in EH. fold m0 in EH. unfold hm in EH. rewrite !list_Z_eqb_refl in EH. cbn [andb] in EH. 
    assert (EI : IL = octets 32 ((D - k) mod order_n)) by (rewrite (left_half _ _ _ EH LL); symmetry; apply (left_half _ _ (repeat 7 32)); [reflexivity|exact Ln]).
    assert (B : 0 <= (D - k) mod order_n < 2 ^ 256) by (pose proof (Z.mod_pos_bound (D - k) order_n ltac:(reflexivity)) as [B1 B2]; split; [exact B1|apply Z.lt_trans with order_n; [exact B2|reflexivity]]).
    rewrite EI, be_octets by exact B. rewrite Zplus_mod_idemp_l. replace (D - k + k) with D by ring. apply Z.mod_small. exact HD.
Qed.
Print Assumptions C148_hardened_partial.

(** The secrets 1 and 2 of C102's example: the parent's is found.  Under another HMAC the first hardened child can be 9. *)
Example C148_example : mac64 ex_mac /\ xkey_ok ex_wallet /\ represents ex_master ex_wallet /\ HDPublicKey ex_master = Ok ex_watch /\
  (exists hp', derive_all ex_mac (Hash160 ex_sha) ex_watch [7] = Ok hp') /\ way_down ex_mac (Hash160 ex_sha) ex_watch [7] = 1 /\ (2 - 1) mod order_n = 1 /\
  exists h' P, derive_all ex_mac (Hash160 ex_sha) ex_master [7] = Ok h' /\ hk_prv h' = Some (2, P).
Proof.
  destruct C102_example as (A & B & _ & C & D & _). split; [exact A|]. split; [exact B|]. split; [exact C|]. split; [exact D|].
  split; [eexists; vm_compute; reflexivity|]. split; [vm_compute; reflexivity|]. split; [reflexivity|]. eexists _, _. split; vm_compute; reflexivity.
Qed.
