(** C145: the order of the keys in joint signing of a multisig output. *)
From Verif Require Import GoBase BaseLemmas BufferModel SecpModel SecpSpec EcdsaModel EcdsaSpec DerModel ScriptModel ScriptSpec LockModel LockSpec LockProofs VmSpec TxModel TxSpec TxSignSpec WholeModel WholeProofs WholeProps.
From Verif Require Import OneKeyProps OrderProofs.
From Verif Require Import ScriptProofs VmProofs TxProofs TxSig TxSign.
From Coq Require Import Permutation ZifyBool ZifyNat ZifyN.
Local Open Scope Z_scope.

Definition ex_1 : Z * (Z * Z) := Eval vm_compute in match PrvKeyFromBytes [1] with Ok k => k | _ => (0, (0, 0)) end.
Lemma ex_made1 : made_key ex_1.
Proof. exists [1]. split; [bytes_ok_tac | ]. split; [vm_compute; reflexivity | vm_compute; discriminate]. Qed.
Definition ex_key1 : prvkey := exist _ ex_1 ex_made1.
Definition ex_joint : bytes := Eval vm_compute in match GenMultiSigScript 2 [PubKeyBytes ex_key true; PubKeyBytes ex_key1 true] with Ok r => r | _ => [] end.
Definition ex_jh : bytes := Eval vm_compute in Hash160 ex_sha ex_joint.
Definition ex_jin : TxIn := MkIn (repeat 8 32) 0 1000 0xffffffff [] (Some ex_joint) [] None (p2sh_script ex_jh) (p2sh_script ex_jh) [].
Definition ex_jtx : transaction := MkTx 2 0 [ex_jin] [MkOut 900 [0x51]] None None None.
Notation ex_sign ks := (SignIndex ex_sha (DoubleSha256 ex_sha) prvkey PubKeyBytes (SignHash ex_hmac 1) 0 true 1 ks ex_jtx).
Definition ex_digest : bytes := Eval vm_compute in match sigHashFn (DoubleSha256 ex_sha) 0 false ex_jtx 1 with Ok h => h | _ => [] end.
Definition far (e d : Z) (x : res bytes) : bool :=
  match x with Ok der => match SigDeserialize der with Ok (r, _) => (prime_p - order_n <=? r) && negb ((2 * e + r * d) mod order_n =? 0) | _ => false end | _ => false end.
Lemma far_apart hmac fuel h k o : far (message_int h) (fst (proj1_sig k) + fst (proj1_sig o)) (SignHash hmac fuel k h) = true -> apart hmac fuel h k o.
Proof.
  intros B der E. rewrite E in B. unfold far in B. destruct (SigDeserialize der) as [[r s]| |]; [|exfalso; exact (Bool.diff_false_true B)..]. apply andb_prop in B. destruct B as [B1 B2]. exists r, s. split; [reflexivity|]. split; [now apply Z.leb_le|].
  intros Z0. rewrite Z0 in B2. discriminate.
Qed.
Lemma ex_apart k o : In k [ex_key; ex_key1] -> In o [ex_key; ex_key1] -> apart ex_hmac 1 ex_digest k o.
Proof. intros [<-|[<-|[]]] [<-|[<-|[]]]; apply far_apart; vm_compute; reflexivity. Qed.
Lemma ex_setting : hash32 ex_sha /\ index (tx_ins ex_jtx) 0 = Ok ex_jin /\ GenMultiSigScript 2 (map (fun o => PubKeyBytes o true) [ex_key; ex_key1]) = Ok ex_joint /\ spends_p2sh (Hash160 ex_sha) ex_joint ex_jin /\
  sigHashFn (DoubleSha256 ex_sha) 0 (in_has_witness ex_jin) ex_jtx 1 = Ok ex_digest.
Proof.
  split; [exact ex_hash32|]. split; [reflexivity|]. split; [vm_compute; reflexivity|]. assert (Eh : Hash160 ex_sha ex_joint = ex_jh) by (vm_compute; reflexivity). split; [unfold spends_p2sh; rewrite Eh; repeat split|]. vm_compute. reflexivity.
Qed.

(** C145: a multisig input signed by as many owners as the script asks for verifies, in whichever order their keys are given. False: 2 of 2, the keys the other way round. *)
Theorem C145_any_order_refuted : exists sha256 hmac fuel (ks ks' owners : list prvkey) r t i t1 t2, hash32 sha256 /\ tx_ins t = [i] /\ Permutation ks ks' /\ ks = owners /\
  GenMultiSigScript (len ks) (map (fun o => PubKeyBytes o true) owners) = Ok r /\ spends_p2sh (Hash160 sha256) r i /\
  SignIndex sha256 (DoubleSha256 sha256) prvkey PubKeyBytes (SignHash hmac fuel) 0 true 1 ks t = Ok t1 /\ WVerify sha256 t1 = Ok tt /\
  SignIndex sha256 (DoubleSha256 sha256) prvkey PubKeyBytes (SignHash hmac fuel) 0 true 1 ks' t = Ok t2 /\ WVerify sha256 t2 <> Ok tt.
Proof.
  destruct ex_setting as (Hs & Hi & G & Sp & Dg).
  assert (E1 : exists t1 i1, ex_sign [ex_key; ex_key1] = Ok t1 /\ tx_ins t1 = [i1]) by (eexists _, _; split; [vm_compute; reflexivity|reflexivity]).
  assert (E2 : exists t2 i2, ex_sign [ex_key1; ex_key] = Ok t2 /\ tx_ins t2 = [i2]) by (eexists _, _; split; [vm_compute; reflexivity|reflexivity]).
  destruct E1 as (t1 & i1 & E1 & I1), E2 as (t2 & i2 & E2 & I2).
  assert (Ap : forall ks, incl ks [ex_key; ex_key1] -> forall h k o, sigHashFn (DoubleSha256 ex_sha) 0 (in_has_witness ex_jin) ex_jtx 1 = Ok h -> In k ks -> In o [ex_key; ex_key1] -> snd (proj1_sig k) <> snd (proj1_sig o) -> apart ex_hmac 1 h k o).
  { intros ks In0 h k o Eh Ik Io _. assert (h = ex_digest) by congruence. subst h. apply ex_apart; auto. }
  assert (Inc : incl [ex_key1; ex_key] [ex_key; ex_key1]) by (intros x [<-|[<-|[]]]; [right; now left|now left]).
  assert (O1 := order_matters ex_sha ex_hmac 1 0 true 1 [ex_key; ex_key1] [ex_key; ex_key1] ex_joint ex_jtx ex_jin t1 i1 Hs ltac:(lia) Hi G ltac:(discriminate) eq_refl (or_introl Sp) (Ap _ (incl_refl _)) E1 ltac:(rewrite I1; reflexivity)).
  assert (O2 := order_matters ex_sha ex_hmac 1 0 true 1 [ex_key1; ex_key] [ex_key; ex_key1] ex_joint ex_jtx ex_jin t2 i2 Hs ltac:(lia) Hi G ltac:(discriminate) eq_refl (or_introl Sp) (Ap [ex_key1; ex_key] Inc) E2 ltac:(rewrite I2; reflexivity)).
  exists ex_sha, ex_hmac, 1%nat, [ex_key; ex_key1], [ex_key1; ex_key], [ex_key; ex_key1], ex_joint, ex_jtx, ex_jin, t1, t2.
  assert (Nw : forall t i, tx_ins t = [i] -> WVerify ex_sha t = Ok tt -> TxModel.verify_input (Hash160 ex_sha) (DoubleSha256 ex_sha) sigVerifyFn 0 i t = Ok tt).
  { intros t i I V. unfold WVerify, TxModel.Verify in V. rewrite I in V. cbn [TxModel.verify_from] in V. apply rbind_ok in V. destruct V as ([] & V & _). exact V. }
  split; [exact Hs|]. split; [reflexivity|]. split; [constructor|]. split; [reflexivity|]. split; [exact G|]. split; [exact Sp|]. split; [exact E1|]. split; [|split; [exact E2|]].
  - apply (C97_signed_verifies ex_sha ex_hmac 1 true 1 [[ex_key; ex_key1]] ex_jtx t1 Hs ltac:(lia)); [|cbn [sign_each]; rewrite E1; reflexivity].
    constructor; [|constructor]. eapply can_p2sh; [|exact Sp]. split; [exact G|]. split; [discriminate|]. split; [repeat constructor|]. split; [|reflexivity].
    repeat (constructor; [split; [apply pub_bytes_ok|rewrite (proj2 (pub_bytes_ok _ _)); lia]|]). constructor.
  - intros V. apply (Nw t2 i2 I2) in V. apply O2 in V. inversion V as [|? ? ? ? X M|? ? ? M]; subst; [discriminate X|]. inversion M as [|? ? ? ? X M'|? ? ? M']; subst; inversion M'.
Qed.
Print Assumptions C145_any_order_refuted.
(** It verifies exactly if the keys are given in the order in which they stand in the script, barring a signature that by chance fits another key of the script. *)
Theorem C145_exact_order_partial : forall sha256 hmac fuel idx c ht ks owners r t i t' i', hash32 sha256 -> 0 <= ht < 256 -> index (tx_ins t) idx = Ok i ->
  GenMultiSigScript (len ks) (map (fun o => PubKeyBytes o c) owners) = Ok r -> ks <> [] -> len owners < 2 ^ 20 -> spends_p2sh (Hash160 sha256) r i \/ spends_p2wsh (Hash160 sha256) sha256 r i ->
  (forall h k o, sigHashFn (DoubleSha256 sha256) idx (in_has_witness i) t ht = Ok h -> In k ks -> In o owners -> snd (proj1_sig k) <> snd (proj1_sig o) ->
     forall der, SignHash hmac fuel k h = Ok der -> exists r s, SigDeserialize der = Ok (r, s) /\ prime_p - order_n <= r /\ (2 * message_int h + r * (fst (proj1_sig k) + fst (proj1_sig o))) mod order_n <> 0) ->
  SignIndex sha256 (DoubleSha256 sha256) prvkey PubKeyBytes (SignHash hmac fuel) idx c ht ks t = Ok t' -> index (tx_ins t') idx = Ok i' ->
  TxModel.verify_input (Hash160 sha256) (DoubleSha256 sha256) sigVerifyFn idx i' t' = Ok tt <-> matched (fun k o : prvkey => snd (proj1_sig k) = snd (proj1_sig o)) ks owners.
Proof. exact order_matters. Qed.
Print Assumptions C145_exact_order_partial.
Example C145_example : hash32 ex_sha /\ index (tx_ins ex_jtx) 0 = Ok ex_jin /\ GenMultiSigScript 2 (map (fun o => PubKeyBytes o true) [ex_key; ex_key1]) = Ok ex_joint /\ spends_p2sh (Hash160 ex_sha) ex_joint ex_jin /\
  sigHashFn (DoubleSha256 ex_sha) 0 (in_has_witness ex_jin) ex_jtx 1 = Ok ex_digest /\ (forall k o, In k [ex_key; ex_key1] -> In o [ex_key; ex_key1] -> apart ex_hmac 1 ex_digest k o) /\
  exists t', ex_sign [ex_key1; ex_key] = Ok t' /\ map (fun i => len (ti_unlock i)) (tx_ins t') = [217].
Proof.
  destruct ex_setting as (Hs & Hi & G & Sp & Dg). split; [exact Hs|]. split; [exact Hi|]. split; [exact G|]. split; [exact Sp|]. split; [exact Dg|]. split; [exact ex_apart|].
  eexists. split; [vm_compute; reflexivity|]. vm_compute. reflexivity.
Qed.
