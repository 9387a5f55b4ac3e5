(** C158: the type a signature carries. *)
From Verif Require Import GoBase BaseLemmas BufferModel Codec SecpModel SecpSpec SecpLink SecpOrderN EcdsaModel EcdsaSpec EcdsaProofs EcdsaProps PubKeyModel PubKeyProofs PubKeyProps DerModel DerSpec DerProps ScriptModel LockModel LockSpec LockProofs VmSpec VmProofs
  TxModel TxSpec TxProofs TxProps TxSig TxSignSpec TxSign TxSign2 TxSign3 HexModel AddressModel BuilderModel BuilderProofs WholeModel WholeProofs WholeProps.
From Verif Require PubKeySpec.
From Verif Require Import NetSpec NetProofs BindProofs NetWrong NetProps TxSignProps FormProps.
From Coq Require Import ZifyBool ZifyNat ZifyN.
Local Open Scope Z_scope.

(** C158: the type a signature carries is the one it was asked for.  A type is a number of 32 bits and a signature has room for 8 of them: nothing is refused,
    the digest is made for the whole number and the low byte written at the end. *)
Theorem C158_last_byte_partial : forall sha256 hmac fuel c ht n k t i t', hash32 sha256 -> nth_error (tx_ins t) n = Some i ->
  spends_p2pkh (Hash160 sha256 (PubKeyBytes k c)) i \/ spends_p2wpkh (Hash160 sha256 (PubKeyBytes k c)) i ->
  TxModel.SignIndex sha256 (DoubleSha256 sha256) prvkey PubKeyBytes (SignHash hmac fuel) (Z.of_nat n) c ht [k] t = Ok t' ->
  exists i' digest der, nth_error (tx_ins t') n = Some i' /\ sigHashFn (DoubleSha256 sha256) (Z.of_nat n) (in_has_witness i) t ht = Ok digest /\ SignHash hmac fuel k digest = Ok der /\
    ti_unlock i' = shortest_push (der ++ [ht mod 256]) ++ shortest_push (PubKeyBytes k c) /\ (0 <= ht < 256 <-> ht mod 256 = ht).
Proof.
  intros sha256 hmac fuel c ht n k t i t' Hs Hn S E.
  set (DS := DoubleSha256 sha256) in *. assert (Hi : index (tx_ins t) (Z.of_nat n) = Ok i) by (unfold index; replace (Z.of_nat n <? 0) with false by lia; now rewrite Nat2Z.id, Hn).
  destruct (hashes sha256 Hs) as [H1 H2]. unfold TxModel.SignIndex in E. rewrite Hi in E. cbn [rbind] in E. destruct ((1 <? len [k]) && _); [discriminate|].
  apply rbind_ok in E. destruct E as ((signs & t1) & El & E).
  destruct (sign_loop_spec (Hash160 sha256) sha256 DS prvkey PubKeyBytes (SignHash hmac fuel) sigVerifyFn _ c ht [k] t i signs t1 Hi El) as (S1 & (i1 & Hi1) & _ & Sg1 & Lsg).
  destruct Sg1 as [Q|(h & Dh & F)]; [discriminate Q|].
  destruct (core_index t t1 _ i (proj1 S1) Hi) as (i1' & Hi1' & Bl). rewrite Hi1 in Hi1'. assert (i1' = i1) by congruence. subst i1'.
  assert (ti_rawlock i1 = ti_rawlock i /\ ti_redeem i1 = ti_redeem i /\ ti_code i1 = ti_code i) as (Ra & Re & Co) by (unfold blank in Bl; repeat split; congruence).
  unfold EmbedIdxSignature in E. rewrite Hi1 in E. cbn [rbind] in E. destruct ((1 <? len signs) && _); [discriminate|]. rewrite Ra, Re in E.
  destruct (H1 (PubKeyBytes k c)) as [O L]. inversion F as [|? x ? signs' (Ek & der & Es & Ex) F']; subst signs. inversion F'; subst signs'.
  assert (Ps : ParseLockingScript (ti_rawlock i) = Ok (P2PKH (Hash160 sha256 (PubKeyBytes k c))) \/ ParseLockingScript (ti_rawlock i) = Ok (P2WPKH (Hash160 sha256 (PubKeyBytes k c)))).
  { destruct S as [(Rw & _)|(Rw & _)]; rewrite Rw; [left; exact (parse_of (P2PKH _) O L)|right; exact (parse_of (P2WPKH _) O L)]. }
  assert (Pu : Script (AddData (pks_key x) (AddData (pks_sig x) NewScriptBuilder)) = shortest_push (der ++ [ht mod 256]) ++ shortest_push (PubKeyBytes k c)).
  { rewrite push_exact by (rewrite Ek; apply key_len). rewrite push_exact by (rewrite Ex, len_app; destruct (sign_hash_sizes hmac fuel k h der Es) as [_ Ls]; change (len [u8 ht]) with 1; lia). rewrite Ek, Ex. reflexivity. }
  assert (Fin : exists w, t' = set_in (Z.of_nat n) (fun i => with_witness w (with_unlock (shortest_push (der ++ [ht mod 256]) ++ shortest_push (PubKeyBytes k c)) i)) t1).
  { destruct Ps as [Ps|Ps]; rewrite Ps in E; cbn [rbind GetRawUnlockingScriptBytes GetWitnessUnlockingScriptBytes] in E; rewrite Pu in E; match type of E with Ok ?x = Ok ?y => assert (x = y) as Ey by congruence; rewrite <- Ey; eexists; reflexivity end. }
  destruct Fin as (w & Et). pose proof (index_set_in (Z.of_nat n) (fun i => with_witness w (with_unlock (shortest_push (der ++ [ht mod 256]) ++ shortest_push (PubKeyBytes k c)) i)) t1 i1 Hi1) as Fin. rewrite <- Et in Fin. destruct (index_nth _ _ _ Fin) as (m & Em & Hm). assert (m = n) by lia. subst m.
  eexists _, h, der. split; [exact Hm|]. split; [exact Dh|]. split; [exact Es|]. split; [reflexivity|]. split; intros B; [apply Z.mod_small; lia|pose proof (Z.mod_pos_bound ht 256 ltac:(lia)); lia].
Qed.
Print Assumptions C158_last_byte_partial.

(** Asked for 0x101, signing succeeds and nothing verifies. *)
Theorem C158_wide_type_refuted : exists (Hash160 sha256 DS : bytes -> bytes) prvkey PubKeyBytes EcdsaSign EcdsaVerify c ht kss t t',
  scheme_ok prvkey PubKeyBytes EcdsaSign EcdsaVerify /\ hashes_ok Hash160 sha256 /\ Forall2 (signers Hash160 sha256 prvkey PubKeyBytes c) kss (tx_ins t) /\ tx_ins t <> [] /\ 0 <= ht < 2 ^ 32 /\
  sign_each sha256 prvkey PubKeyBytes EcdsaSign DS c ht 0 kss t = Ok t' /\ TxModel.Verify Hash160 DS EcdsaVerify t' <> Ok tt.
Proof.
  destruct C82_example as (S & H & F & _). exists toy160, toy256, toy256, Z, toy_pub, toy_sign, toy_verify, true, 0x101, [[8]; [3]; [5; 6]; [5; 7]], (toy_tx toy_ins). eexists.
  split; [exact S|]. split; [exact H|]. split; [exact F|]. split; [discriminate|]. split; [lia|]. split; [vm_compute; reflexivity|]. vm_compute. discriminate.
Qed.
Print Assumptions C158_wide_type_refuted.

Example C158_example : hash32 ex_sha /\ (exists i, nth_error (tx_ins ex_unsigned) 0 = Some i /\ spends_p2pkh (Hash160 ex_sha (PubKeyBytes ex_key true)) i) /\
  (exists i, nth_error (tx_ins ex_unsigned) 2 = Some i /\ spends_p2wpkh (Hash160 ex_sha (PubKeyBytes ex_key true)) i) /\
  forall n, In n [0; 2] -> exists t', TxModel.SignIndex ex_sha (DoubleSha256 ex_sha) prvkey PubKeyBytes (SignHash ex_hmac 1) n true 0x101 [ex_key] ex_unsigned = Ok t'.
Proof.
  assert (E1 : Hash160 ex_sha (PubKeyBytes ex_key true) = ex_h) by (vm_compute; reflexivity). rewrite E1.
  split; [exact (proj1 C143_example)|]. split; [eexists; split; [reflexivity|repeat split]|]. split; [eexists; split; [reflexivity|repeat split]|].
  intros n [<-|[<-|[]]]; eexists; vm_compute; reflexivity.
Qed.
