(** C157: signature types other than ALL and the rules of the network. *)
From Verif Require Import GoBase BaseLemmas BufferModel Codec SecpModel SecpSpec SecpLink SecpOrderN EcdsaModel EcdsaSpec EcdsaProofs EcdsaProps PubKeyModel PubKeyProofs PubKeyProps DerModel DerSpec DerProps ScriptModel LockModel LockSpec LockProofs VmSpec VmProofs
  TxModel TxSpec TxProofs TxProps TxSig TxSignSpec TxSign TxSign2 TxSign3 HexModel AddressModel BuilderModel BuilderProofs WholeModel WholeProofs WholeProps.
From Verif Require PubKeySpec.
From Verif Require Import NetSpec NetProofs BindProofs NetWrong NetProps TakeProps.
From Coq Require Import ZifyBool ZifyNat ZifyN.
Local Open Scope Z_scope.

(** The types the relay rules know; a signature with its type at its end, otherwise as those of type ALL. *)
Definition known_type (ht : Z) : Prop := In ht [1; 2; 3; 0x81; 0x82; 0x83].
Definition typed_sig (compressed_only : bool) (ht : Z) (digest key sig : bytes) : Prop :=
  exists der, sig = der ++ [ht] /\ net_sig compressed_only digest key (der ++ [1]).

Lemma preimage_same H idx ht i i' t t' : core t = core t' -> blank i = blank i' -> bip143_preimage H idx ht i t = bip143_preimage H idx ht i' t'.
Proof.
  intros C B. assert (P : forall (f : TxIn -> bytes), (forall j, f (blank j) = f j) -> map f (tx_ins t) = map f (tx_ins t')).
  { intros f Hf. rewrite <- (map_ext _ _ Hf (tx_ins t)), <- (map_ext _ _ Hf (tx_ins t')), <- !(map_map blank f). f_equal. unfold core in C. congruence. }
  assert (tx_version t = tx_version t' /\ tx_locktime t = tx_locktime t' /\ tx_outs t = tx_outs t') as (Ev & El & Eo) by (unfold core in C; repeat split; congruence).
  assert (ti_hash i = ti_hash i' /\ ti_index i = ti_index i' /\ ti_code i = ti_code i' /\ ti_value i = ti_value i' /\ ti_seq i = ti_seq i') as (E1 & E2 & E3 & E4 & E5) by (unfold blank in B; repeat split; congruence).
  unfold bip143_preimage, prevouts_bytes, sequences_bytes, outputs_bytes. rewrite Ev, El, Eo, E1, E2, E3, E4, E5. rewrite (P (fun j => ti_hash j ++ le 4 (ti_index j)) (fun j => eq_refl)), (P (fun j => le 4 (ti_seq j)) (fun j => eq_refl)). reflexivity.
Qed.

(** C157: a key hash input signed with any type the network knows carries a signature the network accepts.  False as it stands: see below.
    It holds of witness inputs, when the transaction has kept no digests, for all types but SINGLE where there is an output to keep. *)
Theorem C157_witness_partial : forall sha256 hmac fuel ht n k t i t', hash32 sha256 -> uncached t -> Forall out_ok (tx_outs t) ->
  nth_error (tx_ins t) n = Some i -> spends_p2wpkh (Hash160 sha256 (PubKeyBytes k true)) i -> known_type ht -> (single ht = true -> len (tx_outs t) <= Z.of_nat n) ->
  TxModel.SignIndex sha256 (DoubleSha256 sha256) prvkey PubKeyBytes (SignHash hmac fuel) (Z.of_nat n) true ht [k] t = Ok t' ->
  exists i' sig, nth_error (tx_ins t') n = Some i' /\ n_script (sent_in i') = [] /\ n_witness (sent_in i') = [sig; PubKeyBytes k true] /\
    typed_sig true ht (twice sha256 (bip143_preimage (twice sha256) (Z.of_nat n) ht i' t')) (PubKeyBytes k true) sig.
Proof.
  intros sha256 hmac fuel ht n k t i t' Hs U Fo Hn S Ht Si E.
  set (DS := DoubleSha256 sha256) in *. assert (Hi : index (tx_ins t) (Z.of_nat n) = Ok i) by (unfold index; replace (Z.of_nat n <? 0) with false by lia; now rewrite Nat2Z.id, Hn).
  destruct (hashes sha256 Hs) as [H1 H2]. unfold TxModel.SignIndex in E. rewrite Hi in E. cbn [rbind] in E. destruct ((1 <? len [k]) && _); [discriminate|].
  apply rbind_ok in E. destruct E as ((signs & t1) & El & E).
  destruct (sign_loop_spec (Hash160 sha256) sha256 DS prvkey PubKeyBytes (SignHash hmac fuel) sigVerifyFn _ true ht [k] t i signs t1 Hi El) as (S1 & (i1 & Hi1) & _ & Sg1 & Lsg).
  destruct S as (Rw & Fl0 & Cd). destruct (H1 (PubKeyBytes k true)) as [O L].
  assert (Vc : v0_code_ok i). { pose proof (net_code sha256 hmac true [k] i Hs (ns_p2wpkh sha256 true k i (conj Rw (conj Fl0 Cd)) eq_refl)) as Q. unfold in_has_witness in Q. rewrite Cd in Q. exact Q. }
  destruct (C40_bip143_types_partial DS (Z.of_nat n) ht i t Hi Vc Fo U Si) as (t2 & Dg).
  { intros Hb. unfold known_type in Ht. cbn [In] in Ht. destruct Ht as [<-|[<-|[<-|[<-|[<-|[<-|[]]]]]]]; try discriminate Hb; (left; reflexivity) || (right; reflexivity). }
  set (h := DS (bip143_preimage DS (Z.of_nat n) ht i t)) in *.
  assert (F : Forall2 (TxSign2.signed_by prvkey PubKeyBytes (SignHash hmac fuel) true ht h) [k] signs).
  { destruct Sg1 as [Q|(h' & Dh' & F)]; [discriminate Q|]. unfold in_has_witness in Dh'. rewrite Cd in Dh'. unfold sigHashFn in Dh'. rewrite Dg in Dh'. cbn [rbind] in Dh'. congruence. }
  destruct (core_index t t1 _ i (proj1 S1) Hi) as (i1' & Hi1' & Bl). rewrite Hi1 in Hi1'. assert (i1' = i1) by congruence. subst i1'.
  assert (ti_rawlock i1 = ti_rawlock i /\ ti_redeem i1 = ti_redeem i /\ ti_code i1 = ti_code i) as (Ra & Re & Co) by (unfold blank in Bl; repeat split; congruence).
  unfold EmbedIdxSignature in E. rewrite Hi1 in E. cbn [rbind] in E. destruct ((1 <? len signs) && _); [discriminate|]. rewrite Ra, Re in E.
  pose proof (parse_of (P2WPKH (Hash160 sha256 (PubKeyBytes k true))) O L) as Ps. cbn [template] in Ps. rewrite <- Rw in Ps. rewrite Ps in E. cbn [rbind] in E.
  inversion F as [|? x ? signs' (Ek & der & Es & Ex) F']; subst signs. inversion F'; subst signs'. cbn [GetRawUnlockingScriptBytes GetWitnessUnlockingScriptBytes rbind] in E.
  match type of E with Ok (set_in _ (fun i => with_witness ?w (with_unlock ?u i)) _) = _ => set (ww := w) in E; set (uu := u) in E end.
  assert (Et : t' = set_in (Z.of_nat n) (fun i => with_witness ww (with_unlock uu i)) t1) by congruence.
  pose proof (index_set_in (Z.of_nat n) (fun i => with_witness ww (with_unlock uu i)) t1 i1 Hi1) as Fin. rewrite <- Et in Fin. destruct (index_nth _ _ _ Fin) as (m & Em & Hm). assert (m = n) by lia. subst m.
  exists (with_witness ww (with_unlock uu i1)), (pks_sig x). split; [exact Hm|]. split; [cbn [sent_in n_script]; unfold script_sig; cbn [with_witness with_unlock ti_code ti_unlock]; now rewrite Co, Cd|].
  split; [unfold sent_in, ww; cbn [n_witness with_witness ti_witness]; now rewrite Ek|].
  assert (Ct : core t = core t') by (rewrite Et, (proj1 S1); apply (set_in_same DS 0 (Z.of_nat n) (fun i => with_witness ww (with_unlock uu i)) t1 (fun j => eq_refl))).
  exists der. split; [rewrite Ex; unfold known_type in Ht; cbn [In] in Ht; destruct Ht as [<-|[<-|[<-|[<-|[<-|[<-|[]]]]]]]; reflexivity|].
  replace (twice sha256 (bip143_preimage (twice sha256) (Z.of_nat n) ht (with_witness ww (with_unlock uu i1)) t')) with h; [apply (signature_ok sha256 hmac fuel); [exact Es|reflexivity]|].
  unfold h. change DS with (twice sha256). f_equal. apply preimage_same; [exact Ct|]. rewrite <- Bl. reflexivity.
Qed.
Print Assumptions C157_witness_partial.

Lemma typed_sigs hmac fuel c ht h ks signs pubs : c = true -> known_type ht -> Forall2 (TxSign2.signed_by prvkey PubKeyBytes (SignHash hmac fuel) c ht h) ks signs ->
  matched (fun k p => p = PubKeyBytes k c) ks pubs -> matched (fun sig key => typed_sig true ht h key sig) (map pks_sig signs) pubs.
Proof.
  intros -> Ht F M. revert signs F. induction M as [|k ks p ps E M IH|ks p ps M IH]; intros signs F.
  - inversion F; subst. constructor.
  - inversion F as [|? x ? signs' (_ & der & Es & Ex) F']; subst. cbn [map]. apply m_take; [|now apply IH]. exists der. split; [rewrite Ex; unfold known_type in Ht; cbn [In] in Ht; destruct Ht as [<-|[<-|[<-|[<-|[<-|[<-|[]]]]]]]; reflexivity|]. now apply (signature_ok (fun _ => []) hmac fuel).
  - apply m_skip. now apply IH.
Qed.
(** The same of witness inputs behind a multisig script. *)
Theorem C157_multisig_partial : forall sha256 hmac fuel c ht n ks pubs r t i t', hash32 sha256 -> uncached t -> Forall out_ok (tx_outs t) ->
  nth_error (tx_ins t) n = Some i -> multisig_for prvkey PubKeyBytes c ks pubs r -> spends_p2wsh (Hash160 sha256) sha256 r i -> len pubs <= 20 -> Forall (sec_form true) pubs ->
  known_type ht -> (single ht = true -> len (tx_outs t) <= Z.of_nat n) ->
  TxModel.SignIndex sha256 (DoubleSha256 sha256) prvkey PubKeyBytes (SignHash hmac fuel) (Z.of_nat n) c ht ks t = Ok t' ->
  exists i' sigs, nth_error (tx_ins t') n = Some i' /\ n_script (sent_in i') = [] /\ n_witness (sent_in i') = [] :: sigs ++ [r] /\ r = m_of_n (len sigs) pubs /\ 1 <= len sigs <= len pubs /\
    matched (fun sig key => typed_sig true ht (twice sha256 (bip143_preimage (twice sha256) (Z.of_nat n) ht i' t')) key sig) sigs pubs.
Proof.
  intros sha256 hmac fuel c ht n ks pubs r t i t' Hs U Fo Hn M S Lp Fp Ht Si E.
  set (DS := DoubleSha256 sha256) in *. assert (Hi : index (tx_ins t) (Z.of_nat n) = Ok i) by (unfold index; replace (Z.of_nat n <? 0) with false by lia; now rewrite Nat2Z.id, Hn).
  assert (Cc : c = true) by (first [exact (NetProofs.compressed_only sha256 c ks pubs r M Fp)|exact (NetProofs.compressed_only sha256 hmac c ks pubs r M Fp)]).
  assert (Vc : v0_code_ok i). { pose proof (net_code sha256 hmac c ks i Hs (ns_p2wsh sha256 c ks pubs r i M S Lp Fp)) as Q. unfold in_has_witness in Q. rewrite (proj2 (proj2 (proj2 S))) in Q. exact Q. }
  destruct (hashes sha256 Hs) as [H1 H2]. unfold TxModel.SignIndex in E. rewrite Hi in E. cbn [rbind] in E. destruct ((1 <? len ks) && _); [discriminate|].
  apply rbind_ok in E. destruct E as ((signs & t1) & El & E).
  destruct (sign_loop_spec (Hash160 sha256) sha256 DS prvkey PubKeyBytes (SignHash hmac fuel) sigVerifyFn _ c ht ks t i signs t1 Hi El) as (S1 & (i1 & Hi1) & _ & Sg1 & Lsg).
  destruct S as (Rw & Fl0 & Rd & Cd). destruct (H2 r) as [O L]. destruct M as (G & Nk & Mt & Fs & _).
  destruct (C40_bip143_types_partial DS (Z.of_nat n) ht i t Hi Vc Fo U Si) as (t2 & Dg).
  { intros Hb. unfold known_type in Ht. cbn [In] in Ht. destruct Ht as [<-|[<-|[<-|[<-|[<-|[<-|[]]]]]]]; try discriminate Hb; (left; reflexivity) || (right; reflexivity). }
  set (h := DS (bip143_preimage DS (Z.of_nat n) ht i t)) in *.
  assert (F : Forall2 (TxSign2.signed_by prvkey PubKeyBytes (SignHash hmac fuel) c ht h) ks signs).
  { destruct Sg1 as [Q|(h' & Dh' & F)]; [congruence|]. unfold in_has_witness in Dh'. rewrite Cd in Dh'. unfold sigHashFn in Dh'. rewrite Dg in Dh'. cbn [rbind] in Dh'. congruence. }
  destruct (core_index t t1 _ i (proj1 S1) Hi) as (i1' & Hi1' & Bl). rewrite Hi1 in Hi1'. assert (i1' = i1) by congruence. subst i1'.
  assert (ti_rawlock i1 = ti_rawlock i /\ ti_redeem i1 = ti_redeem i /\ ti_code i1 = ti_code i) as (Ra & Re & Co) by (unfold blank in Bl; repeat split; congruence).
  unfold EmbedIdxSignature in E. rewrite Hi1 in E. cbn [rbind] in E. destruct ((1 <? len signs) && _); [discriminate|]. rewrite Ra, Re in E.
  pose proof (parse_of (P2WSH (sha256 r)) O L) as Ps. cbn [template] in Ps. rewrite <- Rw in Ps. rewrite Ps in E. cbn [rbind] in E. rewrite Rd in E. cbn [nilb] in E.
  cbn [GetRawUnlockingScriptBytes GetWitnessUnlockingScriptBytes rbind] in E. rewrite list_Z_eqb_refl in E. cbn [negb rbind] in E.
  destruct (multisig_exact _ _ _ G ltac:(unfold len; lia) Fs Lp) as [Lk Er].
  assert (Pk : 1 <= len ks) by (destruct ks; [congruence|]; rewrite len_cons; pose proof (len_nonneg ks); lia).
  assert (Ls : len signs = len ks) by (unfold len in *; lia).
  replace (0 <? len signs) with true in E by lia.
  match type of E with Ok (set_in _ (fun i => with_witness ?w (with_unlock ?u i)) _) = _ => set (ww := w) in E; set (uu := u) in E end.
  assert (Et : t' = set_in (Z.of_nat n) (fun i => with_witness ww (with_unlock uu i)) t1) by congruence.
  pose proof (index_set_in (Z.of_nat n) (fun i => with_witness ww (with_unlock uu i)) t1 i1 Hi1) as Fin. rewrite <- Et in Fin. destruct (index_nth _ _ _ Fin) as (m & Em & Hm). assert (m = n) by lia. subst m.
  exists (with_witness ww (with_unlock uu i1)), (map pks_sig signs). split; [exact Hm|]. split; [cbn [sent_in n_script]; unfold script_sig; cbn [with_witness with_unlock ti_code ti_unlock]; now rewrite Co, Cd|].
  split; [reflexivity|].
  assert (Lm : len (map pks_sig signs) = len ks) by (unfold len in *; rewrite map_length; lia). rewrite Lm.
  split; [exact Er|]. split; [lia|].
  assert (Ct : core t = core t') by (rewrite Et, (proj1 S1); apply (set_in_same DS 0 (Z.of_nat n) (fun i => with_witness ww (with_unlock uu i)) t1 (fun j => eq_refl))).
  replace (twice sha256 (bip143_preimage (twice sha256) (Z.of_nat n) ht (with_witness ww (with_unlock uu i1)) t')) with h; [now apply (typed_sigs hmac fuel c ht h ks signs pubs)|].
  unfold h. change DS with (twice sha256). f_equal. apply preimage_same; [exact Ct|]. rewrite <- Bl. reflexivity.
Qed.
Print Assumptions C157_multisig_partial.

(** NONE for the first and ANYONECANPAY for the second input of a transaction. *)
Definition ex_typed (n : Z) (code : option bytes) (lock : bytes) : TxIn := MkIn (repeat 7 32) n 1000 0xffffffff [] None [] code lock (p2pkh_script ex_hs) [].
Definition ex_witness : TxIn := ex_typed 1 (Some (p2pkh_script ex_hs)) (p2wpkh_script ex_hs).
Definition ex_types : transaction := MkTx 2 0 [ex_witness; ex_typed 2 (Some (p2pkh_script ex_hs)) (p2wpkh_script ex_hs)] [MkOut 900 [0x51]] None None None.
Notation ex_sign_index := (TxModel.SignIndex ex_sum (DoubleSha256 ex_sum) prvkey PubKeyBytes (SignHash ex_hmac 1)).
Example C157_example : hash32 ex_sum /\ uncached ex_types /\ Forall out_ok (tx_outs ex_types) /\ Forall (spends_p2wpkh (Hash160 ex_sum (PubKeyBytes ex_key true))) (tx_ins ex_types) /\
  (exists t', ex_sign_index 0 true 2 [ex_key] ex_types = Ok t') /\ exists t', ex_sign_index 1 true 0x81 [ex_key] ex_types = Ok t'.
Proof.
  split; [exact ex_sum32|]. split; [repeat split|]. split; [constructor; [|constructor]; split; vm_compute; [split; [discriminate|reflexivity]|discriminate]|].
  split; [replace (Hash160 ex_sum (PubKeyBytes ex_key true)) with ex_hs by (vm_compute; reflexivity); repeat constructor|]. split; eexists; vm_compute; reflexivity.
Qed.

(** A script of seventeen keys, signed with NONE and ANYONECANPAY. *)
Example C157_multisig_example : hash32 ex_sha /\ uncached ex_tx17 /\ Forall out_ok (tx_outs ex_tx17) /\ spends_p2wsh (Hash160 ex_sha) ex_sha ex_script17 ex_in17 /\
  multisig_for prvkey PubKeyBytes true [ex_key] ex_keys17 ex_script17 /\ len ex_keys17 <= 20 /\ Forall (sec_form true) ex_keys17 /\
  exists t', TxModel.SignIndex ex_sha (DoubleSha256 ex_sha) prvkey PubKeyBytes (SignHash ex_hmac 1) 0 true 0x82 [ex_key] ex_tx17 = Ok t'.
Proof.
  destruct C141_many_example as (A & B & C & D & E & F & _). split; [exact A|]. split; [exact B|].
  split; [constructor; [|constructor]; split; vm_compute; [split; [discriminate|reflexivity]|discriminate]|].
  split; [exact C|]. split; [exact D|]. split; [rewrite E; discriminate|]. split; [exact F|]. eexists. vm_compute. reflexivity.
Qed.

(** A signature of one digest is none of another. *)
Lemma not_signed h h' der ht sig key : SignHash ex_hmac 1 ex_key h = Ok der -> bytes_ok der -> sig = der ++ [ht] -> key = PubKeyBytes ex_key true ->
  (exists r s, SigDeserialize der = Ok (r, s) /\ prime_p - order_n <= r /\ (message_int h' - message_int h) mod order_n <> 0 /\ (message_int h' + message_int h + 2 * r * 2) mod order_n <> 0) ->
  forall co, ~ typed_sig co ht h' key sig.
Proof.
  intros Sd Bd -> -> (r & s & Rd & Lr & N1 & N2) co (der' & Q & N). apply app_inj_tail in Q. destruct Q as [<- _].
  destruct (pub_bytes ex_key true) as (x & y & P & G & Kb & _).
  assert (M : multiple base 2 (Some (x, y))) by (destruct (made_good _ (proj2_sig ex_key)) as (_ & _ & MQ); rewrite P in MQ; exact MQ).
  pose proof (signature_ok ex_sum ex_hmac 1 co ex_key true h der Sd ltac:(reflexivity)) as N0.
  assert (En : PubKeySpec.encodes (PubKeyBytes ex_key true) x y) by (rewrite Kb; constructor).
  assert (Bs : bytes_ok (der ++ [1])) by (apply Forall_app; split; [exact Bd|repeat constructor; unfold is_byte; lia]).
  destruct (two_digests _ _ _ _ _ 2 x y En G M Bs N0 N) as (r' & s' & Rd' & T). rewrite removelast_last, Rd in Rd'. assert (r' = r) by congruence. subst r'. destruct (T Lr); contradiction.
Qed.

(** SINGLE, of a witness input with an output of its own place: the library accepts what it signed, the network does not. *)
Definition ex_single : transaction := MkTx 2 0 [ex_witness] [MkOut 900 [0x51]] None None None.
Definition ex_single_signed : transaction := Eval vm_compute in
  match sign_each ex_sum prvkey PubKeyBytes (SignHash ex_hmac 1) (DoubleSha256 ex_sum) true 3 0 [[ex_key]] ex_single with Ok t => t | _ => ex_single end.
Theorem C157_single_refuted : exists sha256 hmac fuel k t t' i', hash32 sha256 /\ uncached t /\ tx_ok t /\ tx_ok t' /\
  Forall2 (net_signers sha256 true) [[k]] (tx_ins t) /\ known_type 3 /\
  sign_each sha256 prvkey PubKeyBytes (SignHash hmac fuel) (DoubleSha256 sha256) true 3 0 [[k]] t = Ok t' /\ WVerify sha256 t' = Ok tt /\ tx_ins t' = [i'] /\
  exists sig key, n_witness (sent_in i') = [sig; key] /\ ~ typed_sig true 3 (twice sha256 (bip143_preimage (twice sha256) 0 3 i' t')) key sig.
Proof.
  exists ex_sum, ex_hmac, 1%nat, ex_key, ex_single, ex_single_signed. eexists. split; [exact ex_sum32|]. split; [repeat split|]. split; [tx_ok_tac|]. split; [tx_ok_tac|].
  assert (E : Hash160 ex_sum (PubKeyBytes ex_key true) = ex_hs) by (vm_compute; reflexivity).
  assert (F : Forall2 (net_signers ex_sum true) [[ex_key]] (tx_ins ex_single)) by (constructor; [|constructor]; apply ns_p2wpkh; [rewrite E; repeat split|reflexivity]).
  assert (S : sign_each ex_sum prvkey PubKeyBytes (SignHash ex_hmac 1) (DoubleSha256 ex_sum) true 3 0 [[ex_key]] ex_single = Ok ex_single_signed) by (vm_compute; reflexivity).
  split; [exact F|]. split; [right; right; left; reflexivity|]. split; [exact S|].
  split. { apply (C97_signed_verifies ex_sum ex_hmac 1 true 3 [[ex_key]] ex_single _ ex_sum32 ltac:(lia)); [|exact S]. constructor; [|constructor]. apply can_p2wpkh. rewrite E. repeat split. }
  split; [reflexivity|].
  set (h := match sigHashFn (DoubleSha256 ex_sum) 0 true ex_single 3 with Ok h => h | _ => [] end). set (d := match SignHash ex_hmac 1 ex_key h with Ok d => d | _ => [] end).
  exists (d ++ [3]), (PubKeyBytes ex_key true). split; [vm_compute; reflexivity|].
  apply (not_signed h _ d); [vm_compute; reflexivity|bytes_ok_tac|reflexivity|reflexivity|].
  eexists _, _. split; [vm_compute; reflexivity|]. split; [vm_compute; discriminate|]. split; vm_compute; discriminate.
Qed.
Print Assumptions C157_single_refuted.

(** Inputs without witness: with every type but ALL the signature is for a digest of version, lock time and type (C37).  Here ANYONECANPAY with ALL,
    whose digest of the network is that of a transaction with this one input. *)
Definition alone_digest (sha256 : bytes -> bytes) (i : net_in) (code : bytes) (t : net_tx) : bytes :=
  twice sha256 (le 4 (n_version t) ++ compact 1 ++ outpoint i ++ prefixed code ++ le 4 (n_seq i) ++ compact (len (n_outs t)) ++ concat (map net_output (n_outs t)) ++ le 4 (n_lock t) ++ [0x81; 0; 0; 0]).
Definition ex_anyone : transaction := MkTx 2 0 [ex_typed 1 None (p2pkh_script ex_hs)] [MkOut 900 [0x51]] None None None.
Definition ex_anyone_signed : transaction := Eval vm_compute in
  match sign_each ex_sum prvkey PubKeyBytes (SignHash ex_hmac 1) (DoubleSha256 ex_sum) true 0x81 0 [[ex_key]] ex_anyone with Ok t => t | _ => ex_anyone end.
Theorem C157_legacy_refuted : exists sha256 hmac fuel k t t' i', hash32 sha256 /\ uncached t /\ tx_ok t /\ tx_ok t' /\
  Forall2 (net_signers sha256 true) [[k]] (tx_ins t) /\ known_type 0x81 /\
  sign_each sha256 prvkey PubKeyBytes (SignHash hmac fuel) (DoubleSha256 sha256) true 0x81 0 [[k]] t = Ok t' /\ WVerify sha256 t' = Ok tt /\ tx_ins t' = [i'] /\
  exists sig key, n_script (sent_in i') = shortest_push sig ++ shortest_push key /\ ~ typed_sig false 0x81 (alone_digest sha256 (sent_in i') (ti_rawlock i') (sent t')) key sig.
Proof.
  exists ex_sum, ex_hmac, 1%nat, ex_key, ex_anyone, ex_anyone_signed. eexists. split; [exact ex_sum32|]. split; [repeat split|]. split; [tx_ok_tac|]. split; [tx_ok_tac|].
  assert (E : Hash160 ex_sum (PubKeyBytes ex_key true) = ex_hs) by (vm_compute; reflexivity).
  assert (F : Forall2 (net_signers ex_sum true) [[ex_key]] (tx_ins ex_anyone)) by (constructor; [|constructor]; apply ns_p2pkh; [rewrite E; repeat split|reflexivity]).
  assert (S : sign_each ex_sum prvkey PubKeyBytes (SignHash ex_hmac 1) (DoubleSha256 ex_sum) true 0x81 0 [[ex_key]] ex_anyone = Ok ex_anyone_signed) by (vm_compute; reflexivity).
  split; [exact F|]. split; [do 3 right; left; reflexivity|]. split; [exact S|].
  split. { apply (C97_signed_verifies ex_sum ex_hmac 1 true 0x81 [[ex_key]] ex_anyone _ ex_sum32 ltac:(lia)); [|exact S]. constructor; [|constructor]. apply can_p2pkh. rewrite E. repeat split. }
  split; [reflexivity|].
  set (h := match sigHashFn (DoubleSha256 ex_sum) 0 false ex_anyone 0x81 with Ok h => h | _ => [] end). set (d := match SignHash ex_hmac 1 ex_key h with Ok d => d | _ => [] end).
  exists (d ++ [0x81]), (PubKeyBytes ex_key true). split; [vm_compute; reflexivity|]. set (h' := alone_digest _ _ _ _).
  apply (not_signed h h' d); [vm_compute; reflexivity|bytes_ok_tac|reflexivity|reflexivity|].
  eexists _, _. split; [vm_compute; reflexivity|]. split; [vm_compute; discriminate|]. split; vm_compute; discriminate.
Qed.
Print Assumptions C157_legacy_refuted.
