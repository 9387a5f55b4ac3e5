(** C141: what the network accepts, the program verifies. *)
From Verif Require Import GoBase BaseLemmas SecpModel EcdsaModel PubKeyModel ScriptModel ScriptSpec LockModel LockSpec LockProofs VmSpec
  TxModel TxSpec TxProps TxSig TxSignSpec TxSign TxSign3 WholeModel WholeProofs WholeProps ReceiveSpec ReceiveProofs.
From Verif Require Import NetSpec NetProofs NetProps.
From Verif Require Import TakeSpec TakeProofs.
From Coq Require Import ZifyBool ZifyNat ZifyN.

(** C141: any transaction, whoever made it, that meets the network's rules for the outputs spent is read, completed with those
    outputs and the scripts behind their hashes, and verified.  Missing: wrong for witness scripts of more than 16 keys, as
    shown below; signatures are of type ALL and outputs of the four kinds. *)
Theorem C141_network_verified_partial : forall sha256 T told, hash32 sha256 -> net_ok T -> len (net_bytes T) <= 2 ^ 48 ->
  net_accepts sha256 (Hash160 sha256) T (map fst told) -> Forall2 (tells sha256 (Hash160 sha256)) (n_ins T) told -> Forall (few_keys sha256) told ->
  exists x r, read_back (has_witness T) (net_bytes T) = Ok x /\ look_up (Hash160 sha256) 0 told x = Ok r /\ WVerify sha256 r = Ok tt /\ map spent (tx_ins r) = told.
Proof. intros sha256 T told Hs. exact (network_verified sha256 Hs T told). Qed.
Print Assumptions C141_network_verified_partial.

Definition ex_net : net_tx := Eval vm_compute in sent ex_signed.
Definition ex_told : list (Z * bytes * obytes) := Eval vm_compute in map spent (tx_ins ex_signed).
Definition ex_multi_sig : bytes := Eval vm_compute in firstn 71 (skipn 2 (n_script (nth 1 (n_ins ex_net) (NIn [] 0 [] 0 [])))).
Lemma listed d : forallb (fun b => (0 <=? b) && (b <? 256)) d = true -> bytes_ok d.
Proof. intros E. apply Forall_forall. intros b Hb. rewrite forallb_forall in E. specialize (E b Hb). unfold is_byte. lia. Qed.
Example C141_example : hash32 ex_sha /\ net_ok ex_net /\ len (net_bytes ex_net) <= 2 ^ 48 /\ net_accepts ex_sha (Hash160 ex_sha) ex_net (map fst ex_told) /\
  Forall2 (tells ex_sha (Hash160 ex_sha)) (n_ins ex_net) ex_told /\ Forall (few_keys ex_sha) ex_told /\ length ex_told = 3%nat /\ has_witness ex_net = true.
Proof.
  assert (E1 : Hash160 ex_sha (PubKeyBytes ex_key true) = ex_h) by (vm_compute; reflexivity). assert (E2 : Hash160 ex_sha ex_redeem = ex_rh) by (vm_compute; reflexivity).
  destruct C139_example as (U & Tk & Ne & Sg & Sn & _). split; [apply C97_example|]. split.
  { unfold net_ok. do 4 (split; [vm_compute; intuition discriminate|]). split.
    - repeat apply Forall_cons; try apply Forall_nil; (split; [reflexivity|]; split; [vm_compute; intuition discriminate|]; split; [vm_compute; intuition discriminate|]; split; [apply listed; vm_compute; reflexivity|]); repeat (apply Forall_cons; [apply listed; vm_compute; reflexivity|]); apply Forall_nil.
    - repeat constructor; vm_compute; intuition discriminate. }
  split; [vm_compute; discriminate|]. split; [|split; [|split; [|split; reflexivity]]].
  - exact (proj2 (C139_network_accepts_partial ex_sha ex_hmac 1 true _ ex_unsigned ex_signed (proj1 C97_example) U Tk Ne Sg Sn)).
  - constructor; [|constructor; [|constructor; [|constructor]]]; (split; [vm_compute; intuition discriminate|]); cbn [fst snd].
    + exists ex_h. left. reflexivity.
    + left. split; [vm_compute; reflexivity|]. exists [[]; ex_multi_sig].
      destruct (multi_unlock [ex_multi_sig] ex_redeem) as (is & S & P & _); [| | |exists is; split; [exact S|exact P]].
      * constructor; [split; [apply listed; vm_compute; reflexivity|vm_compute; intuition discriminate]|constructor].
      * apply listed; vm_compute; reflexivity.
      * vm_compute; intuition discriminate.
    + exists ex_h. right. reflexivity.
  - repeat apply Forall_cons; try apply Forall_nil; intros s m keys A B _; try discriminate; vm_compute in B; discriminate.
Qed.

(** Witness scripts of 17 to 20 keys: the network takes what the owners signed, and every receiver's check refuses it. *)
Theorem C141_many_keys_refuted : forall sha256 hmac fuel c ks pubs r t i t', hash32 sha256 -> uncached t -> tx_ins t = [i] -> spends_p2wsh (Hash160 sha256) sha256 r i ->
  multisig_for prvkey PubKeyBytes c ks pubs r -> 17 <= len pubs <= 20 -> Forall (sec_form true) pubs ->
  SignIndex sha256 (DoubleSha256 sha256) prvkey PubKeyBytes (SignHash hmac fuel) 0 c 1 ks t = Ok t' -> tx_ok t' -> len (Serialize t') <= 2 ^ 48 ->
  net_accepts sha256 (Hash160 sha256) (sent t') (spent_outputs t) /\ Serialize t' = net_bytes (sent t') /\
  exists j, received (Hash160 sha256) t' = Ok j /\ WVerify sha256 j <> Ok tt.
Proof.
  intros sha256 hmac fuel c ks pubs r t i t' Hs U Ti Sp M L F E T Ln.
  destruct (C139_network_accepts_partial sha256 hmac fuel c [ks] t t' Hs U T) as [W A].
  - rewrite Ti. discriminate.
  - rewrite Ti. constructor; [|constructor]. apply (ns_p2wsh _ c ks pubs r); auto. lia.
  - cbn [TxSignSpec.sign_each]. rewrite E. reflexivity.
  - split; [exact A|]. split; [exact W|].
    apply (many_keys_refused (Hash160 sha256) sha256 (DoubleSha256 sha256) prvkey PubKeyBytes (SignHash hmac fuel) sigVerifyFn c 1 ks pubs r t i t' (scheme hmac fuel) (hashes sha256 Hs)); auto; lia.
Qed.
Print Assumptions C141_many_keys_refuted.

Definition ex_key33 : bytes := Eval vm_compute in PubKeyBytes ex_key true.
Definition ex_keys17 : list bytes := repeat ex_key33 17.
Definition ex_script17 : bytes := Eval vm_compute in m_of_n 1 ex_keys17.
Definition ex_sum17 : bytes := Eval vm_compute in ex_sha ex_script17.
Definition ex_rip17 : bytes := Eval vm_compute in Hash160 ex_sha ex_script17.
Definition ex_in17 : TxIn := MkIn (repeat 9 32) 5 2000 0xffffffff [] (Some ex_script17) [] (Some ex_script17) (p2wsh_script ex_sum17) (p2sh_script ex_rip17) [].
Definition ex_tx17 : transaction := MkTx 2 0 [ex_in17] [MkOut 900 [0x51]] None None None.
Example C141_many_example : hash32 ex_sha /\ uncached ex_tx17 /\ spends_p2wsh (Hash160 ex_sha) ex_sha ex_script17 ex_in17 /\ multisig_for prvkey PubKeyBytes true [ex_key] ex_keys17 ex_script17 /\
  len ex_keys17 = 17 /\ Forall (sec_form true) ex_keys17 /\
  exists t', SignIndex ex_sha (DoubleSha256 ex_sha) prvkey PubKeyBytes (SignHash ex_hmac 1) 0 true 1 [ex_key] ex_tx17 = Ok t' /\ tx_ok t' /\ len (Serialize t') <= 2 ^ 48.
Proof.
  assert (E1 : PubKeyBytes ex_key true = ex_key33) by (vm_compute; reflexivity). assert (E2 : ex_sha ex_script17 = ex_sum17) by (vm_compute; reflexivity). assert (E3 : Hash160 ex_sha ex_script17 = ex_rip17) by (vm_compute; reflexivity).
  assert (O : bytes_ok ex_key33) by (apply listed; vm_compute; reflexivity).
  split; [apply C97_example|]. split; [repeat split|]. split; [unfold spends_p2wsh; rewrite E2, E3; repeat split|]. split.
  { split; [vm_compute; reflexivity|]. split; [discriminate|]. split; [apply m_take; [symmetry; exact E1|unfold ex_keys17; repeat apply m_skip; constructor]|]. split; [|reflexivity].
    unfold ex_keys17. apply Forall_forall. intros k Hk. apply repeat_spec in Hk. subst k. split; [exact O|vm_compute; intuition discriminate]. }
  split; [reflexivity|]. split; [apply Forall_forall; intros k Hk; apply repeat_spec in Hk; subst k; left; vm_compute; auto|].
  eexists. split; [vm_compute; reflexivity|]. split; [tx_ok_tac|vm_compute; discriminate].
Qed.
