(** C41-C45: signing and verifying transactions. *)
From Verif Require Import GoBase BaseLemmas BufferModel ScriptModel ScriptSpec LockModel LockSpec LockProofs VmModel VmSpec TxModel TxSpec TxSignSpec TxSign TxSign2 TxSign3 TxSign4.
From Coq Require Import ZifyBool ZifyNat ZifyN.

(** A toy scheme for the examples: keys are numbers, a signature names its key and the sum of what it signs. *)
Definition toy_sum (b : bytes) : Z := fold_right Z.add 0 b mod 256.
Definition toy_pub (k : Z) (c : bool) : bytes := if c then [2; k mod 256; 9] else [4; k mod 256; 9; 9].
Definition toy_sign (k : Z) (h : bytes) : res bytes := Ok [k mod 256; toy_sum h].
Definition toy_verify (h s p : bytes) : res unit := if list_Z_eqb s [nth 1 p 0; toy_sum h] then Ok tt else Err "bad".
Definition toy_hash (n : nat) (x : bytes) : bytes := toy_sum x :: (len x mod 256) :: repeat 7 n.
Definition toy160 := toy_hash 18.
Definition toy256 := toy_hash 30.
Lemma toy_sum_byte b : is_byte (toy_sum b). Proof. unfold toy_sum, is_byte. pose proof (Z.mod_pos_bound (fold_right Z.add 0 b) 256). lia. Qed.
Lemma toy_scheme_ok : scheme_ok Z toy_pub toy_sign toy_verify.
Proof.
  split; [|split; [|split]].
  - intros k c h s E. injection E as <-. unfold toy_verify. replace (nth 1 (toy_pub k c) 0) with (k mod 256) by (destruct c; reflexivity). now rewrite list_Z_eqb_refl.
  - intros h s p. unfold toy_verify. destruct (list_Z_eqb _ _); discriminate.
  - intros k h s E. injection E as <-. split; [|split; [discriminate|vm_compute; discriminate]]. constructor; [|constructor; [apply toy_sum_byte|constructor]]. unfold is_byte. pose proof (Z.mod_pos_bound k 256). lia.
  - intros k c. pose proof (Z.mod_pos_bound k 256). destruct c; (split; [|split; vm_compute; discriminate]); repeat (apply Forall_cons; [unfold is_byte; lia|]); constructor.
Qed.
Lemma toy_hashes_ok : hashes_ok toy160 toy256.
Proof.
  split; intros x; (split; [|reflexivity]); (apply Forall_cons; [apply toy_sum_byte|]); (apply Forall_cons; [unfold is_byte; pose proof (Z.mod_pos_bound (len x) 256); lia|]); apply Forall_forall; intros y Hy; apply repeat_spec in Hy; subst; unfold is_byte; lia.
Qed.
(** One input of each kind, made by NewTxIn. *)
Definition toy_redeem : bytes := [0x52; 3; 2; 5; 9; 3; 2; 6; 9; 3; 2; 7; 9; 0x53; 0xae].
Definition ex_in : TxIn := MkIn [] 0 0 0 [] None [] None [] [] [].
Definition toy_in (n : Z) (script : bytes) (redeem : obytes) : TxIn :=
  match NewTxIn toy160 (repeat n 32) n 1000 script redeem with Ok i => i | _ => ex_in end.
Definition toy_ins : list TxIn :=
  [toy_in 1 (p2pkh_script (toy160 (toy_pub 8 true))) None; toy_in 2 (p2wpkh_script (toy160 (toy_pub 3 true))) None;
   toy_in 3 (p2sh_script (toy160 toy_redeem)) (Some toy_redeem); toy_in 4 (p2wsh_script (toy256 toy_redeem)) (Some toy_redeem)].
Definition toy_tx (ins : list TxIn) : transaction := MkTx 2 0 ins [MkOut 3000 [0x51]; MkOut 5 []] None None None.
Notation toy_sign_each := (sign_each toy256 Z toy_pub toy_sign toy256).
Notation toy_sign_index := (SignIndex toy256 toy256 Z toy_pub toy_sign).
Notation toy_check := (Verify toy160 toy256 toy_verify).
Lemma toy_multisig ks : In ks [[5; 6]; [5; 7]; [6; 7]] -> multisig_for Z toy_pub true ks [toy_pub 5 true; toy_pub 6 true; toy_pub 7 true] toy_redeem.
Proof.
  intros [<-|[<-|[<-|[]]]]; (split; [vm_compute; reflexivity|]); (split; [discriminate|]); (split; [|split; [|reflexivity]]).
  1: { apply m_take; [reflexivity|]. apply m_take; [reflexivity|]. constructor. }
  2: { apply m_take; [reflexivity|]. apply m_skip. apply m_take; [reflexivity|]. constructor. }
  3: { apply m_skip. apply m_take; [reflexivity|]. apply m_take; [reflexivity|]. constructor. }
  all: repeat (apply Forall_cons; [split; [bytes_ok_tac|split; vm_compute; discriminate]|]); constructor.
Qed.
Lemma toy_signers : Forall2 (signers toy160 toy256 Z toy_pub true) [[8]; [3]; [5; 6]; [5; 7]] toy_ins.
Proof.
  constructor; [apply can_p2pkh; repeat split; vm_compute; reflexivity|]. constructor; [apply can_p2wpkh; repeat split; vm_compute; reflexivity|].
  constructor; [eapply can_p2sh; [apply (toy_multisig [5; 6]); cbn; tauto|]; repeat split; vm_compute; reflexivity|].
  constructor; [eapply can_p2wsh; [apply (toy_multisig [5; 7]); cbn; tauto|]; repeat split; vm_compute; reflexivity|]. constructor.
Qed.

(** C41: sign every input, and the transaction verifies; signing succeeds if the scheme signs. *)
Theorem C41_p2pkh_signed_verifies : forall Hash160 sha256 DS prvkey PubKeyBytes EcdsaSign EcdsaVerify c ht ks t,
  scheme_ok prvkey PubKeyBytes EcdsaSign EcdsaVerify -> hashes_ok Hash160 sha256 -> 0 <= ht < 256 ->
  Forall2 (fun k i => spends_p2pkh (Hash160 (PubKeyBytes k c)) i) ks (tx_ins t) ->
  (forall t', sign_each sha256 prvkey PubKeyBytes EcdsaSign DS c ht 0 (map (fun k => [k]) ks) t = Ok t' -> Verify Hash160 DS EcdsaVerify t' = Ok tt) /\
  ((forall k h, exists s, EcdsaSign k h = Ok s) -> exists t', sign_each sha256 prvkey PubKeyBytes EcdsaSign DS c ht 0 (map (fun k => [k]) ks) t = Ok t').
Proof. exact p2pkh_whole. Qed.
Print Assumptions C41_p2pkh_signed_verifies.
(** Two P2PKH inputs; with the wrong key for the second the result does not verify. *)
Example C41_example : Forall2 (fun k i => spends_p2pkh (toy160 (toy_pub k true)) i) [8; 8] [nth 0 toy_ins ex_in; nth 0 toy_ins ex_in] /\
  (exists t', toy_sign_each true 1 0 [[8]; [8]] (toy_tx [nth 0 toy_ins ex_in; nth 0 toy_ins ex_in]) = Ok t' /\ toy_check t' = Ok tt) /\
  exists t' e, toy_sign_each true 1 0 [[8]; [9]] (toy_tx [nth 0 toy_ins ex_in; nth 0 toy_ins ex_in]) = Ok t' /\ toy_check t' = Err e.
Proof.
  split; [repeat constructor; vm_compute; reflexivity|]. split.
  - eexists. split; [vm_compute; reflexivity|]. vm_compute. reflexivity.
  - eexists _, _. split; [vm_compute; reflexivity|]. vm_compute. reflexivity.
Qed.

(** C42, in any transaction, whatever its other inputs and its caches. *)
Theorem C42_p2wpkh_signed_verifies : forall Hash160 sha256 DS prvkey PubKeyBytes EcdsaSign EcdsaVerify idx c ht k t i,
  scheme_ok prvkey PubKeyBytes EcdsaSign EcdsaVerify -> hashes_ok Hash160 sha256 -> 0 <= ht < 256 ->
  index (tx_ins t) idx = Ok i -> spends_p2wpkh (Hash160 (PubKeyBytes k c)) i ->
  (forall t', SignIndex sha256 DS prvkey PubKeyBytes EcdsaSign idx c ht [k] t = Ok t' ->
     exists i', index (tx_ins t') idx = Ok i' /\ verify_input Hash160 DS EcdsaVerify idx i' t' = Ok tt) /\
  ((forall k h, exists s, EcdsaSign k h = Ok s) -> exists t', SignIndex sha256 DS prvkey PubKeyBytes EcdsaSign idx c ht [k] t = Ok t').
Proof. exact p2wpkh_input. Qed.
Print Assumptions C42_p2wpkh_signed_verifies.
Example C42_example : index (tx_ins (toy_tx toy_ins)) 1 = Ok (nth 1 toy_ins ex_in) /\ spends_p2wpkh (toy160 (toy_pub 3 true)) (nth 1 toy_ins ex_in) /\
  exists t', toy_sign_index 1 true 0x81 [3] (toy_tx toy_ins) = Ok t' /\ len (ti_witness (nth 1 (tx_ins t') ex_in)) = 2 /\ verify_input toy160 toy256 toy_verify 1 (nth 1 (tx_ins t') ex_in) t' = Ok tt.
Proof. split; [vm_compute; reflexivity|]. split; [repeat split; vm_compute; reflexivity|]. eexists. split; [vm_compute; reflexivity|]. vm_compute. split; reflexivity. Qed.

(** C43. *)
Theorem C43_multisig_signed_verifies : forall Hash160 sha256 DS prvkey PubKeyBytes EcdsaSign EcdsaVerify idx c ht ks pubs r t i,
  scheme_ok prvkey PubKeyBytes EcdsaSign EcdsaVerify -> hashes_ok Hash160 sha256 -> 0 <= ht < 256 ->
  index (tx_ins t) idx = Ok i -> multisig_for prvkey PubKeyBytes c ks pubs r -> spends_p2sh Hash160 r i \/ spends_p2wsh Hash160 sha256 r i ->
  (forall t', SignIndex sha256 DS prvkey PubKeyBytes EcdsaSign idx c ht ks t = Ok t' ->
     exists i', index (tx_ins t') idx = Ok i' /\ verify_input Hash160 DS EcdsaVerify idx i' t' = Ok tt) /\
  ((forall k h, exists s, EcdsaSign k h = Ok s) -> exists t', SignIndex sha256 DS prvkey PubKeyBytes EcdsaSign idx c ht ks t = Ok t').
Proof. exact multisig_input. Qed.
Print Assumptions C43_multisig_signed_verifies.
(** 2 of 3, by P2WSH; in the wrong order it fails. *)
Example C43_example : multisig_for Z toy_pub true [5; 7] [toy_pub 5 true; toy_pub 6 true; toy_pub 7 true] toy_redeem /\ spends_p2wsh toy160 toy256 toy_redeem (nth 3 toy_ins ex_in) /\
  (exists t', toy_sign_index 3 true 1 [5; 7] (toy_tx toy_ins) = Ok t' /\ verify_input toy160 toy256 toy_verify 3 (nth 3 (tx_ins t') ex_in) t' = Ok tt) /\
  exists t' e, toy_sign_index 3 true 1 [7; 5] (toy_tx toy_ins) = Ok t' /\ verify_input toy160 toy256 toy_verify 3 (nth 3 (tx_ins t') ex_in) t' = Err e.
Proof.
  split; [apply toy_multisig; cbn; tauto|]. split; [repeat split; vm_compute; reflexivity|]. split; [eexists|eexists _, _]; (split; [vm_compute; reflexivity|]); vm_compute; reflexivity.
Qed.

(** C82: transactions mixing the four kinds, all inputs signed. *)
Theorem C82_signed_transaction_verifies : forall Hash160 sha256 DS prvkey PubKeyBytes EcdsaSign EcdsaVerify c ht kss t,
  scheme_ok prvkey PubKeyBytes EcdsaSign EcdsaVerify -> hashes_ok Hash160 sha256 -> 0 <= ht < 256 ->
  Forall2 (signers Hash160 sha256 prvkey PubKeyBytes c) kss (tx_ins t) ->
  (forall t', sign_each sha256 prvkey PubKeyBytes EcdsaSign DS c ht 0 kss t = Ok t' -> Verify Hash160 DS EcdsaVerify t' = Ok tt) /\
  ((forall k h, exists s, EcdsaSign k h = Ok s) -> exists t', sign_each sha256 prvkey PubKeyBytes EcdsaSign DS c ht 0 kss t = Ok t').
Proof. exact mixed_whole. Qed.
Print Assumptions C82_signed_transaction_verifies.
(** Inputs built by NewTxIn from the scripts of outputs are of those kinds. *)
Theorem C82_new_inputs : forall Hash160 sha256 hash n v redeem (h r : bytes) i, hashes_ok Hash160 sha256 ->
  (len h = 20 -> bytes_ok h -> NewTxIn Hash160 hash n v (p2pkh_script h) redeem = Ok i -> spends_p2pkh h i) /\
  (len h = 20 -> bytes_ok h -> NewTxIn Hash160 hash n v (p2wpkh_script h) redeem = Ok i -> spends_p2wpkh h i) /\
  (NewTxIn Hash160 hash n v (p2sh_script (Hash160 r)) (Some r) = Ok i -> spends_p2sh Hash160 r i) /\
  (NewTxIn Hash160 hash n v (p2wsh_script (sha256 r)) (Some r) = Ok i -> spends_p2wsh Hash160 sha256 r i).
Proof. exact new_spends. Qed.
Print Assumptions C82_new_inputs.
Example C82_example : scheme_ok Z toy_pub toy_sign toy_verify /\ hashes_ok toy160 toy256 /\ Forall2 (signers toy160 toy256 Z toy_pub true) [[8]; [3]; [5; 6]; [5; 7]] toy_ins /\
  exists t', toy_sign_each true 1 0 [[8]; [3]; [5; 6]; [5; 7]] (toy_tx toy_ins) = Ok t' /\ toy_check t' = Ok tt.
Proof.
  split; [exact toy_scheme_ok|]. split; [exact toy_hashes_ok|]. split; [exact toy_signers|]. eexists. split; [vm_compute; reflexivity|]. vm_compute. reflexivity.
Qed.

(** C44 is false: with a redeem script that is not the output's, SignIndex succeeds and leaves nothing. *)
Theorem C44_sign_leaves_signature_refuted : exists t t' i', toy_sign_index 0 true 1 [5; 6] t = Ok t' /\ index (tx_ins t') 0 = Ok i' /\ ti_unlock i' = [] /\ ti_witness i' = [] /\
  in_has_witness i' = true /\ len (tx_ins t) = 1.
Proof. exists (toy_tx [toy_in 4 (p2wsh_script (toy256 [1; 2; 3])) (Some toy_redeem)]). eexists _, _. split; [vm_compute; reflexivity|]. split; [reflexivity|]. vm_compute. repeat split; reflexivity. Qed.
Print Assumptions C44_sign_leaves_signature_refuted.
(** C44: in every other case the unlocking script, and for witness outputs the witness, consist of the signatures, each
    of the input's digest by its key, with the key or script.  (For the key-hash kinds only the first key's.) *)
Theorem C44_sign_leaves_signature_partial : forall (Hash160 sha256 DS : bytes -> bytes) prvkey PubKeyBytes EcdsaSign EcdsaVerify idx c ht ks t i t' s,
  scheme_ok prvkey PubKeyBytes EcdsaSign EcdsaVerify -> 0 <= ht < 256 -> index (tx_ins t) idx = Ok i -> ParseLockingScript (ti_rawlock i) = Ok s ->
  pushable (nilb (ti_redeem i)) -> ks <> [] -> SignIndex sha256 DS prvkey PubKeyBytes EcdsaSign idx c ht ks t = Ok t' ->
  exists i' h sigs, index (tx_ins t') idx = Ok i' /\ sigHashFn DS idx (in_has_witness i) t ht = Ok h /\
  Forall2 (fun k sg => exists der, EcdsaSign k h = Ok der /\ sg = der ++ [ht]) ks sigs /\
  ((exists p, s = P2WSH p /\ sha256 (nilb (ti_redeem i)) <> p /\ ti_unlock i' = []) \/
   let items := handed_over prvkey PubKeyBytes s c ks sigs (nilb (ti_redeem i)) in
   script_pushing (ti_unlock i') items /\ ti_witness i' = if witness_version s then items else []).
Proof. intros Hash160. exact (sign_carries Hash160). Qed.
Print Assumptions C44_sign_leaves_signature_partial.
Example C44_example : pushable toy_redeem /\ ParseLockingScript (ti_rawlock (nth 3 toy_ins ex_in)) = Ok (P2WSH (toy256 toy_redeem)) /\
  exists t' s1 s2, toy_sign_index 3 true 1 [5; 7] (toy_tx toy_ins) = Ok t' /\ ti_witness (nth 3 (tx_ins t') ex_in) = [[]; [5; s1; 1]; [7; s2; 1]; toy_redeem].
Proof.
  split; [repeat split; [bytes_ok_tac|discriminate|discriminate]|]. split; [vm_compute; reflexivity|]. eexists _, _, _. split; [vm_compute; reflexivity|]. vm_compute. reflexivity.
Qed.

(** C45 is false, for every hash functions, signature scheme and P2WSH output: the same small script, and no signature,
    spends it. *)
Theorem C45_p2wsh_own_script_refuted : forall (Hash160 sha256 DS : bytes -> bytes) EcdsaVerify h amount, (forall x, bytes_ok (Hash160 x) /\ len (Hash160 x) = 20) -> bytes_ok h -> len h = 32 -> sha256 theft_redeem <> h ->
  exists t i, SetTxIn Hash160 0 amount (p2wsh_script h) (Some theft_redeem) theft_tx = Ok t /\ index (tx_ins t) 0 = Ok i /\ ti_rawlock i = p2wsh_script h /\ ti_witness i = [[]; theft_redeem] /\
    sha256 (last (ti_witness i) []) <> h /\ Verify Hash160 DS EcdsaVerify t = Ok tt.
Proof. exact theft_spends. Qed.
Print Assumptions C45_p2wsh_own_script_refuted.
(** C45: if the script registered for the input is the output's, push-only unlocking scripts reveal a script with the
    same Hash160. *)
Theorem C45_p2wsh_own_script_partial : forall Hash160 sha256 DS EcdsaVerify t idx i r ds, Verify Hash160 DS EcdsaVerify t = Ok tt -> index (tx_ins t) idx = Ok i ->
  spends_p2wsh Hash160 sha256 r i -> len (Hash160 r) = 20 -> in_memory (ti_unlock i ++ ti_finallock i) -> script_pushing (ti_unlock i) ds ->
  exists items w, ds = items ++ [w] /\ Hash160 w = Hash160 r /\ ((Hash160 w = Hash160 r -> w = r) -> ti_rawlock i = p2wsh_script (sha256 w)).
Proof. exact own_script. Qed.
Print Assumptions C45_p2wsh_own_script_partial.
Example C45_example : exists t' i' is, toy_sign_each true 1 0 [[5; 7]] (toy_tx [nth 3 toy_ins ex_in]) = Ok t' /\ toy_check t' = Ok tt /\ index (tx_ins t') 0 = Ok i' /\
  spends_p2wsh toy160 toy256 toy_redeem i' /\ AllInstructions (ti_unlock i') = Ok is /\ len is = 4.
Proof. eexists _, _, _. split; [vm_compute; reflexivity|]. split; [vm_compute; reflexivity|]. split; [reflexivity|]. split; [repeat split; vm_compute; reflexivity|]. split; vm_compute; reflexivity. Qed.
