(** C143: on inputs of the relay form the program and the network agree. *)
From Verif Require Import GoBase BaseLemmas SecpModel SecpSpec EcdsaModel EcdsaSpec DerSpec PubKeyModel ScriptModel ScriptSpec LockModel LockSpec LockProofs VmSpec
  TxModel TxSpec TxProps TxSig TxSignSpec TxSign TxSign3 WholeModel WholeProofs WholeProps ReceiveSpec ReceiveProofs.
From Verif Require Import NetSpec NetProofs NetProps TakeSpec TakeProofs TakeProps.
From Verif Require Import FormSpec FormProofs.
From Coq Require Import ZifyBool ZifyNat ZifyN.

(** C143: a transaction whose inputs have the form of the relay rules, right or wrong in keys, hashes and signatures, is read
    and completed, and then verifies exactly if the network accepts it. *)
Theorem C143_same_verdict : forall sha256 T told, hash32 sha256 -> net_ok T -> n_ins T <> [] -> len (net_bytes T) <= 2 ^ 48 ->
  Forall2 (in_form sha256 (Hash160 sha256)) (n_ins T) told ->
  exists x r, read_back (has_witness T) (net_bytes T) = Ok x /\ look_up (Hash160 sha256) 0 told x = Ok r /\
    (WVerify sha256 r = Ok tt <-> net_accepts sha256 (Hash160 sha256) T (map fst told)).
Proof. intros sha256 T told Hs. exact (same_verdict sha256 Hs T told). Qed.
Print Assumptions C143_same_verdict.

Lemma sig_formed (c1 c2 : bytes) : (length c1 < 60)%nat -> (length c2 < 60)%nat -> hd 128 c1 < 128 -> hd 128 c2 < 128 -> 0 < hd 0 c1 -> 0 < hd 0 c2 ->
  be c2 <= order_n / 2 -> len c1 + len c2 <= 66 -> sig_form (48 :: Z.of_nat (length ((2 :: Z.of_nat (length c1) :: c1) ++ 2 :: Z.of_nat (length c2) :: c2)) :: ((2 :: Z.of_nat (length c1) :: c1) ++ 2 :: Z.of_nat (length c2) :: c2) ++ [1]).
Proof.
  intros L1 L2 H1 H2 P1 P2 Lo Ll. split.
  - unfold len in *. cbn [length]. rewrite !app_length. cbn [length]. lia.
  - eexists (48 :: [_] ++ (2 :: [_] ++ c1) ++ 2 :: [_] ++ c2), (be c1), (be c2). split; [cbn [app]; rewrite <- !app_assoc; cbn [app]; reflexivity|]. split; [|exact Lo].
    exists (2 :: [Z.of_nat (length c1)] ++ c1), (2 :: [Z.of_nat (length c2)] ++ c2).
    assert (D : forall c, (length c < 60)%nat -> hd 128 c < 128 -> 0 < hd 0 c -> der_int (2 :: [Z.of_nat (length c)] ++ c) (be c)).
    { intros c L H P. exists c. destruct c as [|h c]; [cbn in P; lia|]. cbn [hd] in *. split; [|split].
      - unfold twos. replace (128 <=? h) with false by lia. lia.
      - destruct c as [|k c]; [exact I|]. cbn [minimal]. lia.
      - eexists. split; [left; split; [lia|reflexivity]|reflexivity]. }
    split; [now apply D|]. split; [now apply D|]. eexists. split; [left; split; [|reflexivity]|reflexivity]. cbn [length app]. rewrite app_length. cbn [length]. lia.
Qed.
Definition ex_der_r : bytes := Eval vm_compute in firstn 32 (skipn 5 (n_script (nth 0 (n_ins ex_net) (NIn [] 0 [] 0 [])))).
Definition ex_der_s : bytes := Eval vm_compute in firstn 32 (skipn 39 (n_script (nth 0 (n_ins ex_net) (NIn [] 0 [] 0 [])))).
Definition ex_wit_s : bytes := Eval vm_compute in firstn 32 (skipn 38 (nth 0 (n_witness (nth 2 (n_ins ex_net) (NIn [] 0 [] 0 []))) [])).
Definition ex_wit_sig : bytes := Eval vm_compute in nth 0 (n_witness (nth 2 (n_ins ex_net) (NIn [] 0 [] 0 []))) [].
Definition ex_key65 : bytes := Eval vm_compute in firstn 65 (skipn 2 ex_redeem).
Lemma ex_sig_form : sig_form ex_multi_sig.
Proof. exact (sig_formed ex_der_r ex_der_s ltac:(cbn; lia) ltac:(cbn; lia) eq_refl eq_refl eq_refl eq_refl ltac:(vm_compute; discriminate) ltac:(vm_compute; discriminate)). Qed.
Lemma ex_wit_form : sig_form ex_wit_sig.
Proof. exact (sig_formed ex_der_r ex_wit_s ltac:(cbn; lia) ltac:(cbn; lia) eq_refl eq_refl eq_refl eq_refl ltac:(vm_compute; discriminate) ltac:(vm_compute; discriminate)). Qed.
Lemma ex_formed h : bytes_ok h -> len h = 20 -> in_form ex_sha (Hash160 ex_sha) (nth 0 (n_ins ex_net) (NIn [] 0 [] 0 [])) (1000, p2pkh_script h, None).
Proof.
  intros O L. split; [cbn; lia|]. apply (form_p2pkh _ _ _ _ _ h ex_multi_sig ex_key33); [exact O|exact L|reflexivity|reflexivity|vm_compute; reflexivity|reflexivity|left; vm_compute; auto|exact ex_sig_form].
Qed.
(** The three kinds of inputs, in the form and accepted. *)
Example C143_example : hash32 ex_sha /\ net_ok ex_net /\ n_ins ex_net <> [] /\ len (net_bytes ex_net) <= 2 ^ 48 /\ Forall2 (in_form ex_sha (Hash160 ex_sha)) (n_ins ex_net) ex_told /\
  net_accepts ex_sha (Hash160 ex_sha) ex_net (map fst ex_told).
Proof.
  destruct C141_example as (H & N & L & A & _). split; [exact H|]. split; [exact N|]. split; [discriminate|]. split; [exact L|]. split; [|exact A]. clear A N.
  assert (E2 : Hash160 ex_sha ex_redeem = ex_rh) by (vm_compute; reflexivity).
  constructor; [|constructor; [|constructor; [|constructor]]].
  - apply (ex_formed ex_h); [apply listed; vm_compute; reflexivity|reflexivity].
  - split; [cbn; lia|]. assert (Er : ex_redeem = m_of_n 1 [ex_key65; ex_key33]) by (vm_compute; reflexivity).
    apply (form_p2sh _ _ _ _ _ 1 [ex_key65; ex_key33] [ex_multi_sig]); rewrite <- ?Er.
    + rewrite E2. reflexivity.
    + reflexivity.
    + vm_compute. intuition discriminate.
    + vm_compute. discriminate.
    + vm_compute. discriminate.
    + constructor; [right; vm_compute; auto|constructor; [left; vm_compute; auto|constructor]].
    + reflexivity.
    + constructor; [exact ex_sig_form|constructor].
    + vm_compute. reflexivity.
    + reflexivity.
  - split; [cbn; lia|]. apply (form_p2wpkh _ _ _ _ _ ex_h ex_wit_sig ex_key33); [apply listed; vm_compute; reflexivity|reflexivity|reflexivity|reflexivity|reflexivity|vm_compute; reflexivity|left; vm_compute; auto|exact ex_wit_form].
Qed.
(** An input in the form, for the output of another key: not accepted. *)
Definition ex_other : net_tx := NTx 2 [nth 0 (n_ins ex_net) (NIn [] 0 [] 0 [])] (n_outs ex_net) 0.
Example C143_refused_example : net_ok ex_other /\ Forall2 (in_form ex_sha (Hash160 ex_sha)) (n_ins ex_other) [(1000, p2pkh_script (repeat 3 20), None)] /\
  ~ net_accepts ex_sha (Hash160 ex_sha) ex_other [(1000, p2pkh_script (repeat 3 20))].
Proof.
  assert (N : net_ok ex_other).
  { unfold net_ok. do 4 (split; [vm_compute; intuition discriminate|]). split.
    - constructor; [|constructor]. split; [reflexivity|]; split; [vm_compute; intuition discriminate|]; split; [vm_compute; intuition discriminate|]; split; [apply listed; vm_compute; reflexivity|]. constructor.
    - constructor; [vm_compute; intuition discriminate|constructor]. }
  assert (F : Forall2 (in_form ex_sha (Hash160 ex_sha)) (n_ins ex_other) [(1000, p2pkh_script (repeat 3 20), None)]).
  { constructor; [|constructor]. apply (ex_formed (repeat 3 20)); [apply listed; vm_compute; reflexivity|reflexivity]. }
  split; [exact N|]. split; [exact F|]. intros A.
  destruct (C143_same_verdict ex_sha ex_other [(1000, p2pkh_script (repeat 3 20), None)] (proj1 C97_example) N) as (x & r & Ex & El & V); [discriminate|vm_compute; discriminate|exact F|].
  cbn [map fst] in V. apply V in A. clear V F N. vm_compute in Ex. injection Ex as <-. vm_compute in El. injection El as <-. vm_compute in A. discriminate A.
Qed.
