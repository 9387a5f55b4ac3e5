(** Signatures made elsewhere and embedded with EmbedIdxEcdsaSignature (transaction.go:272-278). *)
From Verif Require Import GoBase BaseLemmas BufferModel BufferSpec BufferProofs BufferMore ScriptNumModel ScriptNumSpec ScriptNumProofs ScriptModel ScriptSpec ScriptProofs
  LockSpec LockModel VmModel VmSpec VmProofs VmMore VmSig VmCond VmPanic VmLock LockProofs VmCalls TxModel TxSpec TxSignSpec TxSign TxSign2 TxSign3.
From Coq Require Import ZifyBool ZifyNat ZifyN.

Section Embed.
Variable Hash160 sha256 DS : bytes -> bytes.
Variable EcdsaVerify : bytes -> bytes -> bytes -> res unit.
Notation same := (same DS).
Notation digest := (sigHashFn DS).
Notation accepted := (accepted Hash160 DS EcdsaVerify).
Notation hashes_ok := (hashes_ok Hash160 sha256).

(** One key and one signature for each input, from [idx] onwards. *)
Fixpoint embed_each (ht idx : Z) (l : list (bytes * bytes)) (t : transaction) : res transaction :=
  match l with
  | [] => Ok t
  | (key, der) :: r => let! t' := EmbedIdxEcdsaSignature sha256 idx key der ht t in embed_each ht (idx + 1) r t'
  end.

(** The hash the caller is to have signed for input [idx] of [t]. *)
Inductive to_sign (t : transaction) (idx ht : Z) : bool -> bytes -> Prop :=
| sign_raw h : RawSignatureHash DS idx ht t = Ok h -> to_sign t idx ht false h
| sign_witness h t' : WitnessV0SignatureHash DS idx ht t = Ok (h, t') -> to_sign t idx ht true h.
(** [key] and [der] are a key with the hash the input asks for and a signature valid for it. *)
Definition fits_input (t : transaction) (ht idx : Z) (i : TxIn) (key der : bytes) : Prop :=
  exists w h, (if w : bool then spends_p2wpkh (Hash160 key) i else spends_p2pkh (Hash160 key) i) /\
    to_sign t idx ht w h /\ EcdsaVerify h der key = Ok tt /\
    bytes_ok der /\ 1 <= len der <= 100 /\ bytes_ok key /\ 2 <= len key <= 100.

Lemma to_sign_digest t idx ht w h : to_sign t idx ht w h -> digest idx w t ht = Ok h.
Proof. intros [h' E|h' t' E]; unfold sigHashFn; rewrite E; reflexivity. Qed.

Lemma embed_pkh idx ht key der t0 t i : hashes_ok -> 0 <= ht < 256 -> same ht t0 t -> index (tx_ins t) idx = Ok i -> fits_input t0 ht idx i key der ->
  exists t', EmbedIdxEcdsaSignature sha256 idx key der ht t = Ok t' /\ same ht t t' /\
    (forall n, n <> idx -> index (tx_ins t') n = index (tx_ins t) n) /\ exists i', index (tx_ins t') idx = Ok i' /\ accepted ht idx i' t'.
Proof.
  intros [Hh _] R S0 Hi (w & dg & Sp & Ts & Ev & Od & Ld & Ok' & Lk). apply to_sign_digest in Ts. rewrite (same_digest DS ht idx w t0 t S0) in Ts.
  pose proof (Hh key) as [Oh Lh]. set (h := Hash160 key) in *. set (s := if w then P2WPKH h else P2PKH h).
  assert (Raw : ti_rawlock i = template s) by (destruct w; apply Sp). assert (Fin : ti_finallock i = p2pkh_script h) by (destruct w; apply Sp).
  assert (Os : bytes_ok (obj_hash s) /\ len (obj_hash s) = obj_len s /\ witness_version s = w) by (destruct w; auto). destruct Os as (Os & Ls & Wv).
  assert (U : u8 ht = ht) by (apply u8_id; lia).
  assert (Ps : pushable (der ++ [ht])).
  { assert (L2 : 2 <= len (der ++ [ht]) <= 101) by (rewrite len_app; change (len [ht]) with 1; lia).
    split; [apply bytes_ok_app; split; [exact Od|constructor; [unfold is_byte; lia|constructor]]|]. split; [lia|]. split; intros X; rewrite X in L2; vm_compute in L2; intuition congruence. }
  assert (Pk : pushable key) by (split; [exact Ok'|]; split; [lia|]; split; intros X; rewrite X in Lk; vm_compute in Lk; intuition congruence).
  destruct (add_item (der ++ [ht]) NewScriptBuilder Ps) as (j1 & e1 & E1 & Oe1 & Le1 & En1 & P1).
  destruct (add_item key (AddData (der ++ [ht]) NewScriptBuilder) Pk) as (j2 & e2 & E2 & Oe2 & Le2 & En2 & P2).
  set (u := Script (AddData key (AddData (der ++ [ht]) NewScriptBuilder))) in *.
  assert (Eu : u = e1 ++ e2) by (rewrite E2, E1; reflexivity).
  assert (Su : script_of [j1; j2] u) by (rewrite Eu; constructor; [exact En1|now apply encodes_script]).
  assert (Em : exists ws, EmbedIdxEcdsaSignature sha256 idx key der ht t = Ok (set_in idx (fun i => with_witness ws (with_unlock u i)) t)).
  { unfold EmbedIdxEcdsaSignature. rewrite U. destruct w; eexists; apply (embed_spec sha256 idx [PKS key (der ++ [ht])] t i s u); auto; reflexivity. }
  destruct Em as (ws & Em). eexists. split; [exact Em|]. clearbody s.
  assert (S2 : same ht t (set_in idx (fun i => with_witness ws (with_unlock u i)) t)) by (apply set_in_same; reflexivity).
  split; [exact S2|]. split; [intros n Nn; now rewrite index_set_other by (pose proof (index_nonneg _ _ _ Hi); lia)|].
  eexists. split; [apply index_set_in; exact Hi|]. intros t2 St. cbn [ti_rawlock ti_unlock ti_finallock with_witness with_unlock]. rewrite Raw, Fin.
  assert (Dg2 : digest idx w t2 ht = Ok dg) by (rewrite <- Ts; symmetry; apply same_digest; eapply same_trans; eauto).
  assert (V : valid_sig (digest idx w t2) EcdsaVerify (der ++ [ht]) key) by (exists der, ht, dg; auto).
  assert (Le : len (der ++ [ht]) <= 101) by (rewrite len_app; change (len [ht]) with 1; lia).
  assert (M : in_memory (u ++ p2pkh_script h)).
  { split; [rewrite Eu; unfold p2pkh_script; rewrite !bytes_ok_app; repeat split; auto; bytes_ok_tac|]. rewrite Eu. unfold p2pkh_script. rewrite !len_app. change (len [118; 169; 20]) with 3. change (len [136; 172]) with 2. lia. }
  destruct (p2pkh_verified Hash160 (digest idx w t2) EcdsaVerify u h [j1; j2] der ht key M Lh Su) as [(st & Ev2) Calls]; [repeat constructor; assumption|reflexivity|exact V|].
  unfold TxModel.verify_input. cbn [ti_rawlock ti_unlock ti_finallock with_witness with_unlock]. rewrite Raw, Fin. rewrite (parse_of s Os Ls). cbn [rbind]. rewrite Wv, Ev2. split; [reflexivity|].
  exists s. split; [reflexivity|]. intros Wt. rewrite Wv in Wt. rewrite Wt in Calls. rewrite Calls. constructor; [reflexivity|constructor].
Qed.

Lemma embed_each_spec ht t0 : hashes_ok -> 0 <= ht < 256 -> forall l idx t, 0 <= idx -> same ht t0 t ->
  (forall n key der, nth_error l n = Some (key, der) -> exists i, index (tx_ins t) (idx + Z.of_nat n) = Ok i /\ fits_input t0 ht (idx + Z.of_nat n) i key der) ->
  (forall n, 0 <= n < idx -> exists i, index (tx_ins t) n = Ok i /\ accepted ht n i t) ->
  exists t', embed_each ht idx l t = Ok t' /\ same ht t t' /\ (forall n, 0 <= n < idx + len l -> exists i, index (tx_ins t') n = Ok i /\ accepted ht n i t').
Proof.
  intros Hs R. induction l as [|[key der] l IH]; intros idx t Pi S0 F A; cbn [embed_each].
  - exists t. split; [reflexivity|]. split; [apply same_refl|]. intros n Hn. apply A. change (len (@nil (bytes * bytes))) with 0 in Hn. lia.
  - destruct (F 0%nat key der eq_refl) as (i & Hi & Fi). rewrite Z.add_0_r in Hi, Fi.
    destruct (embed_pkh idx ht key der t0 t i Hs R S0 Hi Fi) as (t1 & E1 & S1 & O1 & i1 & Hi1 & A1). rewrite E1. cbn [rbind].
    destruct (IH (idx + 1) t1) as (t' & E & S' & A'); [lia|eapply same_trans; eauto| | |].
    + intros n k d Hn. destruct (F (S n) k d Hn) as (j & Hj & Fj). replace (idx + Z.of_nat (S n)) with (idx + 1 + Z.of_nat n) in Hj, Fj by lia. exists j. split; [|exact Fj]. rewrite O1 by lia. exact Hj.
    + intros n Hn. destruct (Z.eq_dec n idx) as [->|Nn]; [eauto|]. destruct (A n ltac:(lia)) as (j & Hj & Aj). exists j. rewrite O1 by exact Nn. split; [exact Hj|]. eapply accepted_same; eauto.
    + exists t'. split; [exact E|]. split; [eapply same_trans; eauto|]. intros n Hn. apply A'. rewrite len_cons in Hn. lia.
Qed.

(** The hashes are asked for one after the other, and every witness hash leaves its caches behind. *)
Inductive asked (ht : Z) : transaction -> transaction -> Prop :=
| asked_none t : asked ht t t
| asked_one idx t h t1 t2 : WitnessV0SignatureHash DS idx ht t = Ok (h, t1) -> asked ht t1 t2 -> asked ht t t2.
Lemma asked_same ht t t' : asked ht t t' -> same ht t t' /\ tx_ins t' = tx_ins t.
Proof.
  induction 1 as [t|idx t h t1 t2 E _ [S I]]; [split; [apply same_refl|reflexivity]|]. destruct (whash_same DS idx ht t h t1 E) as [S1 I1].
  split; [eapply same_trans; eauto|congruence].
Qed.

Lemma embedded_verifies ht l t t' : hashes_ok -> 0 <= ht < 256 -> asked ht t t' -> length l = length (tx_ins t) ->
  (forall n i key der, nth_error (tx_ins t) n = Some i -> nth_error l n = Some (key, der) ->
    exists tn, asked ht t tn /\ fits_input tn ht (Z.of_nat n) i key der) ->
  exists t2, embed_each ht 0 l t' = Ok t2 /\ core t2 = core t /\ TxModel.Verify Hash160 DS EcdsaVerify t2 = Ok tt.
Proof.
  intros Hs R Ask L F. destruct (asked_same ht t t' Ask) as [S0 I0].
  destruct (embed_each_spec ht t Hs R l 0 t' ltac:(lia) S0) as (t2 & E & Sm & Ac).
  - intros n key der Hn. rewrite I0. destruct (nth_error (tx_ins t) n) as [i|] eqn:Ni.
    + exists i. rewrite Z.add_0_l. split; [unfold index; replace (Z.of_nat n <? 0) with false by lia; now rewrite Nat2Z.id, Ni|].
      destruct (F n i key der Ni Hn) as (tn & An & (w & h & Sp & Ts & Rest)). exists w, h. split; [exact Sp|]. split; [|exact Rest].
      apply to_sign_digest in Ts. rewrite <- (same_digest DS ht _ w t tn (proj1 (asked_same _ _ _ An))) in Ts. unfold sigHashFn in Ts.
      destruct w; [|now constructor]. apply rbind_ok in Ts. destruct Ts as ((h' & t1) & E1 & E2). injection E2 as ->. econstructor. exact E1.
    + exfalso. apply nth_error_None in Ni. assert (Q : nth_error l n <> None) by congruence. apply nth_error_Some in Q. lia.
  - intros n Hn. lia.
  - assert (S2 : same ht t t2) by (eapply same_trans; eauto). exists t2. split; [exact E|]. split; [symmetry; apply S2|].
    unfold TxModel.Verify. apply (verify_accepted Hash160 DS EcdsaVerify ht _ 0 t2 t2); [apply same_refl|].
    intros n i Hn. rewrite Z.add_0_l. destruct (Ac (Z.of_nat n)) as (j & Hj & Aj).
    { assert (Q : nth_error (tx_ins t2) n <> None) by congruence. apply nth_error_Some in Q. pose proof (len_core t t2 (proj1 S2)) as LC. unfold len in *. lia. }
    unfold index in Hj. replace (Z.of_nat n <? 0) with false in Hj by lia. rewrite Nat2Z.id, Hn in Hj. injection Hj as <-. exact Aj.
Qed.
End Embed.
