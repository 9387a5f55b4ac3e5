(** When a builder builds, and spending the outputs of earlier transactions. *)
From Verif Require Import GoBase BaseLemmas BufferModel BufferSpec BufferProofs ScriptModel ScriptSpec ScriptProofs HexModel HexProofs AddressModel AddressSpec LockModel LockSpec LockProofs VmSpec VmProofs
  TxModel TxSpec TxSignSpec TxSign TxSign2 BuilderModel BuilderSpec BuilderProofs BuilderCalls BuilderSign ReceiveProofs.
From Verif Require Import SpendSpec.
From Coq Require Import ZifyBool ZifyNat ZifyN.

Lemma from_low c : fromHexChar (hex_low c) = fromHexChar c.
Proof.
  unfold fromHexChar, hex_low. destruct ((65 <=? c) && (c <=? 70)) eqn:E; [|rewrite E; reflexivity].
  replace ((48 <=? c + 32) && (c + 32 <=? 57)) with false by lia. replace ((97 <=? c + 32) && (c + 32 <=? 102)) with true by lia.
  replace ((48 <=? c) && (c <=? 57)) with false by lia. replace ((97 <=? c) && (c <=? 102)) with false by lia. f_equal. lia.
Qed.
Lemma decode_low : forall s, hex_decode (map hex_low s) = hex_decode s.
Proof.
  intros s. remember (length s) as n eqn:Hn. revert s Hn. induction n as [n IH] using lt_wf_ind. intros s Hn. destruct s as [|a [|b r]]; [reflexivity|cbn [map hex_decode]; now rewrite from_low|].
  cbn [map hex_decode]. rewrite !from_low. rewrite (IH (length r)); [reflexivity|cbn [length] in Hn; lia|reflexivity].
Qed.
Lemma hex_text_dec s : is_hex_text s \/ ~ is_hex_text s.
Proof.
  unfold is_hex_text. assert (D : forall s, Forall is_hex s \/ ~ Forall is_hex s).
  { clear s. induction s as [|c s [IH|IH]]; [left; constructor| |right; intros F; now inversion F]. assert (H : is_hex c \/ ~ is_hex c) by (unfold is_hex; lia).
    destruct H as [H|H]; [left; now constructor|right; intros F; now inversion F]. }
  destruct (D s) as [H|H]; [|right; tauto]. destruct (Nat.even (length s)); [left; auto|right; intros [_ X]; discriminate].
Qed.
Lemma decode_low_iff s d : bytes_ok d -> (hex_decode s = Ok d <-> map hex_low s = hex_encode d).
Proof.
  intros O. split; intros E.
  - destruct (hex_text_dec s) as [H|H].
    + destruct (proj1 (hex_decode_spec s) H) as (b & Eb & _ & T & _). rewrite E in Eb. injection Eb as <-. now rewrite T.
    + destruct (proj2 (hex_decode_spec s) H) as (e & X). congruence.
  - rewrite <- decode_low, E. now apply hex_decode_encode.
Qed.
Lemma decode_bytes s d : hex_decode s = Ok d -> bytes_ok d /\ len s = 2 * len d.
Proof.
  intros E. destruct (hex_text_dec s) as [H|H].
  - destruct (proj1 (hex_decode_spec s) H) as (b & Eb & B & _ & L). rewrite E in Eb. injection Eb as <-. split; [exact B|unfold len; lia].
  - destruct (proj2 (hex_decode_spec s) H) as (e & X). congruence.
Qed.
Lemma decode_no_panic s : hex_decode s <> Panic.
Proof. destruct (hex_text_dec s) as [H|H]; [destruct (proj1 (hex_decode_spec s) H) as (b & -> & _)|destruct (proj2 (hex_decode_spec s) H) as (e & ->)]; discriminate. Qed.
Lemma locking_ok a : address_ok a -> in_memory (LockingScript a).
Proof.
  intros [O L]. assert (L' : len (obj_hash (obj_of a)) = obj_len (obj_of a)) by (destruct a; exact L).
  assert (E : LockingScript a = template (obj_of a)) by (destruct a; apply raw_locking; exact L'). rewrite E. split.
  - destruct a; cbn [addr_hash obj_of template] in *; unfold p2pkh_script, p2sh_script, p2wpkh_script, p2wsh_script; rewrite ?bytes_ok_app; repeat split; auto; bytes_ok_tac.
  - destruct a; cbn [addr_hash addr_len obj_of template] in *; unfold p2pkh_script, p2sh_script, p2wpkh_script, p2wsh_script; rewrite !len_app, L; vm_compute; discriminate.
Qed.

Section Spend.
Variable Hash160 sha256 DS : bytes -> bytes.
Variable prvkey : Type.
Variable PubKeyBytes : prvkey -> bool -> bytes.
Variable EcdsaSign : prvkey -> bytes -> res bytes.
Notation builder := (TransactionBuilder prvkey).
Notation gather := (gather Hash160 prvkey).
Notation Build := (BuildTransaction Hash160 sha256 DS prvkey PubKeyBytes EcdsaSign).
Notation coins := (coins prvkey).
Notation payments := (payments prvkey).
Notation call := (call prvkey).

Ltac no := let X := fresh in intros X; first [discriminate X | destruct X as (? & X); discriminate X].
(** ** Coins. *)
Definition coin_reads (c : Coin) (rd : obytes) : res TxIn :=
  let! txid := NewIDFromString (coin_txid c) in let! script := hex_decode (coin_script c) in NewTxIn Hash160 txid (coin_n c) (coin_value c) script rd.
Lemma reads_iff c rd : len (coin_script c) <= 2 ^ 48 -> ((exists i, coin_reads c rd = Ok i) <-> coin_usable c) /\ coin_reads c rd <> Panic.
Proof.
  intros L. unfold coin_reads. destruct (hex_text_dec (coin_txid c)) as [Hi|Hi].
  2: { destruct (id_reject _ Hi) as (e & ->). cbn [rbind]. split; [|discriminate]. split; [intros (i & X); discriminate|intros [X _]; contradiction]. }
  destruct Hi as [H1 H2]. destruct (id_from_string _ H1 H2) as (h & -> & _). cbn [rbind].
  destruct (hex_decode (coin_script c)) as [d|e|] eqn:E; cbn [rbind]; [|split; [|discriminate]|now apply decode_no_panic in E].
  2: { split; [intros (i & X); discriminate|]. intros (_ & a & Oa & M). apply decode_low_iff in M; [congruence|apply locking_ok; exact Oa]. }
  destruct (decode_bytes _ _ E) as [Bd Ld]. assert (M : in_memory d) by (split; [exact Bd|pose proof (len_nonneg d); lia]).
  unfold NewTxIn. pose proof (parse_no_panic d M) as Np. split; [|destruct (ParseLockingScript d); [discriminate|discriminate|congruence]]. split.
  - intros (i & X). apply rbind_ok in X. destruct X as (s & Ps & _). split; [split; assumption|]. pose proof Ps as P2. apply parse_template in P2; [|exact M]. destruct P2 as [Lh T].
    destruct (parse_address d s M Ps) as (_ & a & _ & Oa & La). exists a. split; [exact Oa|]. rewrite La. now apply decode_low_iff.
  - intros (_ & a & Oa & T). apply decode_low_iff in T; [|apply locking_ok; exact Oa]. rewrite E in T. injection T as ->. destruct (address_script a Oa) as [-> _]. cbn [rbind]. eauto.
Qed.

(** ** The loop over the groups. *)
Notation gc := (fun g => list_of (g_coin prvkey g)).
Notation go := (fun g => list_of (g_output prvkey g)).
Definition short (c : Coin) : Prop := len (coin_script c) <= 2 ^ 48.
Lemma gather_total : forall gs a, Forall short (flat_map gc gs) -> gather gs a <> Panic /\ ((exists a', gather gs a = Ok a') <-> Forall coin_usable (flat_map gc gs)).
Proof.
  induction gs as [|g gs IH]; intros a F; cbn [BuilderModel.gather flat_map] in *; [split; [discriminate|]; split; [constructor|eauto]|].
  apply Forall_app in F. destruct F as [F1 F2]. assert (O : forall a, exists a', gather_out prvkey g a = Ok a') by (intros x; unfold gather_out; destruct (g_output prvkey g); eauto).
  unfold gather_in. destruct (g_coin prvkey g) as [c|]; cbn [list_of app] in *.
  - inversion F1 as [|? ? Sc _]; subst. destruct (reads_iff c (g_redeem prvkey g) Sc) as [R Np]. unfold coin_reads in R, Np.
    destruct (NewIDFromString (coin_txid c)) as [id|e|]; cbn [rbind] in *; [|split; [discriminate|]; split; [intros (? & X); discriminate|intros X; inversion X as [|? ? U _]; apply R in U; destruct U; discriminate]|congruence].
    destruct (hex_decode (coin_script c)) as [d|e|]; cbn [rbind] in *; [|split; [discriminate|]; split; [intros (? & X); discriminate|intros X; inversion X as [|? ? U _]; apply R in U; destruct U; discriminate]|congruence].
    destruct (NewTxIn Hash160 id (coin_n c) (coin_value c) d (g_redeem prvkey g)) as [i|e|]; cbn [rbind] in *; [|split; [discriminate|]; split; [intros (? & X); discriminate|intros X; inversion X as [|? ? U _]; apply R in U; destruct U; discriminate]|congruence].
    match goal with |- context [gather_out prvkey g ?x] => destruct (O x) as (a1 & ->) end. cbn [rbind]. destruct (IH a1 F2) as [N1 I1]. split; [exact N1|]. rewrite I1. split; [intros X; constructor; [apply R; eauto|exact X]|intros X; now inversion X].
  - cbn [rbind]. destruct (O a) as (a1 & ->). cbn [rbind]. now apply IH.
Qed.

Lemma sum_nonneg l : Forall (fun v => 0 <= v) l -> 0 <= sumZ l.
Proof. induction 1 as [|v l Hv _ IH]; [reflexivity|]. change (sumZ (v :: l)) with (v + sumZ l). lia. Qed.

Lemma build_unsigned (b : builder) : b_sign prvkey b = false -> b_relay prvkey b <= 0 -> Forall short (coins b) ->
  Forall (fun c => 0 <= coin_value c) (coins b) -> Forall (fun o => 0 <= o_value o) (payments b) -> 0 <= b_sendFees prvkey b < 2 ^ 63 -> total_coins prvkey b < 2 ^ 63 -> total_paid prvkey b < 2 ^ 63 ->
  let left := total_coins prvkey b - total_paid prvkey b - b_sendFees prvkey b in
  let ok := coins b <> [] /\ payments b <> [] /\ Forall coin_usable (coins b) /\ b_sendFees prvkey b <= b_maxFees prvkey b /\ 0 <= left in
  ((exists t, Build b = Ok t) <-> ok /\ (0 < left -> exists a, b_change prvkey b = Some (Some a))) /\
  (Build b = Panic <-> ok /\ 0 < left /\ b_change prvkey b = Some None).
Proof.
  intros Sg Re Sh Pc Pp Rf Tc Tp left ok.
  destruct (gather_total (b_groups prvkey b) (MkG prvkey 0 0 [] [] []) Sh) as [Np G]. change (flat_map gc (b_groups prvkey b)) with (coins b) in G.
  unfold BuildTransaction. destruct (gather (b_groups prvkey b) (MkG prvkey 0 0 [] [] [])) as [a|e|] eqn:Ea; cbn [rbind]; [| |congruence].
  2: { split; (split; [no|]); intros ((_ & _ & U & _) & _); apply G in U; destruct U; discriminate. }
  destruct (gather_spec Hash160 sha256 DS prvkey EcdsaSign _ _ _ Ea) as ((l & Li & Fi) & Lo & Vi & Vo). cbn [ga_txins ga_txouts ga_in ga_out app] in *.
  change (flat_map gc (b_groups prvkey b)) with (coins b) in *. change (flat_map go (b_groups prvkey b)) with (payments b) in *.
  assert (U : Forall coin_usable (coins b)) by (apply G; eauto). specialize (Vi ltac:(lia)). specialize (Vo ltac:(lia)). rewrite Z.add_0_l in Vi, Vo.
  change (sumZ (map coin_value (coins b))) with (total_coins prvkey b) in Vi. change (sumZ (map o_value (payments b))) with (total_paid prvkey b) in Vo.
  assert (N1 : 0 <= total_coins prvkey b) by (apply sum_nonneg, Forall_map; exact Pc). assert (N2 : 0 <= total_paid prvkey b) by (apply sum_nonneg, Forall_map; exact Pp).
  rewrite i64_id in Vi, Vo by lia. rewrite Li, Lo, Vi, Vo. unfold build_fees. replace (0 <? b_relay prvkey b) with false by lia. rewrite Sg.
  assert (Ll : length (coins b) = length l) by (clear - Fi; induction Fi; cbn [length]; congruence). replace (len l =? 0) with (len (coins b) =? 0) by (unfold len; rewrite Ll; reflexivity). replace (len (map pay_out (payments b))) with (len (payments b)) by (unfold len; now rewrite map_length).
  assert (Z0 : forall A (x : list A), (len x =? 0) = true <-> x = []) by (intros A x; destruct x; unfold len; cbn [length]; split; intros; try reflexivity; try discriminate; lia).
  unfold ok. destruct (len (coins b) =? 0) eqn:C1. { apply Z0 in C1. split; (split; [no|tauto]). }
  destruct (len (payments b) =? 0) eqn:C2. { apply Z0 in C2. split; (split; [no|tauto]). }
  assert (K1 : coins b <> []) by (intros X; apply Z0 in X; congruence). assert (K2 : payments b <> []) by (intros X; apply Z0 in X; congruence).
  destruct (b_maxFees prvkey b <? b_sendFees prvkey b) eqn:C3. { split; (split; [no|]); intros ((_ & _ & _ & X & _) & _); lia. }
  destruct (total_coins prvkey b <? total_paid prvkey b) eqn:C4. { split; (split; [no|]); intros ((_ & _ & _ & _ & X) & _); unfold left in X; lia. }
  rewrite (i64_id (total_coins prvkey b - total_paid prvkey b)) by lia. rewrite i64_id by lia. fold left.
  destruct (left <? 0) eqn:C5. { split; (split; [no|]); intros ((_ & _ & _ & _ & X) & _); lia. }
  assert (K : coins b <> [] /\ payments b <> [] /\ Forall coin_usable (coins b) /\ b_sendFees prvkey b <= b_maxFees prvkey b /\ 0 <= left) by (repeat (split; [first [assumption|lia]|]); lia).
  clearbody left. unfold change_out. destruct (0 <? left) eqn:C6; cbn [rbind].
  - destruct (b_change prvkey b) as [[ad|]|]; cbn [rbind].
    + split; split; [intros _; split; [exact K|intros _; eauto]|eauto|discriminate|intros (_ & _ & X); discriminate].
    + split; split; [intros (t & X); discriminate|intros (_ & X); destruct (X ltac:(lia)); discriminate|intros _; split; [exact K|split; [lia|reflexivity]]|reflexivity].
    + split; split; [intros (t & X); discriminate|intros (_ & X); destruct (X ltac:(lia)); discriminate|discriminate|intros (_ & _ & X); discriminate].
  - split; split; [intros _; split; [exact K|lia]|eauto|discriminate|lia].
Qed.
Lemma build_needs (b : builder) t : Build b = Ok t -> exists t', Build (unsigned prvkey b) = Ok t'.
Proof.
  unfold BuildTransaction. cbn [unsigned b_groups b_maxFees b_sign]. intros E. apply rbind_ok in E. destruct E as (a & -> & E). cbn [rbind].
  change (build_fees prvkey (unsigned prvkey b) a) with (build_fees prvkey b a). change (change_out prvkey (unsigned prvkey b)) with (change_out prvkey b).
  destruct (len (ga_txins prvkey a) =? 0); [discriminate|]. destruct (len (ga_txouts prvkey a) =? 0); [discriminate|].
  destruct (b_maxFees prvkey b <? _); [discriminate|]. destruct (ga_in prvkey a <? _); [discriminate|]. destruct (i64 _ <? 0); [discriminate|]. apply rbind_ok in E. destruct E as (ch & -> & _). cbn [rbind]. eauto.
Qed.

(** ** In terms of the calls. *)
Lemma calls_build cs b : do_calls prvkey cs (NewTransactionBuilder prvkey) = Ok b -> ~ In (CSign prvkey) cs -> sums_ok prvkey cs -> Forall short (said_coins prvkey cs) -> said_relay prvkey cs <= 0 ->
  ((exists t, Build b = Ok t) <-> can_build prvkey cs /\ (0 < left_over prvkey cs -> exists a, said_change prvkey cs = Some (Some a))) /\
  (Build b = Panic <-> can_build prvkey cs /\ 0 < left_over prvkey cs /\ said_change prvkey cs = Some None).
Proof.
  intros E Ns (Ac & Ap & Rf & T1 & T2) Sh Re. destruct (state_said prvkey cs) as (b' & E' & C & P & D & Ch & Sf & Rl & Mx & _). rewrite E in E'. injection E' as <-. rewrite i64_id in Sf by lia.
  unfold can_build, left_over. rewrite <- C, <- P, <- Ch, <- Sf, <- Mx, <- Rl in *. apply build_unsigned; try assumption. 
  clear - E Ns. assert (X : forall cs (b b' : builder), do_calls prvkey cs b = Ok b' -> ~ In (CSign prvkey) cs -> b_sign prvkey b' = b_sign prvkey b).
  { clear. induction cs as [|c cs IH]; intros b b' E N; cbn [do_calls] in E; [now injection E as <-|]. apply rbind_ok in E. destruct E as (b1 & E1 & E). rewrite (IH b1 b' E) by (intros H; apply N; now right).
    destruct c; cbn [do_call] in E1; try (unfold AddCoin, AddKeys, To, SetRedeemScript, SetPubKeyUncompressed, SetSigHashType, set_group in E1; apply rbind_ok in E1; destruct E1 as (? & _ & E1)); injection E1 as <-; try reflexivity. elim N. now left. }
  now rewrite (X cs _ _ E Ns).
Qed.

Lemma calls_build_signed EcdsaVerify cs b ht : scheme_ok prvkey PubKeyBytes EcdsaSign EcdsaVerify -> hashes_ok Hash160 sha256 -> 0 <= ht < 256 -> (forall k h, exists s, EcdsaSign k h = Ok s) ->
  Forall (group_signs Hash160 sha256 prvkey PubKeyBytes ht) (b_groups prvkey b) ->
  do_calls prvkey cs (NewTransactionBuilder prvkey) = Ok b -> sums_ok prvkey cs -> Forall short (said_coins prvkey cs) -> said_relay prvkey cs <= 0 ->
  ((exists t, Build b = Ok t) <-> can_build prvkey cs /\ (0 < left_over prvkey cs -> exists a, said_change prvkey cs = Some (Some a))).
Proof.
  intros Sc Hs Rh Tot Gs E (Ac & Ap & Rf & T1 & T2) Sh Re. destruct (state_said prvkey cs) as (b' & E' & C & P & D & Ch & Sf & Rl & Mx & _). rewrite E in E'. injection E' as <-. rewrite i64_id in Sf by lia.
  unfold can_build, left_over. rewrite <- C, <- P, <- Ch, <- Sf, <- Mx, <- Rl in *.
  assert (X : (exists t, Build b = Ok t) <-> (exists t, Build (unsigned prvkey b) = Ok t)).
  { split; intros (t & Et); [eapply build_needs; exact Et|]. destruct (built_succeeds Hash160 sha256 DS prvkey PubKeyBytes EcdsaSign EcdsaVerify ht b t Sc Hs Rh Tot Gs Et) as (t' & Et' & _). eauto. }
  rewrite X. apply (build_unsigned (unsigned prvkey b)); try assumption. reflexivity.
Qed.

(** ** Spending outputs of earlier transactions. *)
Notation holding := (holding prvkey).
Notation coin_of := (coin_of DS prvkey).
Definition at_group (front : list (Group prvkey)) (g : Group prvkey) : builder := MkBuilder prvkey (len front) false 100000000 1000 0 0 None (front ++ [g]) [].
Lemma set_at f front g : set_group prvkey f (at_group front g) = Ok (at_group front (f g)).
Proof. unfold set_group, at_group. cbn [b_groups b_idx]. rewrite index_last. cbn [rbind b_sign b_maxFees b_sendFees b_relay b_lockTime b_change b_push]. unfold len at 2. now rewrite Nat2Z.id, update_last. Qed.
Definition group_of (h : holding) : Group prvkey := MkGroup prvkey (Some (coin_of h)) (Some (h_keys prvkey h)) None (h_compressed prvkey h) (h_redeem prvkey h) 1.
Definition pay_group (p : address * Z) : Group prvkey := MkGroup prvkey None None (Some (MkOutput (Some (fst p)) (snd p))) false None 0.
Lemma then_at front g : Then prvkey (at_group front g) = at_group (front ++ [g]) (empty_group prvkey).
Proof. unfold Then, at_group. cbn. now rewrite len_app. Qed.
Lemma spend_step h front r : do_calls prvkey (spend_calls DS prvkey h ++ r) (at_group front (empty_group prvkey)) = do_calls prvkey r (at_group (front ++ [group_of h]) (empty_group prvkey)).
Proof.
  unfold spend_calls, AddCoin. cbn [app do_calls do_call]. unfold AddCoin, AddKeys, SetRedeemScript. rewrite set_at. cbn [rbind]. rewrite set_at. cbn [rbind]. rewrite set_at. cbn [rbind].
  destruct (h_compressed prvkey h) eqn:Hc; cbn [app do_calls do_call]; unfold SetPubKeyUncompressed; [|rewrite set_at]; cbn [rbind]; rewrite then_at; unfold group_of; rewrite Hc; reflexivity.
Qed.
Lemma pay_step p front r : do_calls prvkey (pay_calls prvkey p ++ r) (at_group front (empty_group prvkey)) = do_calls prvkey r (at_group (front ++ [pay_group p]) (empty_group prvkey)).
Proof. unfold pay_calls. cbn [app do_calls do_call]. unfold To. rewrite set_at. cbn [rbind]. rewrite then_at. reflexivity. Qed.
Definition told (gs : list (Group prvkey)) (change : address) (fee : Z) : builder := MkBuilder prvkey (len gs) true 100000000 (i64 fee) 0 0 (Some (Some change)) (gs ++ [empty_group prvkey]) [].
Lemma spending_state hs ps change fee : do_calls prvkey (spending DS prvkey hs ps change fee) (NewTransactionBuilder prvkey) = Ok (told (map group_of hs ++ map pay_group ps) change fee).
Proof.
  unfold spending. change (NewTransactionBuilder prvkey) with (at_group [] (empty_group prvkey)).
  assert (P : forall ps front r, do_calls prvkey (flat_map (pay_calls prvkey) ps ++ r) (at_group front (empty_group prvkey)) = do_calls prvkey r (at_group (front ++ map pay_group ps) (empty_group prvkey))).
  { clear. induction ps as [|p ps IH]; intros front r; cbn [flat_map map]; [now rewrite app_nil_r|]. rewrite <- app_assoc, pay_step, IH, <- app_assoc. reflexivity. }
  assert (H : forall hs front r, do_calls prvkey (flat_map (spend_calls DS prvkey) hs ++ r) (at_group front (empty_group prvkey)) = do_calls prvkey r (at_group (front ++ map group_of hs) (empty_group prvkey))).
  { clear. induction hs as [|p hs IH]; intros front r; cbn [flat_map map]; [now rewrite app_nil_r|]. rewrite <- app_assoc, spend_step, IH, <- app_assoc. reflexivity. }
  rewrite H, P. reflexivity.
Qed.
Lemma told_coins hs ps change fee : coins (told (map group_of hs ++ map pay_group ps) change fee) = map coin_of hs /\
  payments (told (map group_of hs ++ map pay_group ps) change fee) = map (fun p => MkOutput (Some (fst p)) (snd p)) ps.
Proof.
  unfold BuilderSpec.coins, BuilderSpec.payments, told. cbn [b_groups]. rewrite !flat_map_app. cbn [flat_map empty_group g_coin g_output list_of app]. rewrite !app_nil_r. split.
  - replace (flat_map gc (map pay_group ps)) with (@nil Coin) by (clear; induction ps; auto). rewrite app_nil_r. induction hs as [|h hs IH]; [reflexivity|]. cbn [map flat_map group_of g_coin list_of app]. now rewrite IH.
  - replace (flat_map go (map group_of hs)) with (@nil output) by (clear; induction hs; auto). cbn [app]. induction ps as [|p ps IH]; [reflexivity|]. cbn [map flat_map pay_group g_output list_of app]. now rewrite IH.
Qed.

Variable EcdsaVerify : bytes -> bytes -> bytes -> res unit.
Notation holds := (holds Hash160 sha256 prvkey PubKeyBytes).
Lemma can_spend_address c ks script rd : hashes_ok Hash160 sha256 -> can_spend Hash160 sha256 prvkey PubKeyBytes c ks script rd -> exists a, address_ok a /\ LockingScript a = script.
Proof.
  intros [H1 H2] C. assert (K : forall a, address_ok a -> LockingScript a = template (obj_of a)).
  { intros a [_ L]. assert (L' : len (obj_hash (obj_of a)) = obj_len (obj_of a)) by (destruct a; exact L). destruct a; apply raw_locking; exact L'. }
  destruct C as [k rd|k rd|ks pubs r M|ks pubs r M].
  - exists (PayToPubKeyHashAddress (Hash160 (PubKeyBytes k c))). assert (A : address_ok (PayToPubKeyHashAddress (Hash160 (PubKeyBytes k c)))) by (split; apply H1). split; [exact A|]. now rewrite K.
  - exists (PayToWitnessV0PubKeyHashAddress (Hash160 (PubKeyBytes k c))). assert (A : address_ok (PayToWitnessV0PubKeyHashAddress (Hash160 (PubKeyBytes k c)))) by (split; apply H1). split; [exact A|]. now rewrite K.
  - exists (PayToScriptHashAddress (Hash160 r)). assert (A : address_ok (PayToScriptHashAddress (Hash160 r))) by (split; apply H1). split; [exact A|]. now rewrite K.
  - exists (PayToWitnessV0ScriptHashAddress (sha256 r)). assert (A : address_ok (PayToWitnessV0ScriptHashAddress (sha256 r))) by (split; apply H2). split; [exact A|]. now rewrite K.
Qed.
Lemma encoded_text d : bytes_ok d -> is_hex_text (hex_encode d).
Proof. intros O. destruct (hex_text_dec (hex_encode d)) as [H|H]; [exact H|]. destruct (proj2 (hex_decode_spec _) H) as (e & E). rewrite hex_decode_encode in E by exact O. discriminate. Qed.
Lemma low_encode d : bytes_ok d -> map hex_low (hex_encode d) = hex_encode d.
Proof. intros O. apply decode_low_iff; [exact O|]. now apply hex_decode_encode. Qed.

Lemma spend_outputs hs ps change fee : scheme_ok prvkey PubKeyBytes EcdsaSign EcdsaVerify -> hashes_ok Hash160 sha256 -> (forall x, bytes_ok (DS x)) -> (forall k h, exists s, EcdsaSign k h = Ok s) ->
  Forall holds hs -> hs <> [] -> ps <> [] -> Forall (fun h => 0 <= to_value (h_out prvkey h)) hs -> Forall (fun p => 0 <= snd p) ps -> 0 <= fee <= 100000000 ->
  let have := sumZ (map (fun h => to_value (h_out prvkey h)) hs) in let left := have - sumZ (map snd ps) - fee in have < 2 ^ 63 -> 0 <= left ->
  exists b t, do_calls prvkey (spending DS prvkey hs ps change fee) (NewTransactionBuilder prvkey) = Ok b /\ Build b = Ok t /\ Verify Hash160 DS EcdsaVerify t = Ok tt /\
    map (fun i => (ti_hash i, ti_index i, ti_value i)) (tx_ins t) = map (fun h => (DS (SerializeNoWitness (h_tx prvkey h)), Z.of_nat (h_n prvkey h), to_value (h_out prvkey h))) hs /\
    tx_outs t = map (fun p => MkOut (snd p) (LockingScript (fst p))) ps ++ (if 0 <? left then [MkOut left (LockingScript change)] else []).
Proof.
  intros Sc Hs Od Tot F Nh Npp Vh Vp Rf have left Th Rl.
  set (b := told (map group_of hs ++ map pay_group ps) change fee). pose proof (spending_state hs ps change fee) as E. fold b in E. destruct (told_coins hs ps change fee) as [Ec Ep]. fold b in Ec, Ep.
  assert (Fee : b_sendFees prvkey b = fee) by (unfold b, told; cbn [b_sendFees]; apply i64_id; lia).
  assert (Tc : total_coins prvkey b = have) by (unfold total_coins, have; rewrite Ec, map_map; reflexivity).
  assert (Tp : total_paid prvkey b = sumZ (map snd ps)) by (unfold total_paid; rewrite Ep, map_map; reflexivity).
  assert (Np : 0 <= sumZ (map snd ps)) by (apply sum_nonneg, Forall_map; exact Vp).
  assert (Sh : Forall (fun h => exists a, address_ok a /\ LockingScript a = to_script (h_out prvkey h)) hs) by (eapply Forall_impl; [|exact F]; intros h [_ C]; eapply can_spend_address; eauto).
  assert (Short : Forall short (coins b)).
  { rewrite Ec. apply Forall_map. eapply Forall_impl; [|exact Sh]. intros h (a & Oa & Ea). unfold short, SpendSpec.coin_of. cbn [coin_script]. rewrite <- Ea. destruct (locking_ok a Oa) as [B L].
    destruct (decode_bytes _ _ (hex_decode_encode _ B)) as [_ ->]. clear - Oa. destruct Oa as [O L]. assert (L' : len (obj_hash (obj_of a)) = obj_len (obj_of a)) by (destruct a; exact L).
    assert (E : LockingScript a = template (obj_of a)) by (destruct a; apply raw_locking; exact L'). rewrite E. destruct a; cbn [addr_hash addr_len obj_of template] in *; unfold p2pkh_script, p2sh_script, p2wpkh_script, p2wsh_script; rewrite !len_app, L; vm_compute; discriminate. }
  assert (Us : Forall coin_usable (coins b)).
  { rewrite Ec. apply Forall_map. eapply Forall_impl; [|exact Sh]. intros h (a & Oa & Ea). split; unfold SpendSpec.coin_of; cbn [coin_txid coin_script].
    - unfold NewIDToString. apply encoded_text. rewrite reverse_is_rev. apply bytes_ok_rev, Od.
    - exists a. split; [exact Oa|]. rewrite Ea. apply low_encode. rewrite <- Ea. now apply locking_ok. }
  assert (Cv : Forall (fun c => 0 <= coin_value c) (coins b)) by (rewrite Ec; apply Forall_map; exact Vh).
  assert (Pv : Forall (fun o => 0 <= o_value o) (payments b)) by (rewrite Ep; apply Forall_map; exact Vp).
  assert (U : exists t, Build (unsigned prvkey b) = Ok t).
  { apply (build_unsigned (unsigned prvkey b)); try assumption; try reflexivity; try (change (b_sendFees prvkey (unsigned prvkey b)) with (b_sendFees prvkey b); lia).
    - change (total_coins prvkey (unsigned prvkey b)) with (total_coins prvkey b). lia.
    - change (total_paid prvkey (unsigned prvkey b)) with (total_paid prvkey b). lia.
    - change (total_coins prvkey (unsigned prvkey b)) with (total_coins prvkey b). change (total_paid prvkey (unsigned prvkey b)) with (total_paid prvkey b). change (b_sendFees prvkey (unsigned prvkey b)) with (b_sendFees prvkey b).
      change (coins (unsigned prvkey b)) with (coins b). change (payments (unsigned prvkey b)) with (payments b). rewrite Fee, Tc, Tp. split; [|intros _; exists change; reflexivity].
      split; [rewrite Ec; destruct hs; [congruence|discriminate]|]. split; [rewrite Ep; destruct ps; [congruence|discriminate]|]. split; [exact Us|]. split; [change (b_maxFees prvkey (unsigned prvkey b)) with 100000000; lia|exact Rl]. }
  assert (Gs : Forall (group_signs Hash160 sha256 prvkey PubKeyBytes 1) (b_groups prvkey b)).
  { unfold b, told. cbn [b_groups]. apply Forall_app. split; [apply Forall_app; split|constructor; [exact I|constructor]].
    - apply Forall_map. apply Forall_forall. intros h Hh. rewrite Forall_forall in F, Sh. destruct (F h Hh) as [_ C]. destruct (Sh h Hh) as (a & Oa & Ea). unfold group_signs, group_of. cbn [g_coin g_sighash g_keys g_compressed g_redeem].
      split; [reflexivity|]. exists (h_keys prvkey h), (to_script (h_out prvkey h)). split; [reflexivity|]. split; [|exact C]. unfold SpendSpec.coin_of. cbn [coin_script]. apply hex_decode_encode. rewrite <- Ea. now apply locking_ok.
    - apply Forall_map. apply Forall_forall. intros p _. exact I. }
  destruct U as (t0 & E0). destruct (built_succeeds Hash160 sha256 DS prvkey PubKeyBytes EcdsaSign EcdsaVerify 1 b t0 Sc Hs ltac:(lia) Tot Gs E0) as (t & Et & _).
  exists b, t. split; [exact E|]. split; [exact Et|]. split; [exact (built_verifies Hash160 sha256 DS prvkey PubKeyBytes EcdsaSign EcdsaVerify 1 b t Sc Hs ltac:(lia) eq_refl Gs Et)|].
  set (cs := spending DS prvkey hs ps change fee) in *.
  destruct (state_said prvkey cs) as (b' & E' & C & P & D & Ch & Sf & Re & _). rewrite E in E'. injection E' as <-. rewrite Ec in C. rewrite Ep in P.
  assert (Df : said_data prvkey cs = []) by (rewrite <- D; reflexivity). assert (Fs : said_fees prvkey cs = fee).
  { unfold cs, spending, said_fees, said. rewrite !map_app. cbn [map]. assert (X : forall (l : list (option Z)) x, last_some (l ++ [None; Some x; None]) = Some x) by (induction l as [|y l IH]; intros x; cbn [app last_some]; [reflexivity|now rewrite IH]). now rewrite app_assoc, X. }
  split.
  - destruct (calls_layout Hash160 sha256 DS prvkey PubKeyBytes EcdsaSign cs) as (b2 & E2 & Ly). rewrite E in E2. injection E2 as <-. destruct (Ly t Et) as (Sp & _).
    { rewrite <- C. rewrite Ec in Short. exact Short. } { rewrite Df. constructor. }
    rewrite <- C in Sp. clear - Sp Od. remember (map coin_of hs) as l eqn:El. revert hs El. induction Sp as [|c i l ins S _ IH]; intros [|h hs] El; try discriminate; [reflexivity|]. cbn [map] in El. injection El as -> ->. cbn [map]. f_equal; [|now apply IH].
    destruct S as (S1 & -> & -> & _). unfold SpendSpec.coin_of in *. cbn [coin_txid coin_n coin_value] in *. rewrite id_roundtrip in S1 by apply Od. injection S1 as <-. reflexivity.
  - destruct (calls_change Hash160 sha256 DS prvkey PubKeyBytes EcdsaSign cs b t E Et) as (f & datas & Ff & Fd & Rest); rewrite <- ?C, <- ?P, ?Df, ?Fs; try (rewrite <- Ec || rewrite <- Ep; assumption); try lia.
    + rewrite <- Ec. change (sumZ (map coin_value (coins b))) with (total_coins prvkey b). lia.
    + rewrite <- Ep. change (sumZ (map o_value (payments b))) with (total_paid prvkey b). lia.
    + constructor.
    + rewrite Df in Fd. inversion Fd. subst datas. rewrite <- C, <- P in Rest. rewrite (Ff ltac:(rewrite <- Re; cbn; lia)), Fs in Rest. rewrite <- Ec, <- Ep in Rest.
      change (sumZ (map coin_value (coins b))) with (total_coins prvkey b) in Rest. change (sumZ (map o_value (payments b))) with (total_paid prvkey b) in Rest. rewrite Tc, Tp in Rest. fold left in Rest. cbv zeta in Rest. clearbody left.
      destruct Rest as (_ & R1 & R2). rewrite Ep, map_map in R1, R2. cbn [o_value o_addr script_to] in R1, R2. destruct (0 <? left) eqn:Cl.
      * destruct (R1 ltac:(lia)) as (a & Ea & ->). rewrite <- Ch in Ea. injection Ea as <-. now rewrite app_nil_r.
      * rewrite R2 by lia. reflexivity.
Qed.
End Spend.
