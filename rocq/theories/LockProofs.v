(** C15: standard scripts and addresses. *)
From Verif Require Import GoBase BaseLemmas BufferModel BufferSpec BufferProofs BufferMore ScriptNumModel
  ScriptModel ScriptSpec ScriptProofs AddressModel AddressSpec LockSpec LockModel VmModel VmSpec VmProofs VmMore VmLock.
From Coq Require Import ZifyBool ZifyNat.

(** Kind and hash of a standard script, by template. *)
Definition template (s : script_obj) : bytes :=
  match s with P2PKH h => p2pkh_script h | P2SH h => p2sh_script h | P2WPKH h => p2wpkh_script h | P2WSH h => p2wsh_script h end.
Definition obj_hash (s : script_obj) : bytes := match s with P2PKH h | P2SH h | P2WPKH h | P2WSH h => h end.
Definition obj_len (s : script_obj) : Z := match s with P2WSH _ => 32 | _ => 20 end.

Lemma AddData_mid h b : 2 <= len h < 76 -> AddData h b = WriteBytes h (WriteU8 (len h) b).
Proof.
  intros L. unfold AddData. destruct h as [|a [|c h']]; [change (len (@nil Z)) with 0 in L; lia|change (len [a]) with 1 in L; lia|].
  set (h := a :: c :: h') in *. replace (len h <? 76) with true by lia. rewrite Z.add_0_l, u8_id by lia. reflexivity.
Qed.
Lemma raw_locking s : len (obj_hash s) = obj_len s -> GetRawLockingScriptBytes s = template s.
Proof.
  destruct s as [h|h|h|h]; cbn [obj_hash obj_len]; intros L; unfold GetRawLockingScriptBytes, template, Script, Bytes, AddOp;
    rewrite AddData_mid by lia; rewrite L; unfold WriteBytes, WriteU8; cbn [bdata]; change (bdata NewScriptBuilder) with (@nil Z); cbn [app]; rewrite <- ?app_assoc; reflexivity.
Qed.
Definition template_instrs (s : script_obj) : list instruction :=
  match s with
  | P2PKH h => p2pkh_instrs h | P2SH h => p2sh_instrs h
  | P2WPKH h => [Instr 0 []; Instr 0x14 h] | P2WSH h => [Instr 0 []; Instr 0x20 h]
  end.
Lemma template_parses s : len (obj_hash s) = obj_len s -> script_of (template_instrs s) (template s).
Proof.
  destruct s as [h|h|h|h]; cbn [obj_hash obj_len template template_instrs]; intros L; [now apply p2pkh_parses|now apply p2sh_parses| |].
  - apply (so_cons _ [0] _ (0x14 :: h)); [constructor; vm_compute; tauto|]. rewrite <- (app_nil_r (0x14 :: h)). constructor; [constructor; lia|constructor].
  - apply (so_cons _ [0] _ (0x20 :: h)); [constructor; vm_compute; tauto|]. rewrite <- (app_nil_r (0x20 :: h)). constructor; [constructor; lia|constructor].
Qed.

Lemma encodes_plain_inv i e op : encodes i e -> iop i = op -> In op plain_opcodes -> i = Instr op [] /\ e = [op].
Proof.
  intros E Ei P. pose proof (plain_byte op P) as (B & Lp). destruct E as [op' _|op' d P' Ld|n d Ld Ln|l d Ll Hl V|l d Ll Hl V]; cbn [iop] in Ei; subst.
  - auto.
  - exfalso. unfold plain_opcodes in P. cbn [In] in P. lia.
  - discriminate Lp.
  - discriminate Lp.
  - discriminate Lp.
Qed.
Lemma encodes_direct_inv i e op : encodes i e -> iop i = op -> 1 <= op <= 75 -> exists d, i = Instr op d /\ e = op :: d /\ len d = op.
Proof.
  intros E Ei P. destruct E as [op' P'|op' d P' Ld|n d Ld Ln|l d Ll Hl V|l d Ll Hl V]; cbn [iop] in Ei; subst; try lia.
  - exfalso. unfold plain_opcodes in P'. cbn [In] in P'. lia.
  - eauto.
Qed.

Lemma parse_template d s : in_memory d -> (ParseLockingScript d = Ok s <-> len (obj_hash s) = obj_len s /\ d = template s).
Proof.
  intros M. split.
  - unfold ParseLockingScript. intros E. apply rbind_ok in E. destruct E as (is & A & E). apply parse_iff in A; [|exact M]. clear M.
    destruct (isPubkeyHash is) eqn:K1; [|destruct (isScriptHash is) eqn:K2; [|destruct (isWitnessV0PubKeyHash is) eqn:K3; [|destruct (isWitnessV0ScriptHash is) eqn:K4; [|discriminate]]]];
      injection E as <-; cbn [obj_hash obj_len template].
    + unfold isPubkeyHash in K1. destruct is as [|i0 [|i1 [|i2 [|i3 [|i4 [|i5 is]]]]]]; try (exfalso; cbn in K1; rewrite ?andb_false_r in K1; discriminate).
      2:{ exfalso. rewrite !len_cons in K1. pose proof (len_nonneg is). lia. }
      unfold op_at in K1. cbn [nth_error] in K1. unfold data_at. cbn [nth_error].
      inversion A as [|? e0 ? d0 E0 A0]; subst. inversion A0 as [|? e1 ? d1 E1 A1]; subst. inversion A1 as [|? e2 ? d2 E2 A2]; subst.
      inversion A2 as [|? e3 ? d3 E3 A3]; subst. inversion A3 as [|? e4 ? d4 E4 A4]; subst. inversion A4; subst.
      destruct (encodes_plain_inv i0 e0 0x76 E0 ltac:(lia) ltac:(vm_compute; tauto)) as [-> ->].
      destruct (encodes_plain_inv i1 e1 0xa9 E1 ltac:(lia) ltac:(vm_compute; tauto)) as [-> ->].
      destruct (encodes_direct_inv i2 e2 0x14 E2 ltac:(lia) ltac:(lia)) as (h & -> & -> & L).
      destruct (encodes_plain_inv i3 e3 0x88 E3 ltac:(lia) ltac:(vm_compute; tauto)) as [-> ->].
      destruct (encodes_plain_inv i4 e4 0xac E4 ltac:(lia) ltac:(vm_compute; tauto)) as [-> ->].
      cbn [idata]. split; [exact L|]. unfold p2pkh_script. cbn [app]. reflexivity.
    + unfold isScriptHash in K2. destruct is as [|i0 [|i1 [|i2 [|i3 is]]]]; try (exfalso; cbn in K2; rewrite ?andb_false_r in K2; discriminate).
      2:{ exfalso. rewrite !len_cons in K2. pose proof (len_nonneg is). lia. }
      unfold op_at in K2. cbn [nth_error] in K2. unfold data_at. cbn [nth_error].
      inversion A as [|? e0 ? d0 E0 A0]; subst. inversion A0 as [|? e1 ? d1 E1 A1]; subst. inversion A1 as [|? e2 ? d2 E2 A2]; subst. inversion A2; subst.
      destruct (encodes_plain_inv i0 e0 0xa9 E0 ltac:(lia) ltac:(vm_compute; tauto)) as [-> ->].
      destruct (encodes_direct_inv i1 e1 0x14 E1 ltac:(lia) ltac:(lia)) as (h & -> & -> & L).
      destruct (encodes_plain_inv i2 e2 0x87 E2 ltac:(lia) ltac:(vm_compute; tauto)) as [-> ->].
      cbn [idata]. split; [exact L|]. unfold p2sh_script. cbn [app]. reflexivity.
    + unfold isWitnessV0PubKeyHash in K3. destruct is as [|i0 [|i1 [|i2 is]]]; try (exfalso; cbn in K3; rewrite ?andb_false_r in K3; discriminate).
      2:{ exfalso. rewrite !len_cons in K3. pose proof (len_nonneg is). lia. }
      unfold op_at in K3. cbn [nth_error] in K3. unfold data_at. cbn [nth_error].
      inversion A as [|? e0 ? d0 E0 A0]; subst. inversion A0 as [|? e1 ? d1 E1 A1]; subst. inversion A1; subst.
      destruct (encodes_plain_inv i0 e0 0 E0 ltac:(lia) ltac:(vm_compute; tauto)) as [-> ->].
      destruct (encodes_direct_inv i1 e1 0x14 E1 ltac:(lia) ltac:(lia)) as (h & -> & -> & L).
      cbn [idata]. split; [exact L|]. unfold p2wpkh_script. rewrite app_nil_r. reflexivity.
    + unfold isWitnessV0ScriptHash in K4. destruct is as [|i0 [|i1 [|i2 is]]]; try (exfalso; cbn in K4; rewrite ?andb_false_r in K4; discriminate).
      2:{ exfalso. rewrite !len_cons in K4. pose proof (len_nonneg is). lia. }
      unfold op_at in K4. cbn [nth_error] in K4. unfold data_at. cbn [nth_error].
      inversion A as [|? e0 ? d0 E0 A0]; subst. inversion A0 as [|? e1 ? d1 E1 A1]; subst. inversion A1; subst.
      destruct (encodes_plain_inv i0 e0 0 E0 ltac:(lia) ltac:(vm_compute; tauto)) as [-> ->].
      destruct (encodes_direct_inv i1 e1 0x20 E1 ltac:(lia) ltac:(lia)) as (h & -> & -> & L).
      cbn [idata]. split; [exact L|]. unfold p2wsh_script. rewrite app_nil_r. reflexivity.
  - intros [L ->]. unfold ParseLockingScript. rewrite (all_of _ _ M (template_parses s L)). cbn [rbind]. destruct s; reflexivity.
Qed.

Lemma parse_address d s : in_memory d -> ParseLockingScript d = Ok s -> GetRawLockingScriptBytes s = d /\
  exists a, GetAddress s = Some a /\ address_ok a /\ LockingScript a = d.
Proof.
  intros M E. pose proof (proj1 (parse_template d s M) E) as [L D].
  assert (Oh : bytes_ok (obj_hash s)).
  { destruct M as [O _]. rewrite D in O. destruct s; cbn [template obj_hash] in *; unfold p2pkh_script, p2sh_script, p2wpkh_script, p2wsh_script in O; rewrite ?bytes_ok_app in O; tauto. }
  split; [now rewrite raw_locking|]. destruct s as [h|h|h|h]; cbn [obj_hash obj_len] in *; unfold GetAddress, NewPayToPubKeyHashAddress, NewPayToScriptHashAddress, NewPayToWitnessV0PubKeyHashAddress, NewPayToWitnessV0ScriptHashAddress;
    rewrite L; change (negb (20 =? 20)) with false; change (negb (32 =? 32)) with false; cbv iota; (eexists; split; [reflexivity|]; split; [now split|]; unfold LockingScript; rewrite raw_locking; [now symmetry|exact L]).
Qed.

Definition obj_of (a : address) : script_obj :=
  match a with
  | PayToPubKeyHashAddress h => P2PKH h | PayToScriptHashAddress h => P2SH h
  | PayToWitnessV0PubKeyHashAddress h => P2WPKH h | PayToWitnessV0ScriptHashAddress h => P2WSH h end.
Lemma address_script a : address_ok a -> ParseLockingScript (LockingScript a) = Ok (obj_of a) /\ GetAddress (obj_of a) = Some a.
Proof.
  intros [O L]. assert (L' : len (obj_hash (obj_of a)) = obj_len (obj_of a)) by (destruct a; exact L).
  assert (E : LockingScript a = template (obj_of a)) by (destruct a; apply raw_locking; exact L').
  split.
  - rewrite E. apply parse_template; [|auto]. split.
    + destruct a; cbn [addr_hash obj_of template] in *; unfold p2pkh_script, p2sh_script, p2wpkh_script, p2wsh_script; rewrite ?bytes_ok_app; repeat split; auto; bytes_ok_tac.
    + destruct a; cbn [addr_hash addr_len obj_of template] in *; unfold p2pkh_script, p2sh_script, p2wpkh_script, p2wsh_script; rewrite !len_app, L; vm_compute; discriminate.
  - destruct a as [h|h|h|h]; cbn [addr_hash addr_len] in L; cbn [obj_of]; unfold GetAddress, NewPayToPubKeyHashAddress, NewPayToScriptHashAddress, NewPayToWitnessV0PubKeyHashAddress, NewPayToWitnessV0ScriptHashAddress; rewrite L; reflexivity.
Qed.
Lemma locking_inj a b : address_ok a -> address_ok b -> LockingScript a = LockingScript b -> a = b.
Proof. intros Ha Hb E. destruct (address_script a Ha) as [A1 A2]. destruct (address_script b Hb) as [B1 B2]. rewrite E in A1. congruence. Qed.
