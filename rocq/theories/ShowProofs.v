(** Proofs about the text of a transaction. *)
From Verif Require Import GoBase BaseLemmas BufferModel BufferSpec BufferProofs ScriptModel ScriptSpec ScriptProofs HexModel HexProofs AddressModel Bip39Model AsmModel AsmSpec AsmProofs AsmProps
  LockModel LockSpec LockProofs VmSpec VmProofs TxModel TxSpec TxSignSpec TxSign TxSign2 BuilderModel BuilderSpec BuilderProofs BuilderCalls OptionSpec OptionProofs TraceProofs ShowModel ShowSpec.
From Coq Require Import ZifyBool ZifyNat ZifyN SpecFloat.

(** ** Numbers. *)
Definition value (l : bytes) : Z := fold_left (fun a c => 10 * a + (c - 48)) l 0.
Lemma digits_spec : forall f n, 0 <= n < 2 ^ Z.of_nat f -> (0 < f)%nat -> value (digits_of f n) = n /\ Forall (fun c => 48 <= c <= 57) (digits_of f n).
Proof.
  induction f as [|f IH]; intros n R P; [lia|]. cbn [digits_of]. destruct (n <? 10) eqn:E.
  - split; [unfold value; cbn [fold_left]; lia|]. constructor; [lia|constructor].
  - rewrite Nat2Z.inj_succ, Z.pow_succ_r in R by lia. destruct f as [|f]; [cbn in R; lia|].
    destruct (IH (n / 10)) as [V F]; [split; [apply Z.div_pos; lia|apply Z.div_lt_upper_bound; lia]|lia|].
    split; [|apply Forall_app; split; [exact F|constructor; [|constructor]]; pose proof (Z.mod_pos_bound n 10 ltac:(lia)); lia].
    unfold value in *. rewrite fold_left_app. cbn [fold_left]. rewrite V. pose proof (Z.div_mod n 10 ltac:(lia)). lia.
Qed.
Lemma nat_text_spec n : 0 <= n -> value (nat_text n) = n /\ Forall (fun c => 48 <= c <= 57) (nat_text n).
Proof.
  intros P. unfold nat_text. apply digits_spec; [|lia]. split; [exact P|]. rewrite Nat2Z.inj_succ, Z2Nat.id by apply Z.log2_nonneg. destruct (Z.eq_dec n 0) as [->|N]; [cbn; lia|].
  apply Z.log2_spec. lia.
Qed.
Lemma int_text_inj a b : 0 <= a -> 0 <= b -> int_text a = int_text b -> a = b.
Proof.
  intros A B E. unfold int_text in E. replace (a <? 0) with false in E by lia. replace (b <? 0) with false in E by lia. destruct (nat_text_spec a A) as [Va _]. destruct (nat_text_spec b B) as [Vb _]. congruence.
Qed.

(** ** Lines. *)
Definition plain (l : bytes) : Prop := Forall (fun c => c <> 10) l.
Lemma plain_app a b : plain (a ++ b) <-> plain a /\ plain b.
Proof. apply Forall_app. Qed.
Lemma int_text_plain n : plain (int_text n).
Proof.
  assert (X : forall n, 0 <= n -> plain (nat_text n)) by (intros m P; eapply Forall_impl; [|exact (proj2 (nat_text_spec m P))]; cbv beta; lia).
  unfold int_text. destruct (n <? 0) eqn:E; [constructor; [lia|]|]; apply X; lia.
Qed.
Lemma round_even_pos p q : 0 <= p -> 0 < q -> 0 <= round_even p q.
Proof. intros P Q. unfold round_even. pose proof (Z.div_pos p q P Q). destruct (_ <? _); [lia|]. destruct (_ =? _); [|lia]. destruct (Z.even _); lia. Qed.
Lemma fixed2_plain f : plain (fixed2 f).
Proof.
  assert (X : forall n, 0 <= n -> plain (nat_text n)) by (intros m P; eapply Forall_impl; [|exact (proj2 (nat_text_spec m P))]; cbv beta; lia).
  destruct f as [s|s| |s m e]; cbn [fixed2]; [destruct s; repeat constructor; discriminate|destruct s; repeat constructor; discriminate|repeat constructor; discriminate|].
  set (n := if 0 <=? e then _ else _). assert (P : 0 <= n).
  { unfold n. destruct (0 <=? e) eqn:E; [apply Z.mul_nonneg_nonneg; [lia|apply Z.pow_nonneg; lia]|]. apply round_even_pos; [lia|]. apply Z.pow_pos_nonneg; lia. }
  clearbody n. apply plain_app. split; [destruct s; repeat constructor; discriminate|]. apply plain_app. split; [apply X; apply Z.div_pos; lia|].
  pose proof (Z.mod_pos_bound (n / 10) 10 ltac:(lia)). pose proof (Z.mod_pos_bound n 10 ltac:(lia)). repeat constructor; lia.
Qed.
Lemma hex_plain d : bytes_ok d -> plain (hex_encode d).
Proof. intros O. eapply Forall_impl; [|exact (hex_text d O)]. cbv beta. unfold AsmSpec.blank. intros c H. tauto. Qed.
Lemma hex_inj a b : bytes_ok a -> bytes_ok b -> hex_encode a = hex_encode b -> a = b.
Proof. intros A B E. pose proof (hex_decode_encode a A) as X. rewrite E, (hex_decode_encode b B) in X. congruence. Qed.
Lemma id_plain h : bytes_ok h -> plain (NewIDToString h).
Proof. intros O. unfold NewIDToString. apply hex_plain. rewrite reverse_is_rev. now apply bytes_ok_rev. Qed.
Lemma id_inj a b : bytes_ok a -> bytes_ok b -> NewIDToString a = NewIDToString b -> a = b.
Proof. intros A B E. pose proof (id_roundtrip a A) as X. rewrite E, (id_roundtrip b B) in X. congruence. Qed.
Lemma cut_nl a b x y : plain a -> plain b -> a ++ 10 :: x = b ++ 10 :: y -> a = b /\ x = y.
Proof.
  intros A. revert b. induction A as [|c a N A IH]; intros b B E; destruct B as [|d b M B]; cbn [app] in E.
  - split; congruence.
  - exfalso. congruence.
  - exfalso. congruence.
  - assert (E' : a ++ 10 :: x = b ++ 10 :: y) by congruence. destruct (IH b B E') as [-> ->]. split; congruence.
Qed.
Lemma no_nl a b x : plain b -> a ++ 10 :: x = b -> False.
Proof. intros B E. subst b. apply plain_app in B. destruct B as [_ B]. inversion B. congruence. Qed.
Lemma join_lines_inj : forall l m, Forall plain l -> Forall plain m -> l <> [] -> m <> [] -> JoinLines l = JoinLines m -> l = m.
Proof.
  induction l as [|a l IH]; intros m L M Nl Nm E; [congruence|]. destruct m as [|b m]; [congruence|]. inversion L as [|? ? La Ll]; subst. inversion M as [|? ? Mb Mm]; subst.
  destruct l as [|a2 l], m as [|b2 m].
  - cbn [JoinLines] in E. congruence.
  - exfalso. change (JoinLines (b :: b2 :: m)) with (b ++ 10 :: JoinLines (b2 :: m)) in E. exact (no_nl _ _ _ La (eq_sym E)).
  - exfalso. change (JoinLines (a :: a2 :: l)) with (a ++ 10 :: JoinLines (a2 :: l)) in E. exact (no_nl _ _ _ Mb E).
  - change (JoinLines (b :: b2 :: m)) with (b ++ 10 :: JoinLines (b2 :: m)) in E. change (JoinLines (a :: a2 :: l)) with (a ++ 10 :: JoinLines (a2 :: l)) in E.
    destruct (cut_nl _ _ _ _ La Mb E) as [-> E']. f_equal. apply IH; auto; discriminate.
Qed.
Lemma join_last : forall l x y, l <> [] -> JoinLines (l ++ [x ++ y]) = JoinLines (l ++ [x]) ++ y.
Proof.
  induction l as [|a l IH]; intros x y N; [congruence|]. destruct l as [|b l].
  - cbn [app JoinLines]. now rewrite <- app_assoc.
  - change (JoinLines ((a :: b :: l) ++ [x ++ y])) with (a ++ 10 :: JoinLines ((b :: l) ++ [x ++ y])). change (JoinLines ((a :: b :: l) ++ [x])) with (a ++ 10 :: JoinLines ((b :: l) ++ [x])). rewrite IH by discriminate. rewrite <- app_assoc. reflexivity.
Qed.
Lemma str_plain_dec l : forallb (fun c => negb (c =? 10)) l = true -> plain l.
Proof. intros H. rewrite forallb_forall in H. apply Forall_forall. intros c I. specialize (H c I). lia. Qed.
Lemma field_plain ind name r : plain (str_bytes ind) -> plain (str_bytes name) -> plain r -> plain (field ind name r).
Proof. intros A B C. unfold field. rewrite !plain_app. repeat split; auto; repeat constructor; discriminate. Qed.
Lemma field_inj ind name a b : field ind name a = field ind name b -> a = b.
Proof. unfold field. intros E. now do 4 apply app_inv_head in E. Qed.
Lemma quoted_plain a : plain a -> plain (quoted a).
Proof. intros A. unfold quoted. rewrite !plain_app. repeat split; auto; repeat constructor; discriminate. Qed.
Lemma quoted_inj a b : quoted a = quoted b -> a = b.
Proof. unfold quoted. intros E. apply app_inv_head in E. now apply app_inv_tail in E. Qed.
Lemma cons_eq {A} (a b : A) x y : a :: x = b :: y -> a = b /\ x = y.
Proof. intros E. split; congruence. Qed.

Section Show.
Variable et : string -> bytes.
Notation Disasm := (DisasmString et).

(** ** When it panics. *)
Lemma disasm_no_err d e : Disasm d <> Err e.
Proof. unfold DisasmString. destruct (AllInstructions d); discriminate. Qed.
Definition clean {A} (r : res A) : Prop := forall e, r <> Err e.
Lemma clean_bind {A B} (r : res A) (k : A -> res B) : clean r -> (forall x, clean (k x)) -> clean (rbind r k).
Proof. intros R K e. destruct r as [x|e'|]; cbn [rbind]; [apply K|intros _; exact (R e' eq_refl)|discriminate]. Qed.
Lemma clean_ok {A} (x : A) : clean (Ok x).
Proof. intros e. discriminate. Qed.
Lemma clean_index {A} (l : list A) n : clean (index l n).
Proof. intros e. unfold index. destruct (n <? 0); [discriminate|]. destruct (nth_error l _); discriminate. Qed.
Lemma in_lines_clean i : clean (in_lines et i).
Proof.
  unfold in_lines. repeat (apply clean_bind; [|intros ?]); try apply clean_ok; try (intros e; apply disasm_no_err).
  - destruct (ti_redeem i); [|apply clean_ok]. apply clean_bind; [intros e; apply disasm_no_err|intros ?; apply clean_ok].
  - destruct (ti_code i); [|apply clean_ok]. apply clean_bind; [apply clean_index|intros ?; apply clean_ok].
Qed.
Lemma ins_lines_clean l : clean (ins_lines et l).
Proof. induction l as [|i l IH]; cbn [ins_lines]; [apply clean_ok|]. apply clean_bind; [apply in_lines_clean|intros ?]. apply clean_bind; [exact IH|intros ?; apply clean_ok]. Qed.
Lemma unwitnessed_panics i : unwitnessed i -> in_lines et i = Panic.
Proof.
  intros [C W]. pose proof (in_lines_clean i) as Cl. destruct (in_lines et i) as [ls|e|] eqn:E; [exfalso|destruct (Cl e eq_refl)|reflexivity].
  unfold in_lines in E. do 4 (apply rbind_ok in E; destruct E as (? & _ & E)). apply rbind_ok in E. destruct E as (w & Ew & _). destruct (ti_code i); [|congruence]. rewrite W in Ew. discriminate.
Qed.
Lemma ins_lines_panic l : Exists (fun i => in_lines et i = Panic) l -> ins_lines et l = Panic.
Proof.
  induction l as [|i l IH]; intros H; [inversion H|]. cbn [ins_lines]. inversion H as [? ? P|? ? P]; subst; [now rewrite P|]. rewrite (IH P). pose proof (in_lines_clean i) as C. destruct (in_lines et i) as [x|e|]; [reflexivity|destruct (C e eq_refl)|reflexivity].
Qed.
Lemma to_string_panic t : Exists unwitnessed (tx_ins t) -> ToString et t = Panic.
Proof. intros H. unfold ToString. rewrite ins_lines_panic; [reflexivity|]. eapply Exists_impl; [|exact H]. exact unwitnessed_panics. Qed.
Lemma in_lines_ok i : in_printable i -> ~ unwitnessed i -> exists ls, in_lines et i = Ok ls.
Proof.
  intros (R & F & U & Rd) W. unfold in_lines. destruct (disasm_total et _ R) as (r & ->). destruct (disasm_total et _ F) as (f & ->). destruct (disasm_total et _ U) as (u & ->). cbn [rbind].
  assert (X : exists x, match ti_redeem i with None => Ok [] | Some r => let! s := Disasm r in Ok [field "      " "redeemscript" (quoted s); field "      " "redeemhex" (quoted (hex_encode r))] end = Ok x).
  { destruct (ti_redeem i) as [rd|]; [|eauto]. destruct (disasm_total et _ (Rd rd eq_refl)) as (s & ->). cbn [rbind]. eauto. }
  destruct X as (x & ->). cbn [rbind]. unfold unwitnessed in W. destruct (ti_code i) as [c|]; cbn [rbind]; [|eauto]. destruct (ti_witness i) as [|w ws]; [exfalso; apply W; split; [discriminate|reflexivity]|]. change (index (w :: ws) 0) with (Ok w). cbn [rbind]. eexists. reflexivity.
Qed.
Lemma to_string_ok t : printable t -> Forall (fun i => ~ unwitnessed i) (tx_ins t) -> exists s, ToString et t = Ok s.
Proof.
  intros [P O] W. unfold ToString. assert (X : exists l, ins_lines et (tx_ins t) = Ok l).
  { revert P W. induction (tx_ins t) as [|i l IH]; intros P W; cbn [ins_lines]; [eauto|]. inversion P as [|? ? P1 P2]; subst. inversion W as [|? ? W1 W2]; subst. destruct (in_lines_ok i P1 W1) as (a & ->). destruct (IH P2 W2) as (b & ->). cbn [rbind]. eauto. }
  destruct X as (l & ->). cbn [rbind]. assert (Y : exists l, outs_lines et (tx_outs t) = Ok l).
  { revert O. induction (tx_outs t) as [|o os IH]; intros O; cbn [outs_lines]; [eauto|]. inversion O as [|? ? O1 O2]; subst. destruct (disasm_total et _ O1) as (a & ->). destruct (IH O2) as (b & ->). cbn [rbind]. eauto. }
  destruct Y as (m & ->). cbn [rbind]. eauto.
Qed.

(** ** The text determines what it shows. *)
Lemma disasm_plain d s : legible d -> Disasm d = Ok s -> plain s.
Proof.
  intros [M (is & S)] E. rewrite (disasm_of et is d M S) in E. assert (s = Join (flat_map instr_words is)) as -> by congruence. clear E.
  pose proof (words_fine is (script_fine _ _ (proj1 M) S)) as F. revert F. generalize (flat_map instr_words is). intros ws F.
  assert (P : Forall plain ws) by (eapply Forall_impl; [|exact F]; intros w [_ H]; eapply Forall_impl; [|exact H]; intros c N; unfold AsmSpec.blank in N; tauto). clear F M S.
  induction P as [|w ws Pw P IH]; [constructor|]. destruct ws as [|w2 ws]; [exact Pw|]. change (Join (w :: w2 :: ws)) with (w ++ 32 :: Join (w2 :: ws)). apply plain_app. split; [exact Pw|]. constructor; [discriminate|exact IH].
Qed.
Lemma disasm_inj a b s : legible a -> legible b -> Disasm a = Ok s -> Disasm b = Ok s -> a = b.
Proof. intros [Ma (ia & Sa)] [Mb (ib & Sb)] A B. apply (C108_listing_injective et a b ia ib Ma Mb Sa Sb). congruence. Qed.
Notation infield := (field "      ").
Lemma in_lines_form i ls : in_lines et i = Ok ls -> exists raw final unlock rd wit, Disasm (ti_rawlock i) = Ok raw /\ Disasm (ti_finallock i) = Ok final /\ Disasm (ti_unlock i) = Ok unlock /\
  match ti_redeem i with None => rd = [] | Some r => exists s, Disasm r = Ok s /\ rd = [infield "redeemscript" (quoted s); infield "redeemhex" (quoted (hex_encode r))] end /\
  match ti_code i with None => wit = [] | Some c => exists w ws, ti_witness i = w :: ws /\ wit = [infield "witness" (quoted (hex_encode w)); infield "scriptcode" ([34] ++ hex_encode c ++ [34])] end /\
  ls = [str_bytes "    {"; infield "hash" (quoted (NewIDToString (ti_hash i))); infield "n" (int_text (ti_index i) ++ [44]); infield "Value" (int_text (ti_value i) ++ [44]);
       infield "rawlocking" (quoted raw); infield "finallocking" (quoted final); infield "rawunlocking" (quoted unlock)] ++ rd ++
      [infield "script" (quoted unlock); infield "sighash" (quoted (hex_encode (ti_sighash i)))] ++ wit.
Proof.
  intros E. unfold in_lines in E. apply rbind_ok in E. destruct E as (raw & Er & E). apply rbind_ok in E. destruct E as (fi & Ef & E). apply rbind_ok in E. destruct E as (u & Eu & E).
  apply rbind_ok in E. destruct E as (rd & Ed & E). apply rbind_ok in E. destruct E as (w & Ew & E). exists raw, fi, u, rd, w. split; [exact Er|]. split; [exact Ef|]. split; [exact Eu|].
  split. { destruct (ti_redeem i) as [r|]; [|congruence]. apply rbind_ok in Ed. destruct Ed as (s & Es & Ed). exists s. split; [exact Es|congruence]. }
  split; [|congruence]. destruct (ti_code i) as [c|]; [|congruence]. apply rbind_ok in Ew. destruct Ew as (w1 & Ei & Ew). destruct (ti_witness i) as [|w2 ws]; [discriminate|]. change (index (w2 :: ws) 0) with (Ok w2) in Ei. exists w2, ws. split; [reflexivity|congruence].
Qed.
Ltac cut E X := apply cons_eq in E; destruct E as [X E].
Ltac clash X := exfalso; cbv [field str_bytes app Ascii.N_of_ascii Ascii.N_of_digits N.add N.mul Pos.add Pos.mul Z.of_N closing quoted] in X; congruence.
Lemma closing_field {A} (r : list A) name x : closing r <> infield name x.
Proof. unfold closing. destruct r; discriminate. Qed.
Lemma in_cut i j a b (r r' : list TxIn) x y : in_legible i -> in_legible j -> in_lines et i = Ok a -> in_lines et j = Ok b -> a ++ closing r :: x = b ++ closing r' :: y -> shown i = shown j /\ closing r = closing r' /\ x = y.
Proof.
  intros (Oh & Pi & Pv & Os & Lr & Lf & Lu & Lrd & Lc & Lw) (Oh' & Pi' & Pv' & Os' & Lr' & Lf' & Lu' & Lrd' & Lc' & Lw') A B E.
  destruct (in_lines_form i a A) as (raw & fi & u & rd & w & Er & Ef & Eu & Erd & Ew & ->). destruct (in_lines_form j b B) as (raw' & fi' & u' & rd' & w' & Er' & Ef' & Eu' & Erd' & Ew' & ->). clear A B.
  rewrite <- !app_assoc in E. cbn [app] in E. cut E X0. clear X0. cut E X1. cut E X2. cut E X3. cut E X4. cut E X5. cut E X6.
  apply field_inj, quoted_inj in X1. apply field_inj, app_inv_tail in X2. apply field_inj, app_inv_tail in X3. apply field_inj, quoted_inj in X4, X5, X6. subst raw' fi' u'.
  apply id_inj in X1; [|exact Oh|exact Oh']. apply int_text_inj in X2; [|exact Pi|exact Pi']. apply int_text_inj in X3; [|exact Pv|exact Pv'].
  pose proof (disasm_inj _ _ _ Lr Lr' Er Er') as X4. pose proof (disasm_inj _ _ _ Lf Lf' Ef Ef') as X5. pose proof (disasm_inj _ _ _ Lu Lu' Eu Eu') as X6.
  assert (R : ti_redeem i = ti_redeem j /\ [infield "script" (quoted u); infield "sighash" (quoted (hex_encode (ti_sighash i)))] ++ w ++ closing r :: x = [infield "script" (quoted u); infield "sighash" (quoted (hex_encode (ti_sighash j)))] ++ w' ++ closing r' :: y).
  { destruct (ti_redeem i) as [ri|], (ti_redeem j) as [rj|].
    - destruct Erd as (s & Es & ->). destruct Erd' as (s' & Es' & ->). cbn [app] in E. cut E Y1. cut E Y2. split; [|exact E]. apply field_inj, quoted_inj in Y1. subst s'. f_equal. exact (disasm_inj _ _ _ (Lrd _ eq_refl) (Lrd' _ eq_refl) Es Es').
    - destruct Erd as (s & Es & ->). subst rd'. cbn [app] in E. cut E Y1. discriminate.
    - destruct Erd' as (s & Es & ->). subst rd. cbn [app] in E. cut E Y1. discriminate.
    - subst rd rd'. auto. }
  clear E. destruct R as [Xr E]. cbn [app] in E. cut E Y0. clear Y0. cut E Y. apply field_inj, quoted_inj, hex_inj in Y; [|exact Os|exact Os'].
  assert (W : match ti_code i with Some c => Some (hd [] (ti_witness i), c) | None => None end = match ti_code j with Some c => Some (hd [] (ti_witness j), c) | None => None end /\ closing r :: x = closing r' :: y).
  { destruct (ti_code i) as [ci|], (ti_code j) as [cj|].
    - destruct Ew as (w1 & ws & Hw & ->). destruct Ew' as (w1' & ws' & Hw' & ->). cbn [app] in E. cut E Y1. cut E Y2. split; [|exact E]. rewrite Hw, Hw' in *. cbn [hd]. inversion Lw as [|? ? Ow _]; subst. inversion Lw' as [|? ? Ow' _]; subst.
      apply field_inj, quoted_inj, hex_inj in Y1; [|exact Ow|exact Ow']. apply field_inj in Y2. cbn [app] in Y2. apply cons_eq in Y2. destruct Y2 as [_ Y2]. apply app_inv_tail, hex_inj in Y2; [|exact (Lc _ eq_refl)|exact (Lc' _ eq_refl)]. congruence.
    - destruct Ew as (w1 & ws & Hw & ->). subst w'. cbn [app] in E. cut E Y1. destruct (closing_field r' _ _ (eq_sym Y1)).
    - destruct Ew' as (w1 & ws & Hw & ->). subst w. cbn [app] in E. cut E Y1. destruct (closing_field r _ _ Y1).
    - subst w w'. auto. }
  destruct W as [W E']. cut E' Z1. split; [|auto]. unfold shown. rewrite W, X1, X2, X3, X4, X5, X6, Xr, Y. reflexivity.
Qed.
Lemma open_not_end : str_bytes "    {" <> str_bytes "  ],".
Proof. discriminate. Qed.
Lemma ins_cut : forall l m a b x y, Forall in_legible l -> Forall in_legible m -> ins_lines et l = Ok a -> ins_lines et m = Ok b -> a ++ str_bytes "  ]," :: x = b ++ str_bytes "  ]," :: y -> map shown l = map shown m /\ x = y.
Proof.
  induction l as [|i l IH]; intros m a b x y L M A B E; cbn [ins_lines] in A.
  - injection A as <-. destruct m as [|j m]; cbn [ins_lines] in B; [injection B as <-; cbn [app] in E; cut E X; auto|]. exfalso.
    apply rbind_ok in B. destruct B as (b1 & B1 & B). apply rbind_ok in B. destruct B as (b2 & _ & B). injection B as <-. destruct (in_lines_form j b1 B1) as (? & ? & ? & ? & ? & _ & _ & _ & _ & _ & ->). cbn [app] in E. cut E X. now apply open_not_end.
  - apply rbind_ok in A. destruct A as (a1 & A1 & A). apply rbind_ok in A. destruct A as (a2 & A2 & A). injection A as <-. destruct m as [|j m]; cbn [ins_lines] in B.
    + exfalso. injection B as <-. destruct (in_lines_form i a1 A1) as (? & ? & ? & ? & ? & _ & _ & _ & _ & _ & ->). cbn [app] in E. cut E X. now apply open_not_end.
    + apply rbind_ok in B. destruct B as (b1 & B1 & B). apply rbind_ok in B. destruct B as (b2 & B2 & B). injection B as <-. inversion L as [|? ? Li Ll]; subst. inversion M as [|? ? Mj Mm]; subst.
      rewrite <- !app_assoc in E. cbn [app] in E. destruct (in_cut i j a1 b1 l m _ _ Li Mj A1 B1 E) as (S & _ & E'). destruct (IH m a2 b2 x y Ll Mm A2 B2 E') as [Sm Ex]. cbn [map]. split; [congruence|exact Ex].
Qed.
Lemma outs_cut : forall l m a b x y, Forall out_legible l -> Forall out_legible m -> outs_lines et l = Ok a -> outs_lines et m = Ok b -> a ++ str_bytes "  ]," :: x = b ++ str_bytes "  ]," :: y -> l = m.
Proof.
  induction l as [|o l IH]; intros m a b x y L M A B E; cbn [outs_lines] in A.
  - injection A as <-. destruct m as [|o' m]; cbn [outs_lines] in B; [reflexivity|]. exfalso. apply rbind_ok in B. destruct B as (b1 & _ & B). apply rbind_ok in B. destruct B as (b2 & _ & B). injection B as <-. cbn [app] in E. cut E X. now apply open_not_end.
  - apply rbind_ok in A. destruct A as (a1 & A1 & A). apply rbind_ok in A. destruct A as (a2 & A2 & A). injection A as <-. destruct m as [|o' m]; cbn [outs_lines] in B.
    + exfalso. injection B as <-. cbn [app] in E. cut E X. now apply open_not_end.
    + apply rbind_ok in B. destruct B as (b1 & B1 & B). apply rbind_ok in B. destruct B as (b2 & B2 & B). injection B as <-. inversion L as [|? ? [Lv Ls] Ll]; subst. inversion M as [|? ? [Mv Ms] Mm]; subst.
      cbn [app] in E. cut E X0. cut E X1. cut E X2. cut E X3. apply field_inj, app_inv_tail in X1. apply int_text_inj in X1; [|exact Lv|exact Mv]. apply field_inj in X2. cbn [app] in X2. apply cons_eq in X2. destruct X2 as [_ X2]. apply app_inv_tail in X2. subst b1.
      pose proof (disasm_inj _ _ _ Ls Ms A1 B1) as X2. rewrite (IH m a2 b2 x y Ll Mm A2 B2 E). destruct o, o'. simpl in X1, X2. congruence.
Qed.
Lemma in_plain i a : in_legible i -> in_lines et i = Ok a -> Forall plain a.
Proof.
  intros (Oh & Pi & Pv & Os & Lr & Lf & Lu & Lrd & Lc & Lw) A. destruct (in_lines_form i a A) as (raw & fi & u & rd & w & Er & Ef & Eu & Erd & Ew & ->).
  pose proof (disasm_plain _ _ Lr Er). pose proof (disasm_plain _ _ Lf Ef). pose proof (disasm_plain _ _ Lu Eu). pose proof (id_plain _ Oh). pose proof (hex_plain _ Os).
  assert (T : forall n, plain (int_text n ++ [44])) by (intros n; apply plain_app; split; [apply int_text_plain|repeat constructor; discriminate]).
  assert (Q : forall name x, plain (str_bytes name) -> plain x -> plain (infield name (quoted x))) by (intros; apply field_plain; [now apply str_plain_dec|assumption|now apply quoted_plain]).
  apply Forall_app. split; [|apply Forall_app; split; [|apply Forall_app; split]].
  - repeat (constructor; [first [now apply str_plain_dec | apply Q; [now apply str_plain_dec|assumption] | apply field_plain; [now apply str_plain_dec|now apply str_plain_dec|apply T]]|]). constructor.
  - destruct (ti_redeem i) as [r|]; [|subst rd; constructor]. destruct Erd as (s & Es & ->). pose proof (disasm_plain _ _ (Lrd r eq_refl) Es). pose proof (hex_plain r (proj1 (proj1 (Lrd r eq_refl)))).
    repeat (constructor; [apply Q; [now apply str_plain_dec|assumption]|]). constructor.
  - repeat (constructor; [apply Q; [now apply str_plain_dec|assumption]|]). constructor.
  - destruct (ti_code i) as [c|]; [|subst w; constructor]. destruct Ew as (w1 & ws & Hw & ->). rewrite Hw in Lw. inversion Lw as [|? ? Ow _]; subst. pose proof (hex_plain w1 Ow). pose proof (hex_plain c (Lc c eq_refl)).
    constructor; [apply Q; [now apply str_plain_dec|assumption]|]. constructor; [|constructor]. apply field_plain; [now apply str_plain_dec|now apply str_plain_dec|]. rewrite !plain_app. repeat split; auto; repeat constructor; discriminate.
Qed.
Lemma closing_plain {A} (r : list A) : plain (closing r).
Proof. unfold closing. destruct r; now apply str_plain_dec. Qed.
Lemma ins_plain : forall l a, Forall in_legible l -> ins_lines et l = Ok a -> Forall plain a.
Proof.
  induction l as [|i l IH]; intros a L A; cbn [ins_lines] in A; [injection A as <-; constructor|]. inversion L as [|? ? Li Ll]; subst. apply rbind_ok in A. destruct A as (a1 & A1 & A). apply rbind_ok in A. destruct A as (a2 & A2 & A). injection A as <-.
  apply Forall_app. split; [exact (in_plain i a1 Li A1)|]. constructor; [apply closing_plain|exact (IH a2 Ll A2)].
Qed.
Lemma outs_plain : forall l a, Forall out_legible l -> outs_lines et l = Ok a -> Forall plain a.
Proof.
  induction l as [|o l IH]; intros a L A; cbn [outs_lines] in A; [injection A as <-; constructor|]. inversion L as [|? ? [Lv Ls] Ll]; subst. apply rbind_ok in A. destruct A as (a1 & A1 & A). apply rbind_ok in A. destruct A as (a2 & A2 & A). injection A as <-.
  pose proof (disasm_plain _ _ Ls A1).
  constructor; [now apply str_plain_dec|]. constructor; [apply field_plain; [now apply str_plain_dec|now apply str_plain_dec|]; apply plain_app; split; [apply int_text_plain|repeat constructor; discriminate]|].
  constructor; [|constructor; [apply closing_plain|exact (IH a2 Ll A2)]]. apply field_plain; [now apply str_plain_dec|now apply str_plain_dec|]. constructor; [discriminate|]. apply plain_app. split; [assumption|]. repeat constructor; discriminate.
Qed.
Lemma sums_plain t : Forall plain (sums t).
Proof.
  unfold sums. repeat (constructor; [apply field_plain; [now apply str_plain_dec|now apply str_plain_dec|apply plain_app; split; [first [apply int_text_plain|apply fixed2_plain]|now apply str_plain_dec]]|]). constructor.
Qed.
Lemma text_shows t u s : tx_legible t -> tx_legible u -> ToString et t = Ok s -> ToString et u = Ok s -> map shown (tx_ins t) = map shown (tx_ins u) /\ tx_outs t = tx_outs u.
Proof.
  intros [Lt Ot] [Lu Ou] A B. unfold ToString in A, B. apply rbind_ok in A. destruct A as (a1 & A1 & A). apply rbind_ok in A. destruct A as (a2 & A2 & A). apply rbind_ok in B. destruct B as (b1 & B1 & B). apply rbind_ok in B. destruct B as (b2 & B2 & B).
  assert (E : JoinLines ([10 :: str_bytes "{"; str_bytes "  ""inputs"":["] ++ a1 ++ [str_bytes "  ],"; str_bytes "  ""outputs"":["] ++ a2 ++ [str_bytes "  ],"] ++ sums t ++ [str_bytes "}" ++ [10]]) =
    JoinLines ([10 :: str_bytes "{"; str_bytes "  ""inputs"":["] ++ b1 ++ [str_bytes "  ],"; str_bytes "  ""outputs"":["] ++ b2 ++ [str_bytes "  ],"] ++ sums u ++ [str_bytes "}" ++ [10]])) by congruence. clear A B.
  pose proof (ins_plain _ _ Lt A1) as Pa1. pose proof (ins_plain _ _ Lu B1) as Pb1. pose proof (outs_plain _ _ Ot A2) as Pa2. pose proof (outs_plain _ _ Ou B2) as Pb2.
  assert (N : forall p q v, let r := p ++ [str_bytes "  ],"; str_bytes "  ""outputs"":["] ++ q ++ [str_bytes "  ],"] ++ sums v in
    JoinLines ([10 :: str_bytes "{"; str_bytes "  ""inputs"":["] ++ p ++ [str_bytes "  ],"; str_bytes "  ""outputs"":["] ++ q ++ [str_bytes "  ],"] ++ sums v ++ [str_bytes "}" ++ [10]]) = 10 :: JoinLines (([str_bytes "{"; str_bytes "  ""inputs"":["] ++ r) ++ [str_bytes "}"]) ++ [10]).
  { intros p q v r. replace ([10 :: str_bytes "{"; str_bytes "  ""inputs"":["] ++ p ++ [str_bytes "  ],"; str_bytes "  ""outputs"":["] ++ q ++ [str_bytes "  ],"] ++ sums v ++ [str_bytes "}" ++ [10]]) with (([10 :: str_bytes "{"; str_bytes "  ""inputs"":["] ++ r) ++ [str_bytes "}" ++ [10]]) by (unfold r; rewrite <- ?app_assoc; cbn [app]; rewrite <- ?app_assoc; reflexivity).
    rewrite join_last by discriminate. reflexivity. }
  rewrite !N in E. clear N. apply cons_eq in E. destruct E as [_ E]. apply app_inv_tail in E.
  apply join_lines_inj in E; [| | |discriminate|discriminate].
  - apply app_inv_tail in E. apply app_inv_head in E. cbn [app] in E. destruct (ins_cut _ _ _ _ _ _ Lt Lu A1 B1 E) as [S E']. split; [exact S|]. cut E' X. exact (outs_cut _ _ _ _ _ _ Ot Ou A2 B2 E').
  - repeat (apply Forall_app; split); auto using sums_plain; repeat (constructor; [now apply str_plain_dec|]); constructor.
  - repeat (apply Forall_app; split); auto using sums_plain; repeat (constructor; [now apply str_plain_dec|]); constructor.
Qed.

(** ** What it does not show. *)
Lemma in_lines_seq i q : in_lines et (MkIn (ti_hash i) (ti_index i) (ti_value i) q (ti_sighash i) (ti_redeem i) (ti_witness i) (ti_code i) (ti_rawlock i) (ti_finallock i) (ti_unlock i)) = in_lines et i.
Proof. reflexivity. Qed.
Lemma retimed_text v l q t : ToString et (retimed v l q t) = ToString et t.
Proof.
  assert (I : ins_lines et (tx_ins (retimed v l q t)) = ins_lines et (tx_ins t)).
  { cbn [retimed tx_ins]. induction (tx_ins t) as [|i r IH]; [reflexivity|]. cbn [map ins_lines]. rewrite in_lines_seq, IH. destruct r; reflexivity. }
  assert (M : forall f : TxIn -> Z, (forall i q, f (MkIn (ti_hash i) (ti_index i) (ti_value i) q (ti_sighash i) (ti_redeem i) (ti_witness i) (ti_code i) (ti_rawlock i) (ti_finallock i) (ti_unlock i)) = f i) -> map f (tx_ins (retimed v l q t)) = map f (tx_ins t)).
  { intros f H. cbn [retimed tx_ins]. rewrite map_map. apply map_ext. intros i. apply H. }
  assert (Bs : BaseSize (retimed v l q t) = BaseSize t). { unfold BaseSize. rewrite M by reflexivity. cbn [retimed tx_ins tx_outs]. unfold len. rewrite map_length. reflexivity. }
  assert (Hw : HasWitness (retimed v l q t) = HasWitness t). { clear. unfold HasWitness. cbn [retimed tx_ins]. induction (tx_ins t) as [|i r IH]; [reflexivity|]. cbn [map existsb]. now rewrite IH. }
  assert (Ws : WitnessSize (retimed v l q t) = WitnessSize t). { unfold WitnessSize. rewrite Hw, M by reflexivity. reflexivity. }
  assert (Fe : Fees (retimed v l q t) = Fees t). { unfold Fees. rewrite M by reflexivity. reflexivity. }
  assert (Su : sums (retimed v l q t) = sums t). { unfold sums, Vsize, Weight, Size. rewrite Bs, Ws, Fe. reflexivity. }
  unfold ToString. rewrite I, Su. reflexivity.
Qed.
End Show.

Section Unsigned.
Variable Hash160 sha256 DS : bytes -> bytes.
Variable prvkey : Type.
Variable PubKeyBytes : prvkey -> bool -> bytes.
Variable EcdsaSign : prvkey -> bytes -> res bytes.
Variable et : string -> bytes.
(** Built without signing, a coin locked by a witness key hash leaves an input without witness. *)
Lemma unsigned_panics cs b t h : ~ In (CSign prvkey) cs -> do_calls prvkey cs (NewTransactionBuilder prvkey) = Ok b -> BuildTransaction Hash160 sha256 DS prvkey PubKeyBytes EcdsaSign b = Ok t -> bytes_ok h -> len h = 20 ->
  Exists (fun c => hex_decode (coin_script c) = Ok (p2wpkh_script h)) (said_coins prvkey cs) -> ToString et t = Panic.
Proof.
  intros Ns E Bt O Lh Ex. apply to_string_panic. destruct (state_said prvkey cs) as (b' & E' & C & _). assert (b' = b) as -> by congruence. rewrite new_state in E.
  assert (Sg : b_sign prvkey b = false).
  { destruct (b_sign prvkey b) eqn:Q; [|reflexivity]. exfalso. assert (Eb : b = with_groups prvkey (gf prvkey (empty_group prvkey) cs) (fold_left (other prvkey) cs (NewTransactionBuilder prvkey))) by congruence. rewrite Eb in Q. cbn [with_groups b_sign] in Q. apply (said_sign prvkey cs (NewTransactionBuilder prvkey)) in Q. destruct Q as [Q|Q]; [discriminate|exact (Ns Q)]. }
  clear E E' Ns. unfold BuildTransaction in Bt. apply rbind_ok in Bt. destruct Bt as (a & Ga & Bt). destruct (len (ga_txins prvkey a) =? 0); [discriminate|]. destruct (len (ga_txouts prvkey a) =? 0); [discriminate|]. destruct (b_maxFees prvkey b <? _); [discriminate|].
  destruct (ga_in prvkey a <? _); [discriminate|]. destruct (i64 _ <? 0); [discriminate|]. apply rbind_ok in Bt. destruct Bt as (ch & _ & Bt). rewrite Sg in Bt. assert (t = assemble prvkey b a ch) as -> by congruence. rewrite assemble_spec. cbn [tx_ins].
  destruct (gather_spec Hash160 sha256 DS prvkey EcdsaSign _ _ _ Ga) as ((l & L & F) & _). cbn [ga_txins app] in L. fold (coins prvkey b) in F. rewrite C in F. rewrite L. clear - F Ex O Lh sha256 DS PubKeyBytes EcdsaSign. revert F Ex. generalize (said_coins prvkey cs). intros cl F Ex.
  induction F as [|c i cl is H F IH]; [inversion Ex|]. inversion Ex as [? ? X|? ? X]; subst; [|now right; apply IH]. left. destruct H as (sc & rd & _ & Hs & N). assert (sc = p2wpkh_script h) as -> by congruence.
  unfold NewTxIn in N. change (p2wpkh_script h) with (template (P2WPKH h)) in N. rewrite (parse_of (P2WPKH h) O Lh) in N. cbn [rbind] in N. injection N as <-. split; [cbn [ti_code GetWitnessScriptCode]; discriminate|reflexivity].
Qed.
End Unsigned.

(** The line of the fee. *)
Lemma join_cons a l : l <> [] -> JoinLines (a :: l) = a ++ 10 :: JoinLines l.
Proof. destruct l; [congruence|reflexivity]. Qed.
Lemma join_line : forall l1 x l2, l1 <> [] -> l2 <> [] -> has_line (JoinLines (l1 ++ x :: l2)) x.
Proof.
  induction l1 as [|a l1 IH]; intros x l2 N1 N2; [congruence|]. destruct l1 as [|b l1].
  - cbn [app]. rewrite join_cons by discriminate. rewrite join_cons by exact N2. exists a, (JoinLines l2). reflexivity.
  - destruct (IH x l2 ltac:(discriminate) N2) as (p & q & E). change ((a :: b :: l1) ++ x :: l2) with (a :: (b :: l1) ++ x :: l2). rewrite join_cons by discriminate. rewrite E. exists (a ++ 10 :: p), q. rewrite <- app_assoc. reflexivity.
Qed.
Lemma int_text_decimal n : 0 <= n -> decimal (int_text n) n.
Proof.
  intros P. unfold int_text. replace (n <? 0) with false by lia. destruct (nat_text_spec n P) as [V F]. split; [|split; assumption]. unfold nat_text. cbn [digits_of]. destruct (n <? 10); [discriminate|]. intros E. apply app_eq_nil in E. now destruct E.
Qed.
Lemma fee_line et t s : 0 <= sumZ (map to_value (tx_outs t)) <= sumZ (map ti_value (tx_ins t)) -> sumZ (map ti_value (tx_ins t)) < 2 ^ 63 -> ToString et t = Ok s ->
  exists d, decimal d (sumZ (map ti_value (tx_ins t)) - sumZ (map to_value (tx_outs t))) /\ has_line s (str_bytes "  ""fees"":" ++ 9 :: d ++ str_bytes " sat,").
Proof.
  intros R L E. unfold ToString in E. apply rbind_ok in E. destruct E as (ins & _ & E). apply rbind_ok in E. destruct E as (outs & _ & E). match type of E with Ok ?x = Ok s => assert (Es : s = x) by congruence end. rewrite Es. clear E Es.
  assert (Fe : Fees t = sumZ (map ti_value (tx_ins t)) - sumZ (map to_value (tx_outs t))) by (unfold Fees; rewrite (u64_id (sumZ (map ti_value _))), (u64_id (sumZ (map to_value _))) by lia; rewrite u64_id by lia; apply i64_id; lia).
  exists (int_text (Fees t)). split; [rewrite <- Fe; apply int_text_decimal; lia|].
  match goal with |- has_line (JoinLines ?l) ?x => assert (X : exists l1 l2, l = l1 ++ x :: l2 /\ l1 <> [] /\ l2 <> []) end.
  { unfold sums. eexists (_ :: _ :: ins ++ _ :: _ :: outs ++ [_; _; _; _; _; _]), [_; _; _]. split; [|split; discriminate]. cbn [app]. rewrite <- !app_assoc. cbn [app]. rewrite <- !app_assoc. cbn [app]. reflexivity. }
  destruct X as (l1 & l2 & -> & N1 & N2). now apply join_line.
Qed.
