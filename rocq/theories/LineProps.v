(** C164: the fee rate in the text of a transaction. *)
From Coq Require Import Reals Lra Psatz.
From Flocq Require Import Core BinarySingleNaN Relative.
From Coq Require Import SpecFloat.
From Verif Require Import GoBase BaseLemmas VmProofs BufferModel BufferSpec ScriptModel ScriptSpec HexModel AddressModel LockModel LockSpec TxModel TxSpec TxProofs TxProps TxSignSpec TxSign TxSignProps BuilderModel BuilderSpec BuilderProps ShowModel ShowSpec ShowProofs FeeProofs ShowProps.
From Coq Require Import ZifyBool.
Local Open Scope Z_scope.

Lemma round_even_near p q : 0 < q -> 2 * Z.abs (round_even p q * q - p) <= q.
Proof.
  intros Q. unfold round_even. pose proof (Z.div_mod p q ltac:(lia)) as D. pose proof (Z.mod_pos_bound p q Q) as B. set (n := p / q) in *. set (r := p mod q) in *. clearbody n r.
  destruct (2 * r <? q) eqn:E1; [nia|]. destruct (2 * r =? q) eqn:E2; [destruct (Z.even n); nia|nia].
Qed.
Lemma text_decimal n : 0 <= n -> decimal (nat_text n) n.
Proof. intros P. pose proof (int_text_decimal n P) as H. unfold int_text in H. now replace (n <? 0) with false in H by lia. Qed.
(** Printing with two digits: the nearest hundredth of a finite value without sign. *)
Lemma fixed2_near (v : b64) : is_finite v = true -> Bsign v = false -> exists n d, 0 <= n /\ decimal d (n / 100) /\ fixed2 (B2SF v) = d ++ [46; 48 + n / 10 mod 10; 48 + n mod 10] /\ (Rabs (IZR n - 100 * B2R v) <= / 2)%R.
Proof.
  intros F S. destruct v as [s|s| |s m e Bm]; try discriminate F; cbn [Bsign] in S; subst s.
  - exists 0, [48]. split; [lia|]. split; [split; [discriminate|split; [repeat constructor; discriminate|reflexivity]]|]. split; [reflexivity|]. cbn [B2R]. rewrite Rmult_0_r, Rminus_0_r, Rabs_R0. lra.
  - cbn [B2SF fixed2 app]. set (n := if 0 <=? e then _ else _).
    assert (N : 0 <= n /\ (Rabs (IZR n - 100 * B2R (B754_finite false m e Bm)) <= / 2)%R).
    { cbn [B2R]. unfold F2R. cbn [Fnum Fexp cond_Zopp]. unfold n. destruct (0 <=? e) eqn:E.
      - split; [apply Z.mul_nonneg_nonneg; [lia|apply Z.pow_nonneg; lia]|]. rewrite !mult_IZR. change (2 ^ e)%Z with (Zpower radix2 e). rewrite IZR_Zpower by lia. rewrite Rmult_assoc. unfold Rminus. rewrite Rplus_opp_r, Rabs_R0. lra.
      - assert (Q : 0 < 2 ^ (- e)) by (apply Z.pow_pos_nonneg; lia). split; [apply round_even_pos; lia|].
        pose proof (round_even_near (100 * Z.pos m) (2 ^ (- e)) Q) as H. set (k := round_even _ _) in *. clearbody k.
        assert (B : bpow radix2 e = (/ IZR (2 ^ (- e)))%R). { change (2 ^ (- e))%Z with (Zpower radix2 (- e)). rewrite IZR_Zpower by lia. rewrite bpow_opp, Rinv_inv. reflexivity. }
        rewrite B. set (q := 2 ^ (- e)) in *. clearbody q. assert (Qp : (0 < IZR q)%R) by (apply IZR_lt; lia).
        replace (IZR k - 100 * (IZR (Z.pos m) * / IZR q))%R with (IZR (k * q - 100 * Z.pos m) * / IZR q)%R by (rewrite minus_IZR, !mult_IZR; field; lra).
        rewrite Rabs_mult, (Rabs_pos_eq (/ IZR q)) by (apply Rlt_le, Rinv_0_lt_compat; exact Qp). rewrite <- abs_IZR. apply IZR_le in H. rewrite mult_IZR in H.
        apply Rmult_le_reg_r with (IZR q); [exact Qp|]. rewrite Rmult_assoc, Rinv_l by lra. lra. }
    destruct N as [N1 N2]. exists n, (nat_text (n / 100)). split; [exact N1|]. split; [apply text_decimal, Z.div_pos; lia|]. split; [reflexivity|exact N2].
Qed.
Lemma quotient_near a b : 0 <= a -> 200 * a < 2 ^ 53 -> 0 < b < 2 ^ 53 -> exists n d, 0 <= n /\ decimal d (n / 100) /\
  fixed2 (fdiv (float_of a) (float_of b)) = d ++ [46; 48 + n / 10 mod 10; 48 + n mod 10] /\ 2 * Z.abs (n * b - 100 * a) <= b.
Proof.
  intros A A2 B. rewrite !float_equiv. destruct (float_exact a ltac:(lia)) as (Va & Fa & Sa). destruct (float_exact b ltac:(lia)) as (Vb & Fb & Sb). cbv zeta in *.
  set (fa := BinarySingleNaN.binary_normalize 53 1024 hp hm mode_NE a 0 false) in *. set (fb := BinarySingleNaN.binary_normalize 53 1024 hp hm mode_NE b 0 false) in *. clearbody fa fb. rewrite div_equiv.
  assert (Bp : (1 <= IZR b < IZR (2 ^ 53))%R) by (split; [apply IZR_le|apply IZR_lt]; lia). assert (Ap : (0 <= IZR a)%R) by (apply IZR_le; lia).
  assert (Ab : (200 * IZR a < IZR (2 ^ 53))%R) by (rewrite <- mult_IZR; apply IZR_lt; lia).
  pose proof (Bdiv_correct 53 1024 hp hm mode_NE fa fb) as D. rewrite Va, Vb in D. specialize (D ltac:(apply not_0_IZR; lia)). cbn [round_mode] in D. rewrite fexp_eq in D.
  set (q := (IZR a / IZR b)%R) in *.
  assert (Qb : (q * IZR b = IZR a)%R) by (unfold q; field; lra).
  assert (Q0 : (0 <= q)%R) by (unfold q; apply Rmult_le_pos; [lra|apply Rlt_le, Rinv_0_lt_compat; lra]).
  assert (Qa : (q <= IZR a)%R). { rewrite <- Qb. rewrite <- (Rmult_1_r q) at 1. apply Rmult_le_compat_l; lra. }
  assert (Ip : (0 < / IZR (2 ^ 53))%R) by (apply Rinv_0_lt_compat, IZR_lt; lia). assert (I53 : (/ IZR (2 ^ 53) * IZR (2 ^ 53) = 1)%R) by (apply Rinv_l, not_0_IZR; lia).
  assert (N : (Rabs (rnd q - q) <= / IZR (2 ^ 53) * q)%R).
  { destruct (Z.eq_dec a 0) as [->|Na]; [unfold q, Rdiv; rewrite !Rmult_0_l, round_0 by (auto with typeclass_instances); rewrite Rminus_0_r, Rabs_R0; lra|].
    assert (A1 : (1 <= IZR a)%R) by (apply IZR_le; lia).
    pose proof (relative_error_N_FLT radix2 (-1074) 53 eq_refl (fun n => negb (Z.even n)) q) as R. rewrite (Rabs_pos_eq q) in R by lra.
    replace (/ IZR (2 ^ 53))%R with (/ 2 * bpow radix2 (- 53 + 1))%R.
    - apply R. apply Rle_trans with (bpow radix2 (-53)); [apply bpow_le; lia|]. change (bpow radix2 (-53)) with (/ IZR (2 ^ 53))%R. unfold q, Rdiv. rewrite <- (Rmult_1_l (/ IZR (2 ^ 53))). apply Rmult_le_compat; [lra|lra|exact A1|apply Rinv_le; lra].
    - change (bpow radix2 (- 53 + 1)) with (/ IZR (2 ^ 52))%R. change (IZR (2 ^ 53)) with (IZR (2 * 2 ^ 52)). rewrite mult_IZR, Rinv_mult. reflexivity. }
  assert (Big : (IZR (2 ^ 62) < bpow radix2 1024)%R) by (change (2 ^ 62)%Z with (Zpower radix2 62); rewrite IZR_Zpower by lia; apply bpow_lt; lia).
  apply Rabs_le_inv in N. assert (Nq : (/ IZR (2 ^ 53) * q <= q)%R). { rewrite <- (Rmult_1_l q) at 2. apply Rmult_le_compat_r; [exact Q0|]. rewrite <- Rinv_1. apply Rinv_le; lra. }
  rewrite Rlt_bool_true in D.
  2: { rewrite Rabs_pos_eq by lra. eapply Rlt_trans; [|exact Big]. change (IZR (2 ^ 62)) with (IZR (512 * 2 ^ 53)). rewrite mult_IZR. lra. }
  destruct D as (Dv & Df & Ds). rewrite Fa in Df. set (fd := Bdiv mode_NE fa fb) in *.
  assert (Dn : Bsign fd = false). { rewrite Ds; [rewrite Sa, Sb; reflexivity|]. destruct fd; try reflexivity; discriminate Df. }
  clearbody fd. destruct (fixed2_near fd Df Dn) as (n & d & P & Dc & T & Nr). exists n, d. split; [exact P|]. split; [exact Dc|]. split; [exact T|].
  rewrite Dv in Nr. apply Rabs_le_inv in Nr. set (w := rnd q) in *. clearbody w.
  assert (X : (Rabs (IZR (n * b - 100 * a)) * 2 < IZR (b + 1))%R).
  { rewrite minus_IZR, !mult_IZR, plus_IZR, <- Qb.
    assert (Y : (/ IZR (2 ^ 53) * q * IZR b * 200 < 1)%R). { rewrite Rmult_assoc, Rmult_assoc. rewrite <- (Rmult_assoc q), Qb. apply Rlt_le_trans with (/ IZR (2 ^ 53) * IZR (2 ^ 53))%R; [apply Rmult_lt_compat_l; lra|lra]. }
    assert (Z1 : (Rabs (IZR n - 100 * q) <= / 2 + 100 * (/ IZR (2 ^ 53) * q))%R) by (apply Rabs_le; lra).
    replace (IZR n * IZR b - 100 * (q * IZR b))%R with ((IZR n - 100 * q) * IZR b)%R by ring. rewrite Rabs_mult, (Rabs_pos_eq (IZR b)) by lra.
    apply Rle_lt_trans with ((/ 2 + 100 * (/ IZR (2 ^ 53) * q)) * IZR b * 2)%R; [apply Rmult_le_compat_r; [lra|]; apply Rmult_le_compat_r; lra|]. lra. }
  rewrite <- abs_IZR in X. rewrite <- mult_IZR in X. apply lt_IZR in X. lia.
Qed.

Lemma rate_line : forall et t s, 0 <= Fees t -> 200 * Fees t < 2 ^ 53 -> 0 < Size t < 2 ^ 53 -> ToString et t = Ok s ->
  exists n d, 0 <= n /\ decimal d (n / 100) /\ 2 * Z.abs (n * Size t - 100 * Fees t) <= Size t /\
    has_line s (str_bytes "  ""feesperb"":" ++ 9 :: (d ++ [46; 48 + n / 10 mod 10; 48 + n mod 10]) ++ str_bytes " sat/B,").
Proof.
  intros et t s F0 F1 S E. destruct (quotient_near (Fees t) (Size t) F0 F1 S) as (n & d & P & D & T & N). exists n, d. split; [exact P|]. split; [exact D|]. split; [exact N|].
  unfold ToString in E. apply rbind_ok in E. destruct E as (ins & _ & E). apply rbind_ok in E. destruct E as (outs & _ & E). match type of E with Ok ?x = Ok s => assert (Es : s = x) by congruence end. rewrite Es. clear E Es.
  rewrite <- T.
  match goal with |- has_line (JoinLines ?l) ?x => assert (X : exists l1 l2, l = l1 ++ x :: l2 /\ l1 <> [] /\ l2 <> []) end.
  { unfold sums. eexists (_ :: _ :: ins ++ _ :: _ :: outs ++ [_; _; _; _; _; _; _]), [_; _]. split; [|split; discriminate]. cbn [app]. rewrite <- !app_assoc. cbn [app]. rewrite <- !app_assoc. cbn [app]. reflexivity. }
  destruct X as (l1 & l2 & -> & N1 & N2). now apply join_line.
Qed.

Lemma fees_sums t : 0 <= sumZ (map to_value (tx_outs t)) <= sumZ (map ti_value (tx_ins t)) -> sumZ (map ti_value (tx_ins t)) < 2 ^ 63 -> Fees t = sumZ (map ti_value (tx_ins t)) - sumZ (map to_value (tx_outs t)).
Proof. intros R L. unfold Fees; rewrite (u64_id (sumZ (map ti_value _))), (u64_id (sumZ (map to_value _))) by lia; rewrite u64_id by lia; apply i64_id; lia. Qed.
Lemma sumZ_pos {A} (f : A -> Z) : (forall x, 0 <= f x) -> forall l, 0 <= sumZ (map f l).
Proof. intros H. induction l as [|x l IH]; [cbn; lia|]. specialize (H x). unfold sumZ in *. cbn [map fold_right]. lia. Qed.
Lemma size_pos t : 0 < Size t.
Proof.
  assert (V : forall n, 0 <= VarIntSerializeSize n) by (intros n; unfold VarIntSerializeSize; repeat match goal with |- context [if ?c then _ else _] => destruct c end; lia).
  unfold Size, BaseSize, WitnessSize. pose proof (V (len (tx_ins t))). pose proof (V (len (tx_outs t))).
  match goal with |- context [sumZ (map ?f (tx_ins t))] => pose proof (sumZ_pos f ltac:(intros i; cbv beta; pose proof (V (len (ti_unlock i))); unfold len in *; lia) (tx_ins t)) end.
  match goal with |- context [sumZ (map ?f (tx_outs t))] => pose proof (sumZ_pos f ltac:(intros i; cbv beta; pose proof (V (len (to_script i))); unfold len in *; lia) (tx_outs t)) end.
  destruct (HasWitness t); [|lia].
  match goal with |- context [_ + sumZ (map ?f (tx_ins t))] => pose proof (sumZ_pos f ltac:(intros i; cbv beta; pose proof (V (len (ti_witness i))); apply Z.add_nonneg_nonneg; [assumption|]; apply sumZ_pos; intros w; pose proof (V (len w)); unfold len in *; lia) (tx_ins t)) end. lia.
Qed.
(** The text shows the rate: fee per byte to the nearest hundredth, in decimal digits with a point. *)
Definition shows_rate (s : bytes) (fee size : Z) : Prop :=
  exists n d, 0 <= n /\ decimal d (n / 100) /\ 2 * Z.abs (n * size - 100 * fee) <= size /\
    has_line s (str_bytes "  ""feesperb"":" ++ 9 :: (d ++ [46; 48 + n / 10 mod 10; 48 + n mod 10]) ++ str_bytes " sat/B,").
(** C164: the line of the fee rate shows the fee divided by the size the text gives (C35 says which that is) to the nearest
    hundredth, although the quotient is rounded before it is printed. *)
Theorem C164_rate_line_partial : forall et t s, 0 <= sumZ (map to_value (tx_outs t)) <= sumZ (map ti_value (tx_ins t)) -> 200 * sumZ (map ti_value (tx_ins t)) < 2 ^ 53 -> Size t < 2 ^ 53 -> ToString et t = Ok s ->
  shows_rate s (sumZ (map ti_value (tx_ins t)) - sumZ (map to_value (tx_outs t))) (Size t).
Proof. intros et t s R L S E. rewrite <- fees_sums by lia. apply (rate_line et); [rewrite fees_sums; lia|rewrite fees_sums; lia|split; [apply size_pos|exact S]|exact E]. Qed.
(** Without witness inputs that is the fee per byte of the transaction. *)
Theorem C164_rate_of_bytes_partial : forall et t s, tx_ok t -> Forall (fun i => ti_code i = None) (tx_ins t) -> len (Serialize t) < 2 ^ 53 ->
  0 <= sumZ (map to_value (tx_outs t)) <= sumZ (map ti_value (tx_ins t)) -> 200 * sumZ (map ti_value (tx_ins t)) < 2 ^ 53 -> ToString et t = Ok s ->
  shows_rate s (sumZ (map ti_value (tx_ins t)) - sumZ (map to_value (tx_outs t))) (len (Serialize t)).
Proof.
  intros et t s O F Lb R L E. destruct (C35_no_witness_sizes_partial t O F) as (_ & Z1 & _). rewrite <- Z1 in *. apply (C164_rate_line_partial et); assumption.
Qed.
Print Assumptions C164_rate_of_bytes_partial.
Print Assumptions C164_rate_line_partial.
(** With witness inputs it is not: the size leaves out two octets. *)
Fixpoint starts (p s : bytes) : option bytes := match p, s with [], _ => Some s | a :: p', b :: s' => if a =? b then starts p' s' else None | _ :: _, [] => None end.
Fixpoint finds (p s : bytes) : list bytes := (match starts p s with Some r => [r] | None => [] end) ++ match s with [] => [] | _ :: s' => finds p s' end.
Lemma starts_app : forall p r, starts p (p ++ r) = Some r.
Proof. induction p as [|a p IH]; intros r; [reflexivity|]. cbn [app starts]. now rewrite Z.eqb_refl, IH. Qed.
Lemma finds_in : forall a p r, In r (finds p (a ++ p ++ r)).
Proof.
  induction a as [|x a IH]; intros p r.
  - cbn [app]. destruct (p ++ r) eqn:E; cbn [finds]; rewrite <- E, starts_app; now left.
  - cbn [app finds]. apply in_or_app. right. apply IH.
Qed.
Lemma rate_tx_ok : tx_ok (show_tx [[3]]). Proof. tx_ok_tac. Qed.
Theorem C164_rate_refuted : exists et t s, tx_ok t /\ ToString et t = Ok s /\ 0 <= sumZ (map to_value (tx_outs t)) <= sumZ (map ti_value (tx_ins t)) /\ 200 * sumZ (map ti_value (tx_ins t)) < 2 ^ 53 /\
  ~ shows_rate s (sumZ (map ti_value (tx_ins t)) - sumZ (map to_value (tx_outs t))) (len (Serialize t)).
Proof.
  exists no_text, (show_tx [[3]]). eexists. split; [|split; [vm_compute; reflexivity|]].
  - exact rate_tx_ok.
  - split; [vm_compute; split; discriminate|]. split; [vm_compute; reflexivity|]. intros (n & d & P & (Dn & Dd & Dv) & N & (p & q & E)).
    change (sumZ (map ti_value (tx_ins (show_tx [[3]]))) - sumZ (map to_value (tx_outs (show_tx [[3]])))) with 100 in N. replace (len (Serialize (show_tx [[3]]))) with 90 in N by (vm_compute; reflexivity).
    set (pre := 10 :: str_bytes "  ""feesperb"":" ++ [9]).
    match type of E with ?s = _ => assert (I : In ((d ++ [46; 48 + n / 10 mod 10; 48 + n mod 10]) ++ str_bytes " sat/B," ++ 10 :: q) (finds pre s)) end.
    { rewrite E. match goal with |- In ?r (finds pre ?x) => replace x with (p ++ pre ++ r); [apply finds_in|] end. unfold pre. cbn [app]. rewrite <- !app_assoc. cbn [app]. rewrite <- !app_assoc. reflexivity. }
    clear E. match type of I with In ?r _ => remember r as R eqn:ER end. subst pre. vm_compute in I. destruct I as [I|[]]. rewrite <- I in ER. clear I R. rewrite <- app_assoc in ER.
    destruct d as [|d0 [|d1 d]]; [congruence| |].
    + cbn [app] in ER. assert (E0 : 49 = d0 /\ 49 = 48 + n / 10 mod 10 /\ 52 = 48 + n mod 10) by (repeat split; congruence). clear ER. destruct E0 as (<- & E1 & E2). cbn [fold_left] in Dv. Z.div_mod_to_equations. lia.
    + cbn [app] in ER. assert (E1 : 46 = d1) by congruence. subst d1. inversion Dd as [|? ? _ D1]. inversion D1. lia.
Qed.
Print Assumptions C164_rate_refuted.
Definition ex_legacy_pays : transaction := MkTx 1 0 [MkIn (repeat 5 32) 1 1000 0xffffffff [] None [] None (p2pkh_script (repeat 7 20)) (p2pkh_script (repeat 7 20)) [1; 9; 81]] [MkOut 900 (p2pkh_script (repeat 9 20))] None None None.
Example C164_example : (exists s, ToString no_text ex_legacy_pays = Ok s) /\ tx_ok ex_legacy_pays /\ Forall (fun i => ti_code i = None) (tx_ins ex_legacy_pays) /\ Fees ex_legacy_pays = 100 /\ len (Serialize ex_legacy_pays) = 88 /\
  fixed2 (fdiv (float_of 100) (float_of 88)) = str_bytes "1.14" /\ 2 * Z.abs (114 * 88 - 100 * 100) <= 88.
Proof. split; [eexists; vm_compute; reflexivity|]. split; [tx_ok_tac|]. split; [repeat constructor|]. vm_compute. repeat split; discriminate. Qed.
