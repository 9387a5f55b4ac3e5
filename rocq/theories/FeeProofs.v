(** EstimateFees in floating point against the exact quotient. *)
From Coq Require Import Reals Lra Psatz.
From Flocq Require Import Core BinarySingleNaN Relative.
From Coq Require Import SpecFloat.
From Verif Require Import GoBase BuilderModel.
From Coq Require Import ZifyBool.
Local Open Scope Z_scope.

Definition hp : Prec_gt_0 53 := eq_refl.
Definition hm : Prec_lt_emax 53 1024 := eq_refl.
#[local] Existing Instances hp hm.
Notation b64 := (binary_float 53 1024).
Notation rnd := (round radix2 (FLT_exp (-1074) 53) ZnearestE).

(** The library's operations are those of Flocq. *)
Lemma aux_equiv sx mx ex lx : SpecFloat.binary_round_aux 53 1024 sx mx ex lx = BinarySingleNaN.binary_round_aux 53 1024 mode_NE sx mx ex lx.
Proof.
  unfold SpecFloat.binary_round_aux, BinarySingleNaN.binary_round_aux. set (mrse' := shr_fexp _ _ _ _ _). destruct mrse' as [mrs' e']. cbv zeta beta iota.
  assert (X : forall m l, round_nearest_even m l = choice_mode mode_NE sx m l) by (intros m [|[| |]]; try reflexivity; cbn; unfold Round.cond_incr; destruct (Z.even m); reflexivity).
  rewrite X. reflexivity.
Qed.
Lemma float_equiv x : float_of x = B2SF (BinarySingleNaN.binary_normalize 53 1024 hp hm mode_NE x 0 false).
Proof.
  unfold float_of. destruct x as [|p|p]; [reflexivity| |]; cbn [SpecFloat.binary_normalize BinarySingleNaN.binary_normalize]; rewrite B2SF_SF2B;
    unfold SpecFloat.binary_round, BinarySingleNaN.binary_round, shl_align_fexp; destruct (shl_align _ _ _) as [mz ez]; apply aux_equiv.
Qed.
Lemma div_equiv (x y : b64) : fdiv (B2SF x) (B2SF y) = B2SF (Bdiv mode_NE x y).
Proof.
  destruct x as [sx|sx| |sx mx ex Bx], y as [sy|sy| |sy my ey By]; try reflexivity. cbn [fdiv B2SF Bdiv SFdiv]. unfold fdiv, SFdiv. rewrite B2SF_SF2B.
  destruct (SFdiv_core_binary _ _ _ _ _ _) as [[mz ez] lz]. apply aux_equiv.
Qed.
Lemma mul_equiv (x y : b64) : fmul (B2SF x) (B2SF y) = B2SF (Bmult mode_NE x y).
Proof. destruct x as [sx|sx| |sx mx ex Bx], y as [sy|sy| |sy my ey By]; try reflexivity. unfold fmul. cbn [B2SF SFmul Bmult]. rewrite B2SF_SF2B. apply aux_equiv. Qed.

Lemma fexp_eq : SpecFloat.fexp 53 1024 = FLT_exp (-1074) 53. Proof. reflexivity. Qed.
Lemma float_exact x : 0 <= x < 2 ^ 53 -> let f := BinarySingleNaN.binary_normalize 53 1024 hp hm mode_NE x 0 false in B2R f = IZR x /\ is_finite f = true /\ Bsign f = false.
Proof.
  intros H f. pose proof (binary_normalize_correct 53 1024 hp hm mode_NE x 0 false) as C. cbv zeta in C.
  assert (Ex : F2R (Float radix2 x 0) = IZR x) by (unfold F2R; cbn; lra). rewrite Ex in C.
  assert (G : generic_format radix2 (SpecFloat.fexp 53 1024) (IZR x)).
  { apply generic_format_FLT. exists (Float radix2 x 0); [symmetry; exact Ex| |]; cbn [Fnum Fexp]; [change (Zpower radix2 53) with (2 ^ 53); lia|discriminate]. }
  rewrite round_generic in C by (auto with typeclass_instances).
  assert (P : (0 <= IZR x)%R) by (apply IZR_le; lia).
  rewrite Rlt_bool_true in C.
  - destruct C as (C1 & C2 & C3). split; [exact C1|]. split; [exact C2|]. fold f in C3. rewrite C3. destruct (Z.eq_dec x 0) as [->|N]; [now rewrite Rcompare_Eq|].
    rewrite Rcompare_Gt; [reflexivity|]. apply IZR_lt. lia.
  - rewrite Rabs_pos_eq by exact P. apply Rlt_trans with (IZR (2 ^ 53)); [apply IZR_lt; lia|]. change (2 ^ 53)%Z with (Zpower radix2 53). rewrite IZR_Zpower by lia. apply bpow_lt. lia.
Qed.

(** int64(v) of a finite non-negative v. *)
Lemma int_of_floor (v : b64) : is_finite v = true -> (0 <= B2R v < IZR (2 ^ 63))%R -> int_of (B2SF v) = Zfloor (B2R v).
Proof.
  destruct v as [s|s| |s m e Hb]; intros Fin R; try discriminate; cbn [B2SF B2R int_of] in *; [now rewrite Zfloor_IZR|].
  assert (S0 : s = false). { destruct s; [|reflexivity]. exfalso. assert (F2R (Float radix2 (cond_Zopp true (Z.pos m)) e) < 0)%R by (apply F2R_lt_0; reflexivity). lra. }
  subst s. cbn [cond_Zopp] in *.
  assert (A : (if 0 <=? e then Z.pos m * 2 ^ e else Z.pos m / 2 ^ (- e)) = Zfloor (F2R (Float radix2 (Z.pos m) e))).
  { unfold F2R. cbn [Fnum Fexp]. destruct (0 <=? e) eqn:E.
    - rewrite <- IZR_Zpower by lia. rewrite <- mult_IZR, Zfloor_IZR. reflexivity.
    - replace (bpow radix2 e) with (/ IZR (2 ^ (- e)))%R.
      + rewrite <- Zfloor_div by (apply Z.pow_nonzero; lia). reflexivity.
      + change (2 ^ (- e))%Z with (Zpower radix2 (- e)). rewrite IZR_Zpower by lia. rewrite bpow_opp, Rinv_inv. reflexivity. }
  rewrite A. destruct R as [R1 R2]. assert (B1 : 0 <= Zfloor (F2R (Float radix2 (Z.pos m) e))) by (apply Zfloor_lub; exact R1).
  assert (B2 : Zfloor (F2R (Float radix2 (Z.pos m) e)) < 2 ^ 63). { apply lt_IZR. eapply Rle_lt_trans; [apply Zfloor_lb|exact R2]. }
  replace ((- 2 ^ 63 <=? _) && (_ <? 2 ^ 63)) with true by (symmetry; apply andb_true_intro; lia). reflexivity.
Qed.

(** The fee: the exact quotient rounded down, or one less when the quotient is a whole number. *)
Lemma round_near x : (/ IZR 1000 <= x)%R -> (Rabs (rnd x - x) <= / IZR (2 ^ 53) * x)%R.
Proof.
  intros H. assert (P : (0 < x)%R). { eapply Rlt_le_trans; [|exact H]. apply Rinv_0_lt_compat. apply IZR_lt. lia. }
  pose proof (relative_error_N_FLT radix2 (-1074) 53 eq_refl (fun n => negb (Z.even n)) x) as R. rewrite (Rabs_pos_eq x) in R by lra.
  replace (/ IZR (2 ^ 53))%R with (/ 2 * bpow radix2 (- 53 + 1))%R.
  - apply R. eapply Rle_trans; [|exact H]. apply Rle_trans with (bpow radix2 (-10)); [apply bpow_le; lia|]. change (bpow radix2 (-10)) with (/ IZR 1024)%R. apply Rinv_le; [apply IZR_lt; lia|apply IZR_le; lia].
  - change (bpow radix2 (- 53 + 1)) with (/ IZR (2 ^ 52))%R. change (IZR (2 ^ 53)) with (IZR (2 * 2 ^ 52)). rewrite mult_IZR, Rinv_mult. reflexivity.
Qed.

Lemma fee_near size rate : 0 < rate < 2 ^ 53 -> 0 < size < 2 ^ 53 -> rate * size < 1000 * 2 ^ 42 -> exists v : R, EstimateFees size rate = Zfloor v /\ (Rabs (v - IZR (rate * size) / IZR 1000) < / IZR 1000)%R.
Proof.
  intros Hr Hs Hq. unfold EstimateFees. replace (0 <? rate) with true by lia. rewrite !float_equiv.
  destruct (float_exact rate ltac:(lia)) as (Vr & Fr & Sr). destruct (float_exact 1000 ltac:(lia)) as (Vk & Fk & Sk). destruct (float_exact size ltac:(lia)) as (Vs & Fs & Ss). cbv zeta in *.
  set (fr := BinarySingleNaN.binary_normalize 53 1024 hp hm mode_NE rate 0 false) in *. set (fk := BinarySingleNaN.binary_normalize 53 1024 hp hm mode_NE 1000 0 false) in *. set (fs := BinarySingleNaN.binary_normalize 53 1024 hp hm mode_NE size 0 false) in *. clearbody fr fk fs.
  rewrite div_equiv, mul_equiv.
  assert (Rp : (1 <= IZR rate < IZR (2 ^ 53))%R) by (split; [apply IZR_le|apply IZR_lt]; lia).
  assert (Sp : (1 <= IZR size < IZR (2 ^ 53))%R) by (split; [apply IZR_le|apply IZR_lt]; lia).
  assert (Qb : (IZR rate * IZR size < 1000 * IZR (2 ^ 42))%R) by (rewrite <- !mult_IZR; apply IZR_lt; lia).
  assert (Big : (IZR (2 ^ 62) < bpow radix2 1024)%R) by (change (2 ^ 62)%Z with (Zpower radix2 62); rewrite IZR_Zpower by lia; apply bpow_lt; lia).
  pose proof (Bdiv_correct 53 1024 hp hm mode_NE fr fk) as D. rewrite Vr, Vk in D. specialize (D ltac:(apply not_0_IZR; lia)). cbn [round_mode] in D. rewrite fexp_eq in D.
  set (q := (IZR rate / IZR 1000)%R) in *. assert (Hq1 : (/ IZR 1000 <= q)%R). { unfold q, Rdiv. rewrite <- (Rmult_1_l (/ IZR 1000)) at 1. apply Rmult_le_compat_r; [apply Rlt_le, Rinv_0_lt_compat, IZR_lt; lia|lra]. }
  assert (Hq2 : (q < IZR (2 ^ 53))%R) by (unfold q; lra).
  pose proof (round_near q Hq1) as N1. set (d := rnd q) in *. clearbody d.
  assert (Hd : (0 < d <= 2 * q)%R). { apply Rabs_le_inv in N1. assert ((/ IZR (2 ^ 53) * q <= / 2 * q)%R) by (apply Rmult_le_compat_r; [lra|]; apply Rinv_le; [lra|apply IZR_le; lia]). assert (0 < / IZR 1000)%R by (apply Rinv_0_lt_compat, IZR_lt; lia). lra. }
  rewrite Rlt_bool_true in D.
  2: { rewrite Rabs_pos_eq by lra. eapply Rlt_trans; [|exact Big]. change (IZR (2 ^ 62)) with (IZR (512 * 2 ^ 53)). rewrite mult_IZR. lra. }
  destruct D as (Dv & Df & _). rewrite Fr in Df. set (fd := Bdiv mode_NE fr fk) in *. clearbody fd.
  pose proof (Bmult_correct 53 1024 hp hm mode_NE fd fs) as M. rewrite Dv, Vs in M. cbn [round_mode] in M. rewrite fexp_eq in M.
  set (p := (d * IZR size)%R) in *.
  assert (Hqs : (q * IZR size = IZR (rate * size) / IZR 1000)%R) by (unfold q; rewrite mult_IZR; field).
  assert (Hqb : (q * IZR size < IZR (2 ^ 42))%R) by (rewrite Hqs, mult_IZR; apply Rmult_lt_reg_r with (IZR 1000); [apply IZR_lt; lia|]; unfold Rdiv; rewrite Rmult_assoc, Rinv_l, Rmult_1_r by (apply not_0_IZR; lia); lra).
  assert (E1 : (Rabs (p - q * IZR size) <= / IZR (2 ^ 53) * (q * IZR size))%R).
  { unfold p. rewrite <- Rmult_minus_distr_r, Rabs_mult, (Rabs_pos_eq (IZR size)) by lra. rewrite <- Rmult_assoc. apply Rmult_le_compat_r; [lra|exact N1]. }
  set (x := (q * IZR size)%R) in *. assert (Hx : (/ IZR 1000 <= x)%R). { unfold x. rewrite <- (Rmult_1_r (/ IZR 1000)). apply Rmult_le_compat; try lra. }
  assert (I53 : (/ IZR (2 ^ 53) * IZR (2 ^ 53) = 1)%R) by (apply Rinv_l, not_0_IZR; lia).
  assert (Ip : (0 < / IZR (2 ^ 53))%R) by (apply Rinv_0_lt_compat, IZR_lt; lia).
  assert (K : (/ IZR 1000 * IZR 1000 = 1)%R) by (apply Rinv_l, not_0_IZR; lia).
  assert (Xe : (/ IZR (2 ^ 53) * x < / IZR 2048)%R).
  { apply Rlt_le_trans with (/ IZR (2 ^ 53) * IZR (2 ^ 42))%R; [apply Rmult_lt_compat_l; assumption|]. change (IZR (2 ^ 53)) with (IZR (2048 * 2 ^ 42)). rewrite mult_IZR, Rinv_mult, Rmult_assoc, Rinv_l by (apply not_0_IZR; lia). lra. }
  apply Rabs_le_inv in E1.
  assert (P1 : (x / 2 <= p)%R). { assert ((/ IZR (2 ^ 53) * x <= / 2 * x)%R) by (apply Rmult_le_compat_r; [lra|]; apply Rinv_le; [lra|apply IZR_le; lia]). lra. }
  (* the second rounding, with an extra factor of 1 + 2^-53 *)
  assert (L2 : (p <= 2 * x)%R). { assert ((/ IZR (2 ^ 53) * x <= / 2 * x)%R) by (apply Rmult_le_compat_r; [lra|]; apply Rinv_le; [lra|apply IZR_le; lia]). lra. }
  assert (N2 : (Rabs (rnd p - p) <= / IZR (2 ^ 53) * p)%R).
  { pose proof (relative_error_N_FLT radix2 (-1074) 53 eq_refl (fun n => negb (Z.even n)) p) as R. rewrite (Rabs_pos_eq p) in R by lra.
    replace (/ IZR (2 ^ 53))%R with (/ 2 * bpow radix2 (- 53 + 1))%R.
    - apply R. apply Rle_trans with (x / 2)%R; [|exact P1]. apply Rle_trans with (bpow radix2 (-11)); [apply bpow_le; lia|]. change (bpow radix2 (-11)) with (/ IZR 2048)%R. apply Rle_trans with (/ IZR 1000 / 2)%R; [|lra]. unfold Rdiv. rewrite <- Rinv_mult. rewrite <- mult_IZR. apply Rinv_le; [apply IZR_lt; lia|apply IZR_le; lia].
    - change (bpow radix2 (- 53 + 1)) with (/ IZR (2 ^ 52))%R. change (IZR (2 ^ 53)) with (IZR (2 * 2 ^ 52)). rewrite mult_IZR, Rinv_mult. reflexivity. }
  set (w := rnd p) in *. clearbody w.
  assert (Pe : (/ IZR (2 ^ 53) * p <= / IZR 2048 + / IZR (2 ^ 53))%R).
  { apply Rle_trans with (/ IZR (2 ^ 53) * (x + 1))%R; [apply Rmult_le_compat_l; [lra|]|rewrite Rmult_plus_distr_l; lra]. assert ((/ IZR 2048 < 1)%R) by (rewrite <- Rinv_1; apply Rinv_lt_contravar; lra). lra. }
  apply Rabs_le_inv in N2.
  assert (T : (/ IZR 2048 + (/ IZR 2048 + / IZR (2 ^ 53)) < / IZR 1000)%R) by (change (2 ^ 53) with 9007199254740992; lra).
  exists w. rewrite Rlt_bool_true in M.
  - destruct M as (Mv & Mf & _). rewrite Df, Fs in Mf. rewrite int_of_floor; [rewrite Mv; split; [reflexivity|]|exact Mf|].
    + rewrite <- Hqs. apply Rabs_lt. lra.
    + rewrite Mv. assert (/ IZR 1000 < 1)%R by (rewrite <- Rinv_1; apply Rinv_lt_contravar; lra). split; [|change (IZR (2 ^ 63)) with (IZR (2097152 * 2 ^ 42)); rewrite mult_IZR; lra].
      assert ((/ IZR (2 ^ 53) * p <= p)%R) by (rewrite <- (Rmult_1_l p) at 2; apply Rmult_le_compat_r; [lra|]; rewrite <- Rinv_1; apply Rinv_le; lra). lra.
  - assert (/ IZR 1000 < 1)%R by (rewrite <- Rinv_1; apply Rinv_lt_contravar; lra). assert ((/ IZR (2 ^ 53) * p <= p)%R) by (rewrite <- (Rmult_1_l p) at 2; apply Rmult_le_compat_r; [lra|]; rewrite <- Rinv_1; apply Rinv_le; lra).
    rewrite Rabs_pos_eq by lra. eapply Rlt_trans; [|exact Big]. change (IZR (2 ^ 62)) with (IZR (1048576 * 2 ^ 42)). rewrite mult_IZR. lra.
Qed.

Lemma fee_exact size rate : 0 < rate < 2 ^ 53 -> 0 < size < 2 ^ 53 -> rate * size < 1000 * 2 ^ 42 ->
  EstimateFees size rate = rate * size / 1000 \/ (rate * size) mod 1000 = 0 /\ EstimateFees size rate = rate * size / 1000 - 1.
Proof.
  intros Hr Hs Hq. destruct (fee_near size rate Hr Hs Hq) as (v & -> & N). set (x := rate * size) in *. clearbody x. apply Rabs_lt_inv in N.
  pose proof (Z.div_mod x 1000 ltac:(lia)) as Dm. pose proof (Z.mod_pos_bound x 1000 ltac:(lia)) as Mb. set (f := x / 1000) in *. set (r := x mod 1000) in *. clearbody f r.
  assert (Ex : (IZR x = 1000 * IZR f + IZR r)%R) by (rewrite Dm, plus_IZR, mult_IZR; reflexivity).
  assert (Rb : (0 <= IZR r <= 999)%R) by (split; apply IZR_le; lia).
  assert (Up : (v < IZR f + 1)%R) by lra.
  assert (Lo : (IZR f - 1 <= v)%R) by lra.
  assert (U2 : Zfloor v < f + 1). { apply lt_IZR. rewrite plus_IZR. eapply Rle_lt_trans; [apply Zfloor_lb|exact Up]. }
  assert (L2 : f - 1 <= Zfloor v). { apply Zfloor_lub. rewrite minus_IZR. exact Lo. }
  destruct (Z.eq_dec r 0) as [R0|R0]; [lia|]. left. assert (1 <= IZR r)%R by (apply IZR_le; lia). assert (f <= Zfloor v) by (apply Zfloor_lub; lra). lia.
Qed.
