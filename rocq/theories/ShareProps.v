(** C165, continued: the line on the share of the witness. *)
From Coq Require Import Reals Lra Psatz.
From Flocq Require Import Core BinarySingleNaN Relative.
From Coq Require Import SpecFloat.
From Verif Require Import GoBase BaseLemmas VmProofs BufferModel BufferSpec ScriptModel ScriptSpec HexModel AddressModel LockModel LockSpec TxModel TxSpec TxProofs TxProps TxSignSpec TxSign TxSignProps BuilderModel BuilderSpec BuilderProps ShowModel ShowSpec ShowProofs FeeProofs ShowProps LineProps SizesProps.
From Coq Require Import ZifyBool.
Local Open Scope Z_scope.

Lemma inv53 : (0 < / IZR (2 ^ 53))%R /\ (/ IZR (2 ^ 53) * IZR (2 ^ 53) = 1)%R /\ (/ IZR (2 ^ 53) <= / 2)%R.
Proof. split; [apply Rinv_0_lt_compat, IZR_lt; lia|]. split; [apply Rinv_l, not_0_IZR; lia|]. apply Rinv_le; [lra|]. apply IZR_le. lia. Qed.
Lemma rnd_near x : (x = 0 \/ bpow radix2 (-1022) <= x)%R -> (Rabs (rnd x - x) <= / IZR (2 ^ 53) * x)%R.
Proof.
  intros [->|P]; [rewrite round_0 by (auto with typeclass_instances); rewrite Rminus_0_r, Rabs_R0; lra|].
  pose proof (bpow_gt_0 radix2 (-1022)) as G. pose proof (relative_error_N_FLT radix2 (-1074) 53 eq_refl (fun n => negb (Z.even n)) x) as R. rewrite (Rabs_pos_eq x) in R by lra.
  replace (/ IZR (2 ^ 53))%R with (/ 2 * bpow radix2 (- 53 + 1))%R; [apply R; exact P|].
  change (bpow radix2 (- 53 + 1)) with (/ IZR (2 ^ 52))%R. change (IZR (2 ^ 53)) with (IZR (2 * 2 ^ 52)). rewrite mult_IZR, Rinv_mult. reflexivity.
Qed.
Lemma big_bound : (IZR (2 ^ 62) < bpow radix2 1024)%R.
Proof. change (2 ^ 62)%Z with (Zpower radix2 62); rewrite IZR_Zpower by lia; apply bpow_lt; lia. Qed.
Lemma sign_false (f : b64) : is_finite f = true -> is_nan f = false. Proof. destruct f; try reflexivity; discriminate. Qed.
Lemma share_near w b : 0 <= w <= b -> 0 < b < 2 ^ 53 -> 50000 * w < 2 ^ 53 -> exists n d, 0 <= n /\ decimal d (n / 100) /\
  fixed2 (fmul (fdiv (float_of w) (float_of b)) (float_of 100)) = d ++ [46; 48 + n / 10 mod 10; 48 + n mod 10] /\ 2 * Z.abs (n * b - 10000 * w) <= b.
Proof.
  intros A B A2. rewrite !float_equiv. destruct (float_exact w ltac:(lia)) as (Va & Fa & Sa). destruct (float_exact b ltac:(lia)) as (Vb & Fb & Sb). destruct (float_exact 100 ltac:(lia)) as (Vc & Fc & Sc). cbv zeta in *.
  set (fa := BinarySingleNaN.binary_normalize 53 1024 hp hm mode_NE w 0 false) in *. set (fb := BinarySingleNaN.binary_normalize 53 1024 hp hm mode_NE b 0 false) in *. set (fc := BinarySingleNaN.binary_normalize 53 1024 hp hm mode_NE 100 0 false) in *. clearbody fa fb fc. rewrite div_equiv, mul_equiv.
  assert (Bp : (1 <= IZR b < IZR (2 ^ 53))%R) by (split; [apply IZR_le|apply IZR_lt]; lia). assert (Ap : (0 <= IZR w)%R) by (apply IZR_le; lia). assert (Awb : (IZR w <= IZR b)%R) by (apply IZR_le; lia).
  assert (Ab : (50000 * IZR w < IZR (2 ^ 53))%R) by (rewrite <- mult_IZR; apply IZR_lt; lia).
  destruct inv53 as (Ip & I53 & Ih). pose proof big_bound as Big. assert (H62 : (IZR 1000 < IZR (2 ^ 62))%R) by (apply IZR_lt; lia).
  pose proof (Bdiv_correct 53 1024 hp hm mode_NE fa fb) as D. rewrite Va, Vb in D. specialize (D ltac:(apply not_0_IZR; lia)). cbn [round_mode] in D. rewrite fexp_eq in D.
  set (q := (IZR w / IZR b)%R) in *.
  assert (Qb : (q * IZR b = IZR w)%R) by (unfold q; field; lra).
  assert (Q0 : (0 <= q)%R) by (unfold q; apply Rmult_le_pos; [lra|apply Rlt_le, Rinv_0_lt_compat; lra]).
  assert (Q1 : (q <= 1)%R). { apply Rmult_le_reg_r with (IZR b); lra. }
  assert (Qs : (q = 0 \/ / IZR (2 ^ 53) <= q)%R).
  { destruct (Z.eq_dec w 0) as [Ew|Nw]; [left; unfold q; rewrite Ew; unfold Rdiv; apply Rmult_0_l|right]. assert (A1 : (1 <= IZR w)%R) by (apply IZR_le; lia).
    unfold q, Rdiv. rewrite <- (Rmult_1_l (/ IZR (2 ^ 53))). apply Rmult_le_compat; [lra|lra|exact A1|apply Rinv_le; lra]. }
  assert (T53 : (bpow radix2 (-1022) <= / IZR (2 ^ 53) * / 2)%R). { change (/ IZR (2 ^ 53))%R with (bpow radix2 (-53)). change (/ 2)%R with (bpow radix2 (-1)). rewrite <- bpow_plus. apply bpow_le. lia. }
  assert (N : (Rabs (rnd q - q) <= / IZR (2 ^ 53) * q)%R) by (apply rnd_near; destruct Qs; [now left|right; lra]).
  apply Rabs_le_inv in N. assert (Nq : (/ IZR (2 ^ 53) * q <= / 2 * q)%R) by (apply Rmult_le_compat_r; lra).
  rewrite Rlt_bool_true in D by (rewrite Rabs_pos_eq by lra; lra). destruct D as (Dv & Df & Ds). rewrite Fa in Df. set (fd := Bdiv mode_NE fa fb) in *.
  assert (Dn : Bsign fd = false) by (rewrite Ds; [rewrite Sa, Sb; reflexivity|apply sign_false; exact Df]). clearbody fd. clear Ds.
  set (v := rnd q) in *. assert (V0 : (v = 0 \/ / IZR (2 ^ 53) * / 2 <= v)%R). { destruct Qs as [Qz|Qs]; [left; unfold v; rewrite Qz; apply round_0; auto with typeclass_instances|right; lra]. }
  clearbody v.
  pose proof (Bmult_correct 53 1024 hp hm mode_NE fd fc) as M. rewrite Dv, Vc in M. cbn [round_mode] in M. rewrite fexp_eq in M.
  assert (N2 : (Rabs (rnd (v * 100) - v * 100) <= / IZR (2 ^ 53) * (v * 100))%R) by (apply rnd_near; destruct V0 as [->|V0]; [left; ring|right; lra]).
  apply Rabs_le_inv in N2. assert (Nv : (/ IZR (2 ^ 53) * (v * 100) <= / 2 * (v * 100))%R) by (apply Rmult_le_compat_r; lra).
  rewrite Rlt_bool_true in M by (rewrite Rabs_pos_eq by lra; lra). destruct M as (Mv & Mf & Ms). rewrite Df, Fc in Mf. cbn [andb] in Mf. set (fm := Bmult mode_NE fd fc) in *.
  assert (Mn : Bsign fm = false) by (rewrite Ms; [rewrite Dn, Sc; reflexivity|apply sign_false; exact Mf]). clearbody fm.
  destruct (fixed2_near fm Mf Mn) as (n & d & P & Dc & T & Nr). exists n, d. split; [exact P|]. split; [exact Dc|]. split; [exact T|].
  rewrite Mv in Nr. apply Rabs_le_inv in Nr. set (z := rnd (v * 100)) in *. clearbody z.
  set (h := (/ IZR (2 ^ 53))%R) in *.
  assert (Hv : (h * v <= h * (3 / 2 * q))%R) by (apply Rmult_le_compat_l; lra).
  assert (X : (Rabs (IZR (n * b - 10000 * w)) * 2 < IZR (b + 1))%R).
  { rewrite minus_IZR, !mult_IZR, plus_IZR, <- Qb.
    assert (Y : (h * q * IZR b * 50000 < 1)%R). { replace (h * q * IZR b * 50000)%R with (h * (50000 * (q * IZR b)))%R by ring. rewrite Qb, <- I53. apply Rmult_lt_compat_l; lra. }
    assert (Hq : (0 <= h * q)%R) by (apply Rmult_le_pos; lra).
    assert (Z1 : (Rabs (IZR n - 10000 * q) <= / 2 + 25000 * / 2 * (h * q) * 2)%R) by (apply Rabs_le; lra).
    replace (IZR n * IZR b - 10000 * (q * IZR b))%R with ((IZR n - 10000 * q) * IZR b)%R by ring. rewrite Rabs_mult, (Rabs_pos_eq (IZR b)) by lra.
    apply Rle_lt_trans with ((/ 2 + 25000 * / 2 * (h * q) * 2) * IZR b * 2)%R; [apply Rmult_le_compat_r; [lra|]; apply Rmult_le_compat_r; lra|]. lra. }
  rewrite <- abs_IZR in X. rewrite <- mult_IZR in X. apply lt_IZR in X. lia.
Qed.

(** The text shows a share in percent, to the nearest hundredth. *)
Definition shows_share (s : bytes) (part whole : Z) : Prop :=
  exists n d, 0 <= n /\ decimal d (n / 100) /\ 2 * Z.abs (n * whole - 10000 * part) <= whole /\
    has_line s (str_bytes "  ""saving"":" ++ 9 :: (d ++ [46; 48 + n / 10 mod 10; 48 + n mod 10]) ++ str_bytes " %").
(** C165: the line saving is the share of the witness in the octets of the transaction without marker and flag. *)
Theorem C165_saving_partial : forall et t s, tx_ok t -> Forall (fun i => ti_code i = None \/ ti_unlock i = []) (tx_ins t) -> Exists is_witness (tx_ins t) -> 50000 * len (Serialize t) < 2 ^ 53 -> ToString et t = Ok s ->
  shows_share s (len (Serialize t) - len (SerializeNoWitness t) - 2) (len (Serialize t) - 2).
Proof.
  intros et t s O F W L E. pose proof (C35_unsigned_base_size_partial t O F) as B. pose proof (C35_size_partial t O) as S. pose proof (C35_base_size_partial t O) as B2.
  apply has_witness_iff in W. rewrite W in S. assert (S' : Size t = len (Serialize t) - 2) by lia. assert (Ws : WitnessSize t = len (Serialize t) - len (SerializeNoWitness t) - 2) by (unfold Size in S'; lia).
  rewrite <- Ws, <- S'. pose proof (size_pos t) as Sp. destruct (sizes_pos t) as [P1 P2].
  destruct (share_near (WitnessSize t) (Size t)) as (n & d & P & D & T & N); [unfold Size in *; lia..|]. exists n, d. split; [exact P|]. split; [exact D|]. split; [exact N|].
  unfold ToString in E. apply rbind_ok in E. destruct E as (ins & _ & E). apply rbind_ok in E. destruct E as (outs & _ & E). match type of E with Ok ?x = Ok s => assert (Es : s = x) by congruence end. rewrite Es. clear E Es.
  rewrite <- T.
  match goal with |- has_line (JoinLines ?l) ?x => assert (X : exists l1 l2, l = l1 ++ x :: l2 /\ l1 <> [] /\ l2 <> []) end.
  { unfold sums. eexists (_ :: _ :: ins ++ _ :: _ :: outs ++ [_; _; _; _; _; _; _; _]), [_]. split; [|split; discriminate]. cbn [app]. rewrite <- !app_assoc. cbn [app]. rewrite <- !app_assoc. cbn [app]. reflexivity. }
  destruct X as (l1 & l2 & -> & N1 & N2). now apply join_line.
Qed.
Print Assumptions C165_saving_partial.
Example C165_saving_example : let t := show_tx [[3]; [4]] in tx_ok t /\ Forall (fun i => ti_code i = None \/ ti_unlock i = []) (tx_ins t) /\ Exists is_witness (tx_ins t) /\ len (Serialize t) - 2 = 90 /\ len (Serialize t) - len (SerializeNoWitness t) - 2 = 5 /\
  (exists s, ToString no_text t = Ok s) /\ fixed2 (fmul (fdiv (float_of 5) (float_of 90)) (float_of 100)) = str_bytes "5.56" /\ 2 * Z.abs (556 * 90 - 10000 * 5) <= 90.
Proof.
  cbv zeta. split; [tx_ok_tac|]. split; [constructor; [now right|constructor]|]. split; [left; discriminate|]. split; [vm_compute; reflexivity|]. split; [vm_compute; reflexivity|]. split; [eexists; vm_compute; reflexivity|]. split; [vm_compute; reflexivity|]. vm_compute. discriminate.
Qed.
