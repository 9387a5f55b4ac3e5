(** Public key encodings. *)

From Coq Require Import Znumtheory.
From Verif Require Import GoBase BaseLemmas BigInt BigIntProofs NumTheory BigMod SecpModel SecpGroup SecpProofs SecpCyclic SecpSpec SecpLink EcdsaModel EcdsaSpec EcdsaNonce EcdsaProofs PubKeyModel PubKeySpec.
Local Open Scope Z_scope.

Lemma pow256_32 : 256 ^ 32 = 2 ^ 256. Proof. reflexivity. Qed.

Lemma big_bytes_len : forall x n, 0 <= x < 256 ^ n -> 0 <= n -> len (big_bytes x) <= n.
Proof.
  intros x n Hx Hn. destruct (Z.le_gt_cases (len (big_bytes x)) n) as [H | H]; [exact H | exfalso].
  destruct (split_zeros (big_bytes x)) as (z & c & E & Hc).
  assert (O : bytes_ok (big_bytes x)) by apply big_bytes_ok.
  assert (Oc : bytes_ok c) by (rewrite E in O; apply bytes_ok_app in O; tauto).
  assert (Ec : big_bytes x = c).
  { rewrite <- (big_bytes_strip z c Oc Hc), <- E, big_bytes_set by lia. reflexivity. }
  rewrite Ec in H. destruct c as [ | d c]; [rewrite len_nil in H; lia | ].
  assert (V : x = set_bytes (d :: c)) by (rewrite <- Ec, big_bytes_set by lia; reflexivity).
  rewrite set_bytes_cons in V. cbn [hd] in Hc. apply bytes_ok_cons in Oc. destruct Oc as [Od Oc].
  pose proof (set_bytes_nonneg c Oc). unfold is_byte in Od. rewrite len_cons in H.
  assert (P : 256 ^ n <= 256 ^ len c) by (apply Z.pow_le_mono_r; lia). nia.
Qed.

Lemma pad_octets : forall x, 0 <= x < 2 ^ 256 ->
  repeat 0 (Z.to_nat (32 - len (big_bytes x))) ++ big_bytes x = octets 32 x.
Proof.
  intros x Hx. rewrite <- pow256_32 in Hx. pose proof (big_bytes_len x 32 Hx ltac:(lia)) as L.
  rewrite <- padded_octets by (try exact L; lia). f_equal. f_equal. unfold len in *. lia.
Qed.

Lemma pad32_ok : forall x, 0 <= x < 2 ^ 256 -> pad32 x = Ok (octets 32 x).
Proof.
  intros x Hx. unfold pad32. rewrite pad_octets by exact Hx.
  rewrite <- pow256_32 in Hx. pose proof (big_bytes_len x 32 Hx ltac:(lia)) as L.
  destruct (32 <? len (big_bytes x)) eqn:A; [apply Z.ltb_lt in A; lia | reflexivity].
Qed.

Lemma odd_parity : forall y, (if Z.odd y then 1 else 0) = parity y.
Proof. intro y. unfold parity. rewrite Zmod_odd. reflexivity. Qed.

Lemma SecMarshal_ok : forall x y, 0 <= x < 2 ^ 256 ->
  SecMarshal x y = Ok ((2 + parity y) :: octets 32 x).
Proof.
  intros x y Hx. unfold SecMarshal. change ((curveBitSize + 7) / 8) with 32.
  rewrite <- pad_octets by exact Hx.
  rewrite <- pow256_32 in Hx. pose proof (big_bytes_len x 32 Hx ltac:(lia)) as L.
  destruct (1 + 32 - len (big_bytes x) <? 0) eqn:A; [apply Z.ltb_lt in A; lia | ].
  destruct (1 + 32 - len (big_bytes x) =? 0) eqn:B; [apply Z.eqb_eq in B; lia | ].
  rewrite <- odd_parity.
  replace (1 + 32 - len (big_bytes x) - 1) with (32 - len (big_bytes x)) by lia.
  destruct (Z.odd y); reflexivity.
Qed.

Lemma P_lt : curveP < 2 ^ 256. Proof. reflexivity. Qed.

Lemma good_bounds : forall x y, good (Some (x, y)) ->
  0 <= x < 2 ^ 256 /\ 0 <= y < 2 ^ 256 /\ 0 <= x < curveP /\ 0 <= y < curveP.
Proof.
  intros x y (Hx & Hy & _). rewrite prime_p_eq in Hx, Hy. pose proof P_lt. lia.
Qed.

Lemma on_curve : forall x y, IsOnCurve x y = true <-> eqp (y * y) (x * x * x + 7).
Proof.
  intros x y. rewrite eqp_fk, fk_eq. unfold IsOnCurve, curveB. rewrite Z.eqb_eq.
  split; intro H; symmetry; exact H.
Qed.

Lemma checkPoint_cases : forall x y, 0 <= x -> 0 <= y ->
  (checkPoint x y = Ok (x, y) /\ good (Some (x, y))) \/
  (exists e, checkPoint x y = Err e /\ ~ good (Some (x, y))).
Proof.
  intros x y Hx Hy. unfold checkPoint.
  destruct (curveP <=? x) eqn:A.
  { right. eexists. split; [reflexivity | ]. intros (G & _). apply Z.leb_le in A.
    rewrite prime_p_eq in G. lia. }
  destruct (curveP <=? y) eqn:B.
  { right. eexists. split; [reflexivity | ]. intros (_ & G & _). apply Z.leb_le in B.
    rewrite prime_p_eq in G. lia. }
  apply Z.leb_gt in A, B. destruct (IsOnCurve x y) eqn:C; cbn [negb].
  - left. split; [reflexivity | ]. apply on_curve in C.
    split; [rewrite prime_p_eq; lia | ]. split; [rewrite prime_p_eq; lia | exact C].
  - right. eexists. split; [reflexivity | ]. intros (_ & _ & G). apply on_curve in G.
    congruence.
Qed.

Lemma good_y : forall x y, good (Some (x, y)) -> 0 < y.
Proof.
  intros x y H. pose proof (good_on _ H) as S. cbn [toS] in S.
  apply y_range in S. rewrite fval_fk in S. destruct (good_bounds _ _ H) as (_ & _ & _ & B).
  rewrite Z.mod_small in S by exact B. lia.
Qed.

Lemma mod4 : curveP mod 4 = 3. Proof. reflexivity. Qed.

Lemma parity_sub : forall y, parity (curveP - y) = 1 - parity y.
Proof.
  intro y. unfold parity. pose proof curveP_odd as O.
  pose proof (Z.div_mod curveP 2 ltac:(lia)). pose proof (Z.div_mod y 2 ltac:(lia)).
  pose proof (Z.mod_pos_bound y 2 ltac:(lia)).
  symmetry. apply Z.mod_unique with (q := curveP / 2 - y / 2); lia.
Qed.

Lemma land_bit : forall d, d = 2 \/ d = 3 -> Z.land d 1 = d - 2.
Proof. intros d [-> | ->]; reflexivity. Qed.

(** Decompression finds the root of the right parity, or nothing that passes
    the checks. *)
Lemma SecUnmarshal_ok : forall d rest, d = 2 \/ d = 3 -> bytes_ok rest ->
  exists y, SecUnmarshal (d :: rest) = Ok (Some (set_bytes rest, y)) /\ 0 <= y /\
    (forall y0, good (Some (set_bytes rest, y0)) -> parity y0 = d - 2 -> y = y0) /\
    (good (Some (set_bytes rest, y)) -> parity y = d - 2).
Proof.
  intros d rest Hd Hr. unfold SecUnmarshal.
  assert (D2 : Z.land d (255 - 1) = 2) by (destruct Hd as [-> | ->]; reflexivity).
  rewrite D2. change (negb (2 =? 2)) with false. cbn iota.
  rewrite (land_bit d Hd). rewrite odd_parity. set (X := set_bytes rest).
  change curveB with 7. pose proof curveP_gt as PG. assert (PG0 : 0 < curveP) by lia.
  destruct (mod_sqrt (X * X * X + 7) curveP) as [r | ] eqn:E.
  - destruct (mod_sqrt_some _ _ _ PG0 E) as (Rr & Er).
    pose proof (Z.mod_pos_bound r 2 ltac:(lia)) as M2. fold (parity r) in M2.
    exists (if parity r =? d - 2 then r else curveP - r).
    split; [reflexivity | ].
    destruct (parity r =? d - 2) eqn:A.
    + apply Z.eqb_eq in A. split; [lia | ]. split; [ | intros _; exact A].
      intros y0 G Py. destruct (good_bounds _ _ G) as (_ & _ & _ & B).
      pose proof (good_y _ _ G) as Y0.
      assert (R0 : r <> 0).
      { intro Z. subst r. assert (G0 : good (Some (X, 0))).
        { split; [apply G | ]. split; [rewrite prime_p_eq; lia | ].
          apply eqp_fk, fk_eq. exact Er. }
        apply good_y in G0. lia. }
      apply (root_parity curveP); [exact curveP_prime | exact curveP_odd | lia | lia | | ].
      * rewrite Er. destruct G as (_ & _ & G). apply eqp_fk, fk_eq in G. symmetry. exact G.
      * unfold parity in *. lia.
    + apply Z.eqb_neq in A. split; [lia | ]. split.
      * intros y0 G Py. destruct (good_bounds _ _ G) as (_ & _ & _ & B).
        pose proof (good_y _ _ G) as Y0.
        assert (R0 : r <> 0).
        { intro Z. subst r. assert (G0 : good (Some (X, 0))).
          { split; [apply G | ]. split; [rewrite prime_p_eq; lia | ].
            apply eqp_fk, fk_eq. exact Er. }
          apply good_y in G0. lia. }
        apply (root_parity curveP); [exact curveP_prime | exact curveP_odd | lia | lia | | ].
        -- destruct G as (_ & _ & G). apply eqp_fk, fk_eq in G. rewrite G, <- Er.
           apply eqm_sub; [lia | ]. exists (curveP - 2 * r). ring.
        -- fold (parity (curveP - r)). rewrite parity_sub. fold (parity y0). lia.
      * intros _. rewrite parity_sub. lia.
  - exists (if parity 0 =? d - 2 then 0 else curveP - 0). split; [reflexivity | ].
    split; [destruct (parity 0 =? d - 2); lia | ].
    assert (NG : forall y, ~ good (Some (X, y))).
    { intros y (_ & _ & G). apply eqp_fk, fk_eq in G.
      destruct (mod_sqrt_complete _ y curveP curveP_prime mod4 G) as (r & Q). congruence. }
    split; [intros y0 G; exfalso; exact (NG _ G) | intro G; exfalso; exact (NG _ G)].
Qed.

Lemma prefix_33 : forall f, is_byte f -> Z.land f 254 = 2 <-> f = 2 \/ f = 3.
Proof.
  intros f Hf.
  assert (A : (if Z.land f 254 =? 2 then (f =? 2) || (f =? 3) else negb ((f =? 2) || (f =? 3))) = true).
  { apply (all_bytes (fun f => if Z.land f 254 =? 2 then (f =? 2) || (f =? 3)
                               else negb ((f =? 2) || (f =? 3)))); [vm_compute; reflexivity | exact Hf]. }
  destruct (Z.land f 254 =? 2) eqn:E.
  - apply Z.eqb_eq in E. apply orb_true_iff in A. rewrite !Z.eqb_eq in A. tauto.
  - apply Z.eqb_neq in E. apply negb_true_iff, orb_false_iff in A. rewrite !Z.eqb_neq in A. lia.
Qed.

Lemma prefix_65 : forall f b, is_byte f ->
  (negb (Z.land f 254 =? 4) && negb (Z.land f 254 =? 6)) = false ->
  (f = 4 \/ f = 5) /\ ((Z.land f 254 =? 6) && negb (eqb (Z.land f 1 =? 1) b)) = false \/
  (f = 6 \/ f = 7) /\ ((Z.land f 254 =? 6) && negb (eqb (Z.land f 1 =? 1) b)) = negb (f =? 6 + (if b then 1 else 0)).
Proof.
  intros f b Hf H.
  assert (A : (negb (Z.land f 254 =? 4) && negb (Z.land f 254 =? 6))
              || ((f =? 4) || (f =? 5) || (f =? 6) || (f =? 7)) = true).
  { apply (all_bytes (fun f => (negb (Z.land f 254 =? 4) && negb (Z.land f 254 =? 6))
              || ((f =? 4) || (f =? 5) || (f =? 6) || (f =? 7)))); [vm_compute; reflexivity | exact Hf]. }
  rewrite H in A. cbn [orb] in A. rewrite !orb_true_iff, !Z.eqb_eq in A.
  destruct A as [[[-> | ->] | ->] | ->].
  - left. split; [left; reflexivity | reflexivity].
  - left. split; [right; reflexivity | reflexivity].
  - right. split; [left; reflexivity | destruct b; reflexivity].
  - right. split; [right; reflexivity | destruct b; reflexivity].
Qed.

Lemma prefix_65_bad : forall f, is_byte f ->
  (negb (Z.land f 254 =? 4) && negb (Z.land f 254 =? 6)) = true -> ~ 4 <= f <= 7.
Proof.
  intros f Hf H R.
  assert (C : f = 4 \/ f = 5 \/ f = 6 \/ f = 7) by lia.
  destruct C as [-> | [-> | [-> | ->]]]; discriminate H.
Qed.

Lemma parity_range : forall y, 0 <= parity y <= 1.
Proof. intro y. unfold parity. pose proof (Z.mod_pos_bound y 2 ltac:(lia)). lia. Qed.

Lemma encodes_len : forall key x y, encodes key x y -> length key = 33%nat \/ length key = 65%nat.
Proof.
  intros key x y H. destruct H; cbn [length]; rewrite ?app_length, !octets_length; [left | right | right]; reflexivity.
Qed.

Lemma encodes_inv : forall key x y, encodes key x y ->
  key = (2 + parity y) :: octets 32 x \/ key = 4 :: octets 32 x ++ octets 32 y \/
  key = (6 + parity y) :: octets 32 x ++ octets 32 y.
Proof. intros key x y H. destruct H; auto. Qed.

(** What PubKeyFromBytes does on every byte string. *)
Lemma PubKeyFromBytes_ok : forall key, bytes_ok key ->
  (exists x y, PubKeyFromBytes key = Ok (x, y) /\ good (Some (x, y)) /\
     (encodes key x y \/ key = 5 :: octets 32 x ++ octets 32 y)) \/
  (exists e, PubKeyFromBytes key = Err e /\
     forall x y, good (Some (x, y)) -> ~ encodes key x y /\ key <> 5 :: octets 32 x ++ octets 32 y).
Proof.
  intros key Hk. unfold PubKeyFromBytes.
  destruct key as [ | f rest].
  { right. eexists. split; [reflexivity | ]. intros x y _. split; [ | discriminate].
    intro E. apply encodes_len in E. cbn in E. lia. }
  change (index (f :: rest) 0) with (Ok f).
  pose proof (len_nonneg rest) as LN. rewrite len_cons.
  destruct (1 + len rest =? 0) eqn:Z0; [apply Z.eqb_eq in Z0; lia | ]. cbn [rbind].
  apply bytes_ok_cons in Hk. destruct Hk as [Hf Hr].
  change (255 - 1) with 254.
  destruct (1 + len rest =? 65) eqn:L65.
  { apply Z.eqb_eq in L65. assert (LR : length rest = 64%nat) by (unfold len in L65; lia).
    destruct (negb (Z.land f 254 =? 4) && negb (Z.land f 254 =? 6)) eqn:PF.
    { right. eexists. split; [reflexivity | ]. intros x y _. pose proof (prefix_65_bad f Hf PF) as NB.
      split.
      - intro E. apply encodes_inv in E. destruct E as [Q1 | [Q1 | Q1]].
        + assert (Q2 : rest = octets 32 x) by congruence. rewrite Q2, octets_length in LR. lia.
        + assert (f = 4) by congruence. lia.
        + assert (f = 6 + parity y) by congruence. pose proof (parity_range y). lia.
      - intro E. injection E as E _. lia. }
    set (xb := firstn 32 rest). set (yb := skipn 32 rest).
    assert (ER : rest = xb ++ yb) by (symmetry; apply firstn_skipn).
    assert (Lx : length xb = 32%nat) by (unfold xb; rewrite firstn_length; lia).
    assert (Ly : length yb = 32%nat) by (unfold yb; rewrite skipn_length; lia).
    assert (S1 : slice (f :: rest) 1 33 = Ok xb).
    { unfold slice. replace ((0 <=? 1) && (1 <=? 33) && (33 <=? len (f :: rest))) with true.
      - reflexivity.
      - symmetry. rewrite !andb_true_iff, !Z.leb_le, len_cons. lia. }
    assert (S2 : slice (f :: rest) 33 65 = Ok yb).
    { unfold slice. replace ((0 <=? 33) && (33 <=? 65) && (65 <=? len (f :: rest))) with true.
      - change (Z.to_nat 33) with 33%nat. cbn [skipn].
        change (Z.to_nat (65 - 33)) with 32%nat. f_equal. apply firstn_all2. fold yb. lia.
      - symmetry. rewrite !andb_true_iff, !Z.leb_le, len_cons. lia. }
    rewrite S1, S2. cbn [rbind].
    assert (Ox : bytes_ok xb) by (apply bytes_ok_firstn; exact Hr).
    assert (Oy : bytes_ok yb) by (apply bytes_ok_skipn; exact Hr).
    pose proof (set_bytes_nonneg xb Ox) as Nx. pose proof (set_bytes_nonneg yb Oy) as Ny.
    pose proof (octets_set xb Ox) as Vx. pose proof (octets_set yb Oy) as Vy.
    rewrite Lx in Vx. rewrite Ly in Vy.
    set (x := set_bytes xb) in *. set (y := set_bytes yb) in *.
    assert (EK : f :: rest = f :: octets 32 x ++ octets 32 y) by (rewrite Vx, Vy, ER; reflexivity).
    assert (UQ : forall f' x' y', good (Some (x', y')) -> 
              f :: rest = f' :: octets 32 x' ++ octets 32 y' -> f = f' /\ x = x' /\ y = y').
    { intros f' x' y' G E. destruct (good_bounds _ _ G) as (Bx & By & _).
      assert (E1 : f = f') by congruence. split; [exact E1 | ].
      assert (E2 : octets 32 x ++ octets 32 y = octets 32 x' ++ octets 32 y') by congruence.
      apply app_inj_len in E2; [ | rewrite !octets_length; reflexivity].
      destruct E2 as [E2 E3]. apply (f_equal set_bytes) in E2, E3.
      rewrite !octets_val in E2, E3. change (256 ^ Z.of_nat 32) with (2 ^ 256) in E2, E3.
      rewrite (Z.mod_small x'), (Z.mod_small y') in * by assumption.
      pose proof (set_bytes_lt xb Ox) as Tx. pose proof (set_bytes_lt yb Oy) as Ty.
      unfold len in Tx, Ty. rewrite Lx in Tx. rewrite Ly in Ty.
      change (256 ^ Z.of_nat 32) with (2 ^ 256) in Tx, Ty.
      rewrite (Z.mod_small x) in E2 by (split; assumption).
      rewrite (Z.mod_small y) in E3 by (split; assumption).
      split; assumption. }
    assert (NL : forall x' y', f :: rest = (2 + parity y') :: octets 32 x' -> False).
    { intros x' y' E. assert (E' : rest = octets 32 x') by congruence.
      rewrite E', octets_length in LR. lia. }
    destruct (prefix_65 f (Z.odd y) Hf PF) as [[F C] | [F C]]; rewrite C.
    - destruct (checkPoint_cases x y Nx Ny) as [[E G] | (e & E & NG)].
      + left. exists x, y. split; [exact E | ]. split; [exact G | ]. rewrite EK.
        destruct F as [-> | ->]; [left; constructor | right; reflexivity].
      + right. exists e. split; [exact E | ]. intros x' y' G. split.
        * intro Q. apply encodes_inv in Q. destruct Q as [Q1 | [Q1 | Q1]].
          -- exact (NL x' y' Q1).
          -- destruct (UQ 4 x' y' G Q1) as (_ & E1 & E2). rewrite <- E1, <- E2 in G. exact (NG G).
          -- assert (f = 6 + parity y') by congruence. pose proof (parity_range y'). lia.
        * intro Q. destruct (UQ 5 x' y' G Q) as (_ & E1 & E2). rewrite <- E1, <- E2 in G. exact (NG G).
    - pose proof (odd_parity y) as OP. rewrite OP. destruct (f =? 6 + parity y) eqn:FP; cbn [negb].
      + apply Z.eqb_eq in FP.
        destruct (checkPoint_cases x y Nx Ny) as [[E G] | (e & E & NG)].
        * left. exists x, y. split; [exact E | ]. split; [exact G | ]. left. rewrite EK, FP. constructor.
        * right. exists e. split; [exact E | ]. intros x' y' G. split.
          -- intro Q. apply encodes_inv in Q. destruct Q as [Q1 | [Q1 | Q1]].
             ++ exact (NL x' y' Q1).
             ++ assert (f = 4) by congruence. lia.
             ++ destruct (UQ (6 + parity y') x' y' G) as (_ & E1 & E2); [congruence | ].
                rewrite <- E1, <- E2 in G. exact (NG G).
          -- intro Q. assert (f = 5) by congruence. lia.
      + apply Z.eqb_neq in FP. right. eexists. split; [reflexivity | ]. intros x' y' G. split.
        * intro Q. apply encodes_inv in Q. destruct Q as [Q1 | [Q1 | Q1]].
          -- exact (NL x' y' Q1).
          -- assert (f = 4) by congruence. lia.
          -- destruct (UQ (6 + parity y') x' y' G) as (F1 & E1 & E2); [congruence | ].
             rewrite <- E2 in F1. exact (FP F1).
        * intro Q. assert (f = 5) by congruence. lia. }
  apply Z.eqb_neq in L65.
  destruct (1 + len rest =? 33) eqn:L33.
  { apply Z.eqb_eq in L33. assert (LR : length rest = 32%nat) by (unfold len in L33; lia).
    assert (NL : forall f' x' y', f :: rest = f' :: octets 32 x' ++ octets 32 y' -> False).
    { intros f' x' y' E. assert (E' : rest = octets 32 x' ++ octets 32 y') by congruence.
      rewrite E', app_length, !octets_length in LR. lia. }
    destruct (Z.eq_dec (Z.land f 254) 2) as [D | D].
    - apply (prefix_33 f Hf) in D. destruct (SecUnmarshal_ok f rest D Hr) as (y & E & Ny & U & Pg).
      rewrite E. cbn [rbind]. pose proof (set_bytes_nonneg rest Hr) as Nx.
      pose proof (octets_set rest Hr) as V. rewrite LR in V.
      pose proof (set_bytes_lt rest Hr) as Tx. unfold len in Tx. rewrite LR in Tx.
      change (256 ^ Z.of_nat 32) with (2 ^ 256) in Tx.
      set (x := set_bytes rest) in *.
      destruct (checkPoint_cases x y Nx Ny) as [[C G] | (e & C & NG)].
      + left. exists x, y. split; [exact C | ]. split; [exact G | ]. left.
        rewrite <- V. replace f with (2 + parity y) by (rewrite (Pg G); lia). constructor.
      + right. exists e. split; [exact C | ]. intros x' y' G. split; [ | intro Q; exact (NL _ _ _ Q)].
        intro Q. apply encodes_inv in Q. destruct Q as [Q1 | [Q1 | Q1]].
        * apply NG.
          assert (EX : x = x').
          { assert (OE : octets 32 x = octets 32 x') by congruence.
            apply (f_equal set_bytes) in OE. rewrite !octets_val in OE.
            change (256 ^ Z.of_nat 32) with (2 ^ 256) in OE.
            destruct (good_bounds _ _ G) as (Bx & _).
            rewrite (Z.mod_small x'), (Z.mod_small x) in OE by (try assumption; split; assumption).
            exact OE. }
          rewrite <- EX in G. assert (f = 2 + parity y') by congruence. rewrite (U y' G) by lia. exact G.
        * exact (NL _ _ _ Q1).
        * exact (NL _ _ _ Q1).
    - right. unfold SecUnmarshal. change (255 - 1) with 254.
      destruct (Z.land f 254 =? 2) eqn:D'; [apply Z.eqb_eq in D'; contradiction | ]. cbn [negb rbind].
      eexists. split; [reflexivity | ]. intros x' y' G. split; [ | intro Q; exact (NL _ _ _ Q)].
      intro Q. apply encodes_inv in Q. destruct Q as [Q1 | [Q1 | Q1]].
      + apply D. apply (prefix_33 f Hf). assert (f = 2 + parity y') by congruence. pose proof (parity_range y'). lia.
      + exact (NL _ _ _ Q1).
      + exact (NL _ _ _ Q1). }
  apply Z.eqb_neq in L33. right. eexists. split; [reflexivity | ]. intros x y _. split.
  - intro E. apply encodes_len in E. unfold len in *. cbn [length] in E. lia.
  - intro E. apply (f_equal (@length Z)) in E. cbn [length] in E.
    rewrite app_length, !octets_length in E. unfold len in *. lia.
Qed.

Lemma octets_inj : forall x x', 0 <= x < 2 ^ 256 -> 0 <= x' < 2 ^ 256 ->
  octets 32 x = octets 32 x' -> x = x'.
Proof.
  intros x x' H H' E. apply (f_equal set_bytes) in E. rewrite !octets_val in E.
  change (256 ^ Z.of_nat 32) with (2 ^ 256) in E.
  rewrite (Z.mod_small x), (Z.mod_small x') in E by assumption. exact E.
Qed.

Lemma octets2_inj : forall x y x' y', good (Some (x, y)) -> good (Some (x', y')) ->
  octets 32 x ++ octets 32 y = octets 32 x' ++ octets 32 y' -> (x, y) = (x', y').
Proof.
  intros x y x' y' G G' E. destruct (good_bounds _ _ G) as (Bx & By & _).
  destruct (good_bounds _ _ G') as (Bx' & By' & _).
  apply app_inj_len in E; [ | rewrite !octets_length; reflexivity]. destruct E as [E1 E2].
  apply octets_inj in E1, E2; try assumption. congruence.
Qed.

Lemma same_x : forall x y y', good (Some (x, y)) -> good (Some (x, y')) -> parity y = parity y' -> y = y'.
Proof.
  intros x y y' G G' P. pose proof (good_y _ _ G). pose proof (good_y _ _ G').
  destruct (good_bounds _ _ G) as (_ & _ & _ & B). destruct (good_bounds _ _ G') as (_ & _ & _ & B').
  apply (root_parity curveP); [exact curveP_prime | exact curveP_odd | lia | lia | | exact P].
  destruct G as (_ & _ & G). destruct G' as (_ & _ & G').
  apply eqp_fk, fk_eq in G. apply eqp_fk, fk_eq in G'. congruence.
Qed.

Lemma encodes_fun : forall key x y x' y', good (Some (x, y)) -> good (Some (x', y')) ->
  encodes key x y -> encodes key x' y' -> (x, y) = (x', y').
Proof.
  intros key x y x' y' G G' E E'. apply encodes_inv in E, E'.
  pose proof (parity_range y) as R. pose proof (parity_range y') as R'.
  assert (L1 : forall a, length (a :: octets 32 x) = 33%nat) by (intro; cbn [length]; rewrite octets_length; reflexivity).
  assert (L1' : forall a, length (a :: octets 32 x') = 33%nat) by (intro; cbn [length]; rewrite octets_length; reflexivity).
  assert (L2 : forall a, length (a :: octets 32 x ++ octets 32 y) = 65%nat) by (intro; cbn [length]; rewrite app_length, !octets_length; reflexivity).
  assert (L2' : forall a, length (a :: octets 32 x' ++ octets 32 y') = 65%nat) by (intro; cbn [length]; rewrite app_length, !octets_length; reflexivity).
  destruct (good_bounds _ _ G) as (Bx & _). destruct (good_bounds _ _ G') as (Bx' & _).
  destruct E as [E | [E | E]]; destruct E' as [E' | [E' | E']]; rewrite E in E';
    try (apply (f_equal (@length Z)) in E'; rewrite ?L1, ?L1', ?L2, ?L2' in E'; discriminate E').
  - assert (O : octets 32 x = octets 32 x') by congruence. apply octets_inj in O; [ | assumption | assumption].
    assert (P : 2 + parity y = 2 + parity y') by congruence. subst x'. f_equal. apply (same_x x); [assumption | assumption | lia].
  - apply octets2_inj; [assumption | assumption | congruence].
  - apply octets2_inj; [assumption | assumption | congruence].
  - apply octets2_inj; [assumption | assumption | congruence].
  - apply octets2_inj; [assumption | assumption | congruence].
Qed.

Lemma encodes_fun5 : forall key x y x' y', good (Some (x, y)) -> good (Some (x', y')) ->
  key = 5 :: octets 32 x ++ octets 32 y -> encodes key x' y' -> (x, y) = (x', y').
Proof.
  intros key x y x' y' G G' E E'. apply encodes_inv in E'. pose proof (parity_range y') as R'.
  destruct E' as [E' | [E' | E']]; rewrite E in E'; apply (f_equal (hd 0)) in E'; cbn [hd] in E'; lia.
Qed.
