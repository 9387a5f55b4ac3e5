(** The two-party Schnorr protocol. *)

From Coq Require Import Znumtheory.
From Verif Require Import GoBase BaseLemmas BigInt BigIntProofs NumTheory BigMod Fp EcGroup SecpModel SecpGroup SecpOrder SecpOrderN SecpProofs SecpCyclic SecpSpec SecpLink EcdsaModel EcdsaSpec EcdsaNonce EcdsaProofs PubKeyModel PubKeySpec PubKeyProofs SchnorrModel SchnorrSpec SchnorrProofs MpcSchnorrModel.
Local Open Scope Z_scope.

Lemma jacobi_not_both : forall p, prime p -> p mod 4 = 3 -> forall y,
  jacobi y p = 1 -> jacobi (- y) p <> 1.
Proof.
  intros p Hp H4 y J1 J2. pose proof (p_pos p Hp H4) as PP. destruct (half p Hp H4) as (E & _ & Q).
  apply (jacobi_pow p Hp H4) in J1. apply (jacobi_pow p Hp H4) in J2.
  destruct J1 as [_ J1]. destruct J2 as [_ J2]. rewrite E, (pow_opp_odd p), <- E in J2 by exact Q.
  assert (S : (y ^ ((p - 1) / 2) + - y ^ ((p - 1) / 2)) mod p = 2).
  { rewrite Z.add_mod, J1, J2 by lia. apply Z.mod_small. lia. }
  rewrite Z.add_opp_diag_r in S. rewrite Z.mod_0_l in S by lia. discriminate S.
Qed.

Lemma same_x_cases : forall a b, a <> g0 -> b <> g0 -> fst (enc a) = fst (enc b) -> a = b \/ a = gopp b.
Proof.
  intros a b Ha Hb E.
  pose proof (enc_range a Ha) as (_ & Ra). pose proof (enc_range b Hb) as (_ & Rb).
  assert (C : forall c, c <> g0 -> code c = 2 * fst (enc c) + snd (enc c) mod 2).
  { intros c Hc. unfold code, enc. destruct (gpt c) as [ | x y] eqn:G.
    - exfalso. apply Hc. apply gp_eq. exact G.
    - cbn [encP fst snd]. lia. }
  destruct (Z.eq_dec (snd (enc a) mod 2) (snd (enc b) mod 2)) as [P | P].
  - left. apply code_inj. rewrite !C by assumption. lia.
  - right. apply code_inj. rewrite !C; [ | intro Z0; apply Hb, gopp_0; exact Z0 | assumption].
    rewrite enc_opp_x, enc_opp_y by assumption. pose proof (parity_sub (snd (enc b))) as PS.
    unfold parity in PS. pose proof (Z.mod_pos_bound (snd (enc a)) 2 ltac:(lia)).
    pose proof (Z.mod_pos_bound (snd (enc b)) 2 ltac:(lia)). lia.
Qed.

Lemma same_x_square : forall a b, accepts a (fst (enc b)) -> b <> g0 ->
  jacobi (snd (enc b)) curveP = 1 -> a = b.
Proof.
  intros a b (Ha & Ja & Xa) Hb Jb.
  destruct (same_x_cases a b Ha Hb Xa) as [E | E]; [exact E | exfalso].
  rewrite E, enc_opp_y in Ja by exact Hb. pose proof (enc_range b Hb) as (_ & R).
  apply (jacobi_not_both curveP curveP_prime mod4 _ Jb).
  rewrite <- (jacobi_mod curveP curveP_prime mod4), <- Ja, <- (jacobi_mod curveP curveP_prime mod4 (curveP - _)).
  f_equal. apply eqm_sub; [lia | ]. exists (-1). ring.
Qed.

(** What one run computes. *)
Definition key (D : Z) : Z * (Z * Z) := (D, enc (gmul D gG)).

(** The challenge of a party: over its own R. *)
Definition own (sha : bytes -> bytes) (P : gp) (m : bytes) (k0 : Z) : Z :=
  echal sha P m (fst (enc (gmul k0 gG))).

Definition signed (R : gp) (k0 : Z) : Z := GetK (snd (enc R)) k0.

Lemma Phase4_ok : forall sha D k0 m P R pub, 
  SPhase4 sha (MkSParty (Some k0) D pub m (Some (enc (gmul k0 gG)))) (enc P) (enc R) =
  Ok (octets 32 ((signed R k0 + own sha P m k0 * D) mod curveN),
      MkSParty (Some (signed R k0)) D pub m (Some (enc (gmul k0 gG)))).
Proof.
  intros sha D k0 m P R pub. unfold SPhase4. cbn [sp_k0 sp_r sp_hash sp_prv sp_pub].
  pose proof (enc_bounds (gmul k0 gG)) as (B & _). pose proof P_lt. pose proof N_lt.
  rewrite IntToByte_ok by lia. cbn [rbind]. rewrite GetE_ok. cbn [rbind].
  fold (own sha P m k0). fold (signed R k0).
  rewrite IntToByte_ok by (pose proof (Z.mod_pos_bound (signed R k0 + own sha P m k0 * D) curveN N_pos); lia).
  reflexivity.
Qed.

Lemma Phase2_ok : forall sha D m, 0 <= D < 2 ^ 256 -> nonce0 sha D m <> 0 ->
  SPhase2 sha (NewSchnorrParty (key D)) m =
  Ok (Some (enc (gmul (nonce0 sha D m) gG)),
      MkSParty (Some (nonce0 sha D m)) D (enc (gmul D gG)) m (Some (enc (gmul (nonce0 sha D m) gG)))).
Proof.
  intros sha D m HD NZ. unfold SPhase2, NewSchnorrParty, key. cbn [sp_prv sp_pub fst snd].
  rewrite IntToByte_ok by exact HD. cbn [rbind]. unfold GetK0. fold (nonce0 sha D m).
  destruct (nonce0 sha D m =? 0) eqn:E; [apply Z.eqb_eq in E; contradiction | ].
  rewrite base_mult_big by (apply Z.mod_pos_bound; exact N_pos). reflexivity.
Qed.

Lemma pair_enc : forall a, (fst (enc a), snd (enc a)) = enc a.
Proof. intro a. symmetry. apply surjective_pairing. Qed.

Lemma Run_ok : forall sha D1 D2 m, 0 <= D1 < 2 ^ 256 -> 0 <= D2 < 2 ^ 256 ->
  let k1 := nonce0 sha D1 m in let k2 := nonce0 sha D2 m in
  k1 <> 0 -> k2 <> 0 ->
  let P := gmul (D1 + D2) gG in let R := gmul (k1 + k2) gG in
  let s := (signed R k1 + signed R k2 + (own sha P m k1 * D1 + own sha P m k2 * D2)) mod curveN in
  RunSchnorr sha (key D1) (key D2) m =
  Ok (enc P, enc R, octets 32 (fst (enc R)) ++ octets 32 s, octets 32 (fst (enc R)) ++ octets 32 s).
Proof.
  intros sha D1 D2 m H1 H2 k1 k2 N1 N2 P R s. unfold RunSchnorr.
  unfold SPhase1 at 1 2. unfold PubAdd. cbn [NewSchnorrParty sp_pub key fst snd].
  rewrite !curveAdd_ok, <- !gmul_add. rewrite (Z.add_comm D2 D1). fold P. cbn [rbind].
  fold (key D1). fold (key D2). fold (NewSchnorrParty (key D1)). fold (NewSchnorrParty (key D2)).
  rewrite (Phase2_ok sha D1 m H1 N1). cbn [rbind]. rewrite (Phase2_ok sha D2 m H2 N2). cbn [rbind].
  fold k1. fold k2. unfold SPhase3. cbn [sp_r fst snd]. rewrite !curveAdd_ok, <- !gmul_add.
  rewrite (Z.add_comm k2 k1). fold R. cbn [rbind]. rewrite !Phase4_ok. cbn [rbind].
  unfold SPhase5. cbn [fold_left]. rewrite Z.add_0_l.
  pose proof N_lt as NL. pose proof P_lt.
  set (s1 := (signed R k1 + own sha P m k1 * D1) mod curveN).
  set (s2 := (signed R k2 + own sha P m k2 * D2) mod curveN).
  assert (B1 : 0 <= s1 < curveN) by (apply Z.mod_pos_bound; exact N_pos).
  assert (B2 : 0 <= s2 < curveN) by (apply Z.mod_pos_bound; exact N_pos).
  rewrite !octets_back by lia.
  assert (ES : (s1 + s2) mod curveN = s).
  { unfold s1, s2, s. rewrite <- Z.add_mod by discriminate. f_equal. ring. }
  rewrite ES. assert (B : 0 <= s < curveN) by (apply Z.mod_pos_bound; exact N_pos).
  pose proof (enc_bounds R) as (BR & _).
  rewrite !IntToByte_ok by lia. cbn [rbind]. reflexivity.
Qed.

(** The sum of the signed nonces is the nonce of plus or minus R. *)
Lemma signed_sum : forall k1 k2, gmul (k1 + k2) gG <> g0 ->
  let R := gmul (k1 + k2) gG in
  let R' := gmul (signed R k1 + signed R k2) gG in
  R' <> g0 /\ jacobi (snd (enc R')) curveP = 1 /\ fst (enc R') = fst (enc R).
Proof.
  intros k1 k2 N R R'.
  pose proof (GetK_point (k1 + k2) N _ eq_refl) as (_ & H). fold R in H.
  assert (E : R' = gmul (GetK (snd (enc R)) (k1 + k2)) gG).
  { unfold R', signed, GetK. destruct (jacobi (snd (enc R)) curveP =? 1); [reflexivity | ].
    rewrite <- gmul_N, <- (gmul_N (curveN - (k1 + k2))). f_equal.
    apply eqm_sub; [exact N_pos | ]. exists 1. ring. }
  rewrite E. exact H.
Qed.

(** When the final signature is accepted. *)
Lemma final_accepts : forall P R' e t s,
  R' <> g0 -> jacobi (snd (enc R')) curveP = 1 ->
  gadd (gmul s gG) (gopp (gmul e P)) = gadd R' (gmul t gG) ->
  (accepts (gadd (gmul s gG) (gopp (gmul e P))) (fst (enc R')) <-> t mod curveN = 0).
Proof.
  intros P R' e t s N J E. rewrite E. split.
  - intro A. pose proof (same_x_square _ _ A N J) as X.
    apply gmul_G_0. transitivity (gadd (gopp R') (gadd R' (gmul t gG))).
    + rewrite <- gadd_assoc, (gadd_comm (gopp R')), gadd_opp, gadd_0_l. reflexivity.
    + rewrite X, gadd_comm. apply gadd_opp.
  - intro Z0. apply gmul_G_0 in Z0. rewrite Z0, gadd_0_r. split; [exact N | ]. split; [exact J | reflexivity].
Qed.

Lemma Deserialize_ok : forall r s, 0 <= r < 2 ^ 256 -> 0 <= s < 2 ^ 256 ->
  SchnorrDeserialize (octets 32 r ++ octets 32 s) = Ok (r, s).
Proof.
  intros r s Hr Hs. unfold SchnorrDeserialize.
  assert (L : len (octets 32 r ++ octets 32 s) = 64).
  { unfold len. rewrite app_length, !octets_length. reflexivity. }
  rewrite L. unfold slice. rewrite L. cbn [andb Z.leb].
  change ((0 <=? 0) && (0 <=? 32) && (32 <=? 64)) with true.
  change ((0 <=? 32) && (32 <=? 64) && (64 <=? 64)) with true. cbv iota.
  change (Z.to_nat 0) with 0%nat. change (Z.to_nat (32 - 0)) with 32%nat. change (Z.to_nat 32) with 32%nat.
  change (Z.to_nat (64 - 32)) with 32%nat. rewrite skipn_O.
  assert (F : firstn 32 (octets 32 r ++ octets 32 s) = octets 32 r).
  { rewrite <- (octets_length 32 r) at 1. rewrite firstn_app, Nat.sub_diag, firstn_O, app_nil_r. apply firstn_all. }
  assert (G : skipn 32 (octets 32 r ++ octets 32 s) = octets 32 s).
  { rewrite <- (octets_length 32 r) at 1. rewrite skipn_app, Nat.sub_diag, skipn_O, skipn_all. reflexivity. }
  rewrite F, G. rewrite (firstn_all2 (octets 32 s)) by (rewrite octets_length; lia).
  cbn [rbind]. rewrite !octets_back by assumption. reflexivity.
Qed.
