(** C66, C67, C94: Schnorr signatures, alone and in two parties. *)

From Coq Require Import Znumtheory.
From Verif Require Import GoBase BaseLemmas BigInt BigIntProofs NumTheory BigMod SecpModel SecpGroup SecpOrder SecpOrderN SecpProofs SecpCyclic SecpSpec SecpLink EcdsaModel EcdsaSpec EcdsaNonce EcdsaProofs PubKeyModel PubKeySpec PubKeyProofs SchnorrModel SchnorrSpec SchnorrProofs MpcSchnorrModel MpcSchnorrProofs.
Local Open Scope Z_scope.

(** ** C66 *)

Lemma mul_nz : forall e D, 1 <= D < curveN -> 0 <= e < curveN -> e <> 0 -> gmul e (gmul D gG) <> g0.
Proof.
  intros e D HD He N G. rewrite <- gmul_mul in G. apply gmul_G_0 in G.
  apply Zmod_divide in G; [ | discriminate].
  destruct (prime_mult curveN curveN_prime _ _ G) as [H | H]; apply Zdivide_le in H; lia.
Qed.

Lemma key_point : forall D Q, 0 <= D -> multiple base D Q -> gof Q (gmul D gG).
Proof. intros D Q HD M. apply (gof_multiple _ _ _ _ gof_base HD). exact M. Qed.

(** A signature is valid by the rules of the BIP, for every hash. *)
Theorem C66_sign_valid : forall sha D m r s Q, 1 <= D < order_n -> multiple base D Q ->
  SchnorrSignRS sha D m = Ok (r, s) -> schnorr_valid sha Q m r s.
Proof.
  intros sha D m r s Q HD M E. rewrite order_n_eq in HD. pose proof N_lt.
  apply key_point in M; [ | lia].
  destruct (Sign_ok sha D m ltac:(lia)) as [[_ X] | (k & r' & s' & X & _ & Er & Es & NZ & J)];
    rewrite X in E; [discriminate E | ].
  assert (Q1 : r' = r) by congruence. assert (Q2 : s' = s) by congruence. rewrite Q1 in Er, Es. rewrite Q2 in Es.
  apply (schnorr_valid_group _ _ _ _ _ _ M).
  pose proof (enc_bounds (gmul k gG)) as (B & _). split; [rewrite Er; exact B | ].
  split; [rewrite Es; apply Z.mod_pos_bound; exact N_pos | ].
  unfold rpoint. rewrite Es at 1. rewrite sign_point. split; [exact NZ | ]. split; [exact J | symmetry; exact Er].
Qed.
Print Assumptions C66_sign_valid.

(** Signing fails only when the hash gives a zero nonce, and never panics. *)
Theorem C66_sign_total : forall sha D m, 0 <= D < 2 ^ 256 ->
  (be (sha (octets 32 D ++ m)) mod order_n = 0 /\ SchnorrSignRS sha D m = Err "k0 is zero") \/
  exists r s, SchnorrSignRS sha D m = Ok (r, s).
Proof.
  intros sha D m HD. rewrite be_set_bytes, order_n_eq.
  destruct (Sign_ok sha D m HD) as [H | (k & r & s & X & _)]; [left; exact H | right].
  exists r, s. exact X.
Qed.
Print Assumptions C66_sign_total.

(** The program's verifier accepts the program's signature exactly when the
    challenge is not zero. *)
Theorem C66_sign_verify_exact : forall sha D m r s Q, 1 <= D < order_n -> multiple base D Q ->
  SchnorrSignRS sha D m = Ok (r, s) ->
  SchnorrVerifyRS sha (px Q) (py Q) m r s = Ok (negb (challenge sha Q m r =? 0)).
Proof.
  intros sha D m r s Q HD M E. rewrite order_n_eq in HD. pose proof N_lt.
  apply key_point in M; [ | lia]. rewrite (echal_challenge _ _ _ _ _ M).
  pose proof (gof_enc _ _ M) as EQ.
  replace (px Q) with (fst (enc (gmul D gG))) by (rewrite EQ; reflexivity).
  replace (py Q) with (snd (enc (gmul D gG))) by (rewrite EQ; reflexivity).
  destruct (Sign_ok sha D m ltac:(lia)) as [[_ X] | (k & r' & s' & X & _ & Er & Es & NZ & J)];
    rewrite X in E; [discriminate E | ].
  assert (Q1 : r' = r) by congruence. assert (Q2 : s' = s) by congruence. rewrite Q1 in Er, Es. rewrite Q2 in Es.
  pose proof (enc_bounds (gmul k gG)) as (B & _). rewrite <- Er in B.
  assert (Bs : 0 <= s < curveN) by (rewrite Es; apply Z.mod_pos_bound; exact N_pos).
  pose proof (echal_range sha (gmul D gG) m r) as RE.
  destruct (echal sha (gmul D gG) m r =? 0) eqn:Z0; cbn [negb].
  - apply Z.eqb_eq in Z0. apply SchnorrVerify_bad; [lia | lia | | ].
    + rewrite Z0. reflexivity.
    + right. rewrite Es, Z0, Z.mul_0_l, Z.add_0_r, gmul_any_mod. symmetry. exact Er.
  - apply Z.eqb_neq in Z0.
    destruct (SchnorrVerify_group sha (gmul D gG) m r s ltac:(lia) ltac:(lia) (mul_nz _ _ HD RE Z0))
      as (b & V & A). rewrite V. f_equal. apply A. unfold rpoint. rewrite Es at 1.
    rewrite sign_point. split; [exact NZ | ]. split; [exact J | symmetry; exact Er].
Qed.
Print Assumptions C66_sign_verify_exact.

(** So the claim fails for a hash with a zero challenge: the program refuses its
    own signature, which is valid by the BIP. *)
Theorem C66_sign_verify_refuted : exists sha D m r s Q, 1 <= D < order_n /\ multiple base D Q /\
  SchnorrSignRS sha D m = Ok (r, s) /\ schnorr_valid sha Q m r s /\
  SchnorrVerifyRS sha (px Q) (py Q) m r s = Ok false.
Proof.
  set (sha := fun z : bytes => if len z <=? 32 then [1] else [0]).
  assert (HD : 1 <= 1 < order_n) by (split; [discriminate | reflexivity]).
  destruct (gof_ex (gmul 1 gG)) as (Q & HQ).
  assert (M : multiple base 1 Q) by (apply (gof_multiple _ _ _ _ gof_base); [lia | exact HQ]).
  destruct (C66_sign_total sha 1 [] ltac:(split; [discriminate | reflexivity])) as [[Z0 _] | (r & s & E)].
  { exfalso. assert (X : be (sha (octets 32 1 ++ [])) mod order_n = 1) by reflexivity.
    rewrite X in Z0. discriminate Z0. }
  exists sha, 1, [], r, s, Q. split; [exact HD | ]. split; [exact M | ]. split; [exact E | ].
  split; [exact (C66_sign_valid _ _ _ _ _ _ HD M E) | ].
  rewrite (C66_sign_verify_exact _ _ _ _ _ _ HD M E).
  assert (C : challenge sha Q [] r = 0).
  { unfold challenge, sha. assert (L : len (octets 32 r ++ compressed Q ++ []) = 65).
    { unfold len, compressed. rewrite !app_length. cbn [length]. rewrite !octets_length. reflexivity. }
    rewrite L. reflexivity. }
  rewrite C. reflexivity.
Qed.
Print Assumptions C66_sign_verify_refuted.

(** For a finite public key, a non-zero challenge and any s but the order,
    Verify decides validity. *)
Theorem C66_verify : forall sha Q m r s, good Q -> Q <> None -> 0 <= r -> 0 <= s ->
  s <> order_n -> challenge sha Q m r <> 0 ->
  exists b, SchnorrVerifyRS sha (px Q) (py Q) m r s = Ok b /\
    (b = true <-> schnorr_valid sha Q m r s).
Proof.
  intros sha Q m r s HQ NQ Hr Hs Ns NC. destruct (gof_good Q HQ) as (a & Ha).
  rewrite order_n_eq in Ns. rewrite (echal_challenge _ _ _ _ _ Ha) in NC.
  pose proof (gof_enc _ _ Ha) as EQ.
  replace (px Q) with (fst (enc a)) by (rewrite EQ; reflexivity).
  replace (py Q) with (snd (enc a)) by (rewrite EQ; reflexivity).
  assert (Na : a <> g0) by (intro Z0; rewrite Z0 in Ha; apply NQ; exact (gof_inj _ _ _ Ha gof_inf)).
  destruct (Z_lt_le_dec curveP r) as [L | L].
  { exists false. rewrite SchnorrVerify_out by (left; exact L). split; [reflexivity | ].
    split; [discriminate | ]. rewrite (schnorr_valid_group _ _ _ _ _ _ Ha). intros (B & _). lia. }
  destruct (Z_lt_le_dec curveN s) as [L' | L'].
  { exists false. rewrite SchnorrVerify_out by (right; exact L'). split; [reflexivity | ].
    split; [discriminate | ]. rewrite (schnorr_valid_group _ _ _ _ _ _ Ha). intros (_ & B & _). lia. }
  assert (NE : gmul (echal sha a m r) a <> g0).
  { destruct (cyclic a) as (k & Rk & Ek). pose proof (echal_range sha a m r) as RE.
    rewrite Ek at 2. apply mul_nz; [ | exact RE | exact NC].
    destruct (Z.eq_dec k 0) as [K0 | K0]; [ | lia].
    exfalso. apply Na. rewrite Ek, K0. reflexivity. }
  destruct (SchnorrVerify_group sha a m r s ltac:(lia) ltac:(lia) NE) as (b & V & A).
  exists b. split; [exact V | ]. rewrite (schnorr_valid_group _ _ _ _ _ _ Ha), A.
  split; [ | tauto]. intro AC. split; [ | split; [lia | exact AC]].
  destruct AC as (_ & _ & X). pose proof (enc_bounds (rpoint sha a m r s)) as (B & _). lia.
Qed.
Print Assumptions C66_verify.

(** At s equal to the order it accepts what the BIP refuses. *)
Theorem C66_verify_refuted : exists sha Q m r, good Q /\ challenge sha Q m r <> 0 /\
  SchnorrVerifyRS sha (px Q) (py Q) m r order_n = Ok true /\ ~ schnorr_valid sha Q m r order_n.
Proof.
  set (sha := fun _ : bytes => [1]).
  assert (NG : gopp gG <> g0) by (intro Z0; apply gG_nz, gopp_0; exact Z0).
  assert (K : exists a, a <> g0 /\ gopp a <> g0 /\ jacobi (snd (enc (gopp a))) curveP = 1).
  { destruct (Z.eq_dec (jacobi (snd (enc (gopp gG))) curveP) 1) as [J | J].
    - exists gG. split; [exact gG_nz | ]. split; assumption.
    - exists (gopp gG).
      assert (I : gopp (gopp gG) = gG).
      { rewrite <- (gadd_0_r (gopp (gopp gG))), <- (gadd_opp gG), gadd_comm, gadd_assoc.
        rewrite gadd_opp, gadd_0_r. reflexivity. }
      rewrite I. split; [exact NG | ]. split; [exact gG_nz | ].
      rewrite enc_opp_y in J by exact gG_nz. pose proof (enc_range gG gG_nz) as (_ & R).
      set (y := snd (enc gG)) in *. clearbody y.
      assert (NJ : jacobi (- (curveP - y)) curveP = 1).
      { apply (jacobi_opp curveP curveP_prime mod4); [rewrite Z.mod_small; lia | exact J]. }
      rewrite <- NJ, <- (jacobi_mod curveP curveP_prime mod4), <- (jacobi_mod curveP curveP_prime mod4 (- _)).
      f_equal. apply eqm_sub; [lia | ]. exists 1. ring. }
  destruct K as (a & Na & Noa & J). destruct (gof_ex a) as (Q & HQ). pose proof (gof_enc _ _ HQ) as EQ.
  exists sha, Q, [], (fst (enc (gopp a))). 
  assert (EC : forall r, echal sha a [] r = 1) by reflexivity.
  split; [exact (gof_is_good _ _ HQ) | ].
  split; [rewrite (echal_challenge _ _ _ _ _ HQ), EC; discriminate | ]. split.
  - replace (px Q) with (fst (enc a)) by (rewrite EQ; reflexivity).
    replace (py Q) with (snd (enc a)) by (rewrite EQ; reflexivity).
    pose proof (enc_bounds (gopp a)) as (B & _). rewrite order_n_eq.
    destruct (SchnorrVerify_group sha a [] (fst (enc (gopp a))) curveN ltac:(lia)
               ltac:(pose proof N_pos; lia)) as (b & V & A).
    { rewrite EC, gmul_1. exact Na. }
    rewrite V. f_equal. apply A. unfold rpoint. rewrite EC, gmul_1, G_order, gadd_0_l.
    split; [exact Noa | ]. split; [exact J | reflexivity].
  - intros (_ & B & _). lia.
Qed.
Print Assumptions C66_verify_refuted.

(** The same through the 64-byte encoding. *)
Theorem C66_wire : forall sha D m sig Q, 1 <= D < order_n -> multiple base D Q ->
  SchnorrSign sha D m = Ok sig ->
  exists r s, sig = octets 32 r ++ octets 32 s /\ schnorr_valid sha Q m r s /\
    (challenge sha Q m r <> 0 -> SchnorrVerify sha (px Q) (py Q) m sig = Ok tt).
Proof.
  intros sha D m sig Q HD M E. unfold SchnorrSign in E.
  destruct (SchnorrSignRS sha D m) as [[r s] | e | ] eqn:ES; [ | discriminate E | discriminate E].
  pose proof (C66_sign_valid _ _ _ _ _ _ HD M ES) as V. exists r, s.
  pose proof V as (Br & Bs & _). rewrite prime_p_eq in Br. rewrite order_n_eq in Bs.
  pose proof P_lt. pose proof N_lt. cbn [rbind] in E. unfold SchnorrSerialize in E.
  rewrite !IntToByte_ok in E by lia. cbn [rbind] in E.
  assert (EG : sig = octets 32 r ++ octets 32 s) by congruence.
  split; [exact EG | ]. split; [exact V | ]. intro NC. unfold SchnorrVerify.
  rewrite EG, Deserialize_ok by lia. cbn [rbind].
  rewrite (C66_sign_verify_exact _ _ _ _ _ _ HD M ES). cbn [rbind].
  destruct (challenge sha Q m r =? 0) eqn:Z0; [apply Z.eqb_eq in Z0; contradiction | reflexivity].
Qed.
Print Assumptions C66_wire.

(** The hypotheses hold for the constant hash 1 and the key 1. *)
Example ex_schnorr : exists r s Q, multiple base 1 Q /\
  SchnorrSignRS (fun _ => [1]) 1 [7; 7] = Ok (r, s) /\ challenge (fun _ => [1]) Q [7; 7] r <> 0 /\
  SchnorrVerifyRS (fun _ => [1]) (px Q) (py Q) [7; 7] r s = Ok true.
Proof.
  assert (HD : 1 <= 1 < order_n) by (split; [discriminate | reflexivity]).
  destruct (gof_ex (gmul 1 gG)) as (Q & HQ).
  assert (M : multiple base 1 Q) by (apply (gof_multiple _ _ _ _ gof_base); [lia | exact HQ]).
  destruct (C66_sign_total (fun _ => [1]) 1 [7; 7] ltac:(split; [discriminate | reflexivity])) as [[Z0 _] | (r & s & E)].
  { exfalso. discriminate Z0. }
  exists r, s, Q. split; [exact M | ]. split; [exact E | ]. split; [discriminate | ].
  rewrite (C66_sign_verify_exact _ _ _ _ _ _ HD M E). reflexivity.
Qed.

(** ** C67 *)

(** The key pair of a secret. *)
Definition pair_of (D : Z) (prv : Z * (Z * Z)) : Prop :=
  exists Q, multiple base D Q /\ prv = (D, (px Q, py Q)).

Lemma pair_key : forall D prv, 0 <= D -> pair_of D prv -> prv = key D.
Proof.
  intros D prv HD (Q & M & ->). apply key_point in M; [ | exact HD]. unfold key.
  rewrite (gof_enc _ _ M). reflexivity.
Qed.

(** The run of the two parties agrees on a key and a signature, and that
    signature is accepted for the joint key exactly when the challenges over the
    parties' own R values make up for the right one. *)
Theorem C67_run_exact : forall sha D1 D2 prv1 prv2 m,
  1 <= D1 < order_n -> 1 <= D2 < order_n -> pair_of D1 prv1 -> pair_of D2 prv2 ->
  let k1 := be (sha (octets 32 D1 ++ m)) mod order_n in
  let k2 := be (sha (octets 32 D2 ++ m)) mod order_n in
  k1 <> 0 -> k2 <> 0 -> (k1 + k2) mod order_n <> 0 ->
  exists P R R1 R2 s sig,
    multiple base (D1 + D2) P /\ multiple base (k1 + k2) R /\ multiple base k1 R1 /\ multiple base k2 R2 /\
    sig = octets 32 (px R) ++ octets 32 s /\
    RunSchnorr sha prv1 prv2 m = Ok ((px P, py P), (px R, py R), sig, sig) /\
    let e := challenge sha P m (px R) in
    let e1 := challenge sha P m (px R1) in
    let e2 := challenge sha P m (px R2) in
    ((e * (D1 + D2)) mod order_n <> 0 ->
     SchnorrVerify sha (px P) (py P) m sig =
     if ((e1 - e) * D1 + (e2 - e) * D2) mod order_n =? 0 then Ok tt
     else Err "schnorr.signature.verify.failed").
Proof.
  intros sha D1 D2 prv1 prv2 m H1 H2 K1 K2 k1 k2 N1 N2 N12.
  assert (E1 : k1 = nonce0 sha D1 m) by (unfold k1, nonce0; rewrite be_set_bytes, order_n_eq; reflexivity).
  assert (E2 : k2 = nonce0 sha D2 m) by (unfold k2, nonce0; rewrite be_set_bytes, order_n_eq; reflexivity).
  clearbody k1 k2. rewrite order_n_eq in H1, H2, N12 |- *.
  apply pair_key in K1; [ | lia]. apply pair_key in K2; [ | lia]. subst prv1 prv2.
  pose proof N_lt as NL. pose proof P_lt as PL.
  assert (B1 : 0 <= k1 < curveN) by (rewrite E1; apply Z.mod_pos_bound; exact N_pos).
  assert (B2 : 0 <= k2 < curveN) by (rewrite E2; apply Z.mod_pos_bound; exact N_pos).
  destruct (gof_ex (gmul (D1 + D2) gG)) as (P & HP). destruct (gof_ex (gmul (k1 + k2) gG)) as (R & HR).
  destruct (gof_ex (gmul k1 gG)) as (R1 & HR1). destruct (gof_ex (gmul k2 gG)) as (R2 & HR2).
  pose proof (Run_ok sha D1 D2 m ltac:(lia) ltac:(lia)) as RUN. cbv zeta in RUN.
  rewrite <- E1, <- E2 in RUN. specialize (RUN N1 N2).
  assert (NR : gmul (k1 + k2) gG <> g0) by (intro Z0; apply gmul_G_0 in Z0; contradiction).
  pose proof (signed_sum k1 k2 NR) as (NR' & JR' & XR').
  set (R' := gmul (signed (gmul (k1 + k2) gG) k1 + signed (gmul (k1 + k2) gG) k2) gG) in *.
  set (s := (signed (gmul (k1 + k2) gG) k1 + signed (gmul (k1 + k2) gG) k2 +
             (own sha (gmul (D1 + D2) gG) m k1 * D1 + own sha (gmul (D1 + D2) gG) m k2 * D2)) mod curveN) in *.
  exists P, R, R1, R2, s, (octets 32 (px R) ++ octets 32 s).
  split; [apply (gof_multiple _ _ _ _ gof_base); [lia | exact HP] | ].
  split; [apply (gof_multiple _ _ _ _ gof_base); [lia | exact HR] | ].
  split; [apply (gof_multiple _ _ _ _ gof_base); [lia | exact HR1] | ].
  split; [apply (gof_multiple _ _ _ _ gof_base); [lia | exact HR2] | ].
  split; [reflexivity | ].
  pose proof (gof_enc _ _ HP) as EP. pose proof (gof_enc _ _ HR) as ER.
  pose proof (gof_enc _ _ HR1) as ER1. pose proof (gof_enc _ _ HR2) as ER2.
  rewrite !(echal_challenge _ _ _ _ _ HP).
  assert (O1 : own sha (gmul (D1 + D2) gG) m k1 = echal sha (gmul (D1 + D2) gG) m (px R1)).
  { unfold own. rewrite ER1. reflexivity. }
  assert (O2 : own sha (gmul (D1 + D2) gG) m k2 = echal sha (gmul (D1 + D2) gG) m (px R2)).
  { unfold own. rewrite ER2. reflexivity. }
  fold s in RUN.
  split; [rewrite RUN, EP, ER; reflexivity | ].
  assert (Bs : 0 <= s < curveN) by (apply Z.mod_pos_bound; exact N_pos).
  pose proof (enc_bounds (gmul (k1 + k2) gG)) as (BR & _). rewrite ER in BR, XR'. cbn [fst] in BR, XR'.
  cbv zeta. intro NE.
  unfold SchnorrVerify. rewrite Deserialize_ok by lia. cbn [rbind].
  replace (px P) with (fst (enc (gmul (D1 + D2) gG))) by (rewrite EP; reflexivity).
  replace (py P) with (snd (enc (gmul (D1 + D2) gG))) by (rewrite EP; reflexivity).
  set (a := gmul (D1 + D2) gG) in *.
  assert (NG : gmul (echal sha a m (px R)) a <> g0).
  { unfold a at 2. rewrite <- gmul_mul. intro Z0. apply gmul_G_0 in Z0. contradiction. }
  destruct (SchnorrVerify_group sha a m (px R) s ltac:(lia) ltac:(lia) NG) as (b & V & A).
  rewrite V. cbn [rbind].
  set (e := echal sha a m (px R)) in *.
  set (t := (echal sha a m (px R1) - e) * D1 + (echal sha a m (px R2) - e) * D2).
  assert (PT : gadd (gmul s gG) (gopp (gmul e a)) = gadd R' (gmul t gG)).
  { unfold s. rewrite gmul_any_mod. unfold a at 3. rewrite <- gmul_mul, <- gmul_opp, <- gmul_add.
    unfold R'. rewrite <- gmul_add. f_equal. rewrite O1, O2. unfold t. ring. }
  pose proof (final_accepts a R' e t s NR' JR' PT) as FA. rewrite XR' in FA.
  unfold rpoint in A. fold e in A. rewrite FA in A.
  fold t. destruct (t mod curveN =? 0) eqn:T0.
  - apply Z.eqb_eq in T0. apply A in T0. rewrite T0. reflexivity.
  - apply Z.eqb_neq in T0. destruct b; [ | reflexivity].
    exfalso. apply T0. apply A. reflexivity.
Qed.
Print Assumptions C67_run_exact.

(** The claim is false: a hash, two keys and a message for which the run
    completes and its signature is refused. *)
Definition first32 : bytes -> bytes := firstn 32.

Theorem C67_refuted : exists sha D1 D2 prv1 prv2 m pub R sig,
  1 <= D1 < order_n /\ 1 <= D2 < order_n /\ pair_of D1 prv1 /\ pair_of D2 prv2 /\
  RunSchnorr sha prv1 prv2 m = Ok (pub, R, sig, sig) /\
  SchnorrVerify sha (fst pub) (snd pub) m sig = Err "schnorr.signature.verify.failed".
Proof.
  destruct (gof_ex (gmul 1 gG)) as (Q & HQ).
  assert (M : multiple base 1 Q) by (apply (gof_multiple _ _ _ _ gof_base); [lia | exact HQ]).
  assert (HD : 1 <= 1 < order_n) by (split; [discriminate | reflexivity]).
  assert (PO : pair_of 1 (1, (px Q, py Q))) by (exists Q; split; [exact M | reflexivity]).
  assert (K : be (first32 (octets 32 1 ++ [])) mod order_n = 1) by reflexivity.
  pose proof (C67_run_exact first32 1 1 _ _ [] HD HD PO PO) as T. rewrite K in T. cbv zeta in T.
  destruct T as (P & R & R1 & R2 & s & sig & MP & MR & MR1 & MR2 & ES & RUN & V);
    [discriminate | discriminate | discriminate | ].
  assert (CH : forall r, challenge first32 P [] r = be (octets 32 r) mod order_n).
  { intro r. unfold challenge, first32. do 2 f_equal. }
  apply (gof_multiple _ _ _ _ gof_base) in MR1; [ | lia]. rewrite gmul_1 in MR1.
  apply (gof_multiple _ _ _ _ gof_base) in MR2; [ | lia]. rewrite gmul_1 in MR2.
  apply (gof_multiple _ _ _ _ gof_base) in MR; [ | lia].
  assert (X1 : R1 = base) by exact (gof_inj _ _ _ MR1 gof_base).
  assert (X2 : R2 = base) by exact (gof_inj _ _ _ MR2 gof_base).
  assert (XR : px R = 0xc6047f9441ed7d6d3045406e95c07cd85c778e4b8cef3ca7abac09b95c709ee5).
  { change (px R) with (fst (px R, py R)). rewrite <- (gof_enc _ _ MR).
    assert (E2 : Ok (enc (gmul (1 + 1) gG)) = curveDouble curveGx curveGy).
    { rewrite gmul_add, gmul_1. symmetry. exact (curveDouble_ok gG). }
    assert (C : curveDouble curveGx curveGy =
      Ok (0xc6047f9441ed7d6d3045406e95c07cd85c778e4b8cef3ca7abac09b95c709ee5,
          0x1ae168fea63dc339a3c58419466ceaeef7f632653266d0e1236431a950cfe52a)) by (vm_compute; reflexivity).
    rewrite C in E2. assert (E3 : enc (gmul (1 + 1) gG) = (0xc6047f9441ed7d6d3045406e95c07cd85c778e4b8cef3ca7abac09b95c709ee5,
          0x1ae168fea63dc339a3c58419466ceaeef7f632653266d0e1236431a950cfe52a)) by congruence.
    rewrite E3. reflexivity. }
  exists first32, 1, 1, (1, (px Q, py Q)), (1, (px Q, py Q)), [], (px P, py P), (px R, py R), sig.
  split; [exact HD | ]. split; [exact HD | ]. split; [exact PO | ]. split; [exact PO | ].
  split; [exact RUN | ]. cbn [fst snd].
  rewrite !CH, X1, X2, XR in V.
  assert (NE : (be (octets 32 0xc6047f9441ed7d6d3045406e95c07cd85c778e4b8cef3ca7abac09b95c709ee5) mod order_n * (1 + 1)) mod order_n <> 0)
    by (vm_compute; discriminate).
  rewrite (V NE). vm_compute. reflexivity.
Qed.
Print Assumptions C67_refuted.

(** ** C94 *)

(** Phase4 stores the sign of the nonce in the party, so calling it twice with
    the same arguments, when the joint R has a y that is not a square, signs the
    same challenge with a nonce and with its negation: the two answers give the
    private key away. *)
Theorem C94_phase4_repeat : forall sha p sharePub shareR sig1 p1 sig2 p2,
  0 <= sp_prv p < order_n -> ~ is_square (snd shareR) ->
  SPhase4 sha p sharePub shareR = Ok (sig1, p1) -> SPhase4 sha p1 sharePub shareR = Ok (sig2, p2) ->
  exists R0 rb e, sp_r p = Some R0 /\ IntToByte (fst R0) = Ok rb /\
    GetE sha (sp_hash p) (fst sharePub) (snd sharePub) rb = Ok e /\
    (e <> 0 -> exists i, (2 * e * i) mod order_n = 1 /\
       ((be sig1 + be sig2) * i) mod order_n = sp_prv p).
Proof.
  intros sha p [X Y] [Rx Ry] sig1 p1 sig2 p2 HD NS E1 E2. cbn [fst snd] in *.
  rewrite order_n_eq in *. unfold SPhase4 in E1. cbn [fst snd] in E1.
  destruct (sp_k0 p) as [k0 | ] eqn:K0; [ | discriminate E1].
  destruct (sp_r p) as [[rx ry] | ] eqn:R0; [ | discriminate E1]. cbn [fst snd] in E1.
  destruct (IntToByte rx) as [rb | | ] eqn:RB; cbn [rbind] in E1; [ | discriminate E1 | discriminate E1].
  destruct (GetE sha (sp_hash p) X Y rb) as [e | | ] eqn:GE; cbn [rbind] in E1; [ | discriminate E1 | discriminate E1].
  assert (J : forall k, GetK Ry k = curveN - k).
  { intro k. unfold GetK. destruct (jacobi Ry curveP =? 1) eqn:J; [ | reflexivity].
    apply Z.eqb_eq, jac_square in J. contradiction. }
  rewrite J in E1. pose proof N_lt as NL.
  assert (M : forall z, 0 <= z mod curveN < 2 ^ 256) by (intro z; pose proof (Z.mod_pos_bound z curveN N_pos); lia).
  rewrite IntToByte_ok in E1 by apply M. cbn [rbind] in E1.
  assert (S1 : sig1 = octets 32 ((curveN - k0 + e * sp_prv p) mod curveN)) by congruence.
  assert (P1 : p1 = MkSParty (Some (curveN - k0)) (sp_prv p) (sp_pub p) (sp_hash p) (Some (rx, ry))) by congruence.
  rewrite P1 in E2. unfold SPhase4 in E2. cbn [sp_k0 sp_prv sp_pub sp_hash sp_r fst snd] in E2.
  rewrite RB in E2. cbn [rbind] in E2. rewrite GE in E2. cbn [rbind] in E2. rewrite J in E2.
  rewrite IntToByte_ok in E2 by apply M. cbn [rbind] in E2.
  assert (S2 : sig2 = octets 32 ((curveN - (curveN - k0) + e * sp_prv p) mod curveN)) by congruence.
  exists (rx, ry), rb, e. split; [reflexivity | ]. split; [exact RB | ]. split; [exact GE | ].
  intro NE. assert (BE : 0 <= e < curveN).
  { unfold GetE in GE. destruct (SecMarshal X Y); cbn [rbind] in GE; [ | discriminate GE | discriminate GE].
    injection GE as <-. apply Z.mod_pos_bound. exact N_pos. }
  destruct (inv_exists curveN (2 * e) curveN_prime) as (i & _ & Hi).
  { intro Z0. apply Zmod_divide in Z0; [ | discriminate].
    destruct (prime_mult curveN curveN_prime _ _ Z0) as [D | D]; apply Zdivide_le in D; pose proof curveN_gt; lia. }
  exists i. split; [exact Hi | ].
  rewrite S1, S2, !be_set_bytes, !octets_back by apply M.
  rewrite <- Z.mul_mod_idemp_l, <- Z.add_mod, Z.mul_mod_idemp_l by discriminate.
  rewrite <- (Z.mod_small (sp_prv p) curveN) at 3 by exact HD.
  assert (H1 : (2 * e * i) mod curveN = 1 mod curveN) by (rewrite Hi; reflexivity).
  apply eqm_div in H1; [ | exact N_pos]. destruct H1 as (c & H1).
  apply eqm_sub; [exact N_pos | ]. exists (i + c * sp_prv p).
  assert (H2 : 2 * e * i = 1 + c * curveN) by lia.
  replace ((curveN - k0 + e * sp_prv p + (curveN - (curveN - k0) + e * sp_prv p)) * i - sp_prv p)
    with (curveN * i + sp_prv p * (2 * e * i - 1)) by ring.
  rewrite H2. ring.
Qed.
Print Assumptions C94_phase4_repeat.

Lemma jacobi_not_both_sub : forall p, prime p -> p mod 4 = 3 -> forall y,
  jacobi y p = 1 -> jacobi (p - y) p = 1 -> False.
Proof.
  intros p Hp H4 y J S. apply (jacobi_not_both p Hp H4 _ J).
  rewrite <- (jacobi_mod p Hp H4), <- S, <- (jacobi_mod p Hp H4 (p - y)). f_equal.
  pose proof (prime_ge_2 p Hp). rewrite <- (Z.mod_add (- y) 1 p) by lia. f_equal. lia.
Qed.

(** Such a party exists: one of two opposite points has a y that is not a
    square; with the hash 1 the two answers are 2 and 8, and the key is 5. *)
Example ex_repeat : exists p pub R p1 p2, sp_prv p = 5 /\ IsOnCurve (fst R) (snd R) = true /\
  ~ is_square (snd R) /\
  SPhase4 (fun _ => [1]) p pub R = Ok (octets 32 2, p1) /\
  SPhase4 (fun _ => [1]) p1 pub R = Ok (octets 32 8, p2).
Proof.
  assert (K : exists R, (IsOnCurve (fst R) (snd R) = true) /\ ~ is_square (snd R)).
  { destruct (Z.eq_dec (jacobi curveGy curveP) 1) as [J | J].
    - exists (curveGx, curveP - curveGy). split; [vm_compute; reflexivity | ]. cbn [snd]. intro S.
      apply jac_square in S. exact (jacobi_not_both_sub curveP curveP_prime mod4 _ J S).
    - exists (curveGx, curveGy). split; [vm_compute; reflexivity | ]. cbn [snd]. intro S.
      apply J. apply jac_square. exact S. }
  destruct K as ([Rx Ry] & ON & NS). cbn [fst snd] in *.
  assert (J : forall k, GetK Ry k = curveN - k).
  { intro k. unfold GetK. destruct (jacobi Ry curveP =? 1) eqn:J; [ | reflexivity].
    apply Z.eqb_eq, jac_square in J. contradiction. }
  exists (MkSParty (Some 3) 5 (0, 0) [] (Some (curveGx, curveGy))), (curveGx, curveGy), (Rx, Ry).
  exists (MkSParty (Some (curveN - 3)) 5 (0, 0) [] (Some (curveGx, curveGy))).
  exists (MkSParty (Some (curveN - (curveN - 3))) 5 (0, 0) [] (Some (curveGx, curveGy))).
  split; [reflexivity | ]. split; [exact ON | ]. split; [exact NS | ].
  split; unfold SPhase4; cbn [sp_k0 sp_r fst snd]; rewrite J; vm_compute; reflexivity.
Qed.

(** For C67: with a constant hash the three challenges agree and the joint
    signature is accepted. *)
Example ex_joint : exists P R sig, RunSchnorr (fun _ => [1]) (key 1) (key 2) [9] = Ok ((px P, py P), R, sig, sig) /\
  SchnorrVerify (fun _ => [1]) (px P) (py P) [9] sig = Ok tt.
Proof.
  assert (PO : forall D, 0 <= D -> pair_of D (key D)).
  { intros D HD. destruct (gof_ex (gmul D gG)) as (Q & HQ). exists Q. split.
    - apply (gof_multiple _ _ _ _ gof_base); [exact HD | exact HQ].
    - unfold key. rewrite (gof_enc _ _ HQ). reflexivity. }
  destruct (C67_run_exact (fun _ => [1]) 1 2 (key 1) (key 2) [9]
              ltac:(split; [discriminate | reflexivity]) ltac:(split; [discriminate | reflexivity])
              (PO 1 ltac:(lia)) (PO 2 ltac:(lia)) ltac:(discriminate) ltac:(discriminate) ltac:(discriminate))
    as (P & R & R1 & R2 & s & sig & _ & _ & _ & _ & _ & RUN & V).
  exists P, (px R, py R), sig. split; [exact RUN | ]. apply V. discriminate.
Qed.
