(** C64, C65, C90-C92: ECDSA. *)

From Coq Require Import Znumtheory.
From Verif Require Import GoBase BaseLemmas BigInt BigIntProofs NumTheory BigMod Sha256 SecpModel SecpGroup SecpOrder SecpOrderN SecpProofs SecpCyclic SecpSpec SecpLink EcdsaModel EcdsaSpec EcdsaNonce EcdsaProofs.
Local Open Scope Z_scope.

(** ** C64 *)

(** Verify decides validity, for every public key and every pair of numbers,
    and never fails. *)
Theorem C64_verify : forall Q hash r s, good Q -> bytes_ok hash ->
  exists b, Verify (px Q) (py Q) hash r s = Ok b /\
    (b = true <-> ecdsa_valid Q (message_int hash) r s).
Proof.
  intros Q hash r s HQ Hh. destruct (gof_good Q HQ) as (a & Ha).
  destruct (Verify_group a hash r s Hh) as (b & E & V). exists b.
  rewrite (gof_enc _ _ Ha) in E. split; [exact E | ].
  rewrite (valid_group Q a _ r s Ha). exact V.
Qed.
Print Assumptions C64_verify.

(** A signature is valid for the public key and has a low s, whatever the HMAC
    and however many candidates the nonce took. *)
Theorem C64_sign : forall hmac fuel D hash r s Q, bytes_ok hash -> 0 <= D ->
  Sign hmac fuel D hash = Some (Ok (r, s)) -> multiple base D Q ->
  ecdsa_valid Q (message_int hash) r s /\ 1 <= r < order_n /\ 1 <= s <= order_n / 2.
Proof.
  intros hmac fuel D hash r s Q Hh HD E HQ. unfold Sign in E.
  destruct (NonceRFC6979 hmac fuel curveN D hash) as [k | ] eqn:EK; [ | discriminate E].
  apply nonce_range in EK. assert (E' : SignWith D k hash = Ok (r, s)) by congruence.
  apply (gof_multiple _ _ _ _ gof_base HD) in HQ.
  pose proof (SignWith_valid D k hash r s Hh EK E') as V.
  split; [apply (valid_group Q _ _ r s HQ); exact V | ].
  rewrite order_n_eq. split; [exact (proj1 V) | ].
  destruct (SignWith_ok D k hash Hh EK) as [(e & X & _) | (r' & s' & X & _ & _ & Rs & _)];
    rewrite X in E'; [discriminate E' | ].
  assert (s' = s) by congruence. subst s'. exact Rs.
Qed.
Print Assumptions C64_sign.

(** Round trip through the program's own key and verifier. *)
Theorem C64_sign_verify : forall hmac fuel key D pub hash r s,
  bytes_ok key -> bytes_ok hash ->
  PrvKeyFromBytes key = Ok (D, pub) -> Sign hmac fuel D hash = Some (Ok (r, s)) ->
  Verify (fst pub) (snd pub) hash r s = Ok true.
Proof.
  intros hmac fuel key D pub hash r s Hk Hh K E. unfold PrvKeyFromBytes in K.
  rewrite ScalarBaseMult_ok in K by exact Hk. cbn [rbind] in K.
  assert (ED : D = set_bytes key) by congruence.
  assert (EP : pub = enc (gmul D gG)) by congruence. clear K. subst pub.
  unfold Sign in E.
  destruct (NonceRFC6979 hmac fuel curveN D hash) as [k | ] eqn:EK; [ | discriminate E].
  apply nonce_range in EK. assert (E' : SignWith D k hash = Ok (r, s)) by congruence.
  destruct (Verify_group (gmul D gG) hash r s Hh) as (b & EV & V). rewrite EV. f_equal.
  apply V. apply (SignWith_valid D k); assumption.
Qed.
Print Assumptions C64_sign_verify.

(** Signing never panics; it fails only for a nonce whose r or s is zero, and
    otherwise r and s solve the signing equation up to the sign of s. *)
Theorem C64_sign_equation : forall hmac fuel D hash out, bytes_ok hash -> 0 <= D ->
  Sign hmac fuel D hash = Some out ->
  exists k R, 1 <= k < order_n /\ NonceRFC6979 hmac fuel order_n D hash = Some k /\
    multiple base k R /\
    ((exists e, out = Err e /\
        (px R mod order_n = 0 \/ (message_int hash + D * (px R mod order_n)) mod order_n = 0)) \/
     (exists s, out = Ok (px R mod order_n, s) /\
        ((s * k - (message_int hash + D * px R)) mod order_n = 0 \/
         (s * k + (message_int hash + D * px R)) mod order_n = 0))).
Proof.
  intros hmac fuel D hash out Hh HD E. unfold Sign in E. rewrite order_n_eq.
  destruct (NonceRFC6979 hmac fuel curveN D hash) as [k | ] eqn:EK; [ | discriminate E].
  pose proof (nonce_range _ _ _ _ _ _ EK) as Rk. injection E as E.
  destruct (gof_ex (gmul k gG)) as (R & HR). exists k, R.
  split; [exact Rk | ]. split; [reflexivity | ].
  assert (K0 : 0 <= k) by lia.
  split; [apply (gof_multiple _ _ _ _ gof_base K0); exact HR | ].
  pose proof (SignWith_ok D k hash Hh Rk) as S. rewrite (gof_enc _ _ HR) in S. cbn [fst] in S.
  rewrite E in S. destruct S as [(e & S & X) | (r & s & S & Er & Rr & Rs & X)].
  - left. exists e. split; [exact S | exact X].
  - right. exists s. split; [congruence | ]. subst r.
    assert (C : forall z, (message_int hash + D * (px R mod curveN)) mod curveN = z mod curveN ->
                  (message_int hash + D * px R) mod curveN = z mod curveN).
    { intros z Hz. rewrite <- Hz. rewrite <- (Zplus_mod_idemp_r (D * (px R mod curveN))).
      rewrite Zmult_mod_idemp_r, Zplus_mod_idemp_r. reflexivity. }
    destruct X as [X | X]; symmetry in X; apply C in X; symmetry in X.
    + left. apply Zdivide_mod. apply eqm_div; [exact N_pos | exact X].
    + right. apply Zdivide_mod. apply eqm_div in X; [ | exact N_pos].
      destruct X as (q & Hq). exists (k - q). lia.
Qed.
Print Assumptions C64_sign_equation.

(** ** C65 *)

(** For the order of the curve: the nonce is the first candidate of RFC 6979
    in range, and once the loop has run long enough it is found. *)
Theorem C65_nonce : forall hmac x hash k,
  (forall a b, length (hmac a b) = 32%nat) -> 0 <= x -> bytes_ok hash ->
  (exists i, rfc_nonce hmac order_n 256 x hash i k) <->
  (exists fuel, NonceRFC6979 hmac fuel order_n x hash = Some k).
Proof.
  intros hmac x hash k HL Hx Hh.
  assert (B : bit_len order_n = 256) by reflexivity.
  assert (P : 0 < order_n) by reflexivity.
  split.
  - intros (i & E). exists (S i). rewrite nonce_start by assumption. rewrite B.
    apply (stepH_complete hmac HL order_n 256 eq_refl (or_introl eq_refl) x hash i (S i) 0 k);
      [lia | exact E].
  - intros (fuel & E). rewrite nonce_start in E by assumption. rewrite B in E.
    apply (stepH_sound hmac HL order_n 256 eq_refl (or_introl eq_refl) x hash) in E.
    + destruct E as (n & _ & E). exists n. exact E.
    + intros j Hj. lia.
Qed.
Print Assumptions C65_nonce.

(** For any modulus q of qlen bits, unless qlen is 1 to 7 above a multiple of
    256. *)
Theorem C92_nonce_any_order : forall hmac q qlen x hash k,
  (forall a b, length (hmac a b) = 32%nat) -> 0 <= x -> bytes_ok hash ->
  0 < qlen -> 2 ^ (qlen - 1) <= q < 2 ^ qlen -> qlen mod 256 = 0 \/ 8 <= qlen mod 256 ->
  (exists i, rfc_nonce hmac q qlen x hash i k) <->
  (exists fuel, NonceRFC6979 hmac fuel q x hash = Some k).
Proof.
  intros hmac q qlen x hash k HL Hx Hh Hl Hq Hm.
  pose proof (bit_len_unique q qlen Hq Hl) as B.
  assert (P : 0 < q).
  { assert (0 < 2 ^ (qlen - 1)) by (apply Z.pow_pos_nonneg; lia). lia. }
  split.
  - intros (i & E). exists (S i). rewrite nonce_start by assumption. rewrite B.
    apply (stepH_complete hmac HL q qlen Hl Hm x hash i (S i) 0 k); [lia | exact E].
  - intros (fuel & E). rewrite nonce_start in E by assumption. rewrite B in E.
    apply (stepH_sound hmac HL q qlen Hl Hm x hash) in E.
    + destruct E as (n & _ & E). exists n. exact E.
    + intros j Hj. lia.
Qed.
Print Assumptions C92_nonce_any_order.

(** For those lengths the code stops collecting bits too early. *)
Theorem C92_nonce_any_order_refuted : exists hmac q qlen x hash k k',
  (forall a b, length (hmac a b) = 32%nat) /\ 0 <= x < q /\ bytes_ok hash /\
  0 < qlen /\ 2 ^ (qlen - 1) <= q < 2 ^ qlen /\
  NonceRFC6979 hmac 1 q x hash = Some k /\ rfc_nonce hmac q qlen x hash 0 k' /\ k <> k'.
Proof.
  exists (fun _ _ => repeat 1 32), (2 ^ 257 - 1), 257, 1, [], (be (repeat 1 32)),
    (be (repeat 1 64) / 2 ^ 255).
  split; [reflexivity | ]. split; [split; [discriminate | reflexivity] | ].
  split; [constructor | ]. split; [reflexivity | ].
  split; [split; [discriminate | reflexivity] | ].
  split; [vm_compute; reflexivity | ]. split; [ | apply Z.eqb_neq; vm_compute; reflexivity].
  split; [vm_compute; reflexivity | ].
  split; [split; [apply Z.leb_le | apply Z.ltb_lt]; vm_compute; reflexivity | ].
  intros j Hj. lia.
Qed.
Print Assumptions C92_nonce_any_order_refuted.

(** In range always, and the same whatever the number of rounds allowed. *)
Theorem C65_range : forall hmac fuel q x hash k,
  NonceRFC6979 hmac fuel q x hash = Some k -> 1 <= k <= q - 1.
Proof. intros hmac fuel q x hash k E. apply nonce_range in E. lia. Qed.
Print Assumptions C65_range.

(** ** C90: the curve is a cyclic group of order N *)

Theorem C90_every_point_a_multiple : forall P, good P ->
  exists k, 0 <= k < order_n /\ multiple base k P /\
    forall j, 0 <= j < order_n -> multiple base j P -> j = k.
Proof.
  intros P HP. destruct (gof_good P HP) as (a & Ha). destruct (cyclic a) as (k & Rk & E).
  exists k. rewrite order_n_eq. split; [exact Rk | ]. split.
  - apply (gof_multiple base gG k P gof_base (proj1 Rk)). rewrite <- E. exact Ha.
  - intros j Rj M. apply (gof_multiple _ _ _ _ gof_base (proj1 Rj)) in M.
    pose proof (gof_fun _ _ _ M Ha) as G. rewrite E in G. apply gmul_G_inj in G.
    rewrite !Z.mod_small in G by assumption. exact G.
Qed.
Print Assumptions C90_every_point_a_multiple.

(** Every point other than infinity has order N. *)
Theorem C90_order : forall P k, good P -> P <> None -> bytes_ok k ->
  (ScalarMult (px P) (py P) k = Ok (0, 0) <-> (order_n | be k)).
Proof.
  intros P k HP NP Hk. destruct (gof_good P HP) as (a & Ha). destruct (cyclic a) as (j & Rj & E).
  pose proof (ScalarMult_ok a k Hk) as M. rewrite (gof_enc _ _ Ha) in M. cbn [fst snd] in M.
  rewrite M, be_set_bytes, order_n_eq.
  assert (J0 : j mod curveN <> 0).
  { intro J. apply NP. apply (gof_inj _ _ a Ha). rewrite E.
    replace (gmul j gG) with g0 by (symmetry; apply gmul_G_0; exact J). exact gof_inf. }
  split.
  - intro G. assert (G' : enc (gmul (set_bytes k) a) = enc g0) by (rewrite enc_g0; congruence).
    apply enc_inj in G'. rewrite E, <- gmul_mul in G'. apply gmul_G_0 in G'.
    apply Zmod_divide in G'; [ | discriminate].
    destruct (prime_mult curveN curveN_prime _ _ G') as [D | D]; [exact D | ].
    exfalso. apply J0. apply Zdivide_mod. exact D.
  - intro D. f_equal. rewrite <- enc_g0. f_equal. rewrite <- gmul_any_mod.
    apply Zdivide_mod in D. rewrite D. reflexivity.
Qed.
Print Assumptions C90_order.

(** ** C91: negating s gives another valid signature *)

Theorem C91_malleable : forall Q hash r s, good Q -> bytes_ok hash ->
  Verify (px Q) (py Q) hash r (order_n - s) = Verify (px Q) (py Q) hash r s.
Proof.
  intros Q hash r s HQ Hh. destruct (gof_good Q HQ) as (a & Ha).
  assert (W : forall s, 1 <= r < curveN /\ 1 <= s < curveN /\
     (exists w, (s * w) mod curveN = 1 /\ vpoint a (message_int hash) r w <> g0 /\
       fst (enc (vpoint a (message_int hash) r w)) mod curveN = r) ->
     1 <= r < curveN /\ 1 <= curveN - s < curveN /\
     (exists w, ((curveN - s) * w) mod curveN = 1 /\ vpoint a (message_int hash) r w <> g0 /\
       fst (enc (vpoint a (message_int hash) r w)) mod curveN = r)).
  { intros t (R & S & w & E & NZ & X). split; [exact R | ]. split; [lia | ].
    exists (- w). rewrite vpoint_opp, enc_opp_x. split.
    - rewrite <- E. apply eqm_sub; [exact N_pos | ]. exists (- w). ring.
    - split; [intro G; apply NZ; apply gopp_0; exact G | exact X]. }
  destruct (Verify_group a hash r s Hh) as (b & E & V).
  destruct (Verify_group a hash r (curveN - s) Hh) as (b' & E' & V').
  rewrite order_n_eq. rewrite (gof_enc _ _ Ha) in E, E'. cbn [fst snd] in E, E'.
  rewrite E, E'. f_equal. apply Bool.eq_iff_eq_true. rewrite V, V'. split; intro H.
  - apply W in H. replace (curveN - (curveN - s)) with s in H by ring. exact H.
  - apply W. exact H.
Qed.
Print Assumptions C91_malleable.

(** ** Examples *)

(** A toy HMAC whose first candidate is out of range: the second one is used. *)
Definition toy_hmac (k m : bytes) : bytes :=
  repeat (if hd 0 k =? 0 then 255
          else if len m =? 33 then 254
          else if hd 0 k =? 255 then 255 else 7) 32.

Example ex_second_candidate :
  NonceRFC6979 toy_hmac 1 order_n 5 [1; 2; 3] = None /\
  NonceRFC6979 toy_hmac 2 order_n 5 [1; 2; 3] = Some (be (repeat 7 32)).
Proof. split; vm_compute; reflexivity. Qed.

Example ex_toy_len : forall a b, length (toy_hmac a b) = 32%nat.
Proof. intros a b. apply repeat_length. Qed.

(** RFC 6979 appendix A.1 (the repository's test), with the real HMAC. *)
Definition hmac_sha256 (k m : bytes) : bytes :=
  let k := if 64 <? len k then sha256 k else k in
  let k := k ++ repeat 0 (64 - length k) in
  sha256 (map (Z.lxor 0x5c) k ++ sha256 (map (Z.lxor 0x36) k ++ m)).

Example ex_rfc6979_A1 :
  NonceRFC6979 hmac_sha256 3 0x4000000000000000000020108A2E0CC0D99F8A5EF
    0x09A4D6792295A7F730FC3F2B49CBC0F62E862272F
    (octets 32 0xAF2BDBE1AA9B6EC1E2ADE1D694F41FC71A831D0268E9891562113D8A62ADD1BF)
  = Some 0x23AF4074C90A02B3FE61D286D5C87F425E6BDD81B.
Proof. vm_compute. reflexivity. Qed.

(** Nonce 2: r is the x coordinate of 2G. *)
Definition two_hmac (_ _ : bytes) : bytes := repeat 0 31 ++ [2].

Example ex_sign : Sign two_hmac 1 3 [9]
  = Some (Ok (89565891926547004231252920425935692360644145829622209833684329913297188986597,
       18556748652504310923308395630215630688128654465358410367921331728427621985563)).
Proof. vm_compute. reflexivity. Qed.
