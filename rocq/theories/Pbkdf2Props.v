(** C73: PBKDF2. *)
From Verif Require Import GoBase BaseLemmas Pbkdf2Model EcdsaSpec EcdsaNonce Pbkdf2Spec Sha256.
Local Open Scope Z_scope.

Section Proofs.
Variable prf : bytes -> bytes.
Variable hLen : nat.
Hypothesis prf_len : forall m, length (prf m) = hLen.


Lemma U_len : forall salt i j, length (U prf salt i j) = hLen.
Proof. intros salt i [ | j]; apply prf_len. Qed.

Lemma T_len : forall salt c i, length (T prf hLen salt c i) = hLen.
Proof. intros. unfold T. rewrite map_length, seq_length. reflexivity. Qed.

Lemma map_nth_seq : forall (l : bytes), map (fun x => nth x l 0) (seq 0 (length l)) = l.
Proof.
  induction l as [ | a l IH]; [reflexivity | ]. cbn [length seq map nth]. f_equal. rewrite <- seq_shift, map_map. exact IH.
Qed.

Lemma T_one : forall salt i, T prf hLen salt 1 i = U prf salt i 0.
Proof.
  intros salt i. unfold T. rewrite <- (map_nth_seq (U prf salt i 0)), (U_len salt i 0). apply map_ext. intro x.
  unfold T_octet. cbn [seq map fold_right]. apply Z.lxor_0_r.
Qed.

Lemma fold_lxor_app : forall l y, fold_right Z.lxor 0 (l ++ [y]) = Z.lxor (fold_right Z.lxor 0 l) y.
Proof.
  induction l as [ | x l IH]; intro y; cbn [fold_right app].
  - rewrite Z.lxor_0_r, Z.lxor_0_l. reflexivity.
  - rewrite IH, Z.lxor_assoc. reflexivity.
Qed.

Lemma xor_into_map : forall f u, xor_into (map f (seq 0 (length u))) u = map (fun x => Z.lxor (f x) (nth x u 0)) (seq 0 (length u)).
Proof.
  intros f u. revert f. induction u as [ | y u IH]; intro f; [reflexivity | ].
  cbn [length seq map xor_into nth]. f_equal. rewrite <- seq_shift, !map_map. rewrite (IH (fun x => f (S x))). reflexivity.
Qed.

Lemma T_step : forall salt c i, xor_into (T prf hLen salt c i) (U prf salt i c) = T prf hLen salt (S c) i.
Proof.
  intros salt c i. unfold T. rewrite <- (U_len salt i c), xor_into_map. apply map_ext. intro x.
  unfold T_octet. rewrite seq_S, map_app. cbn [map]. rewrite fold_lxor_app. reflexivity.
Qed.

Lemma iterate_ok : forall r D salt i c, 
  iterate prf r (D ++ T prf hLen salt (S c) i) (length D) (U prf salt i c) = D ++ T prf hLen salt (S c + r) i.
Proof.
  induction r as [ | r IH]; intros D salt i c; cbn [iterate].
  - rewrite Nat.add_0_r. reflexivity.
  - change (prf (U prf salt i c)) with (U prf salt i (S c)).
    rewrite firstn_app, Nat.sub_diag, firstn_O, app_nil_r, firstn_all, skipn_app, Nat.sub_diag, skipn_all, skipn_O. cbn [app].
    rewrite T_step, IH. do 2 f_equal. lia.
Qed.

Lemma counter : forall b, 0 <= b -> [u8 (Z.shiftr b 24); u8 (Z.shiftr b 16); u8 (Z.shiftr b 8); u8 b] = octets 4 b.
Proof.
  intros b Hb. cbn [octets app]. unfold u8. rewrite !Z.shiftr_div_pow2 by lia. change (2 ^ 8) with 256. rewrite !Z.div_div by lia. reflexivity.
Qed.

Lemma one_block_ok : forall salt iter b dk, 0 <= b ->
  one_block prf (Z.of_nat hLen) salt iter b dk = dk ++ T prf hLen salt (Z.to_nat (Z.max 1 iter)) b.
Proof.
  intros salt iter b dk Hb. unfold one_block. cbv zeta. rewrite counter by exact Hb.
  change (prf (salt ++ octets 4 b)) with (U prf salt b 0). rewrite app_length, U_len, Nat2Z.id.
  replace (length dk + hLen - hLen)%nat with (length dk) by lia.
  rewrite skipn_app, Nat.sub_diag, skipn_all, skipn_O. cbn [app]. rewrite <- T_one at 1. rewrite iterate_ok. do 2 f_equal. lia.
Qed.

Lemma all_blocks_ok : forall n salt iter b dk,
  all_blocks prf (Z.of_nat hLen) salt iter n (Z.of_nat b) dk =
  dk ++ flat_map (fun i => T prf hLen salt (Z.to_nat (Z.max 1 iter)) (Z.of_nat i)) (seq b n).
Proof.
  induction n as [ | n IH]; intros salt iter b dk; cbn [all_blocks seq flat_map].
  - rewrite app_nil_r. reflexivity.
  - rewrite one_block_ok by lia. replace (Z.of_nat b + 1) with (Z.of_nat (S b)) by lia. rewrite IH, <- app_assoc. reflexivity.
Qed.

Lemma flat_len : forall salt c l, length (flat_map (fun i => T prf hLen salt c (Z.of_nat i)) l) = (hLen * length l)%nat.
Proof.
  intros salt c l. induction l as [ | x l IH]; [cbn; lia | ]. cbn [flat_map length]. rewrite app_length, IH, T_len. lia.
Qed.
End Proofs.

(** For every function prf of constant output length, every salt, count and
    length the program can allocate. *)
Theorem C73_key : forall prf hLen salt iter keyLen,
  (forall m, length (prf m) = hLen) -> (1 <= hLen)%nat ->
  1 <= iter -> 0 <= keyLen <= 2 ^ 48 - Z.of_nat hLen ->
  Key prf (Z.of_nat hLen) salt iter keyLen = Ok (pbkdf2 prf hLen salt (Z.to_nat iter) (Z.to_nat keyLen)) /\
  length (pbkdf2 prf hLen salt (Z.to_nat iter) (Z.to_nat keyLen)) = Z.to_nat keyLen.
Proof.
  intros prf hLen salt iter keyLen PL HP HI HK. unfold Key, pbkdf2. cbv zeta.
  assert (B : 2 ^ 48 < 2 ^ 63) by reflexivity.
  rewrite (i64_id (keyLen + Z.of_nat hLen)) by lia. rewrite (i64_id (keyLen + Z.of_nat hLen - 1)) by lia.
  rewrite Z.quot_div_nonneg by lia.
  set (l := ((Z.to_nat keyLen + hLen - 1) / hLen)%nat).
  assert (EL : (keyLen + Z.of_nat hLen - 1) / Z.of_nat hLen = Z.of_nat l).
  { unfold l. rewrite Nat2Z.inj_div. f_equal. lia. }
  rewrite EL.
  pose proof (Nat.div_mod (Z.to_nat keyLen + hLen - 1) hLen ltac:(lia)) as DM. fold l in DM.
  pose proof (Nat.mod_upper_bound (Z.to_nat keyLen + hLen - 1) hLen ltac:(lia)) as MB.
  assert (BL : (hLen * l <= Z.to_nat keyLen + hLen - 1)%nat) by lia.
  assert (BZ : 0 <= Z.of_nat l * Z.of_nat hLen <= 2 ^ 48) by nia.
  rewrite i64_id by lia. unfold make_ok. rewrite (proj2 (Z.leb_le 0 _)), (proj2 (Z.leb_le _ (2 ^ 48))) by lia. cbn [andb negb].
  rewrite Nat2Z.id. change 1 with (Z.of_nat 1) at 1. rewrite (all_blocks_ok prf hLen PL). cbn [app].
  rewrite Z.max_r by lia.
  set (dk := flat_map _ _). assert (LD : length dk = (hLen * l)%nat) by (unfold dk; rewrite (flat_len prf hLen PL), seq_length; reflexivity).
  assert (KL : (Z.to_nat keyLen <= hLen * l)%nat) by lia.
  split; [ | rewrite firstn_length; lia].
  unfold slice, len. rewrite LD. rewrite (proj2 (Z.leb_le 0 keyLen)), (proj2 (Z.leb_le keyLen _)) by lia. cbn [Z.leb andb Z.compare].
  rewrite Z.sub_0_r. reflexivity.
Qed.
Print Assumptions C73_key.

(** An iteration count below one is taken as one. *)
Theorem C73_low_count : forall prf hLen salt iter keyLen,
  (forall m, length (prf m) = hLen) -> iter <= 1 ->
  Key prf (Z.of_nat hLen) salt iter keyLen = Key prf (Z.of_nat hLen) salt 1 keyLen.
Proof.
  intros prf hLen salt iter keyLen PL HI. unfold Key. cbv zeta. destruct (negb _); [reflexivity | ].
  pose proof (fun n it => all_blocks_ok prf hLen PL n salt it 1 []) as A. change (Z.of_nat 1) with 1 in A.
  rewrite !A, Z.max_l by exact HI. reflexivity.
Qed.
Print Assumptions C73_low_count.

(** A negative length panics. *)
Theorem C73_negative : forall prf hLen salt iter keyLen, (1 <= hLen)%nat -> Z.of_nat hLen < 2 ^ 62 ->
  - 2 ^ 63 <= keyLen < 0 -> Key prf (Z.of_nat hLen) salt iter keyLen = Panic.
Proof.
  intros prf hLen salt iter keyLen HP HB HK. unfold Key. cbv zeta. destruct (negb _); [reflexivity | ].
  unfold slice. rewrite (proj2 (Z.leb_gt 0 keyLen)) by lia. rewrite andb_false_r. reflexivity.
Qed.
Print Assumptions C73_negative.

Lemma octets_wrap : forall n i, octets n (i + 256 ^ Z.of_nat n) = octets n i.
Proof.
  induction n as [ | n IH]; intro i; [reflexivity | ]. cbn [octets]. rewrite Nat2Z.inj_succ, Z.pow_succ_r by lia.
  rewrite (Z.mul_comm 256), Z.div_add, Z.mod_add by discriminate. rewrite IH. reflexivity.
Qed.

(** The counter has four bytes, so it comes round after 2^32 blocks. *)
Theorem C73_counter_wraps : forall prf hLen salt c i, 0 <= i -> T prf hLen salt c (i + 2 ^ 32) = T prf hLen salt c i.
Proof.
  intros prf hLen salt c i Hi. unfold T. apply map_ext. intro x. unfold T_octet. f_equal. apply map_ext. intro j. f_equal.
  induction j as [ | j IH]; cbn [U]; [ | rewrite IH; reflexivity]. do 2 f_equal. 
  apply octets_wrap.
Qed.
Print Assumptions C73_counter_wraps.

(** Vectors of the repository's test, with HMAC-SHA256. *)
Definition hmac256 (k m : bytes) : bytes :=
  let k := k ++ repeat 0 (64 - length k) in
  sha256 (map (Z.lxor 0x5c) k ++ sha256 (map (Z.lxor 0x36) k ++ m)).
Example ex_one : Key (hmac256 (str_bytes "password")) 32 (str_bytes "salt") 1 20 =
  Ok [0x12; 0x0f; 0xb6; 0xcf; 0xfc; 0xf8; 0xb3; 0x2c; 0x43; 0xe7; 0x22; 0x52; 0x56; 0xc4; 0xf8; 0x37; 0xa8; 0x65; 0x48; 0xc9].
Proof. vm_compute. reflexivity. Qed.
Example ex_two : Key (hmac256 (str_bytes "password")) 32 (str_bytes "salt") 2 20 =
  Ok [0xae; 0x4d; 0x0c; 0x95; 0xaf; 0x6b; 0x46; 0xd3; 0x2d; 0x0a; 0xdf; 0xf9; 0x28; 0xf0; 0x6d; 0xd0; 0x2a; 0x30; 0x3f; 0x8e].
Proof. vm_compute. reflexivity. Qed.
(** The hypotheses of C73_key hold for it; two and a half blocks of the toy
    function that repeats the length of its input. *)
Example ex_key : Key (fun m => repeat (len m) 2) 2 [9] 3 5 = Ok (pbkdf2 (fun m => repeat (len m) 2) 2 [9] 3 5).
Proof. apply (C73_key (fun m => repeat (len m) 2) 2 [9] 3 5); [intro m; apply repeat_length | lia | lia | lia]. Qed.
Example ex_key_value : pbkdf2 (fun m => repeat (len m) 2) 2 [9] 3 5 = [5; 5; 5; 5; 5].
Proof. reflexivity. Qed.
