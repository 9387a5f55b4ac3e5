(** C119: nonces and keys derived in buffers that are overwritten. *)
From Verif Require Import GoBase BaseLemmas BigInt BigMod SecpModel EcdsaModel SecpSpec EcdsaSpec EcdsaProps Pbkdf2Model Pbkdf2Spec Pbkdf2Props MemModel MemSpec MemProofs InPlaceModel InPlaceProofs.

(** The nonce computed in memory is the nonce of RFC 6979, however append allocates. *)
Theorem C119_nonce : forall grow hmac h x hash k,
  (forall a b, length (hmac a b) = 32%nat) -> 0 <= x -> wf h hash -> bytes_ok (read h hash) ->
  (exists i, rfc_nonce hmac order_n 256 x (read h hash) i k) <->
  (exists fuel, snd (NonceMem grow hmac fuel h order_n x hash) = Some k).
Proof.
  intros grow hmac h x hash k HL Hx W B. rewrite (C65_nonce hmac x (read h hash) k HL Hx B).
  split; intros [fuel E]; exists fuel; [rewrite <- E|rewrite <- E; symmetry]; apply NonceMem_spec; exact W.
Qed.
Print Assumptions C119_nonce.

(** For every modulus, and whatever the length of the sums, it is what the model with slices as values gives. *)
Theorem C119_nonce_value : forall grow hmac fuel h q x hash, wf h hash ->
  snd (NonceMem grow hmac fuel h q x hash) = NonceRFC6979 hmac fuel q x (read h hash).
Proof. intros grow hmac fuel h q x hash W. apply NonceMem_spec. exact W. Qed.
Print Assumptions C119_nonce_value.

(** The key computed in memory is the key of RFC 2898; it is not part of any array that existed before. *)
Theorem C119_key : forall grow prf hLen h salt iter keyLen,
  (forall m, length (prf m) = hLen) -> (1 <= hLen)%nat -> 1 <= iter -> 0 <= keyLen <= 2 ^ 48 - Z.of_nat hLen -> wf h salt ->
  exists s, snd (KeyMem grow prf (Z.of_nat hLen) h salt iter keyLen) = Ok s /\
    read (fst (KeyMem grow prf (Z.of_nat hLen) h salt iter keyLen)) s = pbkdf2 prf hLen (read h salt) (Z.to_nat iter) (Z.to_nat keyLen) /\
    ((length h <= s_arr s)%nat \/ s_cap s = 0%nat).
Proof.
  intros grow prf hLen h salt iter keyLen PL HP HI HK W. pose proof (KeyMem_spec grow prf hLen PL ltac:(lia) h salt iter keyLen W) as S.
  destruct (KeyMem grow prf (Z.of_nat hLen) h salt iter keyLen) as [h' r]. destruct S as [_ S].
  destruct (C73_key prf hLen (read h salt) iter keyLen PL HP HI HK) as [C _]. cbn [fst snd].
  destruct r as [s|e|]; [|contradiction|rewrite S in C; discriminate C]. destruct S as (_ & O & S). exists s. split; [reflexivity|]. split; [congruence|exact O].
Qed.
Print Assumptions C119_key.

(** For all arguments, also those which panic. *)
Theorem C119_key_value : forall grow prf hLen h salt iter keyLen,
  (forall m, length (prf m) = hLen) -> (1 <= hLen)%nat -> wf h salt ->
  (let! s := snd (KeyMem grow prf (Z.of_nat hLen) h salt iter keyLen) in Ok (read (fst (KeyMem grow prf (Z.of_nat hLen) h salt iter keyLen)) s)) =
  Key prf (Z.of_nat hLen) (read h salt) iter keyLen.
Proof.
  intros grow prf hLen h salt iter keyLen PL HP W. pose proof (KeyMem_spec grow prf hLen PL ltac:(lia) h salt iter keyLen W) as S.
  destruct (KeyMem grow prf (Z.of_nat hLen) h salt iter keyLen) as [h' r]. destruct S as [_ S]. cbn [fst snd].
  destruct r as [s|e|]; cbn [rbind]; [|contradiction|symmetry; exact S]. destruct S as (_ & _ & S). symmetry. exact S.
Qed.
Print Assumptions C119_key_value.

(** No array that existed is written to, in particular neither the hash nor the salt. *)
Theorem C119_memory : forall grow h s, wf h s ->
  (forall hmac fuel q x, same_memory h (fst (NonceMem grow hmac fuel h q x s))) /\
  (forall prf hLen iter keyLen, (forall m, length (prf m) = hLen) -> (1 <= hLen)%nat -> same_memory h (fst (KeyMem grow prf (Z.of_nat hLen) h s iter keyLen))).
Proof.
  intros grow h s W. split.
  - intros hmac fuel q x. exact (proj2 (proj2 (NonceMem_spec grow hmac fuel h q x s W))).
  - intros prf hLen iter keyLen PL HP. pose proof (KeyMem_spec grow prf hLen PL ltac:(lia) h s iter keyLen W) as S.
    destruct (KeyMem grow prf (Z.of_nat hLen) h s iter keyLen) as [h' r]. exact (proj2 (proj1 S)).
Qed.
Print Assumptions C119_memory.

(** A hash in the middle of a longer array, an allocator that leaves room, and a candidate that is rejected first. *)
Example C119_nonce_example : let h := [[9; 1; 2; 3; 9; 9]] in let hash := Slice 0 1 3 5 in
  wf h hash /\ read h hash = [1; 2; 3] /\
  snd (NonceMem (fun c n => n) toy_hmac 2 h order_n 5 hash) = Some (be (repeat 7 32)) /\
  snd (NonceMem (fun c n => 0%nat) toy_hmac 2 h order_n 5 hash) = Some (be (repeat 7 32)).
Proof. split; [split; cbn; lia|]. split; [reflexivity|]. split; vm_compute; reflexivity. Qed.
(** Two and a half blocks of a toy function; both the key and the salt can be read afterwards. *)
Definition toy_prf (m : bytes) : bytes := [u8 (fold_right Z.add 1 m); u8 (len m)].
Example C119_key_example : let h := [[7; 7; 9; 7]] in let salt := Slice 0 2 1 2 in
  wf h salt /\ (forall m, length (toy_prf m) = 2%nat) /\
  let r := KeyMem (fun c n => n) toy_prf 2 h salt 3 5 in
  snd r = Ok (Slice 1 0 5 6) /\ read (fst r) (Slice 1 0 5 6) = [14; 5; 11; 5; 8] /\
  pbkdf2 toy_prf 2 [9] 3 5 = [14; 5; 11; 5; 8] /\ read (fst r) salt = [9].
Proof. split; [split; cbn; lia|]. split; [reflexivity|]. split; [|split; [|split]]; vm_compute; reflexivity. Qed.
