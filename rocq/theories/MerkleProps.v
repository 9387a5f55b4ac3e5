(** C51-C53: Merkle trees. *)
From Verif Require Import GoBase BaseLemmas MerkleModel MerkleSpec MerkleProofs MerkleRoot.

Definition toy_ds (b : bytes) : bytes := repeat (fold_left (fun a x => (a * 31 + x) mod 251) b 7) 32.
Definition leaf_of (n : Z) : bytes := repeat n 32.
Definition leaves (k : nat) : list bytes := map (fun i => leaf_of (Z.of_nat i + 1)) (seq 0 k).
Lemma leaves_32 k : all32 (leaves k).
Proof. apply Forall_forall. intros x I. apply in_map_iff in I. destruct I as (i & <- & _). apply repeat_length. Qed.

(** C51 is false: with six leaves, for any hash function, the code's root is Bitcoin's only if the last two leaves are
    zero or a collision occurs among the strings hashed. *)
Theorem C51_root_is_bitcoins_refuted :
  (exists DS l m r r', (forall b, length (DS b) = 32%nat) /\ all32 l /\ NewMerkle DS (map Some l) = Ok m /\ Root m = Ok (Some r) /\ btc_root DS l r' /\ r <> r') /\
  forall DS, (forall b, length (DS b) = 32%nat) -> forall a b c d e f m r, all32 [a; b; c; d; e; f] ->
    NewMerkle DS (map Some [a; b; c; d; e; f]) = Ok m -> Root m = Ok (Some r) -> btc_root DS [a; b; c; d; e; f] r ->
    (e = zero_hash /\ f = zero_hash) \/ collision DS (filled_inputs DS 3 [a; b; c; d; e; f]) ([e ++ f; DS (e ++ f) ++ DS (e ++ f); DS (DS (a ++ b) ++ DS (c ++ d)) ++ DS (DS (e ++ f) ++ DS (e ++ f))]).
Proof.
  split; [|exact six_differs]. exists toy_ds, (leaves 6). destruct (root_exact toy_ds (fun b => repeat_length _ _) (leaves 6)) as (m & E & R); [cbn; lia|discriminate|apply leaves_32|].
  exists m. eexists _, _. split; [intros b; apply repeat_length|]. split; [apply leaves_32|]. split; [exact E|]. split; [exact R|]. split; [repeat constructor|]. vm_compute. discriminate.
Qed.
Print Assumptions C51_root_is_bitcoins_refuted.
(** C51 for the counts that fit: every level full or odd. *)
Theorem C51_root_is_bitcoins_partial : forall DS, (forall b, length (DS b) = 32%nat) -> forall l, (1 <= length l)%nat -> len l <= 2 ^ 40 -> all32 l -> fits (depth_of (length l)) (length l) ->
  exists m r, NewMerkle DS (map Some l) = Ok m /\ Root m = Ok (Some r) /\ btc_root DS l r.
Proof. exact root_bitcoin. Qed.
Print Assumptions C51_root_is_bitcoins_partial.
(** For every count the root is that of Bitcoin's rounds with two zero hashes appended at each even level that is not full. *)
Theorem C51_root_exact : forall DS, (forall b, length (DS b) = 32%nat) -> forall l, (1 <= length l)%nat -> len l <= 2 ^ 40 -> all32 l ->
  exists m, NewMerkle DS (map Some l) = Ok m /\ Root m = Ok (Some (filled_root DS (depth_of (length l)) l)).
Proof. exact root_exact. Qed.
Print Assumptions C51_root_exact.
Example C51_example : all32 (leaves 5) /\ fits (depth_of 5) 5 /\ fits (depth_of 7) 7 /\ fits (depth_of 3) 3 /\ fits (depth_of 8) 8 /\ ~ fits (depth_of 6) 6 /\ ~ fits (depth_of 11) 11.
Proof.
  split; [apply leaves_32|]. change (depth_of 5) with 3%nat. change (depth_of 7) with 3%nat. change (depth_of 3) with 2%nat. change (depth_of 8) with 3%nat. change (depth_of 6) with 3%nat. change (depth_of 11) with 4%nat. cbn.
  do 4 (split; [repeat first [left; reflexivity|right; split; [reflexivity|]|reflexivity]|]). split; [intros [H|[H _]]; discriminate|]. intros [H|[_ [H|[H _]]]]; discriminate.
Qed.

(** C52. *)
Theorem C52_leaves_have_proofs : forall DS l leaf, In leaf l -> len l <= 2 ^ 40 ->
  exists m path root, NewMerkle DS (map Some l) = Ok m /\ Root m = Ok (Some root) /\ Proofs DS m leaf = Ok path /\ VerifyPath DS leaf root path = true /\ length path = depth_of (length l).
Proof. exact leaves_prove. Qed.
Print Assumptions C52_leaves_have_proofs.
(** Others get the empty path. *)
Theorem C52_others_do_not : forall DS l leaf m, (1 <= length l)%nat -> len l <= 2 ^ 40 -> leaf <> [] -> ~ In leaf l -> NewMerkle DS (map Some l) = Ok m -> Proofs DS m leaf = Ok [].
Proof. exact strangers_do_not. Qed.
Print Assumptions C52_others_do_not.
Example C52_example : In (leaf_of 6) (leaves 6) /\ ~ In (leaf_of 9) (leaves 6) /\
  (let! m := NewMerkle toy_ds (map Some (leaves 6)) in let! p := Proofs toy_ds m (leaf_of 6) in let! q := Proofs toy_ds m (leaf_of 9) in Ok (length p, map n_position p, q)) = Ok (3%nat, [positionLeft; positionRight; positionLeft], []).
Proof. split; [cbn; tauto|]. split; [|vm_compute; reflexivity]. intros I. cbn in I. repeat (destruct I as [I|I]; [discriminate|]). exact I. Qed.

(** C53 is false: with six leaves the zero hash has a proof; and bytes after the 32nd are ignored. *)
Theorem C53_proof_proves_membership_refuted :
  (forall DS, (forall b, length (DS b) = 32%nat) -> forall a b c d e f m r, all32 [a; b; c; d; e; f] -> NewMerkle DS (map Some [a; b; c; d; e; f]) = Ok m -> Root m = Ok (Some r) ->
     exists path, length path = depth_of 6 /\ VerifyPath DS zero_hash r path = true) /\
  (forall DS leaf junk root n path, length leaf = 32%nat -> VerifyPath DS (leaf ++ junk) root (n :: path) = VerifyPath DS leaf root (n :: path)).
Proof. split; [exact six_zero|intros DS; exact (long_leaf DS)]. Qed.
Print Assumptions C53_proof_proves_membership_refuted.
(** C53: a proof of full depth for 32 bytes shows a leaf, or a collision between what Verify and NewMerkle hash; only if
    the count does not fit can it be the zero hash, or need a string that hashes to it. *)
Theorem C53_proof_proves_membership_partial : forall DS, (forall b, length (DS b) = 32%nat) -> forall l m root x path,
  (1 <= length l)%nat -> len l <= 2 ^ 40 -> all32 l -> NewMerkle DS (map Some l) = Ok m -> Root m = Ok (Some root) -> length x = 32%nat ->
  length path = depth_of (length l) -> VerifyPath DS x root path = true ->
  In x l \/ collision DS (climb_inputs DS x (map step_of path)) (filled_inputs DS (depth_of (length l)) l) \/
  ~ fits (depth_of (length l)) (length l) /\ (x = zero_hash \/ exists u, In u (climb_inputs DS x (map step_of path)) /\ DS u = zero_hash).
Proof. exact membership. Qed.
Print Assumptions C53_proof_proves_membership_partial.
(** Verify only climbs: it accepts just when the path leads from the leaf to the root. *)
Theorem C53_verify_climbs : forall DS, (forall b, length (DS b) = 32%nat) -> forall path x root, length x = 32%nat -> VerifyPath DS x root path = true -> climb DS x (map step_of path) = root.
Proof. exact verify_climb. Qed.
Print Assumptions C53_verify_climbs.
Example C53_example : (let! m := NewMerkle toy_ds (map Some (leaves 5)) in let! p := Proofs toy_ds m (leaf_of 5) in let! r := Root m in Ok (VerifyPath toy_ds (leaf_of 5) (nilb r) p, VerifyPath toy_ds (leaf_of 4) (nilb r) p)) = Ok (true, false) /\
  is_panic (NewMerkle toy_ds []) = true.
Proof. split; vm_compute; reflexivity. Qed.
