(** Proofs for C51-C53. *)
From Verif Require Import GoBase BaseLemmas MerkleModel MerkleSpec.
From Coq Require Import ZifyBool ZifyNat.

Lemma two_step {A} (P : list A -> Prop) : P [] -> (forall a, P [a]) -> (forall a b l, P l -> P (a :: b :: l)) -> forall l, P l.
Proof. intros H0 H1 H2. assert (X : forall l, P l /\ forall a, P (a :: l)) by (induction l as [|x l [I1 I2]]; split; auto). apply X. Qed.
Lemma copy32_id b : length b = 32%nat -> copy32 b = b.
Proof. intros E. unfold copy32. rewrite firstn_app, E. rewrite <- E at 1. rewrite firstn_all. replace (32 - 32)%nat with 0%nat by lia. cbn. apply app_nil_r. Qed.
Lemma copy32_len b : length (copy32 b) = 32%nat.
Proof. unfold copy32. rewrite firstn_length, app_length, repeat_length. lia. Qed.

Section M.
Variable DS : bytes -> bytes.
Notation node a b := (merkleNode DS (Some a) (Some b)).
(** One round of the code on [l] followed by nils ([b]: there is room left). *)
Fixpoint cround (l : list bytes) (b : bool) : list bytes :=
  match l with
  | [] => if b then [merkleNode DS None None] else []
  | [a] => [node a a]
  | a :: c :: r => node a c :: cround r b
  end.
Lemma cround_len l b : length (cround l b) = ((length l + 1) / 2 + (if Nat.even (length l) && b then 1 else 0))%nat.
Proof.
  revert l. apply two_step; [now destruct b|reflexivity|]. intros a c l IH. cbn [cround length]. rewrite IH.
  replace (S (S (length l)) + 1)%nat with (length l + 1 + 1 * 2)%nat by lia. rewrite Nat.div_add by lia. cbn [Nat.even]. lia.
Qed.
Lemma repeat_half k : Nat.even k = true -> exists j, k = (2 * j)%nat.
Proof. intros E. apply Nat.even_spec in E. exact E. Qed.
Lemma next_level_spec k : forall l, Nat.even (length l + k) = true ->
  next_level DS (map Some l ++ repeat None k) = Ok (map Some (cround l (0 <? k)%nat) ++ repeat None ((length l + k) / 2 - length (cround l (0 <? k)%nat))).
Proof.
  apply (two_step (fun l : list bytes => Nat.even (length l + k) = true -> next_level DS (map Some l ++ repeat None k) = Ok (map Some (cround l (0 <? k)%nat) ++ repeat None ((length l + k) / 2 - length (cround l (0 <? k)%nat))))).
  - intros E. cbn [map app length Nat.add cround] in *. destruct k as [|[|k]]; [reflexivity|discriminate|]. cbn [repeat next_level]. rewrite repeat_length.
    replace (0 <? S (S k))%nat with true by reflexivity. cbn [map app length]. replace (S (S k) / 2 - 1)%nat with (k / 2)%nat; [reflexivity|]. change (S (S k)) with (2 + k)%nat. replace (2 + k)%nat with (k + 1 * 2)%nat by lia. rewrite Nat.div_add by lia. lia.
  - intros a E. cbn [map app length] in *. destruct k as [|k]; [discriminate|]. cbn [repeat next_level cround map app length]. rewrite repeat_length.
    replace ((1 + S k) / 2 - 1)%nat with (k / 2)%nat; [reflexivity|]. replace (1 + S k)%nat with (k + 1 * 2)%nat by lia. rewrite Nat.div_add by lia. lia.
  - intros a c l IH E. cbn [map app next_level cround length] in *. rewrite IH by exact E. cbn [rbind map app length]. replace (S (S (length l)) + k)%nat with (length l + k + 1 * 2)%nat by lia. rewrite Nat.div_add by lia.
    replace ((length l + k) / 2 + 1 - S (length (cround l (0 <? k)%nat)))%nat with ((length l + k) / 2 - length (cround l (0 <? k)%nat))%nat by lia. reflexivity.
Qed.
Lemma cround_nth b : forall l idx x, nth_error l idx = Some x ->
  nth_error (cround l b) (idx / 2) = Some (if Nat.even idx then match nth_error l (idx + 1) with Some y => node x y | None => node x x end else node (nth (idx - 1) l []) x).
Proof.
  intros l. pattern l. revert l. apply two_step.
  - intros idx x E. now destruct idx.
  - intros a idx x E. destruct idx as [|[|]]; [|discriminate|discriminate]. injection E as ->. reflexivity.
  - intros a c l IH idx x E. destruct idx as [|[|idx]]; [injection E as ->; reflexivity|injection E as ->; reflexivity|]. cbn [nth_error] in E. specialize (IH idx x E).
    replace (S (S idx) / 2)%nat with (S (idx / 2)) by (replace (S (S idx)) with (idx + 1 * 2)%nat by lia; rewrite Nat.div_add by lia; lia). cbn [cround nth_error Nat.even Nat.add]. rewrite IH.
    destruct (Nat.even idx) eqn:Ev; [reflexivity|]. destruct idx as [|idx]; [discriminate|]. cbn [Nat.sub nth]. now rewrite Nat.sub_0_r.
Qed.

Lemma index_last {A} (l : list A) (x : A) : index (l ++ [x]) (len l) = Ok x.
Proof. unfold index, len. replace (Z.of_nat (length l) <? 0) with false by lia. rewrite Nat2Z.id, nth_error_app2 by lia. now rewrite Nat.sub_diag. Qed.
Lemma index_front {A} (l : list A) (x : A) i : i < len l -> index (l ++ [x]) i = index l i.
Proof. unfold index, len. intros L. destruct (i <? 0) eqn:E; [reflexivity|]. rewrite nth_error_app1 by lia. reflexivity. Qed.
Lemma index_nth {A} (l : list A) i x : nth_error l i = Some x -> index l (Z.of_nat i) = Ok x.
Proof. intros E. unfold index. replace (Z.of_nat i <? 0) with false by lia. now rewrite Nat2Z.id, E. Qed.
Lemma build_len i : forall level m, build_levels DS i level = Ok m -> len m = Z.of_nat i + 1.
Proof.
  induction i as [|i IH]; intros level m E; cbn [build_levels] in E; [injection E as <-; reflexivity|]. destruct (next_level DS level) as [nx| |]; [|discriminate|discriminate]. cbn [rbind] in E.
  destruct (build_levels DS i nx) as [ab| |] eqn:B; [|discriminate|discriminate]. cbn [rbind] in E. injection E as <-. rewrite len_app. rewrite (IH _ _ B). unfold len. cbn. lia.
Qed.
Lemma build_step i level m : build_levels DS (S i) level = Ok m -> exists nx ab, next_level DS level = Ok nx /\ build_levels DS i nx = Ok ab /\ m = ab ++ [level].
Proof.
  cbn [build_levels]. destruct (next_level DS level) as [nx| |]; [|discriminate|discriminate]. cbn [rbind]. destruct (build_levels DS i nx) as [ab| |] eqn:B; [|discriminate|discriminate]. cbn [rbind]. intros E. injection E as <-. eauto.
Qed.
Lemma proof_loop_front i : forall m x idx, Z.of_nat i < len m -> proof_loop DS (m ++ [x]) i idx = proof_loop DS m i idx.
Proof. induction i as [|i IH]; intros m x idx L; [reflexivity|]. cbn [proof_loop]. rewrite index_front by lia. destruct (index m (Z.of_nat (S i))) as [lv| |]; cbn [rbind]; [|reflexivity|reflexivity]. destruct (index lv idx); cbn [rbind]; [|reflexivity|reflexivity]. now rewrite IH by lia. Qed.
Lemma root_front m x : 0 < len m -> Root (m ++ [x]) = Root m.
Proof. intros L. unfold Root. now rewrite index_front. Qed.

(** Sizes. *)
Lemma pow_even i : Nat.even (2 ^ S i) = true.
Proof. rewrite Nat.pow_succ_r'. apply Nat.even_spec. eexists. reflexivity. Qed.
Lemma half_pow i : (2 ^ S i / 2 = 2 ^ i)%nat.
Proof. rewrite Nat.pow_succ_r', Nat.mul_comm. apply Nat.div_mul. lia. Qed.
Lemma cround_fits i l k : (length l + k = 2 ^ S i)%nat -> (length (cround l (0 <? k)%nat) <= 2 ^ i)%nat.
Proof.
  intros E. rewrite cround_len. pose proof (half_pow i) as Hp. pose proof (pow_even i) as Ev. rewrite <- E in Hp, Ev. rewrite <- Hp. destruct (Nat.even (length l)) eqn:El.
  - apply repeat_half in El. destruct El as (j & El). rewrite El in Ev |- *. assert (Ek : Nat.even k = true) by (rewrite Nat.even_add in Ev; replace (Nat.even (2 * j)) with true in Ev by (symmetry; apply Nat.even_spec; eexists; reflexivity); now destruct (Nat.even k)).
    apply repeat_half in Ek. destruct Ek as (h & ->). replace (2 * j + 1)%nat with (1 + j * 2)%nat by lia. rewrite Nat.div_add by lia. replace (2 * j + 2 * h)%nat with ((j + h) * 2)%nat by lia. rewrite Nat.div_mul by lia. cbn [andb]. change (1 / 2)%nat with 0%nat. destruct (0 <? 2 * h)%nat eqn:Q; lia.
  - cbn [andb]. rewrite Nat.add_0_r. apply Nat.div_le_mono; [lia|]. destruct k; [|lia]. rewrite Nat.add_0_r in Ev. congruence.
Qed.
Lemma cround_pos l b : (0 < length l)%nat -> (0 < length (cround l b))%nat.
Proof. destruct l as [|a [|c l]]; intros; cbn [cround length] in *; lia. Qed.

Definition pad (i : nat) (l : list bytes) : list obytes := map Some l ++ repeat None (2 ^ i - length l).
Lemma next_pad i l : (length l <= 2 ^ S i)%nat -> next_level DS (pad (S i) l) = Ok (pad i (cround l (length l <? 2 ^ S i)%nat)) /\ (length (cround l (length l <? 2 ^ S i)%nat) <= 2 ^ i)%nat.
Proof.
  intros L. unfold pad. set (k := (2 ^ S i - length l)%nat). replace (length l <? 2 ^ S i)%nat with (0 <? k)%nat by (unfold k; lia). assert (E : (length l + k = 2 ^ S i)%nat) by (unfold k; lia). clearbody k.
  rewrite next_level_spec by (rewrite E; apply pow_even). rewrite E, half_pow. split; [reflexivity|]. now apply cround_fits.
Qed.
Lemma build_ok i : forall l, (length l <= 2 ^ i)%nat -> exists m, build_levels DS i (pad i l) = Ok m.
Proof.
  induction i as [|i IH]; intros l L; cbn [build_levels]; [eauto|]. destruct (next_pad i l L) as [E L']. rewrite E. cbn [rbind]. destruct (IH _ L') as (m & ->). cbn [rbind]. eauto.
Qed.

(** C52. *)
Lemma proofs_complete i : forall l m idx x, (length l <= 2 ^ i)%nat -> build_levels DS i (pad i l) = Ok m -> nth_error l idx = Some x ->
  exists path root, proof_loop DS m i (Z.of_nat idx) = Ok path /\ Root m = Ok (Some root) /\ VerifyPath DS x root path = true /\ length path = i.
Proof.
  induction i as [|i IH]; intros l m idx x L B Hx.
  - cbn in B. injection B as <-. destruct l as [|y [|]]; [now destruct idx| |cbn in L; lia]. destruct idx as [|idx]; [|now destruct idx]. injection Hx as ->. exists [], x. cbn. rewrite list_Z_eqb_refl. auto.
  - destruct (build_step _ _ _ B) as (nx & ab & N & B' & ->). destruct (next_pad i l L) as [N' L']. rewrite N in N'. injection N' as ->. pose proof (build_len _ _ _ B') as La.
    pose proof (cround_nth (length l <? 2 ^ S i)%nat l idx x Hx) as Hc. destruct (IH _ _ _ _ L' B' Hc) as (path & root & P & R & V & Ln).
    cbn [proof_loop]. replace (Z.of_nat (S i)) with (len ab) by lia. rewrite index_last. cbn [rbind].
    assert (Ix : forall j y, nth_error l j = Some y -> index (pad (S i) l) (Z.of_nat j) = Ok (Some y)).
    { intros j y Hj. apply index_nth. unfold pad. rewrite nth_error_app1 by (rewrite map_length; apply nth_error_Some; congruence). now rewrite nth_error_map, Hj. }
    rewrite (Ix idx x Hx). cbn [rbind]. replace (Z.rem (Z.of_nat idx) 2 =? 0) with (Nat.even idx).
    2: { rewrite Z.rem_mod_nonneg by lia. rewrite Zmod_even. replace (Z.even (Z.of_nat idx)) with (Nat.even idx); [destruct (Nat.even idx); reflexivity|]. symmetry. apply eq_true_iff_eq. rewrite Z.even_spec, Nat.even_spec. split; intros (q & Hq); [exists (Z.to_nat q)|exists (Z.of_nat q)]; lia. }
    replace (Z.quot (Z.of_nat idx) 2) with (Z.of_nat (idx / 2)) by (rewrite Z.quot_div_nonneg by lia; now rewrite Nat2Z.inj_div). rewrite proof_loop_front by lia. rewrite P. rewrite root_front by lia.
    assert (Li : (idx < length l)%nat) by (apply nth_error_Some; congruence).
    destruct (Nat.even idx) eqn:Ev; cbn [negb].
    + destruct (nth_error l (idx + 1)) as [y|] eqn:Hy.
      * replace (Z.of_nat idx + 1) with (Z.of_nat (idx + 1)) by lia. rewrite (Ix _ _ Hy). cbn [rbind]. eexists _, root. split; [reflexivity|]. split; [exact R|]. split; [|cbn; lia]. cbn. rewrite list_Z_eqb_refl. exact V.
      * replace (index (pad (S i) l) (Z.of_nat idx + 1)) with (Ok (A := obytes) None).
        2: { symmetry. replace (Z.of_nat idx + 1) with (Z.of_nat (idx + 1)) by lia. apply index_nth. unfold pad. apply nth_error_None in Hy. rewrite nth_error_app2 by (rewrite map_length; lia). rewrite map_length. replace (idx + 1 - length l)%nat with 0%nat by lia.
             assert (idx + 1 = length l)%nat by lia. pose proof (pow_even i) as Pe. assert (length l <> 2 ^ S i)%nat by (intros Q; rewrite <- Q in Pe; rewrite <- H, Nat.add_1_r, Nat.even_succ, <- Nat.negb_even, Ev in Pe; discriminate). destruct (2 ^ S i - length l)%nat eqn:Q; [lia|reflexivity]. }
        cbn [rbind]. eexists _, root. split; [reflexivity|]. split; [exact R|]. split; [|cbn; lia]. cbn. rewrite list_Z_eqb_refl. exact V.
    + destruct (nth_error l (idx - 1)) as [y|] eqn:Hy; [|apply nth_error_None in Hy; lia]. replace (Z.of_nat idx - 1) with (Z.of_nat (idx - 1)) by (destruct idx as [|]; [discriminate Ev|clear; lia]). rewrite (Ix _ _ Hy). cbn [rbind].
      eexists _, root. split; [reflexivity|]. split; [exact R|]. split; [|cbn; lia]. cbn. rewrite list_Z_eqb_refl. rewrite (nth_error_nth _ _ [] Hy) in V. exact V.
Qed.

Definition depth_of (n : nat) : nat := Z.to_nat (Z.log2_up (Z.of_nat n)).
Lemma depth_bounds n : (1 <= n)%nat -> (n <= 2 ^ depth_of n)%nat /\ (1 < n -> 2 ^ (depth_of n - 1) < n)%nat.
Proof.
  intros N. unfold depth_of. split.
  - destruct (Nat.eq_dec n 1) as [->|]; [cbn; lia|]. pose proof (Z.log2_up_spec (Z.of_nat n) ltac:(lia)) as [_ U]. pose proof (Z.log2_up_nonneg (Z.of_nat n)). apply Nat2Z.inj_le. rewrite Nat2Z.inj_pow, Z2Nat.id by lia. exact U.
  - intros N1. pose proof (Z.log2_up_spec (Z.of_nat n) ltac:(lia)) as [Lo _]. assert (0 < Z.log2_up (Z.of_nat n)) by (apply Z.log2_up_pos; lia). apply Nat2Z.inj_lt. rewrite Nat2Z.inj_pow, Nat2Z.inj_sub, Z2Nat.id by lia. exact Lo.
Qed.
Lemma new_merkle l : (1 <= length l)%nat -> len l <= 2 ^ 40 -> NewMerkle DS (map Some l) = build_levels DS (depth_of (length l)) (pad (depth_of (length l)) l) /\ exists m, NewMerkle DS (map Some l) = Ok m.
Proof.
  intros N Mx. assert (E : NewMerkle DS (map Some l) = build_levels DS (depth_of (length l)) (pad (depth_of (length l)) l)).
  { unfold NewMerkle, tree_depth. unfold len. rewrite map_length. replace (Z.of_nat (length l) =? 0) with false by lia. pose proof (Z.log2_up_nonneg (Z.of_nat (length l))) as G.
    assert (U : Z.log2_up (Z.of_nat (length l)) <= 40) by (unfold len in Mx; apply Z.log2_up_le_mono in Mx; rewrite Z.log2_up_pow2 in Mx by lia; exact Mx).
    assert (P : 2 ^ Z.log2_up (Z.of_nat (length l)) <= 2 ^ 40) by (apply Z.pow_le_mono_r; lia). assert (0 < 2 ^ Z.log2_up (Z.of_nat (length l))) by (apply Z.pow_pos_nonneg; lia).
    unfold make_ok. replace (0 <=? Z.log2_up (Z.of_nat (length l)) + 1) with true by lia. replace ((Z.log2_up (Z.of_nat (length l)) + 1) * 24 <=? 2 ^ 48) with true by (change (2 ^ 48) with 281474976710656; lia). replace (0 <=? 2 ^ Z.log2_up (Z.of_nat (length l))) with true by lia.
    replace (2 ^ Z.log2_up (Z.of_nat (length l)) * 24 <=? 2 ^ 48) with true by (change (2 ^ 48) with (2 ^ 40 * 256); lia). cbn [andb negb]. fold (depth_of (length l)). f_equal.
    replace (Z.to_nat (2 ^ Z.log2_up (Z.of_nat (length l)))) with (2 ^ depth_of (length l))%nat.
    2: { apply Nat2Z.inj. rewrite Nat2Z.inj_pow, Z2Nat.id by lia. unfold depth_of. now rewrite Z2Nat.id by lia. }
    unfold pad. apply firstn_all2. rewrite app_length, map_length, repeat_length. pose proof (proj1 (depth_bounds _ N)). lia. }
  split; [exact E|]. rewrite E. apply build_ok. apply depth_bounds. exact N.
Qed.
Lemma find_leaf_in leaf : forall l rest i, In leaf l -> exists j, find_leaf leaf i (map Some l ++ rest) = i + Z.of_nat j /\ nth_error l j = Some leaf.
Proof.
  induction l as [|x l IH]; intros rest i I; [destruct I|]. cbn [map app find_leaf nilb]. destruct (list_Z_eqb leaf x) eqn:E.
  - apply list_Z_eqb_spec in E. subst. exists 0%nat. split; [lia|reflexivity].
  - destruct I as [->|I]; [rewrite list_Z_eqb_refl in E; discriminate|]. destruct (IH rest (i + 1) I) as (j & Ej & Hj). exists (S j). split; [rewrite Ej; lia|exact Hj].
Qed.
Lemma find_leaf_out leaf : forall l i k, leaf <> [] -> ~ In leaf l -> find_leaf leaf i (map Some l ++ repeat None k) = -1.
Proof.
  induction l as [|x l IH]; intros i k Ne I.
  - cbn [map app]. revert i. induction k as [|k IHk]; intros i; [reflexivity|]. cbn [repeat find_leaf nilb]. destruct leaf; [congruence|]. cbn [list_Z_eqb]. apply IHk.
  - cbn [map app find_leaf nilb]. destruct (list_Z_eqb leaf x) eqn:E; [apply list_Z_eqb_spec in E; subst; elim I; now left|]. apply IH; [exact Ne|]. intros I'. apply I. now right.
Qed.
Lemma bottom_level i l m : build_levels DS i (pad i l) = Ok m -> index m (len m - 1) = Ok (pad i l) /\ Z.to_nat (len m - 1) = i.
Proof.
  intros B. pose proof (build_len _ _ _ B) as Lm. split; [|lia]. destruct i as [|i]; [cbn in B; injection B as <-; reflexivity|]. destruct (build_step _ _ _ B) as (nx & ab & _ & _ & ->). rewrite len_app. replace (len ab + len [pad (S i) l] - 1) with (len ab) by (unfold len; cbn; lia). apply index_last.
Qed.
Lemma leaves_prove l leaf : In leaf l -> len l <= 2 ^ 40 -> exists m path root, NewMerkle DS (map Some l) = Ok m /\ Root m = Ok (Some root) /\ Proofs DS m leaf = Ok path /\ VerifyPath DS leaf root path = true /\ length path = depth_of (length l).
Proof.
  intros I Mx. assert (N : (1 <= length l)%nat) by (destruct l; [destruct I|cbn; lia]). destruct (new_merkle l N Mx) as [E (m & Em)]. rewrite Em in E. symmetry in E.
  destruct (bottom_level _ _ _ E) as [Bt Dp]. destruct (find_leaf_in leaf l (repeat None (2 ^ depth_of (length l) - length l)) 0 I) as (j & Fj & Hj).
  destruct (proofs_complete _ _ _ _ _ (proj1 (depth_bounds _ N)) E Hj) as (path & root & P & R & V & Ln). exists m, path, root. split; [exact Em|]. split; [exact R|]. split; [|auto].
  unfold Proofs. rewrite Bt. cbn [rbind]. rewrite Dp. unfold pad. rewrite Fj. replace (-1 <? 0 + Z.of_nat j) with true by lia. rewrite Z.add_0_l. exact P.
Qed.
Lemma strangers_do_not l leaf m : (1 <= length l)%nat -> len l <= 2 ^ 40 -> leaf <> [] -> ~ In leaf l -> NewMerkle DS (map Some l) = Ok m -> Proofs DS m leaf = Ok [].
Proof.
  intros N Mx Ne I Em. destruct (new_merkle l N Mx) as [E _]. rewrite Em in E. symmetry in E. destruct (bottom_level _ _ _ E) as [Bt Dp]. unfold Proofs. rewrite Bt. cbn [rbind]. unfold pad. rewrite find_leaf_out by auto. reflexivity.
Qed.
End M.
