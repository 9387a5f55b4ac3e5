(** Transaction ids in hexadecimal. *)
From Verif Require Import GoBase BaseLemmas HexModel.
From Coq Require Import ZifyBool ZifyNat.

Lemma set_nth_length l n v : length (set_nth l n v) = length l.
Proof. revert n; induction l as [|x l IH]; intros [|n]; cbn [set_nth length]; auto. Qed.
Lemma set_nth_nth l n v m : (n < length l)%nat -> nth m (set_nth l n v) 0 = if Nat.eqb m n then v else nth m l 0.
Proof.
  revert n m; induction l as [|x l IH]; intros [|n] [|m] H; cbn [set_nth nth length Nat.eqb] in *; try lia; auto. apply IH. lia.
Qed.

Lemma swap_loop_length n i h : length (swap_loop n i h) = length h.
Proof. revert i h; induction n as [|n IH]; intros i h; cbn [swap_loop]; [reflexivity|]. rewrite IH, !set_nth_length. reflexivity. Qed.

(** After the loop, the positions it visited are mirrored. *)
Lemma swap_loop_nth n i h m : (i + n <= Nat.div2 (length h))%nat -> (m < length h)%nat ->
  nth m (swap_loop n i h) 0 =
    if (Nat.leb i m && Nat.ltb m (i + n)) || (Nat.leb i (length h - 1 - m) && Nat.ltb (length h - 1 - m) (i + n))
    then nth (length h - 1 - m) h 0 else nth m h 0.
Proof.
  assert (D : (forall k, 2 * Nat.div2 k <= k)%nat). { intros k. pose proof (Nat.div2_odd k). destruct (Nat.odd k); cbn in *; lia. }
  revert i h; induction n as [|n IH]; intros i h H Hm; cbn [swap_loop].
  - destruct (_ || _) eqn:E; [lia|reflexivity].
  - specialize (D (length h)). set (j := (length h - 1 - i)%nat).
    set (h' := set_nth (set_nth h i (nth j h 0)) j (nth i h 0)).
    assert (L : length h' = length h) by (unfold h'; now rewrite !set_nth_length).
    rewrite IH by (rewrite L; lia). rewrite L.
    assert (N : forall k, nth k h' 0 = if Nat.eqb k j then nth i h 0 else if Nat.eqb k i then nth j h 0 else nth k h 0).
    { intros k. unfold h'. rewrite set_nth_nth by (rewrite set_nth_length; unfold j; lia).
      destruct (Nat.eqb k j); [reflexivity|]. apply set_nth_nth. lia. }
    rewrite !N. unfold j.
    destruct (Nat.eqb_spec m (length h - 1 - i)), (Nat.eqb_spec m i), (Nat.eqb_spec (length h - 1 - m) (length h - 1 - i)), (Nat.eqb_spec (length h - 1 - m) i);
      repeat match goal with |- context [if ?b then _ else _] => let E := fresh in destruct b eqn:E end; try lia; try reflexivity;
      try (f_equal; lia).
Qed.

Lemma reverse_is_rev h : reverse_bytes h = rev h.
Proof.
  unfold reverse_bytes. apply (nth_ext _ _ 0 0); [now rewrite swap_loop_length, rev_length|].
  intros m Hm. rewrite swap_loop_length in Hm. rewrite swap_loop_nth by lia. rewrite rev_nth by exact Hm.
  pose proof (Nat.div2_odd (length h)) as D.
  destruct (_ || _) eqn:E; [f_equal; lia|].
  assert (m = length h - S m)%nat; [|congruence]. destruct (Nat.odd (length h)); cbn in D; lia.
Qed.

Lemma hex_digit_roundtrip n : 0 <= n < 16 -> fromHexChar (toHexChar n) = Some n.
Proof.
  intros H. assert (E : (16 <=? n) || match fromHexChar (toHexChar n) with Some x => x =? n | None => false end = true).
  { apply (all_bytes (fun n => (16 <=? n) || match fromHexChar (toHexChar n) with Some x => x =? n | None => false end));
      [vm_compute; reflexivity|unfold is_byte; lia]. }
  destruct (fromHexChar (toHexChar n)); [f_equal; lia|lia].
Qed.
Lemma nibbles v : is_byte v -> 0 <= Z.shiftr v 4 < 16 /\ 0 <= Z.land v 15 < 16 /\ Z.lor (Z.shiftl (Z.shiftr v 4) 4) (Z.land v 15) = v.
Proof.
  intros H. unfold is_byte in H. rewrite Z.shiftr_div_pow2 by lia. change 15 with (Z.ones 4). rewrite Z.land_ones by lia.
  rewrite Z.lor_comm, lor_shl by (try lia; apply Z.mod_pos_bound; lia). change (2 ^ 4) with 16.
  pose proof (Z.mod_pos_bound v 16). pose proof (Z.div_mod v 16). lia.
Qed.

Lemma hex_decode_encode b : bytes_ok b -> hex_decode (hex_encode b) = Ok b.
Proof.
  induction 1 as [|v b Hv _ IH]; [reflexivity|]. cbn [hex_encode flat_map app]. fold (hex_encode b).
  destruct (nibbles v Hv) as (A & B & C). cbn [hex_decode]. rewrite !hex_digit_roundtrip by assumption. rewrite IH. cbn [rbind]. now rewrite C.
Qed.

Definition is_hex (c : Z) : Prop := 48 <= c <= 57 \/ 97 <= c <= 102 \/ 65 <= c <= 70.
Definition hex_low (c : Z) : Z := if (65 <=? c) && (c <=? 70) then c + 32 else c.

Lemma from_hex_spec c : (is_hex c -> exists n, fromHexChar c = Some n /\ 0 <= n < 16 /\ toHexChar n = hex_low c) /\
  (~ is_hex c -> fromHexChar c = None).
Proof.
  unfold is_hex, fromHexChar, hex_low, toHexChar. split; intros H.
  - destruct ((48 <=? c) && (c <=? 57)) eqn:E1; [exists (c - 48)|destruct ((97 <=? c) && (c <=? 102)) eqn:E2; [exists (c - 97 + 10)|
      destruct ((65 <=? c) && (c <=? 70)) eqn:E3; [exists (c - 65 + 10)|lia]]];
    (split; [reflexivity|]; split; [lia|]); repeat match goal with |- context [if ?b then _ else _] => let F := fresh in destruct b eqn:F end; lia.
  - destruct ((48 <=? c) && (c <=? 57)) eqn:E1; [lia|]. destruct ((97 <=? c) && (c <=? 102)) eqn:E2; [lia|].
    destruct ((65 <=? c) && (c <=? 70)) eqn:E3; [lia|reflexivity].
Qed.

Lemma hex_decode_spec s : (Forall is_hex s /\ Nat.even (length s) = true -> exists b, hex_decode s = Ok b /\ bytes_ok b /\ hex_encode b = map hex_low s /\ length s = (2 * length b)%nat)
  /\ (~ (Forall is_hex s /\ Nat.even (length s) = true) -> exists e, hex_decode s = Err e).
Proof.
  remember (length s) as n eqn:Hn. revert s Hn. induction n as [n IH] using lt_wf_ind. intros s Hn.
  destruct s as [|a [|b r]].
  - cbn in Hn. subst n. split; [|intros H; elim H; split; [constructor|reflexivity]]. intros _. exists []. repeat split. constructor.
  - cbn in Hn. subst n. split; [intros [_ H]; discriminate|]. intros _. cbn [hex_decode]. destruct (fromHexChar a); eauto.
  - cbn [length] in Hn. destruct (IH (length r) ltac:(lia) r eq_refl) as [I1 I2]. subst n. cbn [Nat.even] in *. cbn [hex_decode map]. split.
    + intros [H He]. inversion H as [|? ? Ha H']; subst. inversion H' as [|? ? Hb Hr]; subst.
      destruct (proj1 (from_hex_spec a) Ha) as (x & Ex & Rx & Tx), (proj1 (from_hex_spec b) Hb) as (y & Ey & Ry & Ty).
      destruct I1 as (d & Ed & Od & Hd & Ld); [auto|]. rewrite Ex, Ey, Ed. cbn [rbind].
      assert (Hl : Z.lor (Z.shiftl x 4) y = x * 16 + y). { rewrite Z.lor_comm, lor_shl by lia. change (2 ^ 4) with 16. lia. }
      rewrite Hl. exists (x * 16 + y :: d). split; [reflexivity|]. split; [constructor; [unfold is_byte; lia|exact Od]|].
      split; [|cbn [length]; lia]. cbn [hex_encode flat_map app]. fold (hex_encode d). rewrite Hd.
      rewrite Z.shiftr_div_pow2 by lia. change 15 with (Z.ones 4). rewrite Z.land_ones by lia. change (2 ^ 4) with 16.
      replace ((x * 16 + y) / 16) with x by (symmetry; rewrite Z.add_comm, Z.div_add, Z.div_small by lia; lia).
      replace ((x * 16 + y) mod 16) with y by (symmetry; rewrite Z.add_comm, Z.mod_add, Z.mod_small by lia; lia).
      now rewrite Tx, Ty.
    + intros H. destruct (fromHexChar a) as [x|] eqn:Ea; [|eauto]. destruct (fromHexChar b) as [y|] eqn:Eb; [|eauto].
      destruct I2 as (e & Ee); [|rewrite Ee; cbn; eauto]. intros [H1 H2]. apply H. split; [|exact H2].
      assert (D : forall c, is_hex c \/ ~ is_hex c) by (intros c; unfold is_hex; lia).
      constructor; [destruct (D a) as [|N]; [assumption|]; rewrite (proj2 (from_hex_spec a) N) in Ea; discriminate|].
      constructor; [destruct (D b) as [|N]; [assumption|]; rewrite (proj2 (from_hex_spec b) N) in Eb; discriminate|exact H1].
Qed.

Lemma id_roundtrip h : bytes_ok h -> NewIDFromString (NewIDToString h) = Ok h.
Proof.
  intros H. unfold NewIDFromString, NewIDToString. rewrite !reverse_is_rev. rewrite hex_decode_encode by now apply bytes_ok_rev.
  cbn [rbind]. rewrite reverse_is_rev, rev_involutive. reflexivity.
Qed.
Lemma id_from_string s : Forall is_hex s -> Nat.even (length s) = true ->
  exists h, NewIDFromString s = Ok h /\ bytes_ok h /\ NewIDToString h = map hex_low s /\ 2 * len h = len s.
Proof.
  intros H1 H2. destruct (proj1 (hex_decode_spec s) (conj H1 H2)) as (b & E & B & T & L). unfold NewIDFromString, NewIDToString.
  rewrite E. cbn [rbind]. exists (rev b). rewrite !reverse_is_rev, rev_involutive. split; [reflexivity|]. split; [now apply bytes_ok_rev|].
  split; [exact T|]. rewrite len_rev. unfold len. lia.
Qed.
Lemma id_reject s : ~ (Forall is_hex s /\ Nat.even (length s) = true) -> exists e, NewIDFromString s = Err e.
Proof. intros H. destruct (proj2 (hex_decode_spec s) H) as (e & E). unfold NewIDFromString. rewrite E. cbn. eauto. Qed.
(** The text of an id lists its bytes last to first, two lower-case digits each. *)
Lemma id_text_reversed h : NewIDToString h = flat_map (fun v => [toHexChar (Z.shiftr v 4); toHexChar (Z.land v 15)]) (rev h).
Proof. unfold NewIDToString. now rewrite reverse_is_rev. Qed.
