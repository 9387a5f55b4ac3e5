(** C156: the coordinates of a public key as bytes. *)
From Verif Require Import GoBase BaseLemmas BigInt BigIntProofs NumTheory BigMod SecpModel SecpGroup SecpOrder SecpOrderN SecpProofs SecpCyclic SecpSpec SecpLink EcdsaModel EcdsaSpec EcdsaNonce EcdsaProofs PubKeyModel PubKeySpec PubKeyProofs PubKeyProps CoordModel.
Local Open Scope Z_scope.

Lemma coord_bytes x : 0 <= x < 2 ^ 256 -> bytes_ok (big_bytes x) /\ be (big_bytes x) = x /\ hd 1 (big_bytes x) <> 0 /\ octets 32 x = repeat 0 (Z.to_nat (32 - len (big_bytes x))) ++ big_bytes x /\
  (len (big_bytes x) <= 32) /\ (len (big_bytes x) = 32 <-> 256 ^ 31 <= x).
Proof.
  intros R. pose proof (pad32_ok x R) as P. unfold pad32 in P. destruct (Z.ltb_spec 32 (len (big_bytes x))) as [L|L]; [discriminate P|]. pose proof (big_bytes_ok x) as B. pose proof (big_bytes_set x (proj1 R)) as V.
  assert (Hd : hd 1 (big_bytes x) <> 0).
  { destruct (split_zeros (big_bytes x)) as (n & c & E & Hc). assert (Bc : bytes_ok c) by (rewrite E in B; now apply bytes_ok_app in B). pose proof (big_bytes_strip n c Bc Hc) as S. rewrite <- E, V in S. rewrite S. exact Hc. }
  split; [exact B|]. split; [rewrite be_set_bytes; exact V|]. split; [exact Hd|]. split; [symmetry; congruence|]. split; [exact L|].
  pose proof (set_bytes_lt _ B) as U. rewrite V in U. split; intros H.
  - destruct (big_bytes x) as [|h t]; [discriminate H|]. cbn [hd] in Hd. rewrite set_bytes_cons in V. apply bytes_ok_cons in B. destruct B as (Bh & Bt). unfold is_byte in Bh. pose proof (set_bytes_nonneg t Bt). rewrite len_cons in H. replace (len t) with 31 in V by lia. assert (0 < 256 ^ 31) by reflexivity. nia.
  - destruct (Z.eq_dec (len (big_bytes x)) 32) as [|N]; [assumption|]. exfalso. assert (256 ^ len (big_bytes x) <= 256 ^ 31) by (apply Z.pow_le_mono_r; lia). lia.
Qed.

(** C156: XBytes and YBytes are the coordinates in 32 bytes, as in the encodings of the key.  False as it stands: leading zeros are left out. *)
Theorem C156_coordinates_partial : forall x y, good (Some (x, y)) ->
  be (XBytes (x, y)) = x /\ be (YBytes (x, y)) = y /\ bytes_ok (XBytes (x, y)) /\ bytes_ok (YBytes (x, y)) /\
  hd 1 (XBytes (x, y)) <> 0 /\ hd 1 (YBytes (x, y)) <> 0 /\
  len (XBytes (x, y)) <= 32 /\ len (YBytes (x, y)) <= 32 /\
  (len (XBytes (x, y)) = 32 <-> 256 ^ 31 <= x) /\ (len (YBytes (x, y)) = 32 <-> 256 ^ 31 <= y) /\
  SerializeUncompressed (x, y) = Ok (4 :: repeat 0 (Z.to_nat (32 - len (XBytes (x, y)))) ++ XBytes (x, y) ++ repeat 0 (Z.to_nat (32 - len (YBytes (x, y)))) ++ YBytes (x, y)).
Proof.
  intros x y G. pose proof (proj1 (proj2 (C70_roundtrip x y G))) as S. destruct G as (Rx & Ry & _). rewrite prime_p_eq in Rx, Ry. assert (P : curveP < 2 ^ 256) by reflexivity.
  destruct (coord_bytes x ltac:(lia)) as (B & V & H & O & L & T). destruct (coord_bytes y ltac:(lia)) as (B' & V' & H' & O' & L' & T'). unfold XBytes, YBytes. cbn [fst snd]. rewrite S, O, O', <- app_assoc. tauto.
Qed.
Print Assumptions C156_coordinates_partial.

(** A key as it may be received: 02 or 03, 31 zeros and 1. *)
Theorem C156_coordinates_refuted : exists key x y, PubKeyFromBytes key = Ok (x, y) /\ good (Some (x, y)) /\ XBytes (x, y) = [1] /\ octets 32 x <> XBytes (x, y).
Proof.
  set (y := 29896722852569046015560700294576055776214335159245303116488692907525646231534).
  assert (G : good (Some (1, y))) by (split; [split; [discriminate|reflexivity]|]; split; [split; [discriminate|reflexivity]|vm_compute; reflexivity]).
  exists ((2 + parity y) :: octets 32 1), 1, y. destruct (C70_roundtrip 1 y G) as (E & _ & _ & F). split; [exact (proj2 (F SerializeCompressed _ (or_intror (or_introl eq_refl)) E))|]. split; [exact G|]. split; [reflexivity|]. vm_compute. discriminate.
Qed.
Print Assumptions C156_coordinates_refuted.
