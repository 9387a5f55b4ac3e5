(** SHA-256 returns 32 bytes: the executable function meets the hypotheses put on the hash parameter. *)
From Verif Require Import GoBase BaseLemmas Sha256.

Lemma be_bytes_len n x : len (be_bytes n x) = Z.of_nat n.
Proof. revert x; induction n as [|n IH]; intros x; cbn [be_bytes]; [reflexivity|]. len_simpl. rewrite IH. lia. Qed.
Lemma be_bytes_ok n x : bytes_ok (be_bytes n x).
Proof.
  revert x; induction n as [|n IH]; intros x; cbn [be_bytes]; [constructor|].
  apply bytes_ok_app; split; [apply IH|]. constructor; [|constructor]. unfold is_byte. apply Z.mod_pos_bound. lia.
Qed.
Lemma map2_length {A B C} (f : A -> B -> C) a b : length (map2 f a b) = Nat.min (length a) (length b).
Proof. revert b; induction a as [|x a IH]; intros [|y b]; cbn [map2 length Nat.min]; auto. Qed.
Lemma round256_length s k w : length s = 8%nat -> length (round256 s k w) = 8%nat.
Proof.
  intros H. do 8 (destruct s as [|? s]; [discriminate|]). destruct s; [reflexivity|discriminate].
Qed.
Lemma rounds256_length ks w s : length s = 8%nat -> length (rounds256 ks w s) = 8%nat.
Proof. revert w s; induction ks as [|k ks IH]; intros w s H; cbn [rounds256]; [exact H|]. apply IH, round256_length, H. Qed.
Lemma block256_length s m : length s = 8%nat -> length (block256 s m) = 8%nat.
Proof. intros H. unfold block256. rewrite map2_length, rounds256_length, H by exact H. reflexivity. Qed.
Lemma blocks256_length n s m : length s = 8%nat -> length (blocks256 n s m) = 8%nat.
Proof. revert s m; induction n as [|n IH]; intros s m H; cbn [blocks256]; [exact H|]. apply IH, block256_length, H. Qed.

Lemma flat_map_be_len l : len (flat_map (be_bytes 4) l) = 4 * len l.
Proof. induction l as [|x l IH]; cbn [flat_map]; [reflexivity|]. rewrite len_app, len_cons, be_bytes_len, IH. lia. Qed.
Lemma flat_map_be_ok l : bytes_ok (flat_map (be_bytes 4) l).
Proof. induction l as [|x l IH]; cbn [flat_map]; [constructor|]. apply bytes_ok_app; split; [apply be_bytes_ok|exact IH]. Qed.

Lemma sha256_len m : len (sha256 m) = 32.
Proof. unfold sha256. rewrite flat_map_be_len. unfold len at 1. rewrite blocks256_length by reflexivity. reflexivity. Qed.
Lemma sha256_ok m : bytes_ok (sha256 m).
Proof. apply flat_map_be_ok. Qed.
