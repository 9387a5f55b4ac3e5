(** BIP-39, in terms of bits. *)
From Verif Require Import GoBase.

(** The bits of a byte string, first bit first. *)
Definition byte_bits (b : Z) : list bool := map (fun k => Z.testbit b (7 - Z.of_nat k)) (seq 0 8).
Definition bits (b : bytes) : list bool := concat (map byte_bits b).
(** Bits as a number. *)
Definition bits_val (l : list bool) : Z := fold_left (fun a b => 2 * a + (if b : bool then 1 else 0)) l 0.
(** Consecutive groups of 11 bits. *)
Fixpoint groups (n : nat) (l : list bool) : list (list bool) :=
  match n with O => [] | S n' => firstn 11 l :: groups n' (skipn 11 l) end.
(** The words for an entropy: its bits and the first bit per four bytes of its hash, in groups of 11, each naming a word. *)
Definition bip39_words (sha256 : bytes -> bytes) (wordList : list bytes) (e : bytes) : list bytes :=
  let n := (length e / 4)%nat in
  map (fun g => nth (Z.to_nat (bits_val g)) wordList []) (groups (3 * n) (bits e ++ firstn n (bits (sha256 e)))).
Definition entropy_size (n : nat) : Prop := In n [16; 20; 24; 28; 32]%nat.

(** Unicode's white space, in UTF-8. *)
Definition spaces : list bytes :=
  [[9]; [10]; [11]; [12]; [13]; [32]; [0xC2; 0x85]; [0xC2; 0xA0]; [0xE1; 0x9A; 0x80]] ++
  map (fun k => [0xE2; 0x80; 0x80 + Z.of_nat k]) (seq 0 11) ++
  [[0xE2; 0x80; 0xA8]; [0xE2; 0x80; 0xA9]; [0xE2; 0x80; 0xAF]; [0xE2; 0x81; 0x9F]; [0xE3; 0x80; 0x80]].
Definition space_free (w : bytes) : Prop := w <> [] /\ forall a s b, In s spaces -> w <> a ++ s ++ b.
(** A usable word list. *)
Definition good_list (l : list bytes) : Prop := length l = 2048%nat /\ NoDup l /\ Forall space_free l.
(** One sentence: words with single spaces between. *)
Definition sentence (ws : list bytes) : bytes :=
  match ws with [] => [] | w :: r => w ++ concat (map (fun x => 32 :: x) r) end.
