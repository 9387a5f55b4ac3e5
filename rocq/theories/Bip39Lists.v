(** The three word lists are usable. *)
From Verif Require Import GoBase BaseLemmas Bip39Model Bip39Spec Bip39Words.
From Coq Require Import MSetPositive.

Fixpoint distinct (s : PositiveSet.t) (l : list positive) : bool :=
  match l with [] => true | p :: r => negb (PositiveSet.mem p s) && distinct (PositiveSet.add p s) r end.
Lemma distinct_nodup : forall l s, distinct s l = true -> NoDup l /\ forall p, In p l -> ~ PositiveSet.In p s.
Proof.
  induction l as [|p l IH]; intros s E; cbn [distinct] in E; [split; [constructor|intros p []]|]. apply andb_true_iff in E. destruct E as [E1 E2]. destruct (IH _ E2) as [N D].
  assert (P : ~ PositiveSet.In p s) by (intros I; apply PositiveSet.mem_spec in I; rewrite I in E1; discriminate). split.
  - constructor; [|exact N]. intros I. apply (D p I). apply PositiveSet.add_spec. now left.
  - intros q [<-|I]; [exact P|]. intros Iq. apply (D q I). apply PositiveSet.add_spec. now right.
Qed.
(** A word as a number: a one, then its bytes. *)
Fixpoint key_bits (n : nat) (b : Z) (p : positive) : positive := match n with O => p | S n' => key_bits n' (Z.div2 b) (if Z.odd b then xI p else xO p) end.
Definition key (w : bytes) : positive := fold_left (fun p b => key_bits 8 b p) w xH.
Fixpoint clean (w : bytes) : bool := (space_len w =? 0)%nat && match w with [] => true | _ :: r => clean r end.
Lemma space_len_complete s b : In s spaces -> space_len (s ++ b) <> 0%nat.
Proof. intros I. cbn in I. repeat (destruct I as [<-|I]; [cbn; discriminate|]). destruct I. Qed.
Lemma clean_free w : w <> [] -> clean w = true -> space_free w.
Proof.
  intros Ne C. split; [exact Ne|]. clear Ne. induction w as [|c w IH]; intros a s b I E.
  - destruct a as [|]; [|discriminate]. destruct s; [|discriminate]. apply (space_len_complete [] b I). cbn in E. now subst.
  - cbn [clean] in C. apply andb_true_iff in C. destruct C as [C1 C2]. destruct a as [|x a].
    + cbn [app] in E. rewrite E in C1. apply Nat.eqb_eq in C1. exact (space_len_complete s b I C1).
    + injection E as -> E. exact (IH C2 a s b I E).
Qed.
Definition list_check (l : list bytes) : bool :=
  (len l =? 2048) && distinct PositiveSet.empty (map key l) && forallb (fun w => match w with [] => false | _ => clean w end) l.
Lemma list_check_good l : list_check l = true -> good_list l.
Proof.
  unfold list_check. rewrite !andb_true_iff. intros [[L D] C]. apply Z.eqb_eq in L. split; [unfold len in L; lia|]. split; [apply (NoDup_map_inv key); now apply distinct_nodup in D|].
  apply Forall_forall. intros w I. rewrite forallb_forall in C. specialize (C w I). destruct w as [|c w]; [discriminate|]. apply clean_free; [discriminate|exact C].
Qed.
Lemma english_good : good_list English. Proof. apply list_check_good. vm_compute. reflexivity. Qed.
Lemma chinese_good : good_list Chinese. Proof. apply list_check_good. vm_compute. reflexivity. Qed.
Lemma japanese_good : good_list Japanese. Proof. apply list_check_good. vm_compute. reflexivity. Qed.
