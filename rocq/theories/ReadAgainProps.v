(** C128, continued; added after a changed program got past the others (seeded/LOG.jsonl). *)
From Verif Require Import GoBase BufferModel TxModel TxSpec UsedModel.
Local Open Scope Z_scope.

(** C128, continued: reading into the object again panics as well, when the first read ended inside the list of inputs
    and the data of the second have no inputs: the nil pointers of the first read are still there. *)
Definition cut_short : bytes := [1; 0; 0; 0; 0; 1; 3; 9].
Definition no_inputs (v : Z) : bytes := le 4 v ++ [0x00; 0x01; 0; 0; 0; 0; 0; 0; 0].
Theorem C128_read_again_refuted : (exists er o r, DeserializeInto cut_short (of_tx NewTransaction) = (Err er, o) /\ ob_ins o = None :: r) /\
  forall v o r, 0 <= v < 2 ^ 32 -> ob_ins o = None :: r -> fst (DeserializeInto (no_inputs v) o) = Panic.
Proof.
  split; [do 3 eexists; split; [vm_compute; reflexivity|reflexivity]|].
  intros v o r V I. destruct o as [a b ins c d e f]. cbn [ob_ins] in I. rewrite I. unfold no_inputs, le. cbn [map seq]. 
  repeat match goal with |- context [?x mod 256] => generalize (x mod 256); intro end. vm_compute. reflexivity.
Qed.
Print Assumptions C128_read_again_refuted.
Example C128_again_example : exists er o, DeserializeInto cut_short (of_tx NewTransaction) = (Err er, o) /\ length (ob_ins o) = 3%nat /\
  fst (DeserializeInto (no_inputs 2) o) = Panic /\ fst (DeserializeInto (no_inputs 2) (of_tx NewTransaction)) = Ok tt.
Proof. do 2 eexists. split; [vm_compute; reflexivity|]. split; [reflexivity|]. split; vm_compute; reflexivity. Qed.
