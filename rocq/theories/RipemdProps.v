(** C72: RIPEMD-160. *)
From Verif Require Import GoBase BaseLemmas RipemdModel RipemdSpec RipemdProofs.
Local Open Scope Z_scope.

(** Calls on a hash object, and what they return: the count of Write, the slice
    of Sum, nothing for Reset. *)
Inductive call := CWrite (p : bytes) | CSum (inp : bytes) | CReset.

Definition perform (d : digest) (c : call) : digest * res bytes :=
  match c with
  | CWrite p => let '(d, n) := Write d p in (d, Ok [n])
  | CSum inp => (d, Sum d inp)
  | CReset => (Reset d, Ok [])
  end.

Fixpoint perform_all (d : digest) (cs : list call) : list (res bytes) :=
  match cs with
  | [] => []
  | c :: r => let '(d, out) := perform d c in out :: perform_all d r
  end.

(** What they should return, m being the message written so far. *)
Fixpoint expected (m : bytes) (cs : list call) : list (res bytes) :=
  match cs with
  | [] => []
  | CWrite p :: r => Ok [len p] :: expected (m ++ p) r
  | CSum inp :: r => Ok (inp ++ rmd160 m) :: expected m r
  | CReset :: r => Ok [] :: expected [] r
  end.

Theorem C72_any_calls : forall cs, (forall p, In (CWrite p) cs -> bytes_ok p) ->
  perform_all New cs = expected [] cs.
Proof.
  intro cs. pose proof New_holds as H. revert H. generalize New as d. generalize (@nil Z) as m.
  induction cs as [ | c cs IH]; intros m d H HW; [reflexivity | ].
  assert (HW' : forall p, In (CWrite p) cs -> bytes_ok p) by (intros p Hp; apply HW; right; exact Hp).
  destruct c as [p | inp | ]; cbn [perform_all perform expected].
  - destruct (Write_holds d m p H (HW p (or_introl eq_refl))) as [H' N]. destruct (Write d p) as [d' n]. cbn [fst snd] in H', N.
    rewrite N. f_equal. apply IH; assumption.
  - rewrite (Sum_holds d m inp H). f_equal. apply IH; assumption.
  - f_equal. apply IH; [ | exact HW']. destruct (holds_buffer d m H). apply Reset_holds; assumption.
Qed.
Print Assumptions C72_any_calls.

Theorem C72_digest : forall m, bytes_ok m ->
  Ripemd160 m = Ok (rmd160 m) /\ length (rmd160 m) = 20%nat /\ bytes_ok (rmd160 m).
Proof.
  intros m Hm. destruct (Write_holds New [] m New_holds Hm) as [H _]. split; [ | apply rmd160_length].
  unfold Ripemd160. rewrite (Sum_holds _ _ [] H). reflexivity.
Qed.
Print Assumptions C72_digest.

(** Two ways of cutting up one message. *)
Example ex_chunks : let m := repeat 97 100 in
  perform_all New [CWrite (firstn 63 m); CSum [1]; CWrite (skipn 63 m); CSum []] =
  [Ok [63]; Ok (1 :: rmd160 (firstn 63 m)); Ok [37]; Ok (rmd160 m)].
Proof. intro m. rewrite C72_any_calls; [reflexivity | ]. intros p [E | [E | [E | [E | []]]]]; try discriminate; injection E as <-; apply bytes_ok_forallb; reflexivity. Qed.

(** Test vectors of the repository. *)
Definition hex20 (x : Z) : bytes := map (fun i => (x / 256 ^ (19 - Z.of_nat i)) mod 256) (seq 0 20).
Example ex_abc : Ripemd160 (str_bytes "abc") = Ok (hex20 0x8eb208f7e05d987a9b044a8e98c6b087f15a0bfc).
Proof. vm_compute. reflexivity. Qed.
Example ex_eighty : Ripemd160 (str_bytes "12345678901234567890123456789012345678901234567890123456789012345678901234567890") =
  Ok (hex20 0x9b752e45573d4b39f4dbd3323cab82bf63326bfb).
Proof. vm_compute. reflexivity. Qed.
