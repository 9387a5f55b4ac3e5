(** What C115 and C116 say about memory, without the model of append. *)
From Verif Require Import GoBase MemModel.

(** Every array that existed is as it was. *)
Definition same_memory {A} (h h' : @heap A) : Prop := forall a, (a < length h)%nat -> array h' a = array h a.

(** [xs] was put behind [s] if the capacity of [s] allows, and nothing else that existed changed. *)
Definition put_behind {A} (h h' : @heap A) (s : slice) (xs : list A) : Prop :=
  forall a j, (a < length h)%nat ->
    let first := (s_off s + s_len s)%nat in
    (a = s_arr s -> (s_len s + length xs <= s_cap s)%nat -> forall i, (i < length xs)%nat -> j = (first + i)%nat ->
       nth_error (array h' a) j = nth_error xs i) /\
    (a <> s_arr s \/ (s_cap s < s_len s + length xs)%nat \/ (j < first)%nat \/ (first + length xs <= j)%nat ->
       nth_error (array h' a) j = nth_error (array h a) j).

(** [c] shares no element with the spare room behind [s]. *)
Definition apart (s c : slice) : Prop :=
  s_arr c <> s_arr s \/ (s_off c + s_len c <= s_off s + s_len s)%nat \/ (s_off s + s_cap s <= s_off c)%nat.

(** The second slice starts where the first one ends. *)
Definition follows (s c : slice) : Prop := s_arr c = s_arr s /\ s_off c = (s_off s + s_len s)%nat /\ (0 < s_len c)%nat.

(** The operations of a stack on a list, top first. *)
Definition list_op {A} (l : list A) (o : @stack_op A) : list A :=
  match o with
  | OPush v => v :: l
  | ONip idx => if (0 <=? idx) && (idx <? Z.of_nat (length l)) then firstn (Z.to_nat idx) l ++ skipn (S (Z.to_nat idx)) l else l
  | OClean => []
  end.
(** The operations which go to one of two stacks. *)
Definition to_first {A} (os : list (bool * @stack_op A)) : list (@stack_op A) := map snd (filter fst os).
Definition to_second {A} (os : list (bool * @stack_op A)) : list (@stack_op A) := map snd (filter (fun o => negb (fst o)) os).
