(** What a trace says, stated without the tracing loop. *)
From Verif Require Import GoBase ScriptModel AsmModel AsmSpec Bip39Model VmModel TraceModel.

(** An item in angle brackets, in lower-case hexadecimal. *)
Definition lower_hex (c : Z) : Prop := 48 <= c <= 57 \/ 97 <= c <= 102.
Inductive item_text : bytes -> bytes -> Prop :=
| it_empty : item_text [] (str_bytes " <empty> ")
| it_hex x t : x <> [] -> hexes t x -> Forall lower_hex t -> item_text x (str_bytes " <" ++ t ++ str_bytes "> ").
(** A stack, top first, is shown from its bottom; an empty one like an empty item. *)
Inductive stack_text : list bytes -> bytes -> Prop :=
| st_none : stack_text [] (str_bytes " <empty> ")
| st_one x t : item_text x t -> stack_text [x] t
| st_more x s t u : s <> [] -> stack_text s t -> item_text x u -> stack_text (x :: s) (t ++ u).

Section Rows.
Variable act : instruction -> vm -> res vm.
(** The rows of the instructions [is] run from [st], the first one being number [n]: the name, the stack left, and the
    listing of the instructions that follow; the instruction that fails leaves no row. *)
Inductive rows : list instruction -> vm -> Z -> list trace -> Prop :=
| r_end st n : rows [] st n []
| r_fail i is st n : (forall st', act i st <> Ok st') -> rows (i :: is) st n []
| r_row i is st st' n name cur ts : act i st = Ok st' -> named name (iop i) -> name <> str_bytes "OP_FALSE" -> name <> str_bytes "OP_TRUE" ->
    stack_text (dstack st') cur -> rows is st' (n + 1) ts ->
    rows (i :: is) st n (Trace n name cur (Join (flat_map instr_words is)) :: ts).
End Rows.
