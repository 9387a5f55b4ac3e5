(** xcore/transaction.go ToString: the text of a transaction. *)
From Verif Require Import GoBase ScriptModel HexModel AsmModel LockModel TxModel BuilderModel.
From Coq Require Import SpecFloat.

(** fmt's %d and %v on integers. *)
Fixpoint digits_of (fuel : nat) (n : Z) : bytes :=
  match fuel with
  | O => []
  | S f => if n <? 10 then [48 + n] else digits_of f (n / 10) ++ [48 + n mod 10]
  end.
Definition nat_text (n : Z) : bytes := digits_of (S (Z.to_nat (Z.log2 n))) n.
Definition int_text (n : Z) : bytes := if n <? 0 then 45 :: nat_text (- n) else nat_text n.
(** fmt's %.2f on a float64: the exact value rounded to two decimals, ties to even. *)
Definition round_even (p q : Z) : Z :=
  let n := p / q in
  let r := p mod q in
  if 2 * r <? q then n else if 2 * r =? q then (if Z.even n then n else n + 1) else n + 1.
Definition fixed2 (f : spec_float) : bytes :=
  match f with
  | S754_zero s => (if s then [45] else []) ++ str_bytes "0.00"
  | S754_infinity s => str_bytes (if s then "-Inf" else "+Inf")
  | S754_nan => str_bytes "NaN"
  | S754_finite s m e =>
      let n := if 0 <=? e then 100 * Zpos m * 2 ^ e else round_even (100 * Zpos m) (2 ^ (- e)) in
      (if s then [45] else []) ++ nat_text (n / 100) ++ [46; 48 + n / 10 mod 10; 48 + n mod 10]
  end.
(** strings.Join(lines, "\n"). *)
Fixpoint JoinLines (ls : list bytes) : bytes :=
  match ls with
  | [] => []
  | [l] => l
  | l :: r => l ++ 10 :: JoinLines r
  end.
(** A name in quotes, a colon, a tab, and the rest of the line. *)
Definition field (indent name : string) (rest : bytes) : bytes := str_bytes indent ++ [34] ++ str_bytes name ++ [34; 58; 9] ++ rest.
Definition quoted (x : bytes) : bytes := [34] ++ x ++ [34; 44].

Section Show.
(** The text of an error: DisasmString returns it for a script that does not parse. *)
Variable error_text : string -> bytes.
Notation Disasm := (DisasmString error_text).
Notation infield := (field "      ").
Notation outfield := (field "  ").

(** transaction.go:824-840: the lines of one input. *)
Definition in_lines (i : TxIn) : res (list bytes) :=
  let! raw := Disasm (ti_rawlock i) in
  let! final := Disasm (ti_finallock i) in
  let! unlock := Disasm (ti_unlock i) in
  let! redeem := match ti_redeem i with
    | None => Ok []
    | Some r => let! s := Disasm r in Ok [infield "redeemscript" (quoted s); infield "redeemhex" (quoted (hex_encode r))]
    end in
  let! witness := match ti_code i with
    | None => Ok []
    | Some c => let! w := index (ti_witness i) 0 in Ok [infield "witness" (quoted (hex_encode w)); infield "scriptcode" ([34] ++ hex_encode c ++ [34])]
    end in
  Ok ([str_bytes "    {"; infield "hash" (quoted (NewIDToString (ti_hash i))); infield "n" (int_text (ti_index i) ++ [44]); infield "Value" (int_text (ti_value i) ++ [44]);
       infield "rawlocking" (quoted raw); infield "finallocking" (quoted final); infield "rawunlocking" (quoted unlock)] ++ redeem ++
      [infield "script" (quoted unlock); infield "sighash" (quoted (hex_encode (ti_sighash i)))] ++ witness).
(** transaction.go:841-845, 854-858: a comma behind all but the last. *)
Definition closing {A} (r : list A) : bytes := str_bytes (match r with [] => "    }" | _ => "    }," end).
(** transaction.go:822-846. *)
Fixpoint ins_lines (ins : list TxIn) : res (list bytes) :=
  match ins with
  | [] => Ok []
  | i :: r => let! a := in_lines i in let! b := ins_lines r in Ok (a ++ closing r :: b)
  end.
(** transaction.go:850-859. *)
Fixpoint outs_lines (outs : list TxOut) : res (list bytes) :=
  match outs with
  | [] => Ok []
  | o :: r =>
      let! s := Disasm (to_script o) in
      let! b := outs_lines r in
      Ok ([str_bytes "    {"; infield "value" (int_text (to_value o) ++ [44]); infield "script" ([34] ++ s ++ [34])] ++ closing r :: b)
  end.
(** transaction.go:861-871. *)
Definition sums (t : transaction) : list bytes :=
  [outfield "basesize" (int_text (BaseSize t) ++ [44]); outfield "witsize" (int_text (WitnessSize t) ++ [44]); outfield "vsize" (int_text (Vsize t) ++ [44]); outfield "size" (int_text (Size t) ++ [44]);
   outfield "weight" (int_text (Weight t) ++ [44]); outfield "fees" (int_text (Fees t) ++ str_bytes " sat,");
   outfield "feesperb" (fixed2 (fdiv (float_of (Fees t)) (float_of (Size t))) ++ str_bytes " sat/B,");
   outfield "saving" (fixed2 (fmul (fdiv (float_of (WitnessSize t)) (float_of (Size t))) (float_of 100)) ++ str_bytes " %")].
(** transaction.go:817-874. *)
Definition ToString (t : transaction) : res bytes :=
  let! ins := ins_lines (tx_ins t) in
  let! outs := outs_lines (tx_outs t) in
  Ok (JoinLines ([10 :: str_bytes "{"; str_bytes "  ""inputs"":["] ++ ins ++ [str_bytes "  ],"; str_bytes "  ""outputs"":["] ++ outs ++ [str_bytes "  ],"] ++ sums t ++ [str_bytes "}" ++ [10]])).
End Show.
