(** Model of src/functions.rs: encoding of PostScript calculator functions. *)

From Coq Require Import ZArith List Lia Bool.
From Verif Require Import Bytes ModelFloat ModelBuf.
Import ListNotations.
Local Open Scope Z_scope.

(** src/functions.rs:242-335 [PostScriptOp]: the variants without arguments. *)
Inductive ps_simple :=
| PsAbs | PsAdd | PsAtan | PsCeiling | PsCos | PsCvi | PsCvr | PsDiv | PsExp | PsFloor | PsIdiv | PsLn | PsLog
| PsMod | PsMul | PsNeg | PsRound | PsSin | PsSqrt | PsSub | PsTruncate
| PsAnd | PsBitshift | PsEq | PsFalse | PsGe | PsGt | PsLe | PsLt | PsNe | PsNot | PsOr | PsTrue | PsXor
| PsCopy | PsDup | PsExch | PsIndex | PsPop | PsRoll.

(** src/functions.rs:242-335 [PostScriptOp]. *)
Inductive psop : Type :=
| PsReal (r : f32)
| PsInteger (i : Z)
| PsSimple (k : ps_simple)
| PsIf (ops : list psop)
| PsIfElse (ops1 ops2 : list psop).

(** src/functions.rs:380-426 [operator] for these variants. *)
Definition ps_operator (k : ps_simple) : bytes :=
  match k with
  | PsAbs => lit "abs" | PsAdd => lit "add" | PsAtan => lit "atan" | PsCeiling => lit "ceiling" | PsCos => lit "cos"
  | PsCvi => lit "cvi" | PsCvr => lit "cvr" | PsDiv => lit "div" | PsExp => lit "exp" | PsFloor => lit "floor"
  | PsIdiv => lit "idiv" | PsLn => lit "ln" | PsLog => lit "log" | PsMod => lit "mod" | PsMul => lit "mul"
  | PsNeg => lit "neg" | PsRound => lit "round" | PsSin => lit "sin" | PsSqrt => lit "sqrt" | PsSub => lit "sub"
  | PsTruncate => lit "truncate" | PsAnd => lit "and" | PsBitshift => lit "bitshift" | PsEq => lit "eq"
  | PsFalse => lit "false" | PsGe => lit "ge" | PsGt => lit "gt" | PsLe => lit "le" | PsLt => lit "lt" | PsNe => lit "ne"
  | PsNot => lit "not" | PsOr => lit "or" | PsTrue => lit "true" | PsXor => lit "xor" | PsCopy => lit "copy"
  | PsDup => lit "dup" | PsExch => lit "exch" | PsIndex => lit "index" | PsPop => lit "pop" | PsRoll => lit "roll"
  end.

(** [Vec::pop] on the bytes. *)
Definition pop (b : buf) : buf := mkBuf (removelast (inner b)) (lims b).

(** src/functions.rs:345-358 [write_slice], with the loop over the elements as an argument. *)
Definition ps_slice (len : nat) (loop : buf -> buf) (b : buf) : buf :=
  let b := push x7b b in
  let b := if (1 <? len)%nat then push x20 b else b in
  let b := loop b in
  let b := if (len =? 1)%nat then pop b else b in
  push x7d b.

(** src/functions.rs:360-378 [write]. *)
Fixpoint ps_write (o : psop) (b : buf) {struct o} : buf :=
  let loop := fix loop (l : list psop) (b : buf) {struct l} : buf :=
    match l with [] => b | o :: r => loop r (push x20 (ps_write o b)) end in
  match o with
  | PsReal r => push_decimal r b
  | PsInteger i => push_int i b
  | PsIf ops => extend (lit "if") (push x20 (ps_slice (List.length ops) (loop ops) b))
  | PsIfElse ops1 ops2 =>
      let b := push x20 (ps_slice (List.length ops1) (loop ops1) b) in
      let b := push x20 (ps_slice (List.length ops2) (loop ops2) b) in
      extend (lit "ifelse") b
  | PsSimple k => extend (ps_operator k) b
  end.

(** The loop of [write_slice] (src/functions.rs:350-353). *)
Fixpoint ps_loop (l : list psop) (b : buf) : buf :=
  match l with [] => b | o :: r => ps_loop r (push x20 (ps_write o b)) end.

(** src/functions.rs:339-343 [encode]. *)
Definition ps_encode (ops : list psop) : buf := ps_slice (List.length ops) (ps_loop ops) buf_new.
