(** Specification: the language of PostScript calculator functions (ISO 32000-1, 7.10.5). *)

From Coq Require Import ZArith List Bool.
From Verif Require Import Bytes ModelFloat ModelPs SpecLex SpecText SpecMeans.
Import ListNotations.
Local Open Scope Z_scope.

(** Programs as a reader sees them. *)
Inductive psv : Type :=
| NInt (z : Z)
| NReal (n : Z) (k : nat)      (* n / 10^k *)
| NOp (operator : bytes)
| NIf (body : list psv)
| NIfElse (yes no : list psv).

(** Table 42, without [if] and [ifelse]. *)
Definition ps_operators : list bytes :=
  [lit "abs"; lit "add"; lit "atan"; lit "ceiling"; lit "cos"; lit "cvi"; lit "cvr"; lit "div"; lit "exp"; lit "floor";
   lit "idiv"; lit "ln"; lit "log"; lit "mod"; lit "mul"; lit "neg"; lit "round"; lit "sin"; lit "sqrt"; lit "sub";
   lit "truncate"; lit "and"; lit "bitshift"; lit "eq"; lit "false"; lit "ge"; lit "gt"; lit "le"; lit "lt"; lit "ne";
   lit "not"; lit "or"; lit "true"; lit "xor"; lit "copy"; lit "dup"; lit "exch"; lit "index"; lit "pop"; lit "roll"].

(** Elements read so far: finished ones, and procedures that wait for their [if] or [ifelse]. *)
Definition pending := (psv + list psv)%type.
Fixpoint finished (l : list pending) : option (list psv) :=
  match l with
  | [] => Some []
  | inl v :: r => option_map (cons v) (finished r)
  | inr _ :: _ => None
  end.

(** [acc]: the elements of the innermost open procedure, last first; [outer]: those of the enclosing ones. *)
Fixpoint ps_read (ts : list token) (acc : list pending) (outer : list (list pending)) : option (list psv) :=
  match ts with
  | [] => match outer, acc with [], [inr l] => Some l | _, _ => None end
  | TInt z :: ts => ps_read ts (inl (NInt z) :: acc) outer
  | TReal n k :: ts => ps_read ts (inl (NReal n k) :: acc) outer
  | TBraceOpen :: ts => ps_read ts [] (acc :: outer)
  | TBraceClose :: ts =>
      match outer, finished (rev acc) with
      | up :: outer, Some l => ps_read ts (inr l :: up) outer
      | _, _ => None
      end
  | TKeyword k :: ts =>
      if bytes_eqb k (lit "if") then
        match acc with inr l :: acc => ps_read ts (inl (NIf l) :: acc) outer | _ => None end
      else if bytes_eqb k (lit "ifelse") then
        match acc with inr no :: inr yes :: acc => ps_read ts (inl (NIfElse yes no) :: acc) outer | _ => None end
      else if existsb (bytes_eqb k) ps_operators then ps_read ts (inl (NOp k) :: acc) outer
      else None
  | _ => None
  end.

(** A function: one procedure. *)
Definition ps_parse (s : bytes) : option (list psv) :=
  match tokens s with Some ts => ps_read ts [] [] | None => None end.

(** The operator of Table 42 that each variant of the API's enum stands for. *)
Definition ps_word (k : ps_simple) : bytes :=
  match k with
  (* arithmetic *)
  | PsAbs => lit "abs" | PsAdd => lit "add" | PsAtan => lit "atan" | PsCeiling => lit "ceiling"
  | PsCos => lit "cos" | PsCvi => lit "cvi" | PsCvr => lit "cvr" | PsDiv => lit "div"
  | PsExp => lit "exp" | PsFloor => lit "floor" | PsIdiv => lit "idiv" | PsLn => lit "ln"
  | PsLog => lit "log" | PsMod => lit "mod" | PsMul => lit "mul" | PsNeg => lit "neg"
  | PsRound => lit "round" | PsSin => lit "sin" | PsSqrt => lit "sqrt" | PsSub => lit "sub"
  | PsTruncate => lit "truncate"
  (* relational, boolean and bitwise *)
  | PsAnd => lit "and" | PsBitshift => lit "bitshift" | PsEq => lit "eq" | PsFalse => lit "false"
  | PsGe => lit "ge" | PsGt => lit "gt" | PsLe => lit "le" | PsLt => lit "lt" | PsNe => lit "ne"
  | PsNot => lit "not" | PsOr => lit "or" | PsTrue => lit "true" | PsXor => lit "xor"
  (* stack *)
  | PsCopy => lit "copy" | PsDup => lit "dup" | PsExch => lit "exch" | PsIndex => lit "index"
  | PsPop => lit "pop" | PsRoll => lit "roll"
  end.

(** The parsed element is the one that was encoded. *)
Inductive ps_means : psop -> psv -> Prop :=
| PMReal r n k : rounds_to n k r -> ps_means (PsReal r) (NReal n k)
| PMRealInt r z : rounds_to z 0 r -> ps_means (PsReal r) (NInt z)
| PMInteger i : ps_means (PsInteger i) (NInt i)
| PMSimple k : ps_means (PsSimple k) (NOp (ps_word k))
| PMIf l vs : Forall2 ps_means l vs -> ps_means (PsIf l) (NIf vs)
| PMIfElse a b vs ws : Forall2 ps_means a vs -> Forall2 ps_means b ws -> ps_means (PsIfElse a b) (NIfElse vs ws).

(** All real constants are finite. *)
Fixpoint ps_ok (o : psop) : bool :=
  match o with
  | PsReal r => real_ok r
  | PsIf l => forallb ps_ok l
  | PsIfElse a b => forallb ps_ok a && forallb ps_ok b
  | _ => true
  end.

(** All real constants are smaller than [1e12] in magnitude. *)
Fixpoint ps_moderate (o : psop) : bool :=
  match o with
  | PsReal r => f32_ltb (f32_abs r) f32_1e12
  | PsIf l => forallb ps_moderate l
  | PsIfElse a b => forallb ps_moderate a && forallb ps_moderate b
  | _ => true
  end.

(** Real constants are read as reals and integers as integers. *)
Inductive same_types : psop -> psv -> Prop :=
| STReal r n k : same_types (PsReal r) (NReal n k)
| STInteger i z : same_types (PsInteger i) (NInt z)
| STSimple k w : same_types (PsSimple k) (NOp w)
| STIf l vs : Forall2 same_types l vs -> same_types (PsIf l) (NIf vs)
| STIfElse a b vs ws : Forall2 same_types a vs -> Forall2 same_types b ws -> same_types (PsIfElse a b) (NIfElse vs ws).

(** The same program, up to the sign of zero constants. *)
Inductive ps_same : psop -> psop -> Prop :=
| PSReal r r' : f32_eqb r r' = true -> ps_same (PsReal r) (PsReal r')
| PSInteger i : ps_same (PsInteger i) (PsInteger i)
| PSSimple k : ps_same (PsSimple k) (PsSimple k)
| PSIf l l' : Forall2 ps_same l l' -> ps_same (PsIf l) (PsIf l')
| PSIfElse a b a' b' : Forall2 ps_same a a' -> Forall2 ps_same b b' -> ps_same (PsIfElse a b) (PsIfElse a' b').
