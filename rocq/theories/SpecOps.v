(** Specification: the operands that calls on an operation have written. *)

From Coq Require Import ZArith List Bool.
From Verif Require Import Bytes ModelFloat ModelBuf ModelObject ModelRenumber ModelChunk ModelApi ModelCrash ModelContent ModelOps SpecLex SpecObj SpecMeans
  SpecApi SpecCrash SpecContent.
Import ListNotations.
Local Open Scope Z_scope.

(** An operand written through [obj] is a tree; the last one may have been cut short by a panic, and is then the tree so far. *)
Inductive operands_so_far : list op_call -> list obj -> Prop :=
| OS_none : operands_so_far [] []
| OS_operand p r os : operands_so_far r os -> operands_so_far (OcOperand p :: r) (OPrim p :: os)
| OS_operands l r os : operands_so_far r os -> operands_so_far (OcOperands l :: r) (map OPrim l ++ os)
| OS_obj cs o r os : expanded cs = calls_of o -> operands_so_far r os -> operands_so_far (OcObj cs :: r) (o :: os)
| OS_cut cs o : tree_so_far cs o -> operands_so_far [OcObj cs] [o].
(** The calls stop where a place for a value is open. *)
Definition operation_stops_open (ocs : list op_call) : Prop := exists before cs, ocs = before ++ [OcObj cs] /\ stops_open cs.
Definition operation_consumed (ocs : list op_call) : Prop := Forall (fun c => match c with OcObj cs => consumed cs | _ => True end) ocs.

(** The calls that their documentation says panic: a line width that is negative or NaN, a flatness outside 0..=100. *)
Definition refused (c : ccall) : Prop :=
  match c with
  | CSetLineWidth w => ~ (w = FInf false \/ (f32_finite w = true /\ 0 <= f32_units w))
  | CSetFlatness v => ~ (0 <= v <= 100)
  | _ => False
  end.

(** [amounts_to ops calls]: without the calls that are refused, and with the operations that are written call by call as a whole, [ops] are [calls]. *)
Inductive amounts_to : list content_op -> list ccall -> Prop :=
| AT_none : amounts_to [] []
| AT_method c r calls : ~ refused c -> amounts_to r calls -> amounts_to (OpMethod c :: r) (c :: calls)
| AT_refused c r calls : refused c -> amounts_to r calls -> amounts_to (OpMethod c :: r) calls
| AT_scope k ocs os r calls : operands_so_far ocs os -> amounts_to r calls -> amounts_to (OpScope k ocs :: r) (COp k os :: calls).

(** Every [Obj] outside a panic was used. *)
Definition ops_consumed (ops : list content_op) : Prop :=
  Forall (fun op => match op with OpScope _ ocs => operation_consumed ocs | OpMethod _ => True end) ops.
(** No operation was cut short where a place for a value was open. *)
Definition none_stops_open (ops : list content_op) : Prop :=
  Forall (fun op => match op with OpScope _ ocs => ~ operation_stops_open ocs | OpMethod _ => True end) ops.
