(** Model of content streams call by call (src/content.rs:60-163), with panics that the caller catches: the [Operation] and the writers of its operands
    are dropped while the stack unwinds.  [write_op] (ModelContent) writes a whole operation at once; C81 proves that this loses nothing. *)

From Coq Require Import ZArith List Bool.
From Verif Require Import Bytes ModelFloat ModelBuf ModelObject ModelRenumber ModelChunk ModelApi ModelCrash ModelContent.
Import ListNotations.
Local Open Scope Z_scope.

(** src/content.rs:119-142 [Operation::obj]: the operand that is opened. *)
Definition open_operand (pretty first : bool) (b : buf) : objw * buf :=
  let pad_byte := if first then x0a else x20 in
  let '(needs_padding, b) :=
    if pretty then (false, match inner b with [] => b | _ => push pad_byte b end)
    else (true, b) in
  (obj_direct 0 pretty needs_padding, b).

(** The calls on an [Operation] (also through [ShowPositioned], [PositionedItems], [MarkContent], [PropertyList], [Artifact], src/content.rs:676-735,
    1008-1128, which only wrap it). *)
Inductive op_call :=
| OcOperand (p : prim)            (** [operand], src/content.rs:101-104 *)
| OcOperands (l : list prim)      (** [operands], 108-117; if the iterator panics, [l] is what it gave before *)
| OcObj (cs : list call).         (** [obj], 119-142, and the calls on the object *)

Definition operand_primitive (pretty : bool) (p : prim) (s : bool * buf) : bool * buf :=
  let '(w, b) := open_operand pretty (fst s) (snd s) in (false, obj_primitive w p b).
(** All calls on an operation: the field [first], the writers that are still open and the buffer.  While a writer is open, the operation itself cannot be
    used.  [None]: calls that do not compile. *)
Fixpoint op_run (pretty : bool) (ocs : list op_call) (s : bool * buf) : option (bool * list writer * buf) :=
  match ocs with
  | [] => Some (fst s, [], snd s)
  | OcOperand p :: r => op_run pretty r (operand_primitive pretty p s)
  | OcOperands l :: r => op_run pretty r (fold_left (fun s p => operand_primitive pretty p s) l s)
  | OcObj cs :: r =>
      let '(w, b) := open_operand pretty (fst s) (snd s) in
      match api_run cs ([WObj w], b), r with
      | Some ([], b), _ => op_run pretty r (false, b)
      | Some (st, b), [] => Some (false, st, b)
      | _, _ => None
      end
  end.
(** [content.op(operator)] (src/content.rs:61-64), the calls, and the end of the scope or a panic. *)
Definition op_scope (operator : bytes) (ocs : list op_call) (c : content) : option content :=
  match op_run (ct_pretty c) ocs (true, ct_buf c) with
  | Some (first, st, b) => Some (mkContent (op_drop (ct_pretty c) first operator (unwind st b)) (ct_pretty c) (ct_depth c))
  | None => None
  end.

(** A content stream: methods that are called, and operations written call by call. *)
Inductive content_op :=
| OpMethod (call : ccall)
| OpScope (operator : bytes) (ocs : list op_call).
(** The assertions of the methods (src/content.rs:170, 222) stand before anything is written: nothing has changed if they fail. *)
Definition content_op_step (op : content_op) (c : content) : option content :=
  match op with
  | OpMethod call => Some (match content_step call c with Some c => c | None => c end)
  | OpScope operator ocs => op_scope operator ocs c
  end.
Fixpoint content_op_run (ops : list content_op) (c : content) : option content :=
  match ops with
  | [] => Some c
  | op :: r => match content_op_step op c with Some c => content_op_run r c | None => None end
  end.
