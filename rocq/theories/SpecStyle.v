(** Specification: indentation of a byte string.

    [indent_scan st s] walks over [s] and fails as soon as a line starts with more than 255
    spaces.  The state is [None] inside a line and [Some k] after a line feed and [k]
    spaces. *)

From Coq Require Import ZArith List Bool.
From Verif Require Import Bytes.
Import ListNotations.
Local Open Scope Z_scope.

Fixpoint indent_scan (st : option Z) (s : bytes) : option (option Z) :=
  match s with
  | [] => Some st
  | c :: r =>
      if beq c x0a then indent_scan (Some 0) r
      else if beq c x20 then
        match st with
        | None => indent_scan None r
        | Some k => if k + 1 <=? 255 then indent_scan (Some (k + 1)) r else None
        end
      else indent_scan None r
  end.

(** Every line of [s] is indented by at most 255 spaces. *)
Definition indents_bounded (s : bytes) : Prop := indent_scan None s <> None.
