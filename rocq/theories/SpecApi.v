(** Specification: the calls that write a tree, and what the shorthands stand for. *)

From Coq Require Import ZArith List Bool.
From Verif Require Import Bytes ModelFloat ModelBuf ModelObject ModelRenumber ModelChunk ModelApi.
Import ListNotations.
Local Open Scope Z_scope.

(** Nothing but the elementary calls. *)
Fixpoint calls_of (o : obj) : list call :=
  match o with
  | OPrim p => [CPrimitive p]
  | OArray l => CArray :: flat_map (fun o => CPush :: calls_of o) l ++ [CDrop]
  | ODict l => CDict :: flat_map (fun e => CInsert (fst e) :: calls_of (snd e)) l ++ [CDrop]
  end.
Definition pushes (l : list obj) : list call := flat_map (fun o => CPush :: calls_of o) l.
Definition inserts (l : list (bytes * obj)) : list call := flat_map (fun e => CInsert (fst e) :: calls_of (snd e)) l.

(** "This is a shorthand for ..." *)
Definition expand (c : call) : list call :=
  match c with
  | CItem p => [CPush; CPrimitive p]
  | CItems l => flat_map (fun p => [CPush; CPrimitive p]) l
  | CPair k p => [CInsert k; CPrimitive p]
  | CPairs l => flat_map (fun e => [CInsert (fst e); CPrimitive (snd e)]) l
  | c => [c]
  end.
Definition expanded (cs : list call) : list call := flat_map expand cs.

(** Every [Obj] was used. *)
Definition consumed (cs : list call) : Prop := ~ In CAbandon cs.
