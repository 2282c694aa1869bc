(** Specification: how many bytes a value may take in the file at most.

    [line] is what a dictionary entry may cost in addition when the output is meant to be read by people: a line feed and the
    indentation, which is never wider than 255 columns. *)

From Coq Require Import ZArith List Bool.
From Verif Require Import Bytes ModelFloat ModelObject SpecChunk ModelPdf SpecPdf SpecOverflow.
Import ListNotations.
Local Open Scope Z_scope.

Definition total {A} (f : A -> Z) (l : list A) : Z := fold_right (fun x n => f x + n) 0 l.

Definition size {A} (l : list A) : Z := Z.of_nat (List.length l).

(** [Str] escapes a control character with four bytes, [TextStr] writes two UTF-16 units of four digits for a character
    outside of the basic plane, a name escapes a byte with three. *)
Definition prim_cost (p : prim) : Z :=
  match p with
  | PNull => 4
  | PBool _ => 5
  | PInt _ => 11
  | PReal _ => 48
  | PStr s => 2 + 4 * size s
  | PText t => 6 + 8 * size t
  | PTextLang segs => 6 + total (fun seg => 24 + 8 * size (snd seg)) segs
  | PName s => 1 + 3 * size s
  | PRef _ => 14
  | PRect _ => 197
  | PDate _ => 24
  end.

Definition line (pretty : bool) : Z := if pretty then 256 else 0.

Fixpoint cost (pretty : bool) (o : obj) : Z :=
  match o with
  | OPrim p => prim_cost p
  | OArray items => 2 + total (fun it => 1 + cost pretty it) items
  | ODict entries => 4 + line pretty + total (fun e => line pretty + (1 + 3 * size (fst e)) + 1 + cost pretty (snd e)) entries
  end.

Definition body_cost (pretty : bool) (b : body) : Z :=
  match b with
  | BObj o => cost pretty o
  | BStream entries data => cost pretty (ODict entries) + line pretty + 50 + size data
  end.

(** With its number and the keywords. *)
Definition item_cost (pretty : bool) (it : item) : Z := body_cost pretty (snd it) + 26.

(** The values have their Rust types (integers are 32 bits wide, ...). *)
Definition body_sound (b : body) : bool := match b with BObj o => fits o | BStream entries _ => forallb (fun e => fits (snd e)) entries end.
Definition items_sound (l : list item) : Prop := Forall (fun it => body_sound (snd it) = true) l.

(** The largest object number, 0 if there is none. *)
Definition largest (l : list Z) (n : Z) : Prop := Forall (fun id => id <= n) l /\ (In n l \/ l = [] /\ n = 0).

(** The file identifier. *)
Definition file_id_size (ops : list pdf_op) : Z := match file_id_of ops with Some (a, b) => size a + size b | None => 0 end.
