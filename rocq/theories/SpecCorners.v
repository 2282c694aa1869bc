(** Specification: the quadrilaterals of an annotation (ISO 32000-2, 12.5.6.5: "an array of 8 x n numbers specifying the coordinates of n
    quadrilaterals"). *)

From Coq Require Import ZArith List Bool.
From Verif Require Import Bytes ModelFloat ModelBuf ModelObject SpecLex SpecObj SpecText SpecMeans SpecTyped.
Import ListNotations.
Local Open Scope Z_scope.

(** Points, in multiples of 2^-149 (every finite f32 is one). *)
Definition point : Type := Z * Z.

(** Twice the area of the triangle [a b c], negative if it is run through clockwise. *)
Definition turn (a b c : point) : Z :=
  (fst b - fst a) * (snd c - snd a) - (snd b - snd a) * (fst c - fst a).

(** Eight coordinates are four points. *)
Definition four_points (l : list f32) : option (point * point * point * point) :=
  match l with
  | [a; b; c; d; e; f; g; h] =>
      Some ((f32_units a, f32_units b), (f32_units c, f32_units d), (f32_units e, f32_units f), (f32_units g, f32_units h))
  | _ => None
  end.

(** Counterclockwise: a left turn at every corner. *)
Definition counterclockwise (l : list f32) : Prop :=
  exists a b c d, four_points l = Some (a, b, c, d) /\ 0 < turn a b c /\ 0 < turn b c d /\ 0 < turn c d a /\ 0 < turn d a b.

(** The points of the quadrilateral: on the same side of every edge, or on it. *)
Definition in_quadrilateral (l : list f32) (p : point) : Prop :=
  exists a b c d, four_points l = Some (a, b, c, d) /\
    ((0 <= turn a b p /\ 0 <= turn b c p /\ 0 <= turn c d p /\ 0 <= turn d a p) \/
     (turn a b p <= 0 /\ turn b c p <= 0 /\ turn c d p <= 0 /\ turn d a p <= 0)).

(** The points of a rectangle, which is given by any two opposite corners. *)
Definition between (u v z : Z) : Prop := Z.min u v <= z <= Z.max u v.
Definition in_rectangle (r : rect) (p : point) : Prop :=
  between (f32_units (x1 r)) (f32_units (x2 r)) (fst p) /\ between (f32_units (y1 r)) (f32_units (y2 r)) (snd p).

(** Neither a line nor a point. *)
Definition proper (r : rect) : Prop := f32_units (x1 r) <> f32_units (x2 r) /\ f32_units (y1 r) <> f32_units (y2 r).

(** The numbers of a file taken eight at a time. *)
Fixpoint quadrilaterals (fuel : nat) (vs : list val) : list (list val) :=
  match fuel with
  | O => []
  | S n => match vs with [] => [] | _ => firstn 8 vs :: quadrilaterals n (skipn 8 vs) end
  end.

Definition quadrilaterals_of (vs : list val) : list (list val) := quadrilaterals (List.length vs) vs.

(** A quadrilateral that was read covers the points of the rectangle and no others, whichever floats the reader has for its numbers. *)
Definition covers (r : rect) (q : list val) : Prop :=
  (exists l, Forall2 is_real l q) /\
  forall l, Forall2 is_real l q -> forall p, in_quadrilateral l p <-> in_rectangle r p.
