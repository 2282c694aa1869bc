(** Model of several small array writers: per-side attributes (src/attributes.rs), name and
    number trees (src/object.rs), encoding differences and CID widths (src/font.rs). *)

From Coq Require Import ZArith List Bool.
From Verif Require Import Bytes ModelFloat ModelBuf ModelObject ModelColor.
Import ListNotations.
Local Open Scope Z_scope.

(** ** Sides *)

(** src/attributes.rs:195-208 [Sides]. *)
Record sides (T : Type) := mkSides { s_before : T; s_after : T; s_start : T; s_end : T }.
Arguments mkSides {T}.
Arguments s_before {T}.
Arguments s_after {T}.
Arguments s_start {T}.
Arguments s_end {T}.

(** src/attributes.rs:212-214, 218-221, 224-234: the constructors. *)
Definition sides_new {T} (before after start end_ : T) : sides T := mkSides before after start end_.
Definition sides_from_array {T} (a : T * T * T * T) : sides T :=
  let '(before, after, start, end_) := a in mkSides before after start end_.
Definition sides_uniform {T} (v : T) : sides T := mkSides v v v v.

(** src/attributes.rs:237-242 [is_uniform]; [eq] is the type's [PartialEq]. *)
Definition is_uniform {T} (eq : T -> T -> bool) (s : sides T) : bool :=
  eq (s_before s) (s_after s) && eq (s_before s) (s_start s) && eq (s_before s) (s_end s).

(** src/attributes.rs:245-247 [into_array]. *)
Definition sides_array {T} (s : sides T) : list T := [s_before s; s_after s; s_start s; s_end s].

(** src/attributes.rs:259-272 [write_map_primitive]. *)
Definition sides_map_primitive {T} (eq : T -> T -> bool) (to_primitive : T -> prim) (s : sides T) : obj :=
  if is_uniform eq s then OPrim (to_primitive (s_before s))
  else OArray (map (fun side => OPrim (to_primitive side)) (sides_array s)).

(** src/attributes.rs:275-289 [write_iter]. *)
Definition sides_iter {T} (eq : T -> T -> bool) (items : T -> list prim) (s : sides T) : obj :=
  if is_uniform eq s then OArray (map OPrim (items (s_before s)))
  else OArray (map (fun side => OArray (map OPrim (items side))) (sides_array s)).

(** src/attributes.rs:250-255 [write_primitive], at f32: [border_thickness] (173-177),
    [padding] (180-184), [table_padding] (495-499). *)
Definition sides_reals (s : sides f32) : obj := sides_map_primitive f32_eqb PReal s.

(** [PartialEq] of [[f32; 3]]: elementwise. *)
Definition f3_eqb (a b : f3) : bool :=
  let '(a1, a2, a3) := a in let '(b1, b2, b3) := b in f32_eqb a1 b1 && f32_eqb a2 b2 && f32_eqb a3 b3.

(** src/attributes.rs:159-163 [border_color]. *)
Definition sides_colors (s : sides f3) : obj := sides_iter f3_eqb (fun c => map PReal (l3 c)) s.

(** src/attributes.rs [LayoutBorderStyle] and its [to_name]. *)
Inductive border_style :=
| BsNone | BsHidden | BsDotted | BsDashed | BsSolid | BsDouble | BsGroove | BsRidge | BsInset | BsOutset.
Definition border_style_name (b : border_style) : bytes :=
  match b with
  | BsNone => lit "None" | BsHidden => lit "Hidden" | BsDotted => lit "Dotted" | BsDashed => lit "Dashed"
  | BsSolid => lit "Solid" | BsDouble => lit "Double" | BsGroove => lit "Groove" | BsRidge => lit "Ridge"
  | BsInset => lit "Inset" | BsOutset => lit "Outset"
  end.
(** Derived [PartialEq] on the enum. *)
Definition border_style_eqb (a b : border_style) : bool :=
  match a, b with
  | BsNone, BsNone | BsHidden, BsHidden | BsDotted, BsDotted | BsDashed, BsDashed | BsSolid, BsSolid
  | BsDouble, BsDouble | BsGroove, BsGroove | BsRidge, BsRidge | BsInset, BsInset | BsOutset, BsOutset => true
  | _, _ => false
  end.
(** src/attributes.rs:166-170 [border_style], 488-492 [table_border_style]. *)
Definition sides_styles (s : sides border_style) : obj :=
  sides_map_primitive border_style_eqb (fun b => PName (border_style_name b)) s.

(** ** Name and number trees *)

(** src/object.rs:1455-1473 [NameTree], 1504-1509 [NameTreeEntries::insert]. *)
Inductive name_tree_call :=
| NtKids (l : list Z)
| NtNames (entries : list (bytes * prim))
| NtLimits (min max : bytes).
Definition name_tree_entry (c : name_tree_call) : bytes * obj :=
  match c with
  | NtKids l => (lit "Kids", refs l)
  | NtNames es => (lit "Names", OArray (flat_map (fun e => [OPrim (PStr (fst e)); OPrim (snd e)]) es))
  | NtLimits a b => (lit "Limits", names [a; b])
  end.
Definition name_tree_obj (cs : list name_tree_call) : obj := ODict (map name_tree_entry cs).

(** src/object.rs:1531-1549 [NumberTree], 1575-1580 [NumberTreeEntries::insert]. *)
Inductive number_tree_call :=
| MtKids (l : list Z)
| MtNums (entries : list (Z * prim))
| MtLimits (min max : Z).
Definition number_tree_entry (c : number_tree_call) : bytes * obj :=
  match c with
  | MtKids l => (lit "Kids", refs l)
  | MtNums es => (lit "Nums", OArray (flat_map (fun e => [OPrim (PInt (fst e)); OPrim (snd e)]) es))
  | MtLimits a b => (lit "Limits", ints [a; b])
  end.
Definition number_tree_obj (cs : list number_tree_call) : obj := ODict (map number_tree_entry cs).

(** ** Encoding differences *)

(** src/font.rs:236-249 [Differences::consecutive]: items written by one call. *)
Definition diff_items (c : Z * list bytes) : list obj :=
  OPrim (PInt (fst c)) :: map (fun n => OPrim (PName n)) (snd c).
Definition diff_obj (cs : list (Z * list bytes)) : obj := OArray (flat_map diff_items cs).

(** ** CID widths *)

(** src/font.rs:407-427 [Widths::consecutive], [Widths::same]. *)
Inductive width_call := WConsecutive (start : Z) (widths : list f32) | WSame (first last : Z) (width : f32).
Definition width_items (c : width_call) : list obj :=
  match c with
  | WConsecutive start ws => [OPrim (PInt start); reals ws]
  | WSame first last w => [OPrim (PInt first); OPrim (PInt last); OPrim (PReal w)]
  end.
Definition width_obj (cs : list width_call) : obj := OArray (flat_map width_items cs).

(** ** Allocating references *)

(** [n] successive calls of [Ref::bump] (src/object.rs:433-438) on a reference: the returned
    ids and the reference afterwards; [None] if one of them panics. *)
Fixpoint ref_bumps (n : nat) (r : Z) : option (list Z * Z) :=
  match n with
  | O => Some ([], r)
  | S n =>
      match ref_bump r with
      | None => None
      | Some (id, r') => option_map (fun x => (id :: fst x, snd x)) (ref_bumps n r')
      end
  end.
