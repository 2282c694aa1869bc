(** Specification: the ways back in a document: outlines from their end (ISO 32000-2, 12.3.3), pages up to the root of the page tree (7.7.3.2). *)

From Coq Require Import ZArith List Bool.
From Verif Require ModelCmap ModelContent SpecContent SpecForm.
From Verif Require Import Bytes ModelFloat ModelBuf ModelObject ModelChunk ModelColor ModelSmall ModelPdf ModelTw ModelEnums ModelRoles ModelTwArgs
  ModelTwFiles ModelTwGraphics ModelTwAnnot ModelTwForms ModelTwAttr ModelTwXObj ModelTwFonts ModelTwDoc ModelFontDesc ModelDoc
  SpecLex SpecObj SpecText SpecMeans SpecRenum SpecChunk SpecFile SpecPdf SpecTyped SpecColor SpecSmall SpecTw SpecEnums SpecRoles SpecTwArgs
  SpecTwFiles SpecTwGraphics SpecTwAnnot SpecTwForms SpecTwAttr SpecTwXObj SpecTwFonts SpecTwDoc SpecFontDesc SpecDoc SpecPages SpecExtract SpecNav SpecViews SpecTagged SpecPaint SpecFunctions SpecActions SpecPresent SpecColors SpecImages SpecAppear SpecAttrs SpecFields.
Import ListNotations.
Local Open Scope Z_scope.

(** ** Outlines from their end *)

(** What an item says besides its target: its title, the item above it, how many items are below it when it is open (negative if it is closed), its color,
    its style by the positions of the bits that are set. *)
Record item_parts (N : Type) := mkItemParts { ot_title : option (list Z); ot_parent : option Z; ot_count : option Z; ot_color : option (list N);
    ot_flags : option (list Z) }.
Arguments mkItemParts {N}. Arguments ot_title {N}. Arguments ot_parent {N}. Arguments ot_count {N}. Arguments ot_color {N}. Arguments ot_flags {N}.
Inductive item (N : Type) := Item (id : Z) (own : item_parts N) (kids : list (item N)).
Arguments Item {N}.
Definition item_id {N} (t : item N) : Z := match t with Item id _ _ => id end.
Section Reader.
  Variable resolved : Z -> option indirect.
  Definition read_item_parts (v : val) : option (item_parts val) :=
    bind (object_dict resolved v) (fun d =>
    bind (optional (lit "Title") d read_textstring) (fun x0 => bind (optional (lit "Parent") d read_id) (fun x1 =>
    bind (optional (lit "Count") d read_int) (fun x2 => bind (optional (lit "C") d read_numbers) (fun x3 => bind (optional (lit "F") d flag_positions) (fun x4 =>
    Some (mkItemParts x0 x1 x2 x3 x4))))))).
  (** The items of a level up to and including this one, with those below them. *)
  Fixpoint read_items_back (fuel : nat) (v : val) : option (list (item val)) :=
    match fuel with
    | O => None
    | S n =>
        bind (read_id v) (fun id =>
        bind (object_dict resolved v) (fun d =>
        bind (read_item_parts v) (fun own =>
        bind (optional (lit "Last") d (read_items_back n)) (fun kids =>
        bind (optional (lit "Prev") d (read_items_back n)) (fun before =>
        let items x := match x with Some l => l | None => [] end in
        Some (items before ++ [Item id own (items kids)]))))))
    end.
End Reader.
(** The number of visible items, and the items. *)
Definition read_outline_back decode (fuel : nat) (file : bytes) : option (option Z * list (item val)) :=
  bind (document_catalog decode file) (fun c =>
  required (lit "Outlines") c (fun o => bind (object_dict (resolve decode file) o) (fun o =>
  bind (optional (lit "Count") o read_int) (fun count =>
  match lookup (lit "Last") o with
  | None => Some (count, [])
  | Some v => option_map (pair count) (read_items_back (resolve decode file) fuel v)
  end)))).

Definition item_parts_written (calls : OutlineItem_calls) (x : (item_parts f32)) : Prop :=
    called (lit "Title") <| OutlineItem_title x => x |> calls (option_map TextPlain (ot_title x)) /\
    called (lit "Parent") <| OutlineItem_parent x => x |> calls (ot_parent x) /\
    called (lit "Count") <| OutlineItem_count x => x |> calls (ot_count x) /\
    called (lit "C") <| OutlineItem_color_rgb r g b => [r; g; b] |> calls (ot_color x) /\
    part_given (called (lit "F") <| OutlineItem_flags x => x |> calls) (fun l x => x = positions_of OutlineItemFlags_pos l) (ot_flags x).
Definition last_item (l : list (item f32)) : option Z := match rev l with t :: _ => Some (item_id t) | [] => None end.
(** The program writes an item; [prev] is the one before it. *)
Fixpoint item_written (ops : list doc_op) (prev : option Z) (t : item f32) : Prop :=
  match t with
  | Item id own kids =>
      (exists calls, In (DocTyped id (Ck_outline_item calls)) ops /\ item_parts_written calls own /\
        called (lit "Last") <| OutlineItem_last id => id |> calls (last_item kids) /\
        called (lit "Prev") <| OutlineItem_prev id => id |> calls prev) /\
      (fix all (prev : option Z) (l : list (item f32)) {struct l} : Prop :=
         match l with [] => True | t :: l => item_written ops prev t /\ all (Some (item_id t)) l end) None kids
  end.
Fixpoint items_written (ops : list doc_op) (prev : option Z) (l : list (item f32)) : Prop :=
  match l with [] => True | t :: l => item_written ops prev t /\ items_written ops (Some (item_id t)) l end.
Definition outline_back_written (ops : list doc_op) (catalog : Catalog_calls) (count : option Z) (l : list (item f32)) : Prop :=
  exists id calls, called (lit "Outlines") <| Catalog_outlines id => id |> catalog (Some id) /\ In (DocTyped id (Ck_outline calls)) ops /\
    called (lit "Last") <| Outline_last id => id |> calls (last_item l) /\ called (lit "Count") <| Outline_count n => n |> calls count /\ items_written ops None l.

Definition item_parts_is (x : (item_parts f32)) (r : (item_parts val)) : Prop :=
  ot_title r = ot_title x /\ ot_parent r = ot_parent x /\ ot_count r = ot_count x /\ optionally numbers_are (ot_color x) (ot_color r) /\ ot_flags r = ot_flags x.
Inductive item_is : item f32 -> item val -> Prop :=
| item_is_intro id own own' kids kids' : item_parts_is own own' -> Forall2 item_is kids kids' -> item_is (Item id own kids) (Item id own' kids').

(** ** Pages, up to the root of the page tree *)

(** The nodes above an object, the nearest one first, each with the number of pages it says are below it. *)
Fixpoint read_above (resolved : Z -> option indirect) (fuel : nat) (v : val) : option (list (Z * Z)) :=
  match fuel with
  | O => None
  | S n =>
      bind (object_dict resolved v) (fun d =>
      match lookup (lit "Parent") d with
      | None => Some []
      | Some p =>
          bind (read_id p) (fun id =>
          bind (object_dict resolved p) (fun node =>
          required (lit "Count") node (fun c => bind (read_int c) (fun count =>
          option_map (cons (id, count)) (read_above resolved n p)))))
      end)
  end.
Definition read_pages_above decode (fuel : nat) (file : bytes) : option (list (Z * list (Z * Z))) :=
  bind (document_pages decode fuel file) (fun pages =>
  SpecNav.all_of (map (fun p => option_map (pair (fst p)) (read_above (resolve decode file) fuel (VRef (fst p) 0))) pages)).

(** Every page and node gets its parent, every node the number of the pages below it; the root has no parent. *)
Fixpoint parents_written (ops : list doc_op) (parent : option Z) (t : id_tree) : Prop :=
  match t with
  | ItPage id => exists calls, In (DocTyped id (Ck_page calls)) ops /\ called (lit "Parent") <| Page_parent id => id |> calls parent
  | ItNode id kids =>
      (exists calls, In (DocTyped id (Ck_pages calls)) ops /\ called (lit "Parent") <| Pages_parent id => id |> calls parent /\
        called (lit "Count") <| Pages_count n => n |> calls (Some (Z.of_nat (length (it_pages t))))) /\
      (fix all l := match l with [] => True | t :: l => parents_written ops (Some id) t /\ all l end) kids
  end.
(** The pages of the tree, each with the nodes above it and the number of pages in each of them. *)
Fixpoint pages_above (above : list (Z * Z)) (t : id_tree) : list (Z * list (Z * Z)) :=
  match t with
  | ItPage id => [(id, above)]
  | ItNode id kids => flat_map (pages_above ((id, Z.of_nat (length (it_pages t))) :: above)) kids
  end.
