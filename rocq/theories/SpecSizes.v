(** Specification: the boxes of the pages, their rotation and unit, inherited through the page tree and with their defaults
    (ISO 32000-1, 7.7.3.3, 7.7.3.4, 14.11.2), and what a program asks for. *)

From Coq Require Import ZArith List Bool.
From Verif Require ModelCmap ModelContent SpecContent.
From Verif Require Import Bytes ModelFloat ModelBuf ModelObject ModelChunk ModelColor ModelSmall ModelPdf ModelTw ModelEnums ModelRoles ModelTwArgs
  ModelTwFiles ModelTwGraphics ModelTwAnnot ModelTwForms ModelTwAttr ModelTwXObj ModelTwFonts ModelTwDoc ModelFontDesc ModelDoc
  SpecLex SpecObj SpecText SpecMeans SpecRenum SpecChunk SpecFile SpecPdf SpecTyped SpecColor SpecSmall SpecTw SpecEnums SpecRoles SpecTwArgs
  SpecTwFiles SpecTwGraphics SpecTwAnnot SpecTwForms SpecTwAttr SpecTwXObj SpecTwFonts SpecTwDoc SpecFontDesc SpecDoc SpecPages SpecExtract SpecNav SpecViews.
Import ListNotations.
Local Open Scope Z_scope.

(** ** The reader *)

Record geometry := mkGeometry {
  ge_media : option val; ge_crop : option val; ge_bleed : option val; ge_trim : option val; ge_art : option val; ge_rotate : Z; ge_unit : option val }.
(** What is inherited: media box, crop box, rotation. *)
Definition inheritable : Type := option val * option val * option Z.
Definition or_inherited {A} (own inherited : option A) : option A := match own with Some a => Some a | None => inherited end.
(** A rectangle is an array of four numbers. *)
Definition read_rectangle (v : val) : option val :=
  match v with
  | VArr [a; b; c; d] => if forallb (fun v => match v with VInt _ | VReal _ _ => true | _ => false end) [a; b; c; d] then Some v else None
  | _ => None
  end.
Definition read_integer (v : val) : option Z := match v with VInt z => Some z | _ => None end.
Definition read_inheritable (d : list (bytes * val)) (inherited : inheritable) : option inheritable :=
  let '(media, crop, rotate) := inherited in
  bind (optional (lit "MediaBox") d read_rectangle) (fun m => bind (optional (lit "CropBox") d read_rectangle) (fun c =>
  bind (optional (lit "Rotate") d read_integer) (fun r =>
  Some (or_inherited m media, or_inherited c crop, or_inherited r rotate)))).
(** The crop box is by default the media box, the others are by default the crop box. *)
Definition page_geometry (d : list (bytes * val)) (inherited : inheritable) : option geometry :=
  bind (read_inheritable d inherited) (fun i => let '(media, crop, rotate) := i in
  let crop := or_inherited crop media in
  bind (optional (lit "BleedBox") d read_rectangle) (fun bleed => bind (optional (lit "TrimBox") d read_rectangle) (fun trim =>
  bind (optional (lit "ArtBox") d read_rectangle) (fun art =>
  Some (mkGeometry media crop (or_inherited bleed crop) (or_inherited trim crop) (or_inherited art crop)
    (match rotate with Some r => r | None => 0 end) (lookup (lit "UserUnit") d)))))).
Section Reader.
  Variable resolved : Z -> option indirect.
  Fixpoint geometries_below (depth : nat) (inherited : inheritable) (node : val) : option (list geometry) :=
    match depth, node with
    | S n, VRef id 0 =>
        match resolved id with
        | Some (IObj _ _ (VDict d)) =>
            required (lit "Type") d (fun t => bind (read_name t) (fun t =>
            if bytes_eqb t (lit "Pages") then
              required (lit "Kids") d (fun kids =>
              match kids with
              | VArr kids => bind (read_inheritable d inherited) (fun i => concat_all (map (geometries_below n i) kids))
              | _ => None
              end)
            else if bytes_eqb t (lit "Page") then option_map (fun g => [g]) (page_geometry d inherited)
            else None))
        | _ => None
        end
    | _, _ => None
    end.
End Reader.
Definition read_geometries decode (depth : nat) (file : bytes) : option (list geometry) :=
  bind (document_catalog decode file) (fun c => required (lit "Pages") c (geometries_below (resolve decode file) depth (None, None, None))).

(** ** The program *)

(** What is given at a node: media box, crop box, rotation. *)
Definition given : Type := option rect * option rect * option Z.
Inductive sized_tree :=
| SzPage (id : Z) (own : given) (bleed trim art : option rect) (unit : option f32)
| SzNode (id : Z) (own : given) (kids : list sized_tree).
Definition sz_id (t : sized_tree) : Z := match t with SzPage id _ _ _ _ _ | SzNode id _ _ => id end.
(** A value is given by a method or, as [Pages] has no methods for the crop box and the rotation, by an untyped call. *)
Definition called_or_plain {C A} (k : bytes) (sel : C -> list (A + obj)) (plain : A -> prim) (calls : list (or_raw C)) (a : option A) : Prop :=
  called k sel calls a \/ exists x, a = Some x /\ given_for k sel calls = [inr (OPrim (plain x))].
Definition page_given (calls : Page_calls) (g : given) : Prop :=
  called_or_plain (lit "MediaBox") <| Page_media_box r => r |> PRect calls (fst (fst g)) /\
  called_or_plain (lit "CropBox") <| Page_crop_box r => r |> PRect calls (snd (fst g)) /\
  called_or_plain (lit "Rotate") <| Page_rotate r => r |> PInt calls (snd g).
Definition node_given (calls : Pages_calls) (g : given) : Prop :=
  called_or_plain (lit "MediaBox") <| Pages_media_box r => r |> PRect calls (fst (fst g)) /\
  called_or_plain (lit "CropBox") (fun _ => []) PRect calls (snd (fst g)) /\
  called_or_plain (lit "Rotate") (fun _ => []) PInt calls (snd g).
Fixpoint sized_tree_written (ops : list doc_op) (t : sized_tree) : Prop :=
  match t with
  | SzPage id own bleed trim art unit =>
      exists calls, In (DocTyped id (Ck_page calls)) ops /\ page_given calls own /\
        called_or_plain (lit "BleedBox") <| Page_bleed_box r => r |> PRect calls bleed /\
        called_or_plain (lit "TrimBox") <| Page_trim_box r => r |> PRect calls trim /\
        called_or_plain (lit "ArtBox") <| Page_art_box r => r |> PRect calls art /\
        called (lit "UserUnit") <| Page_user_unit u => u |> calls unit
  | SzNode id own kids =>
      (exists calls, In (DocTyped id (Ck_pages calls)) ops /\ node_given calls own /\ kids_given calls (map sz_id kids)) /\
      (fix all l := match l with [] => True | t :: l => sized_tree_written ops t /\ all l end) kids
  end.
Definition sizes_written (ops : list doc_op) (catalog : Catalog_calls) (t : sized_tree) : Prop :=
  root_given catalog (sz_id t) /\ sized_tree_written ops t.

(** What the pages get. *)
Record geometry_asked := mkAskedGeometry {
  ga_media : option rect; ga_crop : option rect; ga_bleed : option rect; ga_trim : option rect; ga_art : option rect; ga_rotate : Z; ga_unit : option f32 }.
Definition inherit_given (own inherited : given) : given :=
  (or_inherited (fst (fst own)) (fst (fst inherited)), or_inherited (snd (fst own)) (snd (fst inherited)), or_inherited (snd own) (snd inherited)).
Fixpoint asked_geometries (inherited : given) (t : sized_tree) : list geometry_asked :=
  match t with
  | SzPage _ own bleed trim art unit =>
      let '(media, crop, rotate) := inherit_given own inherited in
      let crop := or_inherited crop media in
      [mkAskedGeometry media crop (or_inherited bleed crop) (or_inherited trim crop) (or_inherited art crop)
        (match rotate with Some r => r | None => 0 end) unit]
  | SzNode _ own kids => flat_map (asked_geometries (inherit_given own inherited)) kids
  end.
Definition option_is {A} (P : A -> val -> Prop) (a : option A) (v : option val) : Prop :=
  match a, v with None, None => True | Some a, Some v => P a v | _, _ => False end.
Definition geometry_is (a : geometry_asked) (r : geometry) : Prop :=
  option_is is_rect (ga_media a) (ge_media r) /\ option_is is_rect (ga_crop a) (ge_crop r) /\ option_is is_rect (ga_bleed a) (ge_bleed r) /\
  option_is is_rect (ga_trim a) (ge_trim r) /\ option_is is_rect (ga_art a) (ge_art r) /\ ge_rotate r = ga_rotate a /\
  option_is is_real (ga_unit a) (ge_unit r).
