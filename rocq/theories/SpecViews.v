(** Specification: the pages of a document with their resources and operations (ISO 32000-1, 7.7.3, 7.8.3), and what a program asks for. *)

From Coq Require Import ZArith List Bool.
From Verif Require ModelCmap ModelContent SpecContent.
From Verif Require Import Bytes ModelFloat ModelBuf ModelObject ModelChunk ModelColor ModelSmall ModelPdf ModelTw ModelEnums ModelRoles ModelTwArgs
  ModelTwFiles ModelTwGraphics ModelTwAnnot ModelTwForms ModelTwAttr ModelTwXObj ModelTwFonts ModelTwDoc ModelFontDesc ModelDoc
  SpecLex SpecObj SpecText SpecMeans SpecRenum SpecChunk SpecFile SpecPdf SpecTyped SpecColor SpecSmall SpecTw SpecEnums SpecRoles SpecTwArgs
  SpecTwFiles SpecTwGraphics SpecTwAnnot SpecTwForms SpecTwAttr SpecTwXObj SpecTwFonts SpecTwDoc SpecFontDesc SpecDoc SpecPages SpecExtract SpecNav.
Import ListNotations.
Local Open Scope Z_scope.

(** ** The reader *)

(** A page: its object number, its resources (its own, or those of the nearest node above it that has some), its operations. *)
Definition page_view : Type := (Z * val * list operation)%type.
Section Reader.
  Variable decode : option val -> bytes -> option bytes.
  Variable resolved : Z -> option indirect.
  Fixpoint page_views (depth : nat) (inherited : val) (node : val) : option (list page_view) :=
    match depth, node with
    | S n, VRef id 0 =>
        match resolved id with
        | Some (IObj _ _ (VDict d)) =>
            let res := match lookup (lit "Resources") d with Some r => r | None => inherited end in
            match lookup (lit "Type") d with
            | Some (VName t) =>
                if bytes_eqb t (lit "Pages") then
                  match lookup (lit "Kids") d with
                  | Some (VArr kids) => concat_all (map (page_views n res) kids)
                  | _ => None
                  end
                else if bytes_eqb t (lit "Page") then option_map (fun ops => [(id, res, ops)]) (page_operations decode resolved d)
                else None
            | _ => None
            end
        | _ => None
        end
    | _, _ => None
    end.
End Reader.
Definition document_views decode (depth : nat) (file : bytes) : option (list page_view) :=
  bind (document_catalog decode file) (fun c => required (lit "Pages") c (page_views decode (resolve decode file) depth (VDict []))).

(** ** The program *)

(** A page tree with the calls on the resource dictionaries of its nodes, if they have one, and the contents of the pages. *)
Inductive view_tree :=
| VtPage (id : Z) (res : option Resources_calls) (contents : page_contents)
| VtNode (id : Z) (res : option Resources_calls) (kids : list view_tree).
Definition vt_id (t : view_tree) : Z := match t with VtPage id _ _ | VtNode id _ _ => id end.
Definition or_inherited (inherited : Resources_calls) (res : option Resources_calls) : Resources_calls :=
  match res with Some r => r | None => inherited end.
(** The pages from left to right. *)
Record page_asked := mkPage { pa_id : Z; pa_resources : Resources_calls; pa_calls : list ModelContent.ccall }.
Fixpoint vt_pages (inherited : Resources_calls) (t : view_tree) : list page_asked :=
  match t with
  | VtPage id res c => [mkPage id (or_inherited inherited res) (contents_calls c)]
  | VtNode _ res kids => flat_map (vt_pages (or_inherited inherited res)) kids
  end.
Fixpoint view_tree_written decode (ops : list doc_op) (t : view_tree) : Prop :=
  match t with
  | VtNode id res kids =>
      (exists calls, In (DocTyped id (Ck_pages calls)) ops /\ node_resources_given calls res /\ kids_given calls (map vt_id kids)) /\
      (fix all l := match l with [] => True | t :: l => view_tree_written decode ops t /\ all l end) kids
  | VtPage id res contents =>
      exists calls, In (DocTyped id (Ck_page calls)) ops /\ page_resources_given calls res /\ contents_written decode ops calls contents
  end.
Definition views_written decode (ops : list doc_op) (catalog : Catalog_calls) (t : view_tree) : Prop :=
  root_given catalog (vt_id t) /\ view_tree_written decode ops t.

(** The fonts of a resource dictionary, with their character maps. *)
Definition fonts_written decode (ops : list doc_op) (res : Resources_calls) (fonts : font_set) : Prop :=
  ((fonts = [] /\ fonts_given res None) \/ fonts_given res (Some (map (fun f => (fst f, fst (snd f))) fonts))) /\
  Forall (fun f => match snd (snd f) with Some m => font_written decode ops (fst (snd f)) m | None => True end) fonts.
