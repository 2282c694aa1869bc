(** Specification: the name dictionary of a document, the identifiers of structure elements, and looking up a key in a number tree by the limits
    of its nodes (ISO 32000-1, 7.7.4, 7.9.6, 7.9.7, 12.3.2.3, 14.7.2). *)

From Coq Require Import ZArith List Bool.
From Verif Require ModelCmap ModelContent SpecContent.
From Verif Require Import Bytes ModelFloat ModelBuf ModelObject ModelChunk ModelColor ModelSmall ModelPdf ModelTw ModelEnums ModelRoles ModelTwArgs
  ModelTwFiles ModelTwGraphics ModelTwAnnot ModelTwForms ModelTwAttr ModelTwXObj ModelTwFonts ModelTwDoc ModelFontDesc ModelDoc
  SpecLex SpecObj SpecText SpecMeans SpecRenum SpecChunk SpecFile SpecPdf SpecTyped SpecColor SpecSmall SpecTw SpecEnums SpecRoles SpecTwArgs
  SpecTwFiles SpecTwGraphics SpecTwAnnot SpecTwForms SpecTwAttr SpecTwXObj SpecTwFonts SpecTwDoc SpecFontDesc SpecDoc SpecPages SpecExtract SpecNav SpecViews.
Import ListNotations.
Local Open Scope Z_scope.

(** ** The reader *)

(** The trees of the name dictionary (table 31). *)
Inductive names_kind := NkDestinations | NkAppearances | NkJavaScript | NkPages | NkTemplates | NkCaptureIds | NkCaptureUrls | NkEmbeddedFiles
| NkAlternatePresentations | NkRenditions.
Definition names_key (k : names_kind) : bytes :=
  match k with
  | NkDestinations => lit "Dests"
  | NkAppearances => lit "AP"
  | NkJavaScript => lit "JavaScript"
  | NkPages => lit "Pages"
  | NkTemplates => lit "Templates"
  | NkCaptureIds => lit "IDS"
  | NkCaptureUrls => lit "URLS"
  | NkEmbeddedFiles => lit "EmbeddedFiles"
  | NkAlternatePresentations => lit "AlternatePresentations"
  | NkRenditions => lit "Renditions"
  end.
(** Each name with the number of the object it stands for. *)
Definition read_entry_ids {K} (es : list (K * val)) : option (list (K * Z)) := all_of (map (fun e => option_map (pair (fst e)) (read_id (snd e))) es).
Definition read_names decode (k : names_kind) (depth : nat) (file : bytes) : option (list (bytes * Z)) :=
  bind (document_catalog decode file) (fun c =>
  required (lit "Names") c (fun names => bind (object_dict (resolve decode file) names) (fun names =>
  required (names_key k) names (fun t => bind (tree_entries (resolve decode file) (lit "Names") read_name_pairs depth t) read_entry_ids)))).

(** The destinations with a name: page and view. *)
Definition read_named_places decode (depth : nat) (file : bytes) : option (list (bytes * (nat * bytes))) :=
  bind (document_pages decode depth file) (fun pages =>
  bind (read_names decode NkDestinations depth file) (fun es =>
  all_of (map (fun e => match resolve decode file (snd e) with
    | Some (IObj _ _ v) => option_map (pair (fst e)) (read_place (map fst pages) None v)
    | _ => None
    end) es))).

(** The structure elements with an identifier: the identifier, the element, and the identifier that the element gives itself. *)
Definition read_element_ids decode (depth : nat) (file : bytes) : option (list (bytes * Z * option bytes)) :=
  bind (document_catalog decode file) (fun c =>
  required (lit "StructTreeRoot") c (fun root => bind (object_dict (resolve decode file) root) (fun root =>
  required (lit "IDTree") root (fun t =>
  bind (tree_entries (resolve decode file) (lit "Names") read_name_pairs depth t) (fun es => bind (read_entry_ids es) (fun es =>
  all_of (map (fun e => bind (object_dict (resolve decode file) (VRef (snd e) 0)) (fun d =>
    option_map (pair e) (optional (lit "ID") d read_string))) es))))))).

(** Looking up a number without reading the whole tree: of the kids only the first is visited whose limits contain the number. *)
Fixpoint first_that {A} (p : A -> option bool) (l : list A) : option (option A) :=
  match l with
  | [] => Some None
  | a :: l => match p a with Some true => Some (Some a) | Some false => first_that p l | None => None end
  end.
Definition within (resolved : Z -> option indirect) (key : Z) (v : val) : option bool :=
  bind (object_dict resolved v) (fun d =>
  match lookup (lit "Limits") d with
  | Some (VArr [VInt lo; VInt hi]) => Some ((lo <=? key) && (key <=? hi))
  | _ => None
  end).
Fixpoint find_number (resolved : Z -> option indirect) (key : Z) (depth : nat) (v : val) : option (option val) :=
  match depth with
  | O => None
  | S n =>
      bind (object_dict resolved v) (fun d =>
      match lookup (lit "Kids") d with
      | Some (VArr kids) =>
          bind (first_that (within resolved key) kids) (fun k =>
          match k with None => Some None | Some k => find_number resolved key n k end)
      | Some _ => None
      | None =>
          match lookup (lit "Nums") d with
          | Some (VArr l) => option_map (fun es => option_map snd (find (fun e => fst e =? key) es)) (read_number_pairs l)
          | _ => None
          end
      end)
  end.
(** The object that the parent tree has for a key, and the page label for an index. *)
Definition find_parent decode (depth : nat) (file : bytes) (key : Z) : option (option Z) :=
  bind (document_catalog decode file) (fun c =>
  required (lit "StructTreeRoot") c (fun root => bind (object_dict (resolve decode file) root) (fun root =>
  required (lit "ParentTree") root (fun t =>
  bind (find_number (resolve decode file) key depth t) (fun v => match v with None => Some None | Some v => option_map Some (read_id v) end))))).
Definition find_label decode (depth : nat) (file : bytes) (key : Z) : option (option Z) :=
  bind (document_catalog decode file) (fun c =>
  required (lit "PageLabels") c (fun t =>
  bind (find_number (resolve decode file) key depth t) (fun v => match v with None => Some None | Some v => option_map Some (read_id v) end))).

(** ** The program *)

Definition names_method (k : names_kind) (c : Names_call) : list (list name_tree_call + obj) :=
  match k, c with
  | NkDestinations, Names_destinations t => [inl t]
  | NkAppearances, Names_appearances t => [inl t]
  | NkJavaScript, Names_javascript t => [inl t]
  | NkPages, Names_pages t => [inl t]
  | NkTemplates, Names_templates t => [inl t]
  | NkCaptureIds, Names_capture_ids t => [inl t]
  | NkCaptureUrls, Names_capture_urls t => [inl t]
  | NkEmbeddedFiles, Names_embedded_files t => [inl t]
  | NkAlternatePresentations, Names_alternate_presentations t => [inl t]
  | NkRenditions, Names_renditions t => [inl t]
  | _, _ => []
  end.
Definition names_written {V} (ops : list doc_op) (catalog : Catalog_calls) (k : names_kind) (t : tree_node bytes V) : Prop :=
  exists ncalls tcalls,
    called (lit "Names") <| Catalog_names c => c |> catalog (Some ncalls) /\
    called (names_key k) (names_method k) ncalls (Some tcalls) /\
    name_tree_written ops tcalls t.
Definition asked_names {V} (t : tree_node bytes V) : list (bytes * Z) := map (fun e => (fst e, fst (snd e))) (tn_entries t).

Definition places_written (ops : list doc_op) (t : tree_node bytes explicit_place) : Prop :=
  Forall (fun e => In (DocTyped (fst (snd e)) (Ck_destination (place_calls (snd (snd e))))) ops) (tn_entries t).
Definition asked_named_places (pages : list Z) (t : tree_node bytes explicit_place) : option (list (bytes * (nat * bytes))) :=
  all_of (map (fun e => option_map (pair (fst e)) (asked_explicit pages (snd (snd e)))) (tn_entries t)).

Definition element_ids_written (ops : list doc_op) (catalog : Catalog_calls) (t : tree_node bytes (option bytes)) : Prop :=
  exists rcalls tcalls,
    called (lit "StructTreeRoot") <| Catalog_struct_tree_root c => c |> catalog (Some rcalls) /\
    called (lit "IDTree") <| StructTreeRoot_id_tree c => c |> rcalls (Some tcalls) /\
    name_tree_written ops tcalls t /\
    Forall (fun e => exists calls, In (DocTyped (fst (snd e)) (Ck_struct_element calls)) ops /\
      called (lit "ID") <| StructElement_id s => s |> calls (snd (snd e))) (tn_entries t).
Definition asked_element_ids (t : tree_node bytes (option bytes)) : list (bytes * Z * option bytes) :=
  map (fun e => (fst e, fst (snd e), snd (snd e))) (tn_entries t).

(** A number tree is written with limits: each node below the root gives its least and its greatest key. *)
Fixpoint limits_written {V} (ops : list doc_op) (calls : list number_tree_call) (t : tree_node Z V) : Prop :=
  match t with
  | TnLeaf es =>
      flat_map (fun c => match c with MtKids ids => [ids] | _ => [] end) calls = [] /\
      flat_map (fun c => match c with MtNums es => [es] | _ => [] end) calls = [map (fun e => (fst e, PRef (fst (snd e)))) es]
  | TnNode kids =>
      flat_map (fun c => match c with MtKids ids => [ids] | _ => [] end) calls = [map fst kids] /\
      (fix all l := match l with
       | [] => True
       | (id, t) :: l =>
           (exists calls lo hi,
             In (DocTyped id (Ck_number_tree calls)) ops /\
             flat_map (fun c => match c with MtLimits lo hi => [(lo, hi)] | _ => [] end) calls = [(lo, hi)] /\
             In lo (map fst (tn_entries t)) /\ In hi (map fst (tn_entries t)) /\ Forall (fun e => lo <= fst e <= hi) (tn_entries t) /\
             limits_written ops calls t) /\ all l
       end) kids
  end.
(** The keys ascend from left to right. *)
Fixpoint ascending (l : list Z) : Prop := match l with [] => True | a :: l => Forall (fun b => a < b) l /\ ascending l end.
Definition value_for {V} (t : tree_node Z V) (key : Z) : option Z :=
  option_map (fun e => fst (snd e)) (find (fun e => fst e =? key) (tn_entries t)).
Definition parents_indexed {V} (ops : list doc_op) (catalog : Catalog_calls) (t : tree_node Z V) : Prop :=
  exists rcalls tcalls,
    called (lit "StructTreeRoot") <| Catalog_struct_tree_root c => c |> catalog (Some rcalls) /\
    called (lit "ParentTree") <| StructTreeRoot_parent_tree c => c |> rcalls (Some tcalls) /\
    limits_written ops tcalls t.
Definition labels_indexed {V} (ops : list doc_op) (catalog : Catalog_calls) (t : tree_node Z V) : Prop :=
  exists tcalls, called (lit "PageLabels") <| Catalog_page_labels c => c |> catalog (Some tcalls) /\ limits_written ops tcalls t.
