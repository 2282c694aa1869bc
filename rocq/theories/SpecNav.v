(** Specification: how a reader finds its way through a document besides the contents of the pages: embedded files, outline (bookmarks),
    page labels, links (ISO 32000-1, 7.9.6, 7.11.4, 12.3, 12.4.2, 12.5.6.5, 12.6.4), and what a program asks for. *)

From Coq Require Import ZArith List Bool.
From Verif Require ModelCmap ModelContent SpecContent ModelPart SpecPart SpecAssembled.
From Verif Require Import Bytes ModelFloat ModelBuf ModelObject ModelChunk ModelColor ModelSmall ModelPdf ModelTw ModelEnums ModelRoles ModelTwArgs
  ModelTwFiles ModelTwGraphics ModelTwAnnot ModelTwForms ModelTwAttr ModelTwXObj ModelTwFonts ModelTwDoc ModelFontDesc ModelDoc
  SpecLex SpecObj SpecText SpecMeans SpecRenum SpecChunk SpecFile SpecPdf SpecTyped SpecColor SpecSmall SpecTw SpecEnums SpecRoles SpecTwArgs
  SpecTwFiles SpecTwGraphics SpecTwAnnot SpecTwForms SpecTwAttr SpecTwXObj SpecTwFonts SpecTwDoc SpecFontDesc SpecDoc SpecPages SpecExtract.
Import ListNotations.
Local Open Scope Z_scope.

(** A document that was written and finished, with a cross-reference table or stream; [cat] is its catalog.  Either all of [ops]
    are calls on the document itself, or the document was assembled from parts, by [extend] and [renumber_into], and [ops] is what
    this amounts to (SpecAssembled.v): the calls on the parts, under the ids and with the references that the closures gave. *)
Inductive finished_document (decode : option val -> bytes -> option bytes) (ops : list doc_op) (cat : Z) (file : bytes) : Prop :=
| finished_table pretty p :
    Forall doc_op_ok ops -> doc_run ops (pdf_with_settings pretty) = Some p -> finish p = Some file ->
    ids_below (doc_ids ops) -> blen file <= 10 ^ 10 -> doc_catalog ops = Some cat -> finished_document decode ops cat file
| finished_stream pretty p xref_id :
    Forall doc_op_ok ops -> doc_run ops (pdf_with_settings pretty) = Some p ->
    id_ok xref_id = true -> ids_below (xref_id :: doc_ids ops) ->
    finished_with_stream decode p xref_id file -> blen file < 2 ^ 64 ->
    doc_catalog ops = Some cat -> finished_document decode ops cat file
| assembled_table pretty mops p :
    ops = SpecAssembled.effective mops -> Forall SpecPart.merge_op_ok mops -> ModelPart.merge_run mops (pdf_with_settings pretty) = Some p -> finish p = Some file ->
    ids_below (doc_ids ops) -> blen file <= 10 ^ 10 -> doc_catalog ops = Some cat -> finished_document decode ops cat file
| assembled_stream pretty mops p xref_id :
    ops = SpecAssembled.effective mops -> Forall SpecPart.merge_op_ok mops -> ModelPart.merge_run mops (pdf_with_settings pretty) = Some p ->
    id_ok xref_id = true -> ids_below (xref_id :: doc_ids ops) ->
    finished_with_stream decode p xref_id file -> blen file < 2 ^ 64 ->
    doc_catalog ops = Some cat -> finished_document decode ops cat file.

(** ** The reader *)

Definition bind {A B} (a : option A) (f : A -> option B) : option B := match a with Some a => f a | None => None end.
Fixpoint all_of {A} (l : list (option A)) : option (list A) :=
  match l with
  | [] => Some []
  | Some a :: r => option_map (cons a) (all_of r)
  | None :: _ => None
  end.

Section Reader.
  Variable decode : option val -> bytes -> option bytes.
  Variable resolved : Z -> option indirect.

  (** A dictionary, direct or indirect. *)
  Definition object_dict (v : val) : option (list (bytes * val)) :=
    match v with
    | VDict d => Some d
    | VRef id 0 => match resolved id with Some (IObj _ _ (VDict d)) => Some d | _ => None end
    | _ => None
    end.

  (** The pages, with their object numbers, from left to right. *)
  Fixpoint page_dicts (depth : nat) (node : val) : option (list (Z * list (bytes * val))) :=
    match depth, node with
    | S n, VRef id 0 =>
        match resolved id with
        | Some (IObj _ _ (VDict d)) =>
            match lookup (lit "Type") d with
            | Some (VName t) =>
                if bytes_eqb t (lit "Pages") then
                  match lookup (lit "Kids") d with
                  | Some (VArr kids) => concat_all (map (page_dicts n) kids)
                  | _ => None
                  end
                else if bytes_eqb t (lit "Page") then Some [(id, d)] else None
            | _ => None
            end
        | _ => None
        end
    | _, _ => None
    end.

  (** The entries of a name or number tree, from left to right. *)
  Fixpoint tree_entries {K} (leaf : bytes) (pairs : list val -> option (list (K * val))) (depth : nat) (v : val) : option (list (K * val)) :=
    match depth with
    | O => None
    | S n =>
        bind (object_dict v) (fun d =>
        match lookup (lit "Kids") d with
        | Some (VArr kids) => concat_all (map (tree_entries leaf pairs n) kids)
        | Some _ => None
        | None => match lookup leaf d with Some (VArr l) => pairs l | _ => None end
        end)
    end.

  Definition optional {A} (k : bytes) (d : list (bytes * val)) (f : val -> option A) : option (option A) :=
    match lookup k d with None => Some None | Some v => option_map Some (f v) end.
  Definition required {A} (k : bytes) (d : list (bytes * val)) (f : val -> option A) : option A := bind (lookup k d) f.
  Definition read_textstring (v : val) : option (list Z) := match v with VStr s => text_decode s | _ => None end.
  Definition read_string (v : val) : option bytes := match v with VStr s => Some s | _ => None end.
  Definition read_name (v : val) : option bytes := match v with VName n => Some n | _ => None end.
  Definition read_int (v : val) : option Z := match v with VInt n => Some n | _ => None end.
  Definition read_id (v : val) : option Z := match v with VRef id 0 => Some id | _ => None end.
End Reader.

(** The catalog. *)
Definition document_catalog (decode : option val -> bytes -> option bytes) (file : bytes) : option (list (bytes * val)) :=
  bind (read_file decode file) (fun r => required (lit "Root") (snd r) (object_dict (resolve decode file))).
Definition document_pages (decode : option val -> bytes -> option bytes) (depth : nat) (file : bytes) : option (list (Z * list (bytes * val))) :=
  bind (document_catalog decode file) (fun c => required (lit "Pages") c (page_dicts (resolve decode file) depth)).

(** *** Embedded files *)

(** The name in the name tree, the file name if there is one, the contents of the file. *)
Record attachment := mkAttachment { at_key : bytes; at_name : option (list Z); at_data : bytes }.
Definition read_attachment decode resolved (e : bytes * val) : option attachment :=
  bind (object_dict resolved (snd e)) (fun spec =>
  bind (optional (lit "UF") spec read_textstring) (fun name =>
  required (lit "EF") spec (fun ef =>
  bind (object_dict resolved ef) (fun files =>
  required (lit "F") files (fun f => bind (read_id f) (fun id =>
  option_map (mkAttachment (fst e) name) (stream_content decode resolved id))))))).
Definition read_attachments decode (depth : nat) (file : bytes) : option (list attachment) :=
  bind (document_catalog decode file) (fun c =>
  required (lit "Names") c (fun names => bind (object_dict (resolve decode file) names) (fun names =>
  required (lit "EmbeddedFiles") names (fun t =>
  bind (tree_entries (resolve decode file) (lit "Names") read_name_pairs depth t) (fun es =>
  all_of (map (read_attachment decode (resolve decode file)) es)))))).

(** *** Destinations: the number of the page, from 0, and the kind of view. *)

Fixpoint position (id : Z) (ids : list Z) : option nat :=
  match ids with [] => None | i :: r => if id =? i then Some O else option_map S (position id r) end.
Definition read_place (pages : list Z) (dests : option (list (bytes * val))) (v : val) : option (nat * bytes) :=
  let explicit v := match v with
    | VArr (VRef p 0 :: VName view :: _) => option_map (fun n => (n, view)) (position p pages)
    | _ => None
    end in
  match v with
  | VName n => match dests with Some d => bind (lookup n d) explicit | None => None end
  | _ => explicit v
  end.
Definition document_dests decode (file : bytes) : option (option (list (bytes * val))) :=
  bind (document_catalog decode file) (fun c => optional (lit "Dests") c (object_dict (resolve decode file))).

(** *** Bookmarks *)

Inductive bookmark_read := BookmarkRead (title : list Z) (target : option (nat * bytes)) (kids : list bookmark_read).
(** An item, the items below it, and the items after it on the same level. *)
Fixpoint read_items (resolved : Z -> option indirect) (pages : list Z) (dests : option (list (bytes * val))) (fuel : nat) (v : val) : option (list bookmark_read) :=
  match fuel with
  | O => None
  | S n =>
      bind (object_dict resolved v) (fun d =>
      required (lit "Title") d (fun t => bind (read_textstring t) (fun title =>
      bind (optional (lit "Dest") d (read_place pages dests)) (fun target =>
      bind (optional (lit "First") d (read_items resolved pages dests n)) (fun kids =>
      bind (optional (lit "Next") d (read_items resolved pages dests n)) (fun rest =>
      let items x := match x with Some l => l | None => [] end in
      Some (BookmarkRead title target (items kids) :: items rest)))))))
  end.
Definition read_bookmarks decode (depth : nat) (file : bytes) : option (list bookmark_read) :=
  bind (document_pages decode depth file) (fun pages =>
  bind (document_dests decode file) (fun dests =>
  bind (document_catalog decode file) (fun c =>
  required (lit "Outlines") c (fun o => bind (object_dict (resolve decode file) o) (fun o =>
  match lookup (lit "First") o with
  | None => Some []
  | Some v => read_items (resolve decode file) (map fst pages) dests depth v
  end))))).

(** *** Links *)

Inductive link_read := LinkPage (page : nat) (view : bytes) | LinkUri (uri : bytes).
(** The targets of an annotation: none unless it is a link with an action of one of the two kinds. *)
Definition read_annotation (resolved : Z -> option indirect) (pages : list Z) (dests : option (list (bytes * val))) (v : val) : option (list link_read) :=
  bind (object_dict resolved v) (fun d =>
  required (lit "Subtype") d (fun t => bind (read_name t) (fun t =>
  if bytes_eqb t (lit "Link") then
    match lookup (lit "A") d with
    | None => Some []
    | Some a =>
        bind (object_dict resolved a) (fun a =>
        required (lit "S") a (fun s => bind (read_name s) (fun s =>
        if bytes_eqb s (lit "GoTo") then
          required (lit "D") a (fun v => option_map (fun p => [LinkPage (fst p) (snd p)]) (read_place pages dests v))
        else if bytes_eqb s (lit "URI") then required (lit "URI") a (fun u => option_map (fun u => [LinkUri u]) (read_string u))
        else Some [])))
    end
  else Some []))).
Definition read_page_links resolved pages dests (page : list (bytes * val)) : option (list link_read) :=
  match lookup (lit "Annots") page with
  | None => Some []
  | Some (VArr l) => concat_all (map (read_annotation resolved pages dests) l)
  | Some _ => None
  end.
(** The links of every page. *)
Definition read_links decode (depth : nat) (file : bytes) : option (list (list link_read)) :=
  bind (document_pages decode depth file) (fun pages =>
  bind (document_dests decode file) (fun dests =>
  all_of (map (fun p => read_page_links (resolve decode file) (map fst pages) dests (snd p)) pages))).

(** *** Page labels *)

Record label := mkLabel { lb_style : option NumberingStyle; lb_prefix : option (list Z); lb_start : option Z }.
Definition scalars_of (s : bytes) : list Z := map bz s.
Fixpoint decimal (fuel : nat) (n : Z) : list Z :=
  match fuel with
  | O => []
  | S f => (if n <? 10 then [] else decimal f (n / 10)) ++ [48 + n mod 10]
  end.
Definition roman_digits : list (Z * list Z) := map (fun e => (fst e, scalars_of (snd e))) [
  (1000, lit "M"); (900, lit "CM"); (500, lit "D"); (400, lit "CD"); (100, lit "C"); (90, lit "XC"); (50, lit "L"); (40, lit "XL");
  (10, lit "X"); (9, lit "IX"); (5, lit "V"); (4, lit "IV"); (1, lit "I")].
Fixpoint roman (digits : list (Z * list Z)) (n : Z) : list Z :=
  match digits with
  | [] => []
  | (value, d) :: r => concat (repeat d (Z.to_nat (n / value))) ++ roman r (n mod value)
  end.
(** A to Z, then AA to ZZ, and so on. *)
Definition letters (first : Z) (n : Z) : list Z := repeat (first + (n - 1) mod 26) (Z.to_nat ((n - 1) / 26 + 1)).
Definition lower (t : list Z) : list Z := map (fun c => c + 32) t.
Definition numeral (s : NumberingStyle) (n : Z) : list Z :=
  match s with
  | NumberingStyle_Arabic => decimal (Z.to_nat n + 1) n
  | NumberingStyle_UpperRoman => roman roman_digits n
  | NumberingStyle_LowerRoman => lower (roman roman_digits n)
  | NumberingStyle_UpperAlpha => letters 65 n
  | NumberingStyle_LowerAlpha => letters 97 n
  end.
(** The label that applies to a page is the one with the greatest page number up to the page's. *)
Definition label_for (l : list (Z * label)) (page : Z) : option (Z * label) :=
  fold_left (fun best e =>
    if (fst e <=? page) && match best with Some b => fst b <? fst e | None => true end then Some e else best) l None.
Definition label_text (l : list (Z * label)) (page : Z) : list Z :=
  match label_for l page with
  | None => []
  | Some (first, lb) =>
      (match lb_prefix lb with Some t => t | None => [] end) ++
      (match lb_style lb with
       | Some s => numeral s ((match lb_start lb with Some n => n | None => 1 end) + page - first)
       | None => []
       end)
  end.
Definition read_label (resolved : Z -> option indirect) (e : Z * val) : option (Z * label) :=
  bind (object_dict resolved (snd e)) (fun d =>
  bind (optional (lit "S") d (fun v => bind (read_name v) (fun n => by_name n NumberingStyle_table))) (fun style =>
  bind (optional (lit "P") d read_textstring) (fun prefix =>
  bind (optional (lit "St") d read_int) (fun start => Some (fst e, mkLabel style prefix start))))).
(** The labels of all pages. *)
Definition read_labels decode (depth : nat) (file : bytes) : option (list (list Z)) :=
  bind (document_pages decode depth file) (fun pages =>
  bind (document_catalog decode file) (fun c =>
  required (lit "PageLabels") c (fun t =>
  bind (tree_entries (resolve decode file) (lit "Nums") read_number_pairs depth t) (fun es =>
  bind (all_of (map (read_label (resolve decode file)) es)) (fun labels =>
  Some (map (fun n => label_text labels (Z.of_nat n)) (seq 0 (List.length pages)))))))).

(** ** The program *)

(** Page trees, as far as the order of the pages is concerned. *)
Inductive id_tree := ItPage (id : Z) | ItNode (id : Z) (kids : list id_tree).
Definition it_id (t : id_tree) : Z := match t with ItPage id | ItNode id _ => id end.
Fixpoint it_pages (t : id_tree) : list Z := match t with ItPage id => [id] | ItNode _ kids => flat_map it_pages kids end.
Fixpoint id_tree_written (ops : list doc_op) (t : id_tree) : Prop :=
  match t with
  | ItPage id => exists calls, In (DocTyped id (Ck_page calls)) ops
  | ItNode id kids =>
      (exists calls, In (DocTyped id (Ck_pages calls)) ops /\ kids_given calls (map it_id kids)) /\
      (fix all l := match l with [] => True | t :: l => id_tree_written ops t /\ all l end) kids
  end.
Definition pages_written (ops : list doc_op) (catalog : Catalog_calls) (t : id_tree) : Prop :=
  root_given catalog (it_id t) /\ id_tree_written ops t.

(** Name and number trees whose values are references: each entry has its key, the id it refers to, and what that stands for. *)
Inductive tree_node (K V : Type) := TnLeaf (entries : list (K * (Z * V))) | TnNode (kids : list (Z * tree_node K V)).
Arguments TnLeaf {K V}. Arguments TnNode {K V}.
Fixpoint tn_entries {K V} (t : tree_node K V) : list (K * (Z * V)) :=
  match t with TnLeaf es => es | TnNode kids => flat_map (fun k => tn_entries (snd k)) kids end.
Section Trees.
  Context {K V C : Type} (kids_of : C -> list (list Z)) (entries_of : C -> list (list (K * prim))) (object : list C -> chunk_call).
  (** A leaf is written with a call for its entries and none for kids, other nodes with a call for their kids. *)
  Fixpoint tree_node_written (ops : list doc_op) (calls : list C) (t : tree_node K V) : Prop :=
    match t with
    | TnLeaf es => flat_map kids_of calls = [] /\ flat_map entries_of calls = [map (fun e => (fst e, PRef (fst (snd e)))) es]
    | TnNode kids =>
        flat_map kids_of calls = [map fst kids] /\
        (fix all l := match l with
         | [] => True
         | (id, t) :: l => (exists calls, In (DocTyped id (object calls)) ops /\ tree_node_written ops calls t) /\ all l
         end) kids
    end.
End Trees.
Definition name_tree_written {V} : list doc_op -> list name_tree_call -> tree_node bytes V -> Prop :=
  tree_node_written (fun c => match c with NtKids ids => [ids] | _ => [] end) (fun c => match c with NtNames es => [es] | _ => [] end) Ck_name_tree.
Definition number_tree_written {V} : list doc_op -> list number_tree_call -> tree_node Z V -> Prop :=
  tree_node_written (fun c => match c with MtKids ids => [ids] | _ => [] end) (fun c => match c with MtNums es => [es] | _ => [] end) Ck_number_tree.

(** Embedded files. *)
Definition attachment_written decode (ops : list doc_op) (id : Z) (name : option (list Z)) (content : bytes) : Prop :=
  exists calls fid e data fcalls,
    In (DocTyped id (Ck_file_spec calls)) ops /\
    called (lit "UF") <| FileSpec_unic_file t => t |> calls name /\
    called (lit "EF") (fun c => match c with FileSpec_embedded_file id => [inl (inl id)] | FileSpec_embedded_file_with_unicode id => [inl (inr id)] | _ => [] end)
      calls (Some e) /\ (e = inl fid \/ e = inr fid) /\
    In (DocTyped fid (Ck_embedded_file data fcalls)) ops /\ stored_with decode fcalls data content.
Definition attachments_written decode (ops : list doc_op) (catalog : Catalog_calls) (t : tree_node bytes (option (list Z) * bytes)) : Prop :=
  exists ncalls tcalls,
    called (lit "Names") <| Catalog_names c => c |> catalog (Some ncalls) /\
    called (lit "EmbeddedFiles") <| Names_embedded_files c => c |> ncalls (Some tcalls) /\
    name_tree_written ops tcalls t /\
    Forall (fun e => attachment_written decode ops (fst (snd e)) (fst (snd (snd e))) (snd (snd (snd e)))) (tn_entries t).
Definition asked_attachments (t : tree_node bytes (option (list Z) * bytes)) : list attachment :=
  map (fun e => mkAttachment (fst e) (fst (snd (snd e))) (snd (snd (snd e)))) (tn_entries t).

(** Places in the document: a page and a view, or a name for one. *)
Definition explicit_place : Type := (Z * Destination_call)%type.
Inductive place := Explicit (p : explicit_place) | Named (name : bytes).
Definition view_name (c : Destination_call) : option bytes :=
  match c with
  | Destination_page _ => None
  | Destination_xyz _ _ _ => Some (lit "XYZ")
  | Destination_fit => Some (lit "Fit")
  | Destination_fit_horizontal _ => Some (lit "FitH")
  | Destination_fit_vertical _ => Some (lit "FitV")
  | Destination_fit_rect _ => Some (lit "FitR")
  | Destination_fit_bounding_box => Some (lit "FitB")
  | Destination_fit_bounding_box_horizontal _ => Some (lit "FitBH")
  | Destination_fit_bounding_box_vertical _ => Some (lit "FitBV")
  end.
Definition place_calls (p : explicit_place) : Destination_calls := [TypedItem (Destination_page (fst p)); TypedItem (snd p)].
Definition asked_explicit (pages : list Z) (p : explicit_place) : option (nat * bytes) :=
  bind (position (fst p) pages) (fun n => option_map (fun v => (n, v)) (view_name (snd p))).
Fixpoint named_place (named : list (bytes * explicit_place)) (n : bytes) : option explicit_place :=
  match named with [] => None | (m, p) :: r => if bytes_eqb n m then Some p else named_place r n end.
Definition asked_place (pages : list Z) (named : list (bytes * explicit_place)) (p : place) : option (nat * bytes) :=
  match p with Explicit p => asked_explicit pages p | Named n => bind (named_place named n) (asked_explicit pages) end.
(** The argument of the methods that take a place: the calls on a [Destination] or a name. *)
Definition place_argument (p : place) : Destination_calls + bytes := match p with Explicit p => inl (place_calls p) | Named n => inr n end.
(** The named destinations. *)
Definition named_written (ops : list doc_op) (catalog : Catalog_calls) (named : list (bytes * explicit_place)) : Prop :=
  (named = [] /\ called (lit "Dests") <| Catalog_destinations id => id |> catalog None) \/
  exists id, called (lit "Dests") <| Catalog_destinations id => id |> catalog (Some id) /\
    In (DocTyped id (Ck_destinations (map (fun e => (fst e, place_calls (snd e))) named))) ops.

(** Bookmarks. *)
Inductive bookmark := Bookmark (id : Z) (title : list Z) (target : option place) (kids : list bookmark).
Definition bm_id (b : bookmark) : Z := match b with Bookmark id _ _ _ => id end.
Definition first_id (l : list bookmark) : option Z := match l with b :: _ => Some (bm_id b) | [] => None end.
(** The program writes an item; [next] is the one after it. *)
Fixpoint bookmark_written (ops : list doc_op) (b : bookmark) (next : option Z) : Prop :=
  match b with
  | Bookmark id title target kids =>
      (exists calls, In (DocTyped id (Ck_outline_item calls)) ops /\
        called (lit "Title") <| OutlineItem_title t => t |> calls (Some (TextPlain title)) /\
        called (lit "Dest") (fun c => match c with OutlineItem_dest calls => [inl (inl calls)] | OutlineItem_dest_name n => [inl (inr n)] | _ => [] end)
          calls (option_map place_argument target) /\
        called (lit "First") <| OutlineItem_first id => id |> calls (first_id kids) /\
        called (lit "Next") <| OutlineItem_next id => id |> calls next) /\
      (fix all l := match l with [] => True | b :: l => bookmark_written ops b (first_id l) /\ all l end) kids
  end.
Fixpoint bookmarks_written (ops : list doc_op) (l : list bookmark) : Prop :=
  match l with [] => True | b :: l => bookmark_written ops b (first_id l) /\ bookmarks_written ops l end.
Definition outline_written (ops : list doc_op) (catalog : Catalog_calls) (l : list bookmark) : Prop :=
  exists id calls, called (lit "Outlines") <| Catalog_outlines id => id |> catalog (Some id) /\ In (DocTyped id (Ck_outline calls)) ops /\
    called (lit "First") <| Outline_first id => id |> calls (first_id l) /\
    bookmarks_written ops l.
Fixpoint asked_bookmark (pages : list Z) (named : list (bytes * explicit_place)) (b : bookmark) : option bookmark_read :=
  match b with
  | Bookmark _ title target kids =>
      bind (match target with None => Some None | Some p => option_map Some (asked_place pages named p) end) (fun target =>
      option_map (BookmarkRead title target) (all_of (map (asked_bookmark pages named) kids)))
  end.

(** Links. *)
Inductive annot := LinkTo (p : place) | LinkToUri (uri : bytes) | OtherAnnotation (kind : AnnotationType).
Definition annot_written (ops : list doc_op) (id : Z) (a : annot) : Prop :=
  exists calls, In (DocTyped id (Ck_annotation calls)) ops /\
    let kind_given k := called (lit "Subtype") <| Annotation_subtype k => k |> calls (Some k) in
    let link action := kind_given AnnotationType_Link /\
      exists acalls, called (lit "A") <| Annotation_action c => c |> calls (Some acalls) /\ action acalls in
    match a with
    | LinkTo p => link (fun acalls =>
        called (lit "S") <| Action_action_type t => t |> acalls (Some ActionType_GoTo) /\
        called (lit "D") (fun c => match c with Action_destination calls => [inl (inl calls)] | Action_destination_named n => [inl (inr n)] | _ => [] end)
          acalls (Some (place_argument p)))
    | LinkToUri u => link (fun acalls =>
        called (lit "S") <| Action_action_type t => t |> acalls (Some ActionType_Uri) /\
        called (lit "URI") <| Action_uri u => u |> acalls (Some u))
    | OtherAnnotation kind => kind <> AnnotationType_Link /\ kind_given kind
    end.
(** The annotations of a page; [annots] lists those of all pages by the page's id. *)
Definition page_annots_written (ops : list doc_op) (page : Z) (l : list (Z * annot)) : Prop :=
  exists calls, In (DocTyped page (Ck_page calls)) ops /\
    (let annots_given a := called (lit "Annots") <| Page_annotations ids => ids |> calls a in
     (l = [] /\ annots_given None) \/ annots_given (Some (map fst l))) /\
    Forall (fun a => annot_written ops (fst a) (snd a)) l.
Definition asked_annot (pages : list Z) (named : list (bytes * explicit_place)) (a : annot) : option (list link_read) :=
  match a with
  | LinkTo p => option_map (fun x => [LinkPage (fst x) (snd x)]) (asked_place pages named p)
  | LinkToUri u => Some [LinkUri u]
  | OtherAnnotation _ => Some []
  end.
Definition asked_links (pages : list Z) (named : list (bytes * explicit_place)) (annots : list (list (Z * annot))) : option (list (list link_read)) :=
  all_of (map (fun l => concat_all (map (fun a => asked_annot pages named (snd a)) l)) annots).

(** Page labels. *)
Definition label_written (ops : list doc_op) (id : Z) (l : label) : Prop :=
  exists calls, In (DocOther (PdfObject id (PageLabel_obj calls))) ops /\ PageLabel_ok calls = true /\
    called (lit "S") <| PageLabel_style s => s |> calls (lb_style l) /\
    called (lit "P") <| PageLabel_prefix t => t |> calls (option_map TextPlain (lb_prefix l)) /\
    called (lit "St") <| PageLabel_offset n => n |> calls (lb_start l).
Definition labels_written (ops : list doc_op) (catalog : Catalog_calls) (t : tree_node Z label) : Prop :=
  exists tcalls, called (lit "PageLabels") <| Catalog_page_labels c => c |> catalog (Some tcalls) /\
    number_tree_written ops tcalls t /\
    Forall (fun e => label_written ops (fst (snd e)) (snd (snd e))) (tn_entries t).
Definition asked_labels (t : tree_node Z label) (pages : nat) : list (list Z) :=
  map (fun n => label_text (map (fun e => (fst e, snd (snd e))) (tn_entries t)) (Z.of_nat n)) (seq 0 pages).
