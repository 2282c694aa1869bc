(** Specification: how a reader goes from the trailer to the pages and their contents (ISO 32000-1, 7.7.2, 7.7.3, 7.8.2), and
    what a program asks for when it writes a page tree. *)

From Coq Require Import ZArith List Bool.
From Verif Require ModelCmap ModelContent SpecContent.
From Verif Require Import Bytes ModelFloat ModelBuf ModelObject ModelChunk ModelColor ModelSmall ModelPdf ModelTw ModelEnums ModelRoles ModelTwArgs
  ModelTwFiles ModelTwGraphics ModelTwAnnot ModelTwForms ModelTwAttr ModelTwXObj ModelTwFonts ModelTwDoc ModelFontDesc ModelDoc
  SpecLex SpecObj SpecText SpecMeans SpecRenum SpecChunk SpecFile SpecPdf SpecTyped SpecColor SpecSmall SpecTw SpecEnums SpecRoles SpecTwArgs
  SpecTwFiles SpecTwGraphics SpecTwAnnot SpecTwForms SpecTwAttr SpecTwXObj SpecTwFonts SpecTwDoc SpecFontDesc SpecDoc.
Import ListNotations.
Local Open Scope Z_scope.

(** ** The reader *)

Definition operation : Type := (list val * bytes)%type.

Section Reader.
  Variable decode : option val -> bytes -> option bytes.   (* undoes filters *)
  Variable resolved : Z -> option indirect.                (* indirect objects *)

  (** The decoded data of a stream. *)
  Definition stream_content (id : Z) : option bytes :=
    match resolved id with
    | Some (IStream _ _ d data) =>
        match lookup (lit "Filter") d with None => Some data | Some f => decode (Some f) data end
    | _ => None
    end.
  (** The content of an array of streams. *)
  Fixpoint streams_content (l : list val) : option (list bytes) :=
    match l with
    | [] => Some []
    | VRef id 0 :: r =>
        match stream_content id, streams_content r with Some s, Some r => Some (s :: r) | _, _ => None end
    | _ => None
    end.
  (** The operations of a page; a page without [Contents] is empty. *)
  Definition page_operations (d : list (bytes * val)) : option (list operation) :=
    match lookup (lit "Contents") d with
    | None => Some []
    | Some (VRef id 0) => match stream_content id with Some s => SpecContent.parse_content s | None => None end
    | Some (VArr l) => match streams_content l with Some parts => SpecContent.parse_content (SpecContent.join_lines parts) | None => None end
    | Some _ => None
    end.
  Fixpoint concat_all {A} (l : list (option (list A))) : option (list A) :=
    match l with
    | [] => Some []
    | Some a :: r => option_map (app a) (concat_all r)
    | None :: _ => None
    end.
  (** The pages below a node of the page tree, from left to right, up to a depth. *)
  Fixpoint pages_below (depth : nat) (node : val) : option (list (list operation)) :=
    match depth, node with
    | S n, VRef id 0 =>
        match resolved id with
        | Some (IObj _ _ (VDict d)) =>
            match lookup (lit "Type") d with
            | Some (VName t) =>
                if bytes_eqb t (lit "Pages") then
                  match lookup (lit "Kids") d with
                  | Some (VArr kids) => concat_all (map (pages_below n) kids)
                  | _ => None
                  end
                else if bytes_eqb t (lit "Page") then option_map (fun ops => [ops]) (page_operations d)
                else None
            | _ => None
            end
        | _ => None
        end
    | _, _ => None
    end.
End Reader.

(** The pages of a file: from the trailer to the catalog to the root of the page tree. *)
Definition read_pages (decode : option val -> bytes -> option bytes) (depth : nat) (file : bytes) : option (list (list operation)) :=
  match read_file decode file with
  | Some (_, trailer) =>
      match lookup (lit "Root") trailer with
      | Some (VRef root 0) =>
          match resolve decode file root with
          | Some (IObj _ _ (VDict d)) =>
              match lookup (lit "Pages") d with
              | Some node => pages_below decode (resolve decode file) depth node
              | None => None
              end
          | _ => None
          end
      | _ => None
      end
  | None => None
  end.

(** ** The program *)

(** A page tree: pages with the calls on their content stream or streams, if they have any. *)
Inductive page_contents :=
| NoContents
| OneStream (calls : list ModelContent.ccall)
| Streams (l : list (list ModelContent.ccall)).
Definition contents_calls (c : page_contents) : list ModelContent.ccall :=
  match c with NoContents => [] | OneStream calls => calls | Streams l => concat l end.
Inductive page_tree :=
| PtPage (id : Z) (contents : page_contents)
| PtNode (id : Z) (kids : list page_tree).
Definition tree_id (t : page_tree) : Z := match t with PtPage id _ | PtNode id _ => id end.
(** The pages from left to right. *)
Fixpoint tree_pages (t : page_tree) : list (list ModelContent.ccall) :=
  match t with
  | PtPage _ c => [contents_calls c]
  | PtNode _ kids => flat_map tree_pages kids
  end.

(** *** What calls ask for *)

(** What the calls on a dictionary writer give for a key: [sel] is what the typed methods give; an untyped call with the key gives an
    object. *)
Definition given_for {C A} (k : bytes) (sel : C -> list (A + obj)) (calls : list (or_raw C)) : list (A + obj) :=
  flat_map (fun c => match c with Typed c => sel c | Raw k' o => if bytes_eqb k k' then [inr o] else [] end) calls.
(** The typed methods are called for the key once, with this argument, or not at all; the key is not used in untyped calls. *)
Definition called {C A} (k : bytes) (sel : C -> list (A + obj)) (calls : list (or_raw C)) (a : option A) : Prop :=
  given_for k sel calls = match a with Some a => [inl a] | None => [] end.
(** The method with its argument. *)
Notation "<| p => x |>" := (fun c => match c with p => [inl x] | _ => [] end) (p pattern at level 100, x at level 200).
(** No method. *)
Definition no_method {C} (c : C) : list (False + obj) := [].
(** The same for the writers of streams: [ssel] for the methods of [Stream]. *)
Definition stream_given_for {S C A} (k : bytes) (ssel : S -> list (A + obj)) (sel : C -> list (A + obj)) (calls : list (or_stream S C)) : list (A + obj) :=
  flat_map (fun c => match c with STyped c => sel c | SStream c => ssel c | SRaw k' o => if bytes_eqb k k' then [inr o] else [] end) calls.
Definition stream_called {S C A} (k : bytes) (ssel : S -> list (A + obj)) (sel : C -> list (A + obj)) (calls : list (or_stream S C)) (a : option A) : Prop :=
  stream_given_for k ssel sel calls = match a with Some a => [inl a] | None => [] end.

(** A stream written with this data and this filter, if any, has this content once the filter is undone. *)
Definition undone (decode : option val -> bytes -> option bytes) (f : option filter) (data content : bytes) : Prop :=
  match f with None => data = content | Some f => decode (Some (VName (iso_filter f))) data = Some content end.
Definition stored (decode : option val -> bytes -> option bytes) (calls : Stream_calls) (data content : bytes) : Prop :=
  exists f, called (lit "Filter") <| Stream_filter f => f |> calls f /\ undone decode f data content.
(** The same for streams with methods of their own. *)
Definition stored_with {C} (decode : option val -> bytes -> option bytes) (calls : list (or_stream Stream_call C)) (data content : bytes) : Prop :=
  exists f, stream_called (lit "Filter") <| Stream_filter f => f |> (fun _ => []) calls f /\ undone decode f data content.

(** The program writes a content stream: it gives the stream what [Content] produces for the calls. *)
Definition content_written (decode : option val -> bytes -> option bytes) (ops : list doc_op) (calls : list ModelContent.ccall) (id : Z) : Prop :=
  exists scalls data pretty c,
    In (DocTyped id (Ck_stream data scalls)) ops /\
    forallb (SpecContent.ccall_ok pretty) calls = true /\
    ModelContent.content_run calls (ModelContent.content_with_settings pretty) = Some c /\
    stored decode scalls data (inner (ModelContent.content_finish c)).
(** The calls on a page give it its content: one stream, an array of streams. *)
Definition contents_given (calls : Page_calls) (a : option (Z + list Z)) : Prop :=
  called (lit "Contents") (fun c => match c with Page_contents id => [inl (inl id)] | Page_contents_array ids => [inl (inr ids)] | _ => [] end) calls a.
Definition contents_written (decode : option val -> bytes -> option bytes) (ops : list doc_op) (calls : Page_calls) (contents : page_contents) : Prop :=
  match contents with
  | NoContents => contents_given calls None
  | OneStream content => exists cid, contents_given calls (Some (inl cid)) /\ content_written decode ops content cid
  | Streams l => exists cids, contents_given calls (Some (inr cids)) /\ Forall2 (content_written decode ops) l cids
  end.
(** The calls on a node of the page tree give it these kids. *)
Definition kids_given (calls : Pages_calls) (ids : list Z) : Prop := called (lit "Kids") <| Pages_kids ids => ids |> calls (Some ids).
(** The program writes the tree: every node and page is written under its id, a node with its kids, a page with its
    content, and every content stream. *)
Fixpoint tree_written (decode : option val -> bytes -> option bytes) (ops : list doc_op) (t : page_tree) : Prop :=
  match t with
  | PtNode id kids =>
      (exists calls, In (DocTyped id (Ck_pages calls)) ops /\ kids_given calls (map tree_id kids)) /\
      (fix all l := match l with [] => True | t :: l => tree_written decode ops t /\ all l end) kids
  | PtPage id contents => exists calls, In (DocTyped id (Ck_page calls)) ops /\ contents_written decode ops calls contents
  end.
(** The calls on the catalog give it the root of the page tree. *)
Definition root_given (catalog : Catalog_calls) (id : Z) : Prop := called (lit "Pages") <| Catalog_pages id => id |> catalog (Some id).
