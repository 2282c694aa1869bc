(** Specification: how a reader gets from the trailer to the logical structure of a tagged document and the text of its parts
    (ISO 32000-1, 14.6, 14.7, 14.8; ISO 32000-2, 14.7.4), and what a program asks for. *)

From Coq Require Import ZArith List Bool.
From Verif Require ModelCmap ModelContent SpecContent.
From Verif Require Import Bytes ModelFloat ModelBuf ModelObject ModelChunk ModelColor ModelSmall ModelPdf ModelTw ModelEnums ModelRoles ModelTwArgs
  ModelTwFiles ModelTwGraphics ModelTwAnnot ModelTwForms ModelTwAttr ModelTwXObj ModelTwFonts ModelTwDoc ModelFontDesc ModelDoc
  SpecLex SpecObj SpecText SpecMeans SpecRenum SpecChunk SpecFile SpecPdf SpecTyped SpecColor SpecSmall SpecTw SpecEnums SpecRoles SpecTwArgs
  SpecTwFiles SpecTwGraphics SpecTwAnnot SpecTwForms SpecTwAttr SpecTwXObj SpecTwFonts SpecTwDoc SpecFontDesc SpecDoc SpecPages SpecExtract SpecNav SpecViews.
Import ListNotations.
Local Open Scope Z_scope.

(** ** Marked content *)

(** The enclosing marked-content sequences, innermost first, each with its identifier if it has one in an inline property list
    (property lists that are named are not looked up). *)
Definition mark_stack : Type := list (option Z).
Fixpoint innermost (s : mark_stack) : option Z := match s with [] => None | Some m :: _ => Some m | None :: r => innermost r end.
Definition mark_step (s : mark_stack) (op : operation) : option mark_stack :=
  let '(vs, k) := op in
  if bytes_eqb k (lit "BMC") then Some (None :: s)
  else if bytes_eqb k (lit "BDC") then
    match vs with
    | [_; VDict d] => match lookup (lit "MCID") d with Some (VInt m) => Some (Some m :: s) | Some _ => None | None => Some (None :: s) end
    | [_; _] => Some (None :: s)
    | _ => None
    end
  else if bytes_eqb k (lit "EMC") then match s with _ :: r => Some r | [] => None end
  else Some s.
(** The pieces of text, with the identifier they belong to. *)
Definition piece : Type := (option Z * list Z)%type.
Fixpoint read_pieces (font : bytes -> option font_reading) (st : text_state) (s : mark_stack) (ops : list operation) : option (list piece) :=
  match ops with
  | [] => Some []
  | op :: r =>
      bind (read_step font st op) (fun x =>
      bind (mark_step s op) (fun s' => option_map (cons (innermost s, fst x)) (read_pieces font (snd x) s' r)))
  end.
Definition text_of (m : Z) (l : list piece) : list Z :=
  flat_map (fun p => match fst p with Some n => if n =? m then snd p else [] | None => [] end) l.
(** The pieces of every page. *)
Definition read_marked decode (depth : nat) (file : bytes) : option (list (list piece)) :=
  bind (document_views decode depth file) (fun views =>
  all_of (map (fun v => read_pieces (resource_font decode (resolve decode file) (snd (fst v))) (None, []) [] (snd v)) views)).

(** What a sequence of calls marks. *)
Fixpoint marked_id (entries : list (bytes * obj)) : option (option Z) :=
  match entries with
  | [] => Some None
  | (k, o) :: r => if bytes_eqb (lit "MCID") k then match o with OPrim (PInt m) => Some (Some m) | _ => None end else marked_id r
  end.
Definition asked_mark (s : mark_stack) (c : ModelContent.ccall) : option mark_stack :=
  match c with
  | ModelContent.CBeginMarkedContent _ => Some (None :: s)
  | ModelContent.CBeginMarkedContentWithProperties _ (ModelContent.MarkDict es) => option_map (fun m => m :: s) (marked_id es)
  | ModelContent.CBeginMarkedContentWithProperties _ (ModelContent.MarkNamed _) => Some (None :: s)
  | ModelContent.CEndMarkedContent => match s with _ :: r => Some r | [] => None end
  | ModelContent.COp k _ => if existsb (bytes_eqb k) [lit "BMC"; lit "BDC"; lit "EMC"] then None else Some s
  | _ => Some s
  end.
Fixpoint asked_pieces (fonts : font_set) (st : asked_state) (s : mark_stack) (calls : list ModelContent.ccall) : option (list piece) :=
  match calls with
  | [] => Some []
  | c :: r =>
      bind (asked_step fonts st c) (fun x =>
      bind (asked_mark s c) (fun s' => option_map (cons (innermost s, fst x)) (asked_pieces fonts (snd x) s' r)))
  end.
Definition marked_page decode (ops : list doc_op) (p : page_asked) (l : list piece) : Prop :=
  exists fonts, fonts_written decode ops (pa_resources p) fonts /\ asked_pieces fonts (None, []) [] (pa_calls p) = Some l.

(** ** The structure tree *)

(** The name of the namespace of PDF 2.0 (ISO 32000-2, 14.8.6.2). *)
Definition pdf2_namespace : list Z := ascii "http://iso.org/pdf2/ssn".

(** What an element is: a standard type, one of PDF 2.0, one that is mapped to a standard type, an unknown one, one of another namespace. *)
Inductive kind_read := IsRole (r : StructRole) | IsRole2 (r : StructRole2) | IsMapped (name : bytes) (r : StructRole) | IsUnknown (name : bytes)
| IsForeign (ns : list Z) (name : bytes).
Inductive tag_read :=
| TrElement (kind : kind_read) (title alt actual : option (list Z)) (kids : list tag_read)
| TrContent (page : nat) (stream owner : option Z) (mcid : Z)
| TrObject (id : Z).

Section Reader.
  Variable resolved : Z -> option indirect.
  Variable pages : list Z.
  Variable role_map : list (bytes * val).

  Definition read_namespace (v : val) : option (list Z) :=
    bind (object_dict resolved v) (fun d => required (lit "NS") d read_textstring).
  Definition read_kind (name : bytes) (ns : option (list Z)) : option kind_read :=
    match ns with
    | Some ns => if list_eq_dec Z.eq_dec ns pdf2_namespace then option_map IsRole2 (read_role2 name) else Some (IsForeign ns name)
    | None =>
        match read_role name with
        | Some r => Some (IsRole r)
        | None =>
            match lookup name role_map with
            | Some (VName n) => Some (match read_role n with Some r => IsMapped name r | None => IsUnknown name end)
            | _ => Some (IsUnknown name)
            end
        end
    end.
  (** [page]: the page of the element above. *)
  Fixpoint read_tag (depth : nat) (page : option Z) (v : val) : option tag_read :=
    match depth with
    | O => None
    | S n =>
        match v with
        | VInt m => bind page (fun p => option_map (fun k => TrContent k None None m) (position p pages))
        | _ =>
            bind (object_dict resolved v) (fun d =>
            required (lit "Type") d (fun t => bind (read_name t) (fun t =>
            bind (optional (lit "Pg") d read_id) (fun pg =>
            if bytes_eqb t (lit "StructElem") then
              required (lit "S") d (fun s => bind (read_name s) (fun s =>
              bind (optional (lit "NS") d read_namespace) (fun ns =>
              bind (read_kind s ns) (fun kind =>
              bind (optional (lit "T") d read_textstring) (fun title =>
              bind (optional (lit "Alt") d read_textstring) (fun alt =>
              bind (optional (lit "ActualText") d read_textstring) (fun actual =>
              option_map (TrElement kind title alt actual)
                (match lookup (lit "K") d with
                 | None => Some []
                 | Some (VArr l) => all_of (map (read_tag n pg) l)
                 | Some v => option_map (fun t => [t]) (read_tag n pg v)
                 end))))))))
            else if bytes_eqb t (lit "MCR") then
              bind (match pg with Some p => Some p | None => page end) (fun p =>
              bind (position p pages) (fun k =>
              bind (optional (lit "Stm") d read_id) (fun stream =>
              bind (optional (lit "StmOwn") d read_id) (fun owner =>
              required (lit "MCID") d (fun m => option_map (TrContent k stream owner) (read_int m))))))
            else if bytes_eqb t (lit "OBJR") then required (lit "Obj") d (fun o => option_map TrObject (read_id o))
            else None))))
        end
    end.
End Reader.

Definition document_structure decode (file : bytes) : option (list (bytes * val)) :=
  bind (document_catalog decode file) (fun c => required (lit "StructTreeRoot") c (object_dict (resolve decode file))).
Definition read_structure decode (depth : nat) (file : bytes) : option (list tag_read) :=
  bind (document_views decode depth file) (fun views =>
  bind (document_structure decode file) (fun root =>
  bind (optional (lit "RoleMap") root (object_dict (resolve decode file))) (fun rm =>
  let read := read_tag (resolve decode file) (map (fun v => fst (fst v)) views) (match rm with Some m => m | None => [] end) depth None in
  match lookup (lit "K") root with
  | None => Some []
  | Some (VArr l) => all_of (map read l)
  | Some v => option_map (fun t => [t]) (read v)
  end))).

(** The structure with the texts of the marked-content sequences on the pages. *)
Inductive tagged :=
| TgElement (kind : kind_read) (title alt actual : option (list Z)) (kids : list tagged)
| TgText (t : list Z)
| TgStream (id : Z) (mcid : Z)
| TgObject (id : Z).
Fixpoint with_texts (pages : list (list piece)) (t : tag_read) : tagged :=
  match t with
  | TrElement kind a b c kids => TgElement kind a b c (map (with_texts pages) kids)
  | TrContent page None _ m => TgText (text_of m (nth page pages []))
  | TrContent _ (Some id) _ m => TgStream id m
  | TrObject id => TgObject id
  end.
Definition read_tagged decode (depth : nat) (file : bytes) : option (list tagged) :=
  bind (read_structure decode depth file) (fun s => bind (read_marked decode depth file) (fun pages => Some (map (with_texts pages) s))).

(** ** The program *)

Inductive tag_kind :=
| KindRole (r : StructRole)
| KindRole2 (r : StructRole2) (ns : Z)         (* [ns] is written with the name of PDF 2.0's namespace *)
| KindCustom (name : bytes)                    (* not the name of a standard type *)
| KindForeign (name : bytes) (ns : Z) (uri : list Z).
Inductive tag :=
| TagElement (id : Z) (kind : tag_kind) (title alt actual : option (list Z)) (page : option Z) (kids : list tag)
| TagContent (mcid : Z)
| TagContentRef (page : option Z) (stream owner : option Z) (mcid : Z) (calls : MarkedRef_calls)
| TagObject (id : Z) (calls : ObjectRef_calls).
(** The name that is given to a namespace.  (The last three are the names that these methods write; the first of them is not the
    name of the namespace of PDF 2.0, see C69_pdf_2_ns_refuted.) *)
Definition namespace_written (ops : list doc_op) (id : Z) (uri : list Z) : Prop :=
  exists calls, In (DocTyped id (Ck_namespace calls)) ops /\
    called (lit "NS") (fun c => match c with
      | Namespace_ns t => [inl t]
      | Namespace_pdf_2_ns => [inl (ascii "https://www.iso.org/pdf2/ssn")]
      | Namespace_pdf_1_7_ns => [inl (ascii "https://www.iso.org/pdf/ssn")]
      | Namespace_mathml_3_0_ns => [inl (ascii "https://www.w3.org/1998/Math/MathML")]
      | _ => [] end) calls (Some uri).
Inductive kind_argument := ArgRole (r : StructRole) | ArgRole2 (r : StructRole2) | ArgName (n : bytes).
Definition kind_written (ops : list doc_op) (calls : StructElement_calls) (k : tag_kind) : Prop :=
  let named x := called (lit "S") (fun c => match c with
    | StructElement_kind r => [inl (ArgRole r)]
    | StructElement_kind_2 r _ => [inl (ArgRole2 r)]
    | StructElement_custom_kind n => [inl (ArgName n)]
    | _ => [] end) calls (Some x) in
  let ns id := called (lit "NS") (fun c => match c with StructElement_kind_2 _ id => [inl id] | StructElement_namespace id => [inl id] | _ => [] end) calls id in
  match k with
  | KindRole r => named (ArgRole r) /\ ns None
  | KindRole2 r id => named (ArgRole2 r) /\ ns (Some id) /\ namespace_written ops id pdf2_namespace
  | KindCustom n => named (ArgName n) /\ ns None /\ read_role n = None
  | KindForeign n id uri => named (ArgName n) /\ ns (Some id) /\ namespace_written ops id uri /\ uri <> pdf2_namespace
  end.
(** A child, as the calls of [StructChildren] give it. *)
Definition tag_child (t : tag) : StructChildren_call :=
  match t with
  | TagElement id _ _ _ _ _ _ => StructChildren_struct_element id
  | TagContent m => StructChildren_marked_content_id m
  | TagContentRef _ _ _ _ calls => StructChildren_marked_content_ref calls
  | TagObject _ calls => StructChildren_object_ref calls
  end.
(** None, one, or an array of them. *)
Definition children_given (calls : StructElement_calls) (l : list StructChildren_call) : Prop :=
  let given := called (lit "K") (fun c => match c with
    | StructElement_child id => [inl (inl (StructChildren_struct_element id))]
    | StructElement_marked_content_child r => [inl (inl (StructChildren_marked_content_ref r))]
    | StructElement_object_child r => [inl (inl (StructChildren_object_ref r))]
    | StructElement_children cs => [inl (inr cs)]
    | _ => [] end) calls in
  (l = [] /\ given None) \/ (exists c, l = [c] /\ given (Some (inl c))) \/ given (Some (inr (map TypedItem l))).
Definition root_children_given (calls : StructTreeRoot_calls) (ids : list Z) : Prop :=
  let given := called (lit "K") (fun c => match c with StructTreeRoot_child id => [inl (inl id)] | StructTreeRoot_children ids => [inl (inr ids)] | _ => [] end) calls in
  (ids = [] /\ given None) \/ (exists id, ids = [id] /\ given (Some (inl id))) \/ given (Some (inr ids)).
Fixpoint tag_written (ops : list doc_op) (t : tag) : Prop :=
  match t with
  | TagElement id kind title alt actual page kids =>
      (exists calls, In (DocTyped id (Ck_struct_element calls)) ops /\
        kind_written ops calls kind /\
        called (lit "T") <| StructElement_title t => t |> calls (option_map TextPlain title) /\
        called (lit "Alt") <| StructElement_alt t => t |> calls (option_map TextPlain alt) /\
        called (lit "ActualText") <| StructElement_actual_text t => t |> calls (option_map TextPlain actual) /\
        called (lit "Pg") <| StructElement_page id => id |> calls page /\
        children_given calls (map tag_child kids)) /\
      (fix all l := match l with [] => True | t :: l => tag_written ops t /\ all l end) kids
  | TagContent _ => True
  | TagContentRef page stream owner mcid calls =>
      called (lit "Pg") <| MarkedRef_page id => id |> calls page /\
      called (lit "Stm") <| MarkedRef_stream id => id |> calls stream /\
      called (lit "StmOwn") <| MarkedRef_stream_owner id => id |> calls owner /\
      called (lit "MCID") <| MarkedRef_marked_content_id m => m |> calls (Some mcid)
  | TagObject id calls =>
      called (lit "Obj") <| ObjectRef_object id => id |> calls (Some id) /\
      exists p, called (lit "Pg") <| ObjectRef_page id => id |> calls p
  end.
Definition structure_written (ops : list doc_op) (catalog : Catalog_calls) (map_calls : option RoleMap_calls) (l : list tag) : Prop :=
  exists calls ids, called (lit "StructTreeRoot") <| Catalog_struct_tree_root c => c |> catalog (Some calls) /\
    called (lit "RoleMap") <| StructTreeRoot_role_map c => c |> calls map_calls /\
    root_children_given calls ids /\ map tag_child l = map StructChildren_struct_element ids /\
    Forall (tag_written ops) l.

(** The type that the role map gives to a name: the first entry counts. *)
Fixpoint mapped_role (m : RoleMap_calls) (name : bytes) : option StructRole :=
  match m with
  | [] => None
  | RoleMap_insert n r :: m => if bytes_eqb name n then Some r else mapped_role m name
  | RoleMap_pair n v :: m => if bytes_eqb name n then read_role v else mapped_role m name
  end.
Definition asked_kind (m : RoleMap_calls) (k : tag_kind) : kind_read :=
  match k with
  | KindRole r => IsRole r
  | KindRole2 r _ => IsRole2 r
  | KindCustom n => match mapped_role m n with Some r => IsMapped n r | None => IsUnknown n end
  | KindForeign n _ uri => IsForeign uri n
  end.
Fixpoint asked_tag (m : RoleMap_calls) (pages : list Z) (page : option Z) (t : tag) : option tag_read :=
  match t with
  | TagElement _ kind title alt actual page kids =>
      option_map (TrElement (asked_kind m kind) title alt actual) (all_of (map (asked_tag m pages page) kids))
  | TagContent mcid => bind page (fun p => option_map (fun k => TrContent k None None mcid) (position p pages))
  | TagContentRef own stream owner mcid _ =>
      bind (match own with Some p => Some p | None => page end) (fun p => option_map (fun k => TrContent k stream owner mcid) (position p pages))
  | TagObject id _ => Some (TrObject id)
  end.
Definition asked_structure (m : option RoleMap_calls) (pages : list Z) (l : list tag) : option (list tag_read) :=
  all_of (map (asked_tag (match m with Some m => m | None => [] end) pages None) l).

(** ** From marked content back to the structure *)

Fixpoint find_key (k : Z) {V} (l : list (Z * V)) : option V :=
  match l with [] => None | (n, v) :: r => if k =? n then Some v else find_key k r end.
(** For every page the object numbers of the elements that its marked-content sequences belong to, in the order of their identifiers. *)
Definition read_parents decode (depth : nat) (file : bytes) : option (list (list Z)) :=
  bind (document_pages decode depth file) (fun pages =>
  bind (document_structure decode file) (fun root =>
  required (lit "ParentTree") root (fun t =>
  bind (tree_entries (resolve decode file) (lit "Nums") read_number_pairs depth t) (fun es =>
  all_of (map (fun p =>
    bind (optional (lit "StructParents") (snd p) read_int) (fun key =>
    match key with
    | None => Some []
    | Some k => bind (find_key k es) (fun v => bind (read_id v) (fun id =>
        match resolve decode file id with Some (IObj _ _ (VArr l)) => all_of (map read_id l) | _ => None end))
    end)) pages))))).

(** The parent tree: for each key an array of references to elements. *)
Definition parents_written (ops : list doc_op) (catalog : Catalog_calls) (t : tree_node Z (list Z)) : Prop :=
  exists calls tcalls, called (lit "StructTreeRoot") <| Catalog_struct_tree_root c => c |> catalog (Some calls) /\
    called (lit "ParentTree") <| StructTreeRoot_parent_tree c => c |> calls (Some tcalls) /\
    number_tree_written ops tcalls t /\
    Forall (fun e => In (DocOther (PdfObject (fst (snd e)) (OArray (map (fun r => OPrim (PRef r)) (snd (snd e)))))) ops /\
                     forallb ref_ok (snd (snd e)) = true) (tn_entries t).
(** The key of a page. *)
Definition key_written (ops : list doc_op) (page : Z) (key : option Z) : Prop :=
  exists calls, In (DocTyped page (Ck_page calls)) ops /\
    called (lit "StructParents") <| Page_struct_parents k => k |> calls key.
Definition asked_parents (t : tree_node Z (list Z)) (keys : list (option Z)) : option (list (list Z)) :=
  all_of (map (fun k => match k with None => Some [] | Some k => find_key k (map (fun e => (fst e, snd (snd e))) (tn_entries t)) end) keys).
