(** Specification: how a reader extracts the text of the pages (ISO 32000-1, 9.4, 9.10.2), and what text a program asks for.

    The reader knows composite fonts with an Identity encoding (two bytes per code) and simple fonts (one byte per code), and takes
    the text of a code from the ToUnicode CMap of the font.  It reads the text that a page shows itself, not that of form XObjects,
    and takes the font from [Tf] only, not from graphics state parameter dictionaries. *)

From Coq Require Import ZArith List Bool.
From Verif Require ModelCmap SpecCmap ModelContent SpecContent.
From Verif Require Import Bytes ModelFloat ModelBuf ModelObject ModelChunk ModelColor ModelSmall ModelPdf ModelTw ModelEnums ModelRoles ModelTwArgs
  ModelTwFiles ModelTwGraphics ModelTwAnnot ModelTwForms ModelTwAttr ModelTwXObj ModelTwFonts ModelTwDoc ModelFontDesc ModelDoc
  SpecLex SpecObj SpecText SpecMeans SpecRenum SpecChunk SpecFile SpecPdf SpecTyped SpecColor SpecSmall SpecTw SpecEnums SpecRoles SpecTwArgs
  SpecTwFiles SpecTwGraphics SpecTwAnnot SpecTwForms SpecTwAttr SpecTwXObj SpecTwFonts SpecTwDoc SpecFontDesc SpecDoc SpecPages.
Import ListNotations.
Local Open Scope Z_scope.

(** ** The reader *)

(** What a reader knows of a font: the bytes per code, the code space ranges, and the texts of the codes. *)
Record font_reading := mkFont { fr_width : nat; fr_spaces : list (bytes * bytes); fr_texts : list (nat * Z * list Z) }.

(** The codes of a string: [w] bytes each, nothing left over. *)
Fixpoint codes (fuel w : nat) (s : bytes) : option (list bytes) :=
  match s, fuel with
  | [], _ => Some []
  | _, O => None
  | _, S f => if (w <=? List.length s)%nat then option_map (cons (firstn w s)) (codes f w (skipn w s)) else None
  end.
(** The text of a code: it must be in a code space range; of several entries the last counts. *)
Definition in_space (c : bytes) (sp : bytes * bytes) : bool :=
  Nat.eqb (List.length (fst sp)) (List.length c) && Nat.eqb (List.length (snd sp)) (List.length c) &&
  (SpecCmap.code_val (fst sp) <=? SpecCmap.code_val c) && (SpecCmap.code_val c <=? SpecCmap.code_val (snd sp)).
Definition entry_text (l : list (nat * Z * list Z)) (w : nat) (code : Z) : option (list Z) :=
  fold_left (fun a e => if Nat.eqb (fst (fst e)) w && (snd (fst e) =? code) then Some (snd e) else a) l None.
Definition code_text (f : font_reading) (c : bytes) : option (list Z) :=
  if existsb (in_space c) (fr_spaces f) then entry_text (fr_texts f) (List.length c) (SpecCmap.code_val c) else None.
Definition string_text (f : font_reading) (s : bytes) : option (list Z) :=
  match codes (List.length s) (fr_width f) s with
  | Some cs => concat_all (map (code_text f) cs)
  | None => None
  end.

(** The graphics state, as far as text extraction is concerned: the current font, and the saved ones. *)
Definition text_state : Type := (option font_reading * list (option font_reading))%type.
Definition shown (st : text_state) (s : bytes) : option (list Z) :=
  match fst st with Some f => string_text f s | None => None end.
Definition shown_item (st : text_state) (v : val) : option (list Z) :=
  match v with VStr s => shown st s | VInt _ | VReal _ _ => Some [] | _ => None end.
Definition read_step (font : bytes -> option font_reading) (st : text_state) (op : operation) : option (list Z * text_state) :=
  let with_text (t : option (list Z)) := option_map (fun t => (t, st)) t in
  let '(vs, k) := op in
  if bytes_eqb k (lit "q") then Some ([], (fst st, fst st :: snd st))
  else if bytes_eqb k (lit "Q") then match snd st with f :: r => Some ([], (f, r)) | [] => None end
  else if bytes_eqb k (lit "Tf") then match vs with [VName n; _] => Some ([], (font n, snd st)) | _ => None end
  else if bytes_eqb k (lit "Tj") || bytes_eqb k (lit "'") then match vs with [VStr s] => with_text (shown st s) | _ => None end
  else if bytes_eqb k [x22] then match vs with [_; _; VStr s] => with_text (shown st s) | _ => None end
  else if bytes_eqb k (lit "TJ") then match vs with [VArr l] => with_text (concat_all (map (shown_item st) l)) | _ => None end
  else Some ([], st).
Fixpoint read_text (font : bytes -> option font_reading) (st : text_state) (ops : list operation) : option (list Z) :=
  match ops with
  | [] => Some []
  | op :: r =>
      match read_step font st op with
      | Some (t, st) => option_map (app t) (read_text font st r)
      | None => None
      end
  end.

Section Reader.
  Variable decode : option val -> bytes -> option bytes.
  Variable resolved : Z -> option indirect.

  (** Bytes per code (9.6, 9.7.5.2). *)
  Definition font_width (d : list (bytes * val)) : option nat :=
    match lookup (lit "Subtype") d with
    | Some (VName t) =>
        if bytes_eqb t (lit "Type0") then
          match lookup (lit "Encoding") d with
          | Some (VName e) => if bytes_eqb e (lit "Identity-H") || bytes_eqb e (lit "Identity-V") then Some 2%nat else None
          | _ => None
          end
        else if bytes_eqb t (lit "Type1") || bytes_eqb t (lit "Type3") || bytes_eqb t (lit "TrueType") then Some 1%nat else None
    | _ => None
    end.
  Definition read_font (id : Z) : option font_reading :=
    match resolved id with
    | Some (IObj _ _ (VDict d)) =>
        match font_width d, lookup (lit "ToUnicode") d with
        | Some w, Some (VRef m 0) =>
            match stream_content decode resolved m with
            | Some s =>
                match SpecCmap.cmap_sections s, SpecCmap.cmap_code_spaces s with
                | Some secs, Some spaces => Some (mkFont w spaces (List.concat (map snd secs)))
                | _, _ => None
                end
            | None => None
            end
        | _, _ => None
        end
    | _ => None
    end.
  (** The font with a name in a resource dictionary. *)
  Definition resource_font (res : val) (name : bytes) : option font_reading :=
    match res with
    | VDict d =>
        match lookup (lit "Font") d with
        | Some (VDict fonts) => match lookup name fonts with Some (VRef id 0) => read_font id | _ => None end
        | _ => None
        end
    | _ => None
    end.

  (** The texts of the pages below a node, from left to right; resources are inherited (7.7.3.4). *)
  Fixpoint texts_below (depth : nat) (inherited : val) (node : val) : option (list (list Z)) :=
    match depth, node with
    | S n, VRef id 0 =>
        match resolved id with
        | Some (IObj _ _ (VDict d)) =>
            let res := match lookup (lit "Resources") d with Some r => r | None => inherited end in
            match lookup (lit "Type") d with
            | Some (VName t) =>
                if bytes_eqb t (lit "Pages") then
                  match lookup (lit "Kids") d with
                  | Some (VArr kids) => concat_all (map (texts_below n res) kids)
                  | _ => None
                  end
                else if bytes_eqb t (lit "Page") then
                  match page_operations decode resolved d with
                  | Some ops => option_map (fun t => [t]) (read_text (resource_font res) (None, []) ops)
                  | None => None
                  end
                else None
            | _ => None
            end
        | _ => None
        end
    | _, _ => None
    end.
End Reader.

Definition read_texts (decode : option val -> bytes -> option bytes) (depth : nat) (file : bytes) : option (list (list Z)) :=
  match read_file decode file with
  | Some (_, trailer) =>
      match lookup (lit "Root") trailer with
      | Some (VRef root 0) =>
          match resolve decode file root with
          | Some (IObj _ _ (VDict d)) =>
              match lookup (lit "Pages") d with
              | Some node => texts_below decode (resolve decode file) depth (VDict []) node
              | None => None
              end
          | _ => None
          end
      | _ => None
      end
  | None => None
  end.

(** ** The program *)

(** A font with the mappings from glyph ids to text that the program gave to [UnicodeCmap]. *)
Definition mapped_font : Type := (ModelCmap.glyph_type * list (Z * list Z))%type.
(** Fonts by their names in a resource dictionary, with their ids; [None] for a font that no text may be shown with. *)
Definition font_set : Type := list (bytes * (Z * option mapped_font)).
Fixpoint named_font (fonts : font_set) (name : bytes) : option mapped_font :=
  match fonts with
  | [] => None
  | (n, (_, m)) :: r => if bytes_eqb name n then m else named_font r name
  end.

(** The glyphs in a shown string: bytes, or big-endian pairs of bytes. *)
Fixpoint glyph_pairs (s : bytes) : option (list Z) :=
  match s with
  | [] => Some []
  | a :: b :: r => option_map (cons (256 * bz a + bz b)) (glyph_pairs r)
  | _ => None
  end.
Definition glyphs (g : ModelCmap.glyph_type) (s : bytes) : option (list Z) :=
  match g with ModelCmap.GU8 => Some (map bz s) | ModelCmap.GU16 => glyph_pairs s end.
(** The text last given for a glyph. *)
Fixpoint glyph_text (pairs : list (Z * list Z)) (glyph : Z) : option (list Z) :=
  match pairs with
  | [] => None
  | (g, t) :: r => match glyph_text r glyph with Some t => Some t | None => if g =? glyph then Some t else None end
  end.
Definition asked_string (f : option mapped_font) (s : bytes) : option (list Z) :=
  match f with
  | Some (g, pairs) => match glyphs g s with Some l => concat_all (map (glyph_text pairs) l) | None => None end
  | None => None
  end.

(** The text that a sequence of calls shows; [None] if it shows a string without a mapped font or a glyph without text, if it restores
    a state that was not saved, or uses the method for arbitrary operations for one of the operators concerned. *)
Definition asked_state : Type := (option mapped_font * list (option mapped_font))%type.
Definition asked_step (fonts : font_set) (st : asked_state) (c : ModelContent.ccall) : option (list Z * asked_state) :=
  let with_text (t : option (list Z)) := option_map (fun t => (t, st)) t in
  match c with
  | ModelContent.CSaveState => Some ([], (fst st, fst st :: snd st))
  | ModelContent.CRestoreState => match snd st with f :: r => Some ([], (f, r)) | [] => None end
  | ModelContent.CSetFont name _ => Some ([], (named_font fonts name, snd st))
  | ModelContent.CShow s | ModelContent.CNextLineShow s | ModelContent.CNextLineShowAndSet _ _ s => with_text (asked_string (fst st) s)
  | ModelContent.CShowPositioned items =>
      with_text (concat_all (map (fun i => match i with ModelContent.Show s => asked_string (fst st) s | ModelContent.Adjust _ => Some [] end) items))
  | ModelContent.COp k _ =>
      if existsb (bytes_eqb k) [lit "q"; lit "Q"; lit "Tf"; lit "Tj"; lit "TJ"; lit "'"; [x22]] then None else Some ([], st)
  | _ => Some ([], st)
  end.
Fixpoint asked_text (fonts : font_set) (st : asked_state) (calls : list ModelContent.ccall) : option (list Z) :=
  match calls with
  | [] => Some []
  | c :: r =>
      match asked_step fonts st c with
      | Some (t, st) => option_map (app t) (asked_text fonts st r)
      | None => None
      end
  end.

(** A page tree with the fonts of the resource dictionaries of its nodes, if they have one. *)
Inductive text_tree :=
| TtPage (id : Z) (res : option font_set) (contents : page_contents)
| TtNode (id : Z) (res : option font_set) (kids : list text_tree).
Definition text_tree_id (t : text_tree) : Z := match t with TtPage id _ _ | TtNode id _ _ => id end.
Definition inherit (inherited : font_set) (res : option font_set) : font_set := match res with Some r => r | None => inherited end.
(** The texts of the pages, from left to right. *)
Fixpoint tree_texts (inherited : font_set) (t : text_tree) : option (list (list Z)) :=
  match t with
  | TtPage _ res c => option_map (fun t => [t]) (asked_text (inherit inherited res) (None, []) (contents_calls c))
  | TtNode _ res kids => concat_all (map (tree_texts (inherit inherited res)) kids)
  end.

(** The font that is written takes glyph ids of this type and has the character map [cid]: composite fonts with an Identity encoding take
    16 bits, simple fonts 8 bits. *)
Definition font_for (g : ModelCmap.glyph_type) (c : chunk_call) (cid : Z) : Prop :=
  match g, c with
  | ModelCmap.GU16, Ck_type0_font calls =>
      called (lit "ToUnicode") <| Type0Font_to_unicode id => id |> calls (Some cid) /\
      exists n, (n = lit "Identity-H" \/ n = lit "Identity-V") /\
        called (lit "Encoding") (fun c => match c with Type0Font_encoding_predefined n => [inl (inl n)] | Type0Font_encoding_cmap id => [inl (inr id)] | _ => [] end)
          calls (Some (inl n))
  | ModelCmap.GU8, Ck_type1_font calls => called (lit "ToUnicode") <| Type1Font_to_unicode id => id |> calls (Some cid)
  | ModelCmap.GU8, Ck_type3_font calls => called (lit "ToUnicode") <| Type3Font_to_unicode id => id |> calls (Some cid)
  | _, _ => False
  end.
(** The arguments of [UnicodeCmap]: names without line ends (property C38), glyph ids of their type, Unicode scalar values. *)
Definition cmap_arguments (g : ModelCmap.glyph_type) (name : bytes) (info : ModelCmap.system_info) (pairs : list (Z * list Z)) : Prop :=
  SpecCmap.one_line name && SpecCmap.one_line (ModelCmap.si_registry info) && SpecCmap.one_line (ModelCmap.si_ordering info) = true /\
  Forall (fun p => 0 <= fst p <= match g with ModelCmap.GU8 => 255 | ModelCmap.GU16 => 65535 end /\ forallb is_scalar (snd p) = true) pairs.
(** The program writes the font under its id, and its character map, made with [UnicodeCmap]. *)
Definition font_written (decode : option val -> bytes -> option bytes) (ops : list doc_op) (id : Z) (m : mapped_font) : Prop :=
  exists c cid data mcalls name info mode,
    In (DocTyped id c) ops /\ font_for (fst m) c cid /\
    In (DocTyped cid (Ck_cmap data mcalls)) ops /\
    cmap_arguments (fst m) name info (snd m) /\
    stored_with decode mcalls data (inner (ModelCmap.cmap_build (fst m) name info mode (snd m))).
(** The calls on a page or a node of the page tree give it resources. *)
Definition page_resources_given (calls : Page_calls) (res : option Resources_calls) : Prop :=
  called (lit "Resources") <| Page_resources r => r |> calls res.
Definition node_resources_given (calls : Pages_calls) (res : option Resources_calls) : Prop :=
  called (lit "Resources") <| Pages_resources r => r |> calls res.
(** The resources have these fonts, by name, as references. *)
Definition as_references (l : list (bytes * Z)) : list (bytes * obj) := map (fun e => (fst e, OPrim (PRef (snd e)))) l.
Definition fonts_given (res : Resources_calls) (l : option (list (bytes * Z))) : Prop :=
  called (lit "Font") <| Resources_fonts es => es |> res (option_map as_references l).
(** A node has resources with these fonts, or no resources. *)
Definition resources_written (decode : option val -> bytes -> option bytes) (ops : list doc_op) (given : option Resources_calls) (res : option font_set) : Prop :=
  match given, res with
  | None, None => True
  | Some rcalls, Some fonts =>
      fonts_given rcalls (Some (map (fun f => (fst f, fst (snd f))) fonts)) /\
      Forall (fun f => match snd (snd f) with Some m => font_written decode ops (fst (snd f)) m | None => True end) fonts
  | _, _ => False
  end.
Fixpoint text_tree_written (decode : option val -> bytes -> option bytes) (ops : list doc_op) (t : text_tree) : Prop :=
  match t with
  | TtNode id res kids =>
      (exists calls own, In (DocTyped id (Ck_pages calls)) ops /\
        node_resources_given calls own /\ resources_written decode ops own res /\ kids_given calls (map text_tree_id kids)) /\
      (fix all l := match l with [] => True | t :: l => text_tree_written decode ops t /\ all l end) kids
  | TtPage id res contents =>
      exists calls own, In (DocTyped id (Ck_page calls)) ops /\
        page_resources_given calls own /\ resources_written decode ops own res /\ contents_written decode ops calls contents
  end.
