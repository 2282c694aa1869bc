(** Specification: the standard structure types (ISO 32000-1, 14.8.4 and ISO 32000-2, 14.8.4). *)

From Coq Require Import ZArith List Bool.
From Verif Require Import Bytes ModelFloat ModelBuf ModelObject ModelEnums ModelRoles SpecLex SpecObj SpecMeans SpecTyped SpecEnums.
Import ListNotations.
Local Open Scope Z_scope.

(** The types of the PDF 2.0 namespace except headings with a level. *)
Definition StructRole2_table : list (bytes * StructRole2) := [
  (lit "Document", StructRole2_Document); (lit "DocumentFragment", StructRole2_DocumentFragment);
  (lit "Part", StructRole2_Part); (lit "Sect", StructRole2_Sect); (lit "Div", StructRole2_Div); (lit "Aside", StructRole2_Aside);
  (lit "NonStruct", StructRole2_NonStruct); (lit "P", StructRole2_P); (lit "H", StructRole2_StructuredHeading);
  (lit "Title", StructRole2_Title); (lit "FENote", StructRole2_FENote); (lit "Sub", StructRole2_Sub); (lit "Lbl", StructRole2_Lbl);
  (lit "Span", StructRole2_Span); (lit "Em", StructRole2_Em); (lit "Strong", StructRole2_Strong); (lit "Link", StructRole2_Link);
  (lit "Annot", StructRole2_Annot); (lit "Form", StructRole2_Form); (lit "Ruby", StructRole2_Ruby); (lit "RB", StructRole2_RB);
  (lit "RT", StructRole2_RT); (lit "RP", StructRole2_RP); (lit "Warichu", StructRole2_Warichu); (lit "WT", StructRole2_WT);
  (lit "WP", StructRole2_WP); (lit "L", StructRole2_L); (lit "LI", StructRole2_LI); (lit "LBody", StructRole2_LBody);
  (lit "Table", StructRole2_Table); (lit "TR", StructRole2_TR); (lit "TH", StructRole2_TH); (lit "TD", StructRole2_TD);
  (lit "THead", StructRole2_THead); (lit "TBody", StructRole2_TBody); (lit "TFoot", StructRole2_TFoot);
  (lit "Caption", StructRole2_Caption); (lit "Figure", StructRole2_Figure); (lit "Formula", StructRole2_Formula);
  (lit "Artifact", StructRole2_Artifact)
  ].

(** [Hn]: a decimal number without leading zeros after the letter. *)
Definition read_heading (n : bytes) : option StructRole2 :=
  match n with
  | x48 :: d :: ds =>
      if forallb is_digit (d :: ds) && negb (beq d x30) then Some (StructRole2_Heading (digits_val (d :: ds))) else None
  | _ => None
  end.
(** What a name means in the PDF 2.0 namespace. *)
Definition read_role2 (n : bytes) : option StructRole2 :=
  match by_name n StructRole2_table with Some r => Some r | None => read_heading n end.
Definition is_StructRole2 (r : StructRole2) (v : val) : Prop := exists n, v = VName n /\ read_role2 n = Some r.

(** What it means in the PDF 1.7 namespace. *)
Definition read_role (n : bytes) : option StructRole := by_name n StructRole_table.

(** Levels are at least 1 and 16 bits wide ([NonZeroU16]). *)
Definition role2_ok (r : StructRole2) : bool :=
  match r with StructRole2_Heading n => (1 <=? n) && (n <=? 65535) | _ => true end.

(** The categories of ISO 32000-1, Tables 333 to 340, by name. *)
Definition role_classes : list (bytes * StructRoleType) :=
  map (fun n => (n, Grouping)) [lit "Document"; lit "Part"; lit "Art"; lit "Sect"; lit "Div"; lit "BlockQuote"; lit "Caption"; lit "TOC";
    lit "TOCI"; lit "Index"; lit "NonStruct"; lit "Private"] ++
  map (fun n => (n, BlockLevel BlockParagraphLike)) [lit "P"; lit "H"; lit "H1"; lit "H2"; lit "H3"; lit "H4"; lit "H5"; lit "H6"] ++
  map (fun n => (n, BlockLevel BlockList)) [lit "L"; lit "LI"; lit "Lbl"; lit "LBody"] ++
  [(lit "Table", BlockLevel BlockTable)] ++
  map (fun n => (n, TableType)) [lit "TR"; lit "TH"; lit "TD"; lit "THead"; lit "TBody"; lit "TFoot"] ++
  map (fun n => (n, InlineLevel InlineGeneric)) [lit "Span"; lit "Quote"; lit "Note"; lit "Reference"; lit "BibEntry"; lit "Code";
    lit "Ruby"; lit "Warichu"] ++
  [(lit "Link", InlineLevel InlineLink); (lit "Annot", InlineLevel InlineAnnotation)] ++
  map (fun n => (n, InlineLevel InlineRubyWarichu)) [lit "RB"; lit "RT"; lit "RP"; lit "WT"; lit "WP"] ++
  map (fun n => (n, Illustration)) [lit "Figure"; lit "Formula"; lit "Form"].

(** The categories of ISO 32000-2, 14.8.4.2 to 14.8.4.8, by name; headings are block level. *)
Definition role2_classes : list (bytes * StructRoleType2) :=
  map (fun n => (n, T2Document)) [lit "Document"; lit "DocumentFragment"] ++
  map (fun n => (n, T2Grouping)) [lit "Part"; lit "Sect"; lit "Div"; lit "Aside"; lit "NonStruct"] ++
  map (fun n => (n, T2BlockLevel)) [lit "P"; lit "H"; lit "Title"; lit "FENote"] ++
  [(lit "Sub", T2SubBlockLevel)] ++
  map (fun n => (n, T2InlineGeneric)) [lit "Lbl"; lit "Span"; lit "Em"; lit "Strong"; lit "Link"; lit "Annot"; lit "Form"] ++
  map (fun n => (n, T2InlineRubyWarichu)) [lit "Ruby"; lit "RB"; lit "RT"; lit "RP"; lit "Warichu"; lit "WT"; lit "WP"] ++
  map (fun n => (n, T2List)) [lit "L"; lit "LI"; lit "LBody"] ++
  map (fun n => (n, T2Table)) [lit "Table"; lit "TR"; lit "TH"; lit "TD"; lit "THead"; lit "TBody"; lit "TFoot"] ++
  [(lit "Caption", T2Caption); (lit "Figure", T2Figure); (lit "Formula", T2Formula); (lit "Artifact", T2Artifact)].

(** The roles that PDF 1.7 has no type for, and the type that stands in for them there ([opts] as documented for [RoleMapOpts]);
    headings below the sixth level are paragraphs or of the sixth level. *)
Definition stand_in (opts : RoleMapOpts) (n : bytes) : StructRole :=
  match by_name n [
    (lit "DocumentFragment", StructRole_Div); (lit "Aside", StructRole_Div);
    (lit "Title", if map_title_to_h1 opts then StructRole_H1 else StructRole_P); (lit "FENote", StructRole_Note);
    (lit "Sub", if map_sub_to_span opts then StructRole_Span else StructRole_Div); (lit "Em", StructRole_Span);
    (lit "Strong", StructRole_Span); (lit "Artifact", StructRole_Private)] with
  | Some r => r
  | None => if map_hn_to_h6 opts then StructRole_H6 else StructRole_P
  end.

(** Some of the types that were taken out of PDF 2.0 have a replacement there; the others ([Art], [BlockQuote], [TOC], [TOCI], [Index],
    [Private], [BibEntry]) have none. *)
Definition replaced_by (n : bytes) : option StructRole2 :=
  by_name n [(lit "Quote", StructRole2_Em); (lit "Note", StructRole2_FENote); (lit "Reference", StructRole2_Link); (lit "Code", StructRole2_Strong)].
