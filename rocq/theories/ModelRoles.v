(** Model of src/structure.rs:771-1475: structure roles of PDF 1.7 and 2.0 ([StructRole] itself
    and its names are in ModelEnums.v).  Generated by gen/gen_roles.py from the source text. *)

From Coq Require Import ZArith List Bool.
From Verif Require Import Bytes ModelFloat ModelBuf ModelObject ModelEnums.
Import ListNotations.
Local Open Scope Z_scope.

(** src/structure.rs:1095-1178. [StructRole2_Heading level] with 1 <= level <= 65535 ([NonZeroU16]). *)
Inductive StructRole2 :=
  | StructRole2_Document | StructRole2_DocumentFragment | StructRole2_Part | StructRole2_Sect
  | StructRole2_Div | StructRole2_Aside | StructRole2_NonStruct | StructRole2_P
  | StructRole2_Heading (level : Z) | StructRole2_StructuredHeading | StructRole2_Title | StructRole2_FENote
  | StructRole2_Sub | StructRole2_Lbl | StructRole2_Span | StructRole2_Em | StructRole2_Strong
  | StructRole2_Link | StructRole2_Annot | StructRole2_Form | StructRole2_Ruby | StructRole2_RB
  | StructRole2_RT | StructRole2_RP | StructRole2_Warichu | StructRole2_WT | StructRole2_WP | StructRole2_L
  | StructRole2_LI | StructRole2_LBody | StructRole2_Table | StructRole2_TR | StructRole2_TH | StructRole2_TD
  | StructRole2_THead | StructRole2_TBody | StructRole2_TFoot | StructRole2_Caption | StructRole2_Figure
  | StructRole2_Formula | StructRole2_Artifact.

(** [write!(&mut cursor, ...)] into a buffer of [n] bytes (std::io::Cursor<&mut [u8]>): an error
    (here a panic, [unwrap]) unless everything fits. *)
Definition write_fixed (n : Z) (s : bytes) : option bytes := if blen s <=? n then Some s else None.

(** src/structure.rs:1186-1235 [StructRole2::to_name] with its buffer of 6 bytes. *)
Definition StructRole2_name (r : StructRole2) : option bytes :=
  match r with
  | StructRole2_Document => Some (lit "Document")
  | StructRole2_DocumentFragment => Some (lit "DocumentFragment") | StructRole2_Part => Some (lit "Part")
  | StructRole2_Sect => Some (lit "Sect") | StructRole2_Div => Some (lit "Div")
  | StructRole2_Aside => Some (lit "Aside") | StructRole2_NonStruct => Some (lit "NonStruct")
  | StructRole2_P => Some (lit "P") | StructRole2_Heading level => write_fixed 6 (lit "H" ++ dec_u level)
  | StructRole2_StructuredHeading => Some (lit "H") | StructRole2_Title => Some (lit "Title")
  | StructRole2_FENote => Some (lit "FENote") | StructRole2_Sub => Some (lit "Sub")
  | StructRole2_Lbl => Some (lit "Lbl") | StructRole2_Span => Some (lit "Span")
  | StructRole2_Em => Some (lit "Em") | StructRole2_Strong => Some (lit "Strong")
  | StructRole2_Link => Some (lit "Link") | StructRole2_Annot => Some (lit "Annot")
  | StructRole2_Form => Some (lit "Form") | StructRole2_Ruby => Some (lit "Ruby")
  | StructRole2_RB => Some (lit "RB") | StructRole2_RT => Some (lit "RT") | StructRole2_RP => Some (lit "RP")
  | StructRole2_Warichu => Some (lit "Warichu") | StructRole2_WT => Some (lit "WT")
  | StructRole2_WP => Some (lit "WP") | StructRole2_L => Some (lit "L") | StructRole2_LI => Some (lit "LI")
  | StructRole2_LBody => Some (lit "LBody") | StructRole2_Table => Some (lit "Table")
  | StructRole2_TR => Some (lit "TR") | StructRole2_TH => Some (lit "TH") | StructRole2_TD => Some (lit "TD")
  | StructRole2_THead => Some (lit "THead") | StructRole2_TBody => Some (lit "TBody")
  | StructRole2_TFoot => Some (lit "TFoot") | StructRole2_Caption => Some (lit "Caption")
  | StructRole2_Figure => Some (lit "Figure") | StructRole2_Formula => Some (lit "Formula")
  | StructRole2_Artifact => Some (lit "Artifact")
  end.

(** src/structure.rs:931-983 [StructRole::into_pdf_2_0], 1082-1088 [TryFrom]. *)
Definition into_pdf_2_0 (r : StructRole) : option StructRole2 :=
  match r with
  | StructRole_Document => Some StructRole2_Document | StructRole_Part => Some StructRole2_Part
  | StructRole_Art => None | StructRole_Sect => Some StructRole2_Sect
  | StructRole_Div => Some StructRole2_Div | StructRole_BlockQuote => None
  | StructRole_Caption => Some StructRole2_Caption | StructRole_TOC => None | StructRole_TOCI => None
  | StructRole_Index => None | StructRole_NonStruct => Some StructRole2_NonStruct
  | StructRole_Private => None | StructRole_P => Some StructRole2_P
  | StructRole_StructuredHeading => Some StructRole2_StructuredHeading
  | StructRole_H1 => Some (StructRole2_Heading 1) | StructRole_H2 => Some (StructRole2_Heading 2)
  | StructRole_H3 => Some (StructRole2_Heading 3) | StructRole_H4 => Some (StructRole2_Heading 4)
  | StructRole_H5 => Some (StructRole2_Heading 5) | StructRole_H6 => Some (StructRole2_Heading 6)
  | StructRole_L => Some StructRole2_L | StructRole_LI => Some StructRole2_LI
  | StructRole_Lbl => Some StructRole2_Lbl | StructRole_LBody => Some StructRole2_LBody
  | StructRole_Table => Some StructRole2_Table | StructRole_TR => Some StructRole2_TR
  | StructRole_TH => Some StructRole2_TH | StructRole_TD => Some StructRole2_TD
  | StructRole_THead => Some StructRole2_THead | StructRole_TBody => Some StructRole2_TBody
  | StructRole_TFoot => Some StructRole2_TFoot | StructRole_Span => Some StructRole2_Span
  | StructRole_Quote => Some StructRole2_Em | StructRole_Note => Some StructRole2_FENote
  | StructRole_Reference => Some StructRole2_Link | StructRole_BibEntry => None
  | StructRole_Code => Some StructRole2_Strong | StructRole_Link => Some StructRole2_Link
  | StructRole_Annot => Some StructRole2_Annot | StructRole_Ruby => Some StructRole2_Ruby
  | StructRole_Warichu => Some StructRole2_Warichu | StructRole_RB => Some StructRole2_RB
  | StructRole_RT => Some StructRole2_RT | StructRole_RP => Some StructRole2_WP
  | StructRole_WT => Some StructRole2_WT | StructRole_WP => Some StructRole2_WP
  | StructRole_Figure => Some StructRole2_Figure | StructRole_Formula => Some StructRole2_Formula
  | StructRole_Form => Some StructRole2_Form
  end.

(** src/structure.rs:1372-1391 [RoleMapOpts]. *)
Record RoleMapOpts := mkRoleMapOpts { map_hn_to_h6 : bool; map_title_to_h1 : bool; map_sub_to_span : bool }.
Definition RoleMapOpts_default : RoleMapOpts := mkRoleMapOpts false false false.

(** src/structure.rs:1395-1401. *)
Inductive StructRole2Compat := Compatible (r : StructRole) | RoleMapping (r : StructRole).

(** src/structure.rs:1241-1323. *)
Definition compatibility_1_7 (r : StructRole2) (opts : RoleMapOpts) : StructRole2Compat :=
  match r with
  | StructRole2_Document => Compatible StructRole_Document
  | StructRole2_DocumentFragment => RoleMapping StructRole_Div
  | StructRole2_Part => Compatible StructRole_Part | StructRole2_Sect => Compatible StructRole_Sect
  | StructRole2_Div => Compatible StructRole_Div | StructRole2_Aside => RoleMapping StructRole_Div
  | StructRole2_NonStruct => Compatible StructRole_NonStruct | StructRole2_P => Compatible StructRole_P
  | StructRole2_Heading n => 
      if n =? 1 then Compatible StructRole_H1 else if n =? 2 then Compatible StructRole_H2 else if n =? 3 then Compatible StructRole_H3 else if n =? 4 then Compatible StructRole_H4 else if n =? 5 then Compatible StructRole_H5 else if n =? 6 then Compatible StructRole_H6 else 
      RoleMapping (if map_hn_to_h6 opts then StructRole_H6 else StructRole_P)
  | StructRole2_StructuredHeading => Compatible StructRole_StructuredHeading
  | StructRole2_Title => RoleMapping (if map_title_to_h1 opts then StructRole_H1 else StructRole_P)
  | StructRole2_FENote => RoleMapping StructRole_Note
  | StructRole2_Sub => RoleMapping (if map_sub_to_span opts then StructRole_Span else StructRole_Div)
  | StructRole2_Lbl => Compatible StructRole_Lbl | StructRole2_Span => Compatible StructRole_Span
  | StructRole2_Em => RoleMapping StructRole_Span | StructRole2_Strong => RoleMapping StructRole_Span
  | StructRole2_Link => Compatible StructRole_Link | StructRole2_Annot => Compatible StructRole_Annot
  | StructRole2_Form => Compatible StructRole_Form | StructRole2_Ruby => Compatible StructRole_Ruby
  | StructRole2_RB => Compatible StructRole_RB | StructRole2_RT => Compatible StructRole_RT
  | StructRole2_RP => Compatible StructRole_RP | StructRole2_Warichu => Compatible StructRole_Warichu
  | StructRole2_WT => Compatible StructRole_WT | StructRole2_WP => Compatible StructRole_WP
  | StructRole2_L => Compatible StructRole_L | StructRole2_LI => Compatible StructRole_LI
  | StructRole2_LBody => Compatible StructRole_LBody | StructRole2_Table => Compatible StructRole_Table
  | StructRole2_TR => Compatible StructRole_TR | StructRole2_TH => Compatible StructRole_TH
  | StructRole2_TD => Compatible StructRole_TD | StructRole2_THead => Compatible StructRole_THead
  | StructRole2_TBody => Compatible StructRole_TBody | StructRole2_TFoot => Compatible StructRole_TFoot
  | StructRole2_Caption => Compatible StructRole_Caption | StructRole2_Figure => Compatible StructRole_Figure
  | StructRole2_Formula => Compatible StructRole_Formula
  | StructRole2_Artifact => RoleMapping StructRole_Private
  end.

(** src/structure.rs:1406-1430. *)
Definition into_pdf_1_7 (c : StructRole2Compat) : option StructRole := match c with Compatible r => Some r | RoleMapping _ => None end.
Definition role_mapped_1_7 (c : StructRole2Compat) : option StructRole := match c with Compatible _ => None | RoleMapping r => Some r end.
Definition compat_role (c : StructRole2Compat) : StructRole := match c with Compatible r => r | RoleMapping r => r end.

(** src/structure.rs:1433-1442 [TryFrom<StructRole2> for StructRole]. *)
Definition try_from_role2 (r : StructRole2) : option StructRole := into_pdf_1_7 (compatibility_1_7 r RoleMapOpts_default).

(** src/structure.rs:1042-1080. *)
Inductive BlockLevelRoleSubtype := BlockParagraphLike | BlockList | BlockTable.
Inductive InlineLevelRoleSubtype := InlineGeneric | InlineLink | InlineAnnotation | InlineRubyWarichu.
Inductive StructRoleType := Grouping | BlockLevel (s : BlockLevelRoleSubtype) | InlineLevel (s : InlineLevelRoleSubtype) | Illustration | TableType.

(** src/structure.rs:986-1036 [StructRole::role_type]. *)
Definition role_type (r : StructRole) : StructRoleType :=
  match r with
  | StructRole_Document | StructRole_Part | StructRole_Art | StructRole_Sect | StructRole_Div
  | StructRole_BlockQuote | StructRole_Caption | StructRole_TOC | StructRole_TOCI | StructRole_Index
  | StructRole_NonStruct | StructRole_Private => Grouping
  | StructRole_P | StructRole_StructuredHeading | StructRole_H1 | StructRole_H2 | StructRole_H3
  | StructRole_H4 | StructRole_H5 | StructRole_H6 => BlockLevel BlockParagraphLike
  | StructRole_L | StructRole_LI | StructRole_Lbl | StructRole_LBody => BlockLevel BlockList
  | StructRole_Table => BlockLevel BlockTable
  | StructRole_TR | StructRole_TH | StructRole_TD | StructRole_THead | StructRole_TBody | StructRole_TFoot => TableType
  | StructRole_Span | StructRole_Quote | StructRole_Note | StructRole_Reference | StructRole_BibEntry
  | StructRole_Code | StructRole_Ruby | StructRole_Warichu => InlineLevel InlineGeneric
  | StructRole_Link => InlineLevel InlineLink
  | StructRole_Annot => InlineLevel InlineAnnotation
  | StructRole_RB | StructRole_RT | StructRole_RP | StructRole_WT | StructRole_WP => InlineLevel InlineRubyWarichu
  | StructRole_Figure | StructRole_Formula | StructRole_Form => Illustration
  end.

(** src/structure.rs:1447-1482. *)
Inductive StructRoleType2 := T2Document | T2Grouping | T2BlockLevel | T2SubBlockLevel | T2InlineGeneric | T2InlineRubyWarichu | T2List
  | T2Table | T2Caption | T2Figure | T2Formula | T2Artifact.

(** src/structure.rs:1326-1369 [StructRole2::role_type]. *)
Definition role_type2 (r : StructRole2) : StructRoleType2 :=
  match r with
  | StructRole2_Document | StructRole2_DocumentFragment => T2Document
  | StructRole2_Part | StructRole2_Sect | StructRole2_Div | StructRole2_Aside | StructRole2_NonStruct => T2Grouping
  | StructRole2_P | StructRole2_Heading _ | StructRole2_StructuredHeading | StructRole2_Title
  | StructRole2_FENote => T2BlockLevel
  | StructRole2_Sub => T2SubBlockLevel
  | StructRole2_Lbl | StructRole2_Span | StructRole2_Em | StructRole2_Strong | StructRole2_Link
  | StructRole2_Annot | StructRole2_Form => T2InlineGeneric
  | StructRole2_Ruby | StructRole2_RB | StructRole2_RP | StructRole2_RT | StructRole2_Warichu
  | StructRole2_WT | StructRole2_WP => T2InlineRubyWarichu
  | StructRole2_L | StructRole2_LI | StructRole2_LBody => T2List
  | StructRole2_Table | StructRole2_TR | StructRole2_TH | StructRole2_TD | StructRole2_THead
  | StructRole2_TBody | StructRole2_TFoot => T2Table
  | StructRole2_Caption => T2Caption
  | StructRole2_Figure => T2Figure
  | StructRole2_Formula => T2Formula
  | StructRole2_Artifact => T2Artifact
  end.
