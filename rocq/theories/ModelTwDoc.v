(** Model of typed writers: document structure.  Generated by gen/gen_writers.py from the source text. *)

From Coq Require Import ZArith List Bool.
From Verif Require ModelContent ModelCmap.
From Verif Require Import Bytes ModelFloat ModelBuf ModelObject ModelColor ModelSmall ModelPdf ModelTw ModelEnums ModelRoles ModelTwArgs ModelTwFiles ModelTwGraphics ModelTwAnnot ModelTwForms ModelTwAttr ModelTwXObj ModelTwFonts.
Import ListNotations.
Local Open Scope Z_scope.

(** ** DeveloperExtension (src/structure.rs) *)

Inductive DeveloperExtension_call :=
| DeveloperExtension_base_version (major : Z) (minor : Z)
| DeveloperExtension_extension_level (level : Z).
Definition DeveloperExtension_entries (c : DeveloperExtension_call) : list (bytes * obj) :=
  match c with
  | DeveloperExtension_base_version major minor => [(lit "BaseVersion", OPrim (PName (version_name major minor)))]   (* src/structure.rs:246-249 *)
  | DeveloperExtension_extension_level level => [(lit "ExtensionLevel", OPrim (PInt level))]   (* src/structure.rs:253-256 *)
  end.
(** src/structure.rs:237-241. *)
Definition DeveloperExtension_header : list (bytes * obj) := [(lit "Type", OPrim (PName (lit "DeveloperExtensions")))].
Definition DeveloperExtension_calls : Type := list (or_raw DeveloperExtension_call).
Definition DeveloperExtension_obj (cs : DeveloperExtension_calls) : obj := dict_writer DeveloperExtension_header DeveloperExtension_entries cs.

(** ** ViewerPreferences (src/structure.rs) *)

Inductive ViewerPreferences_call :=
| ViewerPreferences_hide_toolbar (hide : bool)
| ViewerPreferences_hide_menubar (hide : bool)
| ViewerPreferences_fit_window (fit : bool)
| ViewerPreferences_center_window (center : bool)
| ViewerPreferences_display_doc_title (display : bool)
| ViewerPreferences_non_full_screen_page_mode (mode : PageMode)
| ViewerPreferences_direction (dir : Direction).
Definition ViewerPreferences_entries (c : ViewerPreferences_call) : option (list (bytes * obj)) :=
  match c with
  | ViewerPreferences_hide_toolbar hide => Some [(lit "HideToolbar", OPrim (PBool hide))]   (* src/structure.rs:273-276 *)
  | ViewerPreferences_hide_menubar hide => Some [(lit "HideMenubar", OPrim (PBool hide))]   (* src/structure.rs:280-283 *)
  | ViewerPreferences_fit_window fit => Some [(lit "FitWindow", OPrim (PBool fit))]   (* src/structure.rs:287-290 *)
  | ViewerPreferences_center_window center => Some [(lit "CenterWindow", OPrim (PBool center))]   (* src/structure.rs:294-297 *)
  | ViewerPreferences_display_doc_title display => Some [(lit "DisplayDocTitle", OPrim (PBool display))]   (* src/structure.rs:302-305 *)
  | ViewerPreferences_non_full_screen_page_mode mode => match mode with PageMode_FullScreen => None | _ => Some [(lit "NonFullScreenPageMode", OPrim (PName (PageMode_name mode)))] end   (* src/structure.rs:313-317 *)
  | ViewerPreferences_direction dir => Some [(lit "Direction", OPrim (PName (Direction_name dir)))]   (* src/structure.rs:321-324 *)
  end.
(** src/structure.rs:268: no entries. *)
Definition ViewerPreferences_header : list (bytes * obj) := [].
Definition ViewerPreferences_calls : Type := list (or_raw ViewerPreferences_call).
Definition ViewerPreferences_obj (cs : ViewerPreferences_calls) : option obj := dict_writer_opt ViewerPreferences_header ViewerPreferences_entries cs.

(** ** PageLabel (src/structure.rs) *)

Inductive PageLabel_call :=
| PageLabel_style (style : NumberingStyle)
| PageLabel_prefix (prefix : textlike)
| PageLabel_offset (offset : Z).
Definition PageLabel_entries (c : PageLabel_call) : list (bytes * obj) :=
  match c with
  | PageLabel_style style => [(lit "S", OPrim (PName (NumberingStyle_name style)))]   (* src/structure.rs:1687-1690 *)
  | PageLabel_prefix prefix => [(lit "P", OPrim (text_prim prefix))]   (* src/structure.rs:1693-1696 *)
  | PageLabel_offset offset => [(lit "St", OPrim (PInt offset))]   (* src/structure.rs:1701-1704 *)
  end.
(** src/structure.rs:1676-1680. *)
Definition PageLabel_header : list (bytes * obj) := [(lit "Type", OPrim (PName (lit "PageLabel")))].
Definition PageLabel_calls : Type := list (or_raw PageLabel_call).
Definition PageLabel_obj (cs : PageLabel_calls) : obj := dict_writer PageLabel_header PageLabel_entries cs.

(** ** DocumentInfo (src/structure.rs) *)

Inductive DocumentInfo_call :=
| DocumentInfo_title (title : textlike)
| DocumentInfo_author (author : textlike)
| DocumentInfo_subject (subject : textlike)
| DocumentInfo_keywords (keywords : textlike)
| DocumentInfo_creator (creator : textlike)
| DocumentInfo_producer (producer : textlike)
| DocumentInfo_creation_date (date : date)
| DocumentInfo_modified_date (date : date)
| DocumentInfo_trapped (trapped : TrappingStatus).
Definition DocumentInfo_entries (c : DocumentInfo_call) : list (bytes * obj) :=
  match c with
  | DocumentInfo_title title => [(lit "Title", OPrim (text_prim title))]   (* src/structure.rs:1747-1750 *)
  | DocumentInfo_author author => [(lit "Author", OPrim (text_prim author))]   (* src/structure.rs:1753-1756 *)
  | DocumentInfo_subject subject => [(lit "Subject", OPrim (text_prim subject))]   (* src/structure.rs:1759-1762 *)
  | DocumentInfo_keywords keywords => [(lit "Keywords", OPrim (text_prim keywords))]   (* src/structure.rs:1766-1769 *)
  | DocumentInfo_creator creator => [(lit "Creator", OPrim (text_prim creator))]   (* src/structure.rs:1773-1776 *)
  | DocumentInfo_producer producer => [(lit "Producer", OPrim (text_prim producer))]   (* src/structure.rs:1780-1783 *)
  | DocumentInfo_creation_date date => [(lit "CreationDate", OPrim (PDate date))]   (* src/structure.rs:1787-1790 *)
  | DocumentInfo_modified_date date => [(lit "ModDate", OPrim (PDate date))]   (* src/structure.rs:1796-1799 *)
  | DocumentInfo_trapped trapped => [(lit "Trapped", OPrim (PName (TrappingStatus_name trapped)))]   (* src/structure.rs:1803-1806 *)
  end.
(** src/structure.rs:1743: no entries. *)
Definition DocumentInfo_header : list (bytes * obj) := [].
Definition DocumentInfo_calls : Type := list (or_raw DocumentInfo_call).
Definition DocumentInfo_obj (cs : DocumentInfo_calls) : obj := dict_writer DocumentInfo_header DocumentInfo_entries cs.

(** ** Transition (src/transitions.rs) *)

Inductive Transition_call :=
| Transition_style (kind : TransitionStyle)
| Transition_duration (seconds : f32)
| Transition_dimension (vertical : bool)
| Transition_direction (outward : bool)
| Transition_angle (angle : TransitionAngle)
| Transition_scale (scale : f32)
| Transition_opaque (opaque : f32).
Definition Transition_entries (c : Transition_call) : list (bytes * obj) :=
  match c with
  | Transition_style kind => [(lit "S", OPrim (PName (TransitionStyle_name kind)))]   (* src/transitions.rs:18-21 *)
  | Transition_duration seconds => [(lit "D", OPrim (PReal seconds))]   (* src/transitions.rs:24-27 *)
  | Transition_dimension vertical => [(lit "Dm", OPrim (PName (if vertical then lit "V" else lit "H")))]   (* src/transitions.rs:31-35 *)
  | Transition_direction outward => [(lit "M", OPrim (PName (if outward then lit "O" else lit "I")))]   (* src/transitions.rs:39-43 *)
  | Transition_angle angle => [(lit "Di", TransitionAngle_obj angle)]   (* src/transitions.rs:46-49 *)
  | Transition_scale scale => [(lit "SS", OPrim (PReal scale))]   (* src/transitions.rs:53-56 *)
  | Transition_opaque opaque => [(lit "F", OPrim (PReal opaque))]   (* src/transitions.rs:59-62 *)
  end.
(** src/transitions.rs:10-14. *)
Definition Transition_header : list (bytes * obj) := [(lit "Type", OPrim (PName (lit "Trans")))].
Definition Transition_calls : Type := list (or_raw Transition_call).
Definition Transition_obj (cs : Transition_calls) : obj := dict_writer Transition_header Transition_entries cs.

(** ** Names (src/structure.rs) *)

Inductive Names_call :=
| Names_destinations (x : list name_tree_call)
| Names_appearances (x : list name_tree_call)
| Names_javascript (x : list name_tree_call)
| Names_pages (x : list name_tree_call)
| Names_templates (x : list name_tree_call)
| Names_capture_ids (x : list name_tree_call)
| Names_capture_urls (x : list name_tree_call)
| Names_embedded_files (x : list name_tree_call)
| Names_alternate_presentations (x : list name_tree_call)
| Names_renditions (x : list name_tree_call).
Definition Names_entries (c : Names_call) : list (bytes * obj) :=
  match c with
  | Names_destinations x => [(lit "Dests", name_tree_obj x)]   (* src/structure.rs:2210-2212 *)
  | Names_appearances x => [(lit "AP", name_tree_obj x)]   (* src/structure.rs:2216-2218 *)
  | Names_javascript x => [(lit "JavaScript", name_tree_obj x)]   (* src/structure.rs:2222-2224 *)
  | Names_pages x => [(lit "Pages", name_tree_obj x)]   (* src/structure.rs:2227-2229 *)
  | Names_templates x => [(lit "Templates", name_tree_obj x)]   (* src/structure.rs:2233-2235 *)
  | Names_capture_ids x => [(lit "IDS", name_tree_obj x)]   (* src/structure.rs:2239-2241 *)
  | Names_capture_urls x => [(lit "URLS", name_tree_obj x)]   (* src/structure.rs:2245-2247 *)
  | Names_embedded_files x => [(lit "EmbeddedFiles", name_tree_obj x)]   (* src/structure.rs:2254-2256 *)
  | Names_alternate_presentations x => [(lit "AlternatePresentations", name_tree_obj x)]   (* src/structure.rs:2262-2264 *)
  | Names_renditions x => [(lit "Renditions", name_tree_obj x)]   (* src/structure.rs:2268-2270 *)
  end.
(** src/structure.rs:2205: no entries. *)
Definition Names_header : list (bytes * obj) := [].
Definition Names_calls : Type := list (or_raw Names_call).
Definition Names_obj (cs : Names_calls) : obj := dict_writer Names_header Names_entries cs.

(** ** Pages (src/structure.rs) *)

Inductive Pages_call :=
| Pages_parent (parent : Z)
| Pages_kids (kids : list Z)
| Pages_count (count : Z)
| Pages_media_box (rect : rect)
| Pages_resources (calls : Resources_calls).
Definition Pages_entries (c : Pages_call) : list (bytes * obj) :=
  match c with
  | Pages_parent parent => [(lit "Parent", OPrim (PRef parent))]   (* src/structure.rs:1850-1853 *)
  | Pages_kids kids => [(lit "Kids", refs kids)]   (* src/structure.rs:1857-1860 *)
  | Pages_count count => [(lit "Count", OPrim (PInt count))]   (* src/structure.rs:1865-1868 *)
  | Pages_media_box rect => [(lit "MediaBox", OPrim (PRect rect))]   (* src/structure.rs:1871-1874 *)
  | Pages_resources calls => [(lit "Resources", Resources_obj calls)]   (* src/structure.rs:1877-1879 *)
  end.
(** src/structure.rs:1842-1846. *)
Definition Pages_header : list (bytes * obj) := [(lit "Type", OPrim (PName (lit "Pages")))].
Definition Pages_calls : Type := list (or_raw Pages_call).
Definition Pages_obj (cs : Pages_calls) : obj := dict_writer Pages_header Pages_entries cs.

(** ** Page (src/structure.rs) *)

Inductive Page_call :=
| Page_parent (parent : Z)
| Page_last_modified (date : date)
| Page_media_box (rect : rect)
| Page_crop_box (rect : rect)
| Page_bleed_box (rect : rect)
| Page_trim_box (rect : rect)
| Page_art_box (rect : rect)
| Page_resources (calls : Resources_calls)
| Page_contents (id : Z)
| Page_contents_array (ids : list Z)
| Page_rotate (degrees : Z)
| Page_group (calls : Group_calls)
| Page_thumbnail (id : Z)
| Page_duration (seconds : f32)
| Page_transition (calls : Transition_calls)
| Page_annotations (ids : list Z)
| Page_struct_parents (key : Z)
| Page_tab_order (order : TabOrder)
| Page_user_unit (value : f32)
| Page_additional_actions (calls : AdditionalActions_calls)
| Page_metadata (id : Z)
| Page_associated_files (items : list FileSpec_calls).
Definition Page_entries (c : Page_call) : option (list (bytes * obj)) :=
  match c with
  | Page_parent parent => Some [(lit "Parent", OPrim (PRef parent))]   (* src/structure.rs:1899-1902 *)
  | Page_last_modified date => Some [(lit "LastModified", OPrim (PDate date))]   (* src/structure.rs:1905-1908 *)
  | Page_media_box rect => Some [(lit "MediaBox", OPrim (PRect rect))]   (* src/structure.rs:1912-1915 *)
  | Page_crop_box rect => Some [(lit "CropBox", OPrim (PRect rect))]   (* src/structure.rs:1919-1922 *)
  | Page_bleed_box rect => Some [(lit "BleedBox", OPrim (PRect rect))]   (* src/structure.rs:1927-1930 *)
  | Page_trim_box rect => Some [(lit "TrimBox", OPrim (PRect rect))]   (* src/structure.rs:1934-1937 *)
  | Page_art_box rect => Some [(lit "ArtBox", OPrim (PRect rect))]   (* src/structure.rs:1941-1944 *)
  | Page_resources calls => Some [(lit "Resources", Resources_obj calls)]   (* src/structure.rs:1947-1949 *)
  | Page_contents id => Some [(lit "Contents", OPrim (PRef id))]   (* src/structure.rs:1955-1958 *)
  | Page_contents_array ids => Some [(lit "Contents", refs ids)]   (* src/structure.rs:1961-1964 *)
  | Page_rotate degrees => Some [(lit "Rotate", OPrim (PInt degrees))]   (* src/structure.rs:1969-1972 *)
  | Page_group calls => sub_entry (lit "Group") (Group_obj calls)   (* src/structure.rs:1979-1981 *)
  | Page_thumbnail id => Some [(lit "Thumb", OPrim (PRef id))]   (* src/structure.rs:1986-1989 *)
  | Page_duration seconds => Some [(lit "Dur", OPrim (PReal seconds))]   (* src/structure.rs:1993-1996 *)
  | Page_transition calls => Some [(lit "Trans", Transition_obj calls)]   (* src/structure.rs:2000-2002 *)
  | Page_annotations ids => Some [(lit "Annots", refs ids)]   (* src/structure.rs:2005-2008 *)
  | Page_struct_parents key => Some [(lit "StructParents", OPrim (PInt key))]   (* src/structure.rs:2012-2015 *)
  | Page_tab_order order => Some [(lit "Tabs", OPrim (PName (TabOrder_name order)))]   (* src/structure.rs:2019-2022 *)
  | Page_user_unit value => Some [(lit "UserUnit", OPrim (PReal value))]   (* src/structure.rs:2026-2029 *)
  | Page_additional_actions calls => Some [(lit "AA", AdditionalActions_obj calls)]   (* src/structure.rs:2035-2037 *)
  | Page_metadata id => Some [(lit "Metadata", OPrim (PRef id))]   (* src/structure.rs:2045-2048 *)
  | Page_associated_files items => Some [(lit "AF", arr_of FileSpec_obj items)]   (* src/structure.rs:2052-2054 *)
  end.
(** src/structure.rs:1891-1895. *)
Definition Page_header : list (bytes * obj) := [(lit "Type", OPrim (PName (lit "Page")))].
Definition Page_calls : Type := list (or_raw Page_call).
Definition Page_obj (cs : Page_calls) : option obj := dict_writer_opt Page_header Page_entries cs.

(** ** Outline (src/structure.rs) *)

Inductive Outline_call :=
| Outline_first (item : Z)
| Outline_last (item : Z)
| Outline_count (count : Z).
Definition Outline_entries (c : Outline_call) : option (list (bytes * obj)) :=
  match c with
  | Outline_first item => Some [(lit "First", OPrim (PRef item))]   (* src/structure.rs:2075-2078 *)
  | Outline_last item => Some [(lit "Last", OPrim (PRef item))]   (* src/structure.rs:2082-2085 *)
  | Outline_count count => if 0 <=? count then Some [(lit "Count", OPrim (PInt count))] else None   (* src/structure.rs:2091-2095 *)
  end.
(** src/structure.rs:2066-2070. *)
Definition Outline_header : list (bytes * obj) := [(lit "Type", OPrim (PName (lit "Outlines")))].
Definition Outline_calls : Type := list (or_raw Outline_call).
Definition Outline_obj (cs : Outline_calls) : option obj := dict_writer_opt Outline_header Outline_entries cs.

(** ** OutlineItem (src/structure.rs) *)

Inductive OutlineItem_call :=
| OutlineItem_title (title : textlike)
| OutlineItem_parent (outline : Z)
| OutlineItem_prev (outline : Z)
| OutlineItem_next (outline : Z)
| OutlineItem_first (outline : Z)
| OutlineItem_last (outline : Z)
| OutlineItem_count (items : Z)
| OutlineItem_dest (calls : Destination_calls)
| OutlineItem_dest_name (name : bytes)
| OutlineItem_color_rgb (r : f32) (g : f32) (b : f32)
| OutlineItem_flags (flags : list OutlineItemFlags).
Definition OutlineItem_entries (c : OutlineItem_call) : list (bytes * obj) :=
  match c with
  | OutlineItem_title title => [(lit "Title", OPrim (text_prim title))]   (* src/structure.rs:2111-2114 *)
  | OutlineItem_parent outline => [(lit "Parent", OPrim (PRef outline))]   (* src/structure.rs:2118-2121 *)
  | OutlineItem_prev outline => [(lit "Prev", OPrim (PRef outline))]   (* src/structure.rs:2125-2128 *)
  | OutlineItem_next outline => [(lit "Next", OPrim (PRef outline))]   (* src/structure.rs:2132-2135 *)
  | OutlineItem_first outline => [(lit "First", OPrim (PRef outline))]   (* src/structure.rs:2138-2141 *)
  | OutlineItem_last outline => [(lit "Last", OPrim (PRef outline))]   (* src/structure.rs:2144-2147 *)
  | OutlineItem_count items => [(lit "Count", OPrim (PInt items))]   (* src/structure.rs:2153-2156 *)
  | OutlineItem_dest calls => [(lit "Dest", Destination_obj calls)]   (* src/structure.rs:2160-2162 *)
  | OutlineItem_dest_name name => [(lit "Dest", OPrim (PName name))]   (* src/structure.rs:2166-2169 *)
  | OutlineItem_color_rgb r g b => [(lit "C", reals [r; g; b])]   (* src/structure.rs:2173-2176 *)
  | OutlineItem_flags flags => [(lit "F", OPrim (PInt (flags_bits OutlineItemFlags_bit flags)))]   (* src/structure.rs:2179-2182 *)
  end.
(** src/structure.rs:2107: no entries. *)
Definition OutlineItem_header : list (bytes * obj) := [].
Definition OutlineItem_calls : Type := list (or_raw OutlineItem_call).
Definition OutlineItem_obj (cs : OutlineItem_calls) : obj := dict_writer OutlineItem_header OutlineItem_entries cs.

(** ** Catalog (src/structure.rs) *)

Inductive Catalog_call :=
| Catalog_pages (id : Z)
| Catalog_page_layout (layout : PageLayout)
| Catalog_page_labels (x : list number_tree_call)
| Catalog_page_mode (mode : PageMode)
| Catalog_viewer_preferences (calls : ViewerPreferences_calls)
| Catalog_names (calls : Names_calls)
| Catalog_destinations (id : Z)
| Catalog_outlines (id : Z)
| Catalog_struct_tree_root (calls : StructTreeRoot_calls)
| Catalog_mark_info (calls : MarkInfo_calls)
| Catalog_lang (lang : list Z)
| Catalog_version (major : Z) (minor : Z)
| Catalog_additional_actions (calls : AdditionalActions_calls)
| Catalog_form (calls : Form_calls)
| Catalog_metadata (id : Z)
| Catalog_extensions (items : list (bytes * DeveloperExtension_calls))
| Catalog_separation_info (calls : SeparationInfo_calls)
| Catalog_output_intents (items : list OutputIntent_calls)
| Catalog_associated_files (items : list FileSpec_calls).
Definition Catalog_entries (c : Catalog_call) : option (list (bytes * obj)) :=
  match c with
  | Catalog_pages id => Some [(lit "Pages", OPrim (PRef id))]   (* src/structure.rs:23-26 *)
  | Catalog_page_layout layout => Some [(lit "PageLayout", OPrim (PName (PageLayout_name layout)))]   (* src/structure.rs:30-33 *)
  | Catalog_page_labels x => Some [(lit "PageLabels", number_tree_obj x)]   (* src/structure.rs:36-38 *)
  | Catalog_page_mode mode => Some [(lit "PageMode", OPrim (PName (PageMode_name mode)))]   (* src/structure.rs:42-45 *)
  | Catalog_viewer_preferences calls => sub_entry (lit "ViewerPreferences") (ViewerPreferences_obj calls)   (* src/structure.rs:48-50 *)
  | Catalog_names calls => Some [(lit "Names", Names_obj calls)]   (* src/structure.rs:53-55 *)
  | Catalog_destinations id => Some [(lit "Dests", OPrim (PRef id))]   (* src/structure.rs:59-62 *)
  | Catalog_outlines id => Some [(lit "Outlines", OPrim (PRef id))]   (* src/structure.rs:66-69 *)
  | Catalog_struct_tree_root calls => Some [(lit "StructTreeRoot", StructTreeRoot_obj calls)]   (* src/structure.rs:75-77 *)
  | Catalog_mark_info calls => Some [(lit "MarkInfo", MarkInfo_obj calls)]   (* src/structure.rs:83-85 *)
  | Catalog_lang lang => Some [(lit "Lang", OPrim (PText lang))]   (* src/structure.rs:91-94 *)
  | Catalog_version major minor => Some [(lit "Version", OPrim (PName (version_name major minor)))]   (* src/structure.rs:98-101 *)
  | Catalog_additional_actions calls => Some [(lit "AA", AdditionalActions_obj calls)]   (* src/structure.rs:107-109 *)
  | Catalog_form calls => Some [(lit "AcroForm", Form_obj calls)]   (* src/structure.rs:113-115 *)
  | Catalog_metadata id => Some [(lit "Metadata", OPrim (PRef id))]   (* src/structure.rs:121-124 *)
  | Catalog_extensions items => Some [(lit "Extensions", dict_of DeveloperExtension_obj items)]   (* src/structure.rs:131-133 *)
  | Catalog_separation_info calls => sub_entry (lit "SeparationInfo") (SeparationInfo_obj calls)   (* src/structure.rs:138-140 *)
  | Catalog_output_intents items => Some [(lit "OutputIntents", arr_of OutputIntent_obj items)]   (* src/structure.rs:149-151 *)
  | Catalog_associated_files items => Some [(lit "AF", arr_of FileSpec_obj items)]   (* src/structure.rs:155-157 *)
  end.
(** src/structure.rs:15-19. *)
Definition Catalog_header : list (bytes * obj) := [(lit "Type", OPrim (PName (lit "Catalog")))].
Definition Catalog_calls : Type := list (or_raw Catalog_call).
Definition Catalog_obj (cs : Catalog_calls) : option obj := dict_writer_opt Catalog_header Catalog_entries cs.
