(** Specification of the arguments of typed writers that are not plain enums. *)

From Coq Require Import ZArith List Bool.
From Verif Require ModelCmap.
From Verif Require Import Bytes ModelFloat ModelBuf ModelObject ModelColor ModelSmall ModelPdf ModelTw ModelEnums ModelRoles ModelTwArgs
  SpecLex SpecObj SpecText SpecMeans SpecPdf SpecTyped SpecColor SpecSmall SpecTw SpecEnums SpecRoles.
Import ListNotations.
Local Open Scope Z_scope.

(** ISO 32000-2, table 379: a number, [Normal] or [Auto]. *)
Definition is_LineHeight (h : LineHeight) (v : val) : Prop :=
  match h with
  | LineHeight_Normal => v = VName (lit "Normal")
  | LineHeight_Auto => v = VName (lit "Auto")
  | LineHeight_Custom h => is_real h v
  end.
Definition LineHeight_ok (h : LineHeight) : bool := match h with LineHeight_Custom h => real_ok h | _ => true end.

(** Table 379: an angle or [Auto]. *)
Definition is_GlyphOrientationVertical (o : GlyphOrientationVertical) (v : val) : Prop :=
  match o with
  | GlyphOrientationVertical_Auto => v = VName (lit "Auto")
  | GlyphOrientationVertical_Angle a => v = VInt a
  end.
Definition GlyphOrientationVertical_ok (o : GlyphOrientationVertical) : bool :=
  match o with GlyphOrientationVertical_Angle a => in_i32 a | _ => true end.

(** Table 164, [Di]: degrees counterclockwise starting from a left-to-right direction; 315 is
    top-left to bottom-right; or the name [None]. *)
Definition is_TransitionAngle (a : TransitionAngle) (v : val) : Prop :=
  v = match a with
      | TransitionAngle_LeftToRight => VInt 0
      | TransitionAngle_BottomToTop => VInt 90
      | TransitionAngle_RightToLeft => VInt 180
      | TransitionAngle_TopToBottom => VInt 270
      | TransitionAngle_TopLeftToBottomRight => VInt 315
      | TransitionAngle_None => VName (lit "None")
      end.

(** Table 237, [MDP]: 0 for an approval signature, 1 to 3 are the permissions of a certification
    signature (table 257). *)
Definition is_MdpSignatureType (t : MdpSignatureType) (v : val) : Prop :=
  match t with
  | MdpSignatureType_ApprovalSignature => v = VInt 0
  | MdpSignatureType_CertificationSignature p => is_AccessPermissions p v /\ v <> VInt 0
  end.

(** Table 238, [KeyUsage]: nine characters in this order: 1 "shall be set", 0 "shall not be set",
    X "does not matter". *)
Definition read_key_usage_char (b : Byte.byte) : option (option bool) :=
  match b with
  | Byte.x30 => Some (Some false)
  | Byte.x31 => Some (Some true)
  | Byte.x58 => Some None
  | _ => None
  end.
Definition is_key_usage (u : CertificateKeyUsage) (v : val) : Prop :=
  exists s, v = VStr s /\ map read_key_usage_char s =
    map Some [digital_signature u; non_repudiation u; key_encipherment u; data_encipherment u; key_agreement u;
              key_cert_sign u; crl_sign u; encipher_only u; decipher_only u].

(** Table 114: the entries of a CIDSystemInfo dictionary. *)
Definition is_system_info (i : ModelCmap.system_info) : val -> Prop :=
  is_dict [(lit "Registry", is_str (ModelCmap.si_registry i)); (lit "Ordering", is_str (ModelCmap.si_ordering i));
           (lit "Supplement", is_int (ModelCmap.si_supplement i))].
Definition system_info_ok (i : ModelCmap.system_info) : bool := in_i32 (ModelCmap.si_supplement i).

Definition is_text_or_null (t : option (list Z)) (v : val) : Prop :=
  match t with Some t => is_text t v | None => v = VNull end.
Definition opt_text_ok (t : option (list Z)) : bool := match t with Some t => text_ok t | None => true end.

(** Table 170: an appearance is a stream or a subdictionary of streams. *)
Definition AppearanceEntry_reads (c : AppearanceEntry_call) (v : val) : Prop :=
  match c with
  | AppearanceEntry_stream id => is_ref id v
  | AppearanceEntry_streams l => is_dict_of is_ref l v
  end.
Definition AppearanceEntry_ok (c : AppearanceEntry_call) : bool :=
  match c with AppearanceEntry_stream id => ref_ok id | AppearanceEntry_streams l => dict_ok ref_ok l end.

Definition TrackSizes_reads (c : TrackSizes_call) (v : val) : Prop :=
  match c with TrackSizes_uniform x => is_real x v | TrackSizes_individual l => is_reals l v end.
Definition TrackSizes_ok (c : TrackSizes_call) : bool :=
  match c with TrackSizes_uniform x => real_ok x | TrackSizes_individual l => forallb real_ok l end.

(** Table 166, [Border]: three numbers, optionally followed by a dash array. *)
Definition is_border (h w x : f32) (dash : option (list f32)) : val -> Prop :=
  is_array ([is_real h; is_real w; is_real x] ++ match dash with Some d => [is_reals d] | None => [] end).
Definition dash_ok (d : option (list f32)) : bool := match d with Some d => forallb real_ok d | None => true end.

(** Per-side attributes, read as in SpecSmall.v. *)
Definition is_sides_reals (s : sides f32) (v : val) : Prop :=
  exists a b c d, read_scalar_sides v = Some (a, b, c, d) /\
    real_means (s_before s) a /\ real_means (s_after s) b /\ real_means (s_start s) c /\ real_means (s_end s) d.
Definition is_sides_colors (s : sides f3) (v : val) : Prop :=
  exists a b c d, read_color_sides v = Some (a, b, c, d) /\
    is_reals (in_order3 (s_before s)) a /\ is_reals (in_order3 (s_after s)) b /\ is_reals (in_order3 (s_start s)) c /\ is_reals (in_order3 (s_end s)) d.
Definition is_sides_styles (s : sides border_style) (v : val) : Prop :=
  exists a b c d, read_scalar_sides v = Some (a, b, c, d) /\
    a = VName (iso_border_style (s_before s)) /\ b = VName (iso_border_style (s_after s)) /\
    c = VName (iso_border_style (s_start s)) /\ d = VName (iso_border_style (s_end s)).
Definition all_sides {T} (p : T -> bool) (s : sides T) : bool := p (s_before s) && p (s_after s) && p (s_start s) && p (s_end s).

(** Trees, differences and widths. *)
Definition is_name_tree (calls : list name_tree_call) : val -> Prop := is_dict (map name_tree_reads calls).
Definition is_number_tree (calls : list number_tree_call) : val -> Prop := is_dict (map number_tree_reads calls).
Definition is_differences (calls : list (Z * list bytes)) (v : val) : Prop :=
  exists vs, v = VArr vs /\ read_differences None vs = Some (flat_map (fun c => numbered (fst c) (snd c)) calls).
Definition is_widths (calls : list width_call) (v : val) : Prop :=
  exists vs ps, v = VArr vs /\ read_widths vs = Some ps /\ Forall2 same_assignment (flat_map asked_widths calls) ps.

(** Filters (table 6). *)
Definition is_filter (f : filter) (v : val) : Prop := v = VName (iso_filter f).

(** Entries in the caller's dictionary. *)
Definition writer_doc {C} (header : list entry_spec) (doc : C -> list entry_spec) (cs : list (or_raw C)) : list entry_spec :=
  header ++ flat_map (raw_doc doc) cs.

(** The number is zero (of either sign). *)
Definition is_zero (f : f32) : Prop := f32_finite f = true /\ f32_units f = 0.

(** A choice option with its export value. *)
Definition pair_ok (e : textlike * list Z) : bool := textlike_ok (fst e) && text_ok (snd e).
