(** Model of the arguments of typed writers that are not plain enums. *)

From Coq Require Import ZArith List Bool.
From Verif Require ModelCmap.
From Verif Require Import Bytes ModelFloat ModelBuf ModelObject ModelColor ModelSmall ModelPdf ModelTw ModelEnums ModelRoles.
Import ListNotations.
Local Open Scope Z_scope.

(** src/attributes.rs:636-657 [LineHeight] and its [write]. *)
Inductive LineHeight := LineHeight_Normal | LineHeight_Auto | LineHeight_Custom (height : f32).
Definition LineHeight_obj (h : LineHeight) : obj :=
  match h with
  | LineHeight_Normal => OPrim (PName (lit "Normal"))
  | LineHeight_Auto => OPrim (PName (lit "Auto"))
  | LineHeight_Custom h => OPrim (PReal h)
  end.

(** src/attributes.rs:706-726 [GlyphOrientationVertical] and its [write]. *)
Inductive GlyphOrientationVertical := GlyphOrientationVertical_Auto | GlyphOrientationVertical_Angle (angle : Z).
Definition GlyphOrientationVertical_obj (o : GlyphOrientationVertical) : obj :=
  match o with
  | GlyphOrientationVertical_Auto => OPrim (PName (lit "Auto"))
  | GlyphOrientationVertical_Angle a => OPrim (PInt a)
  end.

(** src/transitions.rs:117-143 [TransitionAngle] and its [write_to_obj]. *)
Inductive TransitionAngle :=
| TransitionAngle_LeftToRight | TransitionAngle_BottomToTop | TransitionAngle_RightToLeft
| TransitionAngle_TopToBottom | TransitionAngle_TopLeftToBottomRight | TransitionAngle_None.
Definition TransitionAngle_obj (a : TransitionAngle) : obj :=
  match a with
  | TransitionAngle_LeftToRight => OPrim (PInt 0)
  | TransitionAngle_BottomToTop => OPrim (PInt 90)
  | TransitionAngle_RightToLeft => OPrim (PInt 180)
  | TransitionAngle_TopToBottom => OPrim (PInt 270)
  | TransitionAngle_TopLeftToBottomRight => OPrim (PInt 315)
  | TransitionAngle_None => OPrim (PName (lit "None"))
  end.

(** src/forms.rs:861-876 [MdpSignatureType] and its [to_int]. *)
Inductive MdpSignatureType :=
| MdpSignatureType_ApprovalSignature | MdpSignatureType_CertificationSignature (p : AccessPermissions).
Definition MdpSignatureType_int (t : MdpSignatureType) : Z :=
  match t with
  | MdpSignatureType_ApprovalSignature => 0
  | MdpSignatureType_CertificationSignature p => AccessPermissions_int p
  end.

(** src/forms.rs:1097-1155 [CertificateKeyUsage], [to_byte], [into_ascii]. *)
Record CertificateKeyUsage := mkKeyUsage {
  digital_signature : option bool; non_repudiation : option bool; key_encipherment : option bool;
  data_encipherment : option bool; key_agreement : option bool; key_cert_sign : option bool;
  crl_sign : option bool; encipher_only : option bool; decipher_only : option bool }.
Definition to_byte (v : option bool) : Byte.byte :=
  match v with Some true => Byte.x31 | Some false => Byte.x30 | None => Byte.x58 end.
Definition into_ascii (u : CertificateKeyUsage) : bytes :=
  [to_byte (digital_signature u); to_byte (non_repudiation u); to_byte (key_encipherment u);
   to_byte (data_encipherment u); to_byte (key_agreement u); to_byte (key_cert_sign u);
   to_byte (crl_sign u); to_byte (encipher_only u); to_byte (decipher_only u)].

(** src/font.rs:1045-1053 [SystemInfo::write]. *)
Definition system_info_obj (i : ModelCmap.system_info) : obj :=
  ODict [(lit "Registry", OPrim (PStr (ModelCmap.si_registry i)));
         (lit "Ordering", OPrim (PStr (ModelCmap.si_ordering i)));
         (lit "Supplement", OPrim (PInt (ModelCmap.si_supplement i)))].

(** [role.to_name(&mut [0; 6])] (src/structure.rs:451, 1608).  [StructRole2_name] is an option as
    the buffer has a fixed size; C42_role2_names proves that it never panics. *)
Definition role2_name (r : StructRole2) : bytes := match StructRole2_name r with Some n => n | None => [] end.

(** [Option<TextStr>], [Null] if absent (src/forms.rs:397-403, 420-426). *)
Definition text_or_null (t : option (list Z)) : obj :=
  match t with Some t => OPrim (PText t) | None => OPrim PNull end.

(** src/annotations.rs:703-727 [AppearanceEntry]: one stream or a dictionary of streams. *)
Inductive AppearanceEntry_call := AppearanceEntry_stream (id : Z) | AppearanceEntry_streams (l : list (bytes * Z)).
Definition AppearanceEntry_obj (c : AppearanceEntry_call) : obj :=
  match c with
  | AppearanceEntry_stream id => OPrim (PRef id)
  | AppearanceEntry_streams l => dict_of (fun r => OPrim (PRef r)) l
  end.

(** src/attributes.rs:547-570 [TrackSizes]: one size or an array of sizes. *)
Inductive TrackSizes_call := TrackSizes_uniform (v : f32) | TrackSizes_individual (l : list f32).
Definition TrackSizes_obj (c : TrackSizes_call) : obj :=
  match c with TrackSizes_uniform v => OPrim (PReal v) | TrackSizes_individual l => reals l end.

(** src/annotations.rs:92-110 [border]: three numbers and an optional dash array. *)
Definition border_items (h v w : f32) (dash : option (list f32)) : list obj :=
  [OPrim (PReal h); OPrim (PReal v); OPrim (PReal w)] ++ match dash with Some d => [reals d] | None => [] end.

(** The entries written into a dictionary that the caller owns already (conversions such as
    src/attributes.rs:37-67). *)
Definition writer_list {C} (header : list (bytes * obj)) (f : C -> list (bytes * obj)) (cs : list (or_raw C)) : list (bytes * obj) :=
  header ++ flat_map (raw_entries f) cs.
(** The same for writers with methods that may panic; with no header these are the entries of a
    plain [Stream] (src/object.rs:1107-1146) after [/Length]. *)
Definition writer_list_opt {C} (header : list (bytes * obj)) (f : C -> option (list (bytes * obj)))
  (cs : list (or_raw C)) : option (list (bytes * obj)) :=
  option_map (fun l => header ++ concat l) (all_some (raw_entries_opt f) cs).

(** The code points of an ASCII string literal. *)
Definition ascii (s : String.string) : list Z := map bz (lit s).
Arguments ascii s%string_scope.
