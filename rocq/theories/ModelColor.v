(** Model of src/color.rs (colour space writers) and of the dictionary functions of
    src/functions.rs.

    A writer that owns an [Array] or a [Dict] is modelled by the list of items or entries
    it has written: by the convention of ModelObject.v the object that is written when it
    is dropped is the tree with these children. *)

From Coq Require Import ZArith List Bool.
From Verif Require Import Bytes ModelFloat ModelBuf ModelObject.
Import ListNotations.
Local Open Scope Z_scope.

(** [[f32; 3]], [[f32; 4]], [[f32; 9]]. *)
Definition f3 : Type := f32 * f32 * f32.
Definition f4 : Type := f32 * f32 * f32 * f32.
Definition f9 : Type := f3 * f3 * f3.
Definition l3 (t : f3) : list f32 := let '(a, b, c) := t in [a; b; c].
Definition l4 (t : f4) : list f32 := let '(a, b, c, d) := t in [a; b; c; d].
Definition l9 (t : f9) : list f32 := let '(a, b, c) := t in l3 a ++ l3 b ++ l3 c.

(** src/object.rs:824-833 [Array::items] over an iterator. *)
Definition reals (l : list f32) : obj := OArray (map (fun f => OPrim (PReal f)) l).
Definition ints (l : list Z) : obj := OArray (map (fun z => OPrim (PInt z)) l).
Definition names (l : list bytes) : obj := OArray (map (fun n => OPrim (PName n)) l).
Definition refs (l : list Z) : obj := OArray (map (fun r => OPrim (PRef r)) l).
Definition bools (l : list bool) : obj := OArray (map (fun b => OPrim (PBool b)) l).

(** [if let Some(x) = opt { dict.insert(key)... }]. *)
Definition opt_pair {A} (key : bytes) (f : A -> obj) (o : option A) : list (bytes * obj) :=
  match o with Some a => [(key, f a)] | None => [] end.

(** ** Functions (src/functions.rs) *)

(** src/functions.rs:17-24 [FunctionType::to_int]. *)
Inductive function_type := FtSampled | FtExponential | FtStitching | FtPostScript.
Definition function_type_int (t : function_type) : Z :=
  match t with FtSampled => 0 | FtExponential => 2 | FtStitching => 3 | FtPostScript => 4 end.

(** src/functions.rs:27-45 (macro [common_func_methods]) and 148-167 [ExponentialFunction]. *)
Inductive exp_call := ExDomain (l : list f32) | ExRange (l : list f32)
| ExC0 (l : list f32) | ExC1 (l : list f32) | ExN (n : f32).
Definition exp_entry (c : exp_call) : bytes * obj :=
  match c with
  | ExDomain l => (lit "Domain", reals l)
  | ExRange l => (lit "Range", reals l)
  | ExC0 l => (lit "C0", reals l)
  | ExC1 l => (lit "C1", reals l)
  | ExN n => (lit "N", OPrim (PReal n))
  end.
(** src/functions.rs:136-140: the constructor writes the type first. *)
Definition exp_obj (cs : list exp_call) : obj :=
  ODict ((lit "FunctionType", OPrim (PInt (function_type_int FtExponential))) :: map exp_entry cs).

(** src/functions.rs:195-216 [StitchingFunction]. *)
Inductive stitch_call := StDomain (l : list f32) | StRange (l : list f32)
| StFunctions (l : list Z) | StBounds (l : list f32) | StEncode (l : list f32).
Definition stitch_entry (c : stitch_call) : bytes * obj :=
  match c with
  | StDomain l => (lit "Domain", reals l)
  | StRange l => (lit "Range", reals l)
  | StFunctions l => (lit "Functions", refs l)
  | StBounds l => (lit "Bounds", reals l)
  | StEncode l => (lit "Encode", reals l)
  end.
(** src/functions.rs:183-187. *)
Definition stitch_obj (cs : list stitch_call) : obj :=
  ODict ((lit "FunctionType", OPrim (PInt (function_type_int FtStitching))) :: map stitch_entry cs).

(** ** Colour spaces (src/color.rs) *)

(** src/color.rs:34-48 [ColorSpaceType::to_name]. *)
Inductive cs_type := TCalGray | TCalRgb | TLab | TIccBased | TDeviceRgb | TDeviceCmyk | TDeviceGray
| TIndexed | TPattern | TSeparation | TDeviceN.
Definition cs_type_name (t : cs_type) : bytes :=
  match t with
  | TCalRgb => lit "CalRGB"
  | TCalGray => lit "CalGray"
  | TLab => lit "Lab"
  | TIccBased => lit "ICCBased"
  | TDeviceRgb => lit "DeviceRGB"
  | TDeviceCmyk => lit "DeviceCMYK"
  | TDeviceGray => lit "DeviceGray"
  | TSeparation => lit "Separation"
  | TDeviceN => lit "DeviceN"
  | TIndexed => lit "Indexed"
  | TPattern => lit "Pattern"
  end.

(** src/color.rs:63-69 [DeviceColorSpace::to_name]. *)
Inductive device_cs := DevRgb | DevCmyk | DevGray.
Definition device_cs_name (d : device_cs) : bytes :=
  match d with DevRgb => lit "DeviceRGB" | DevCmyk => lit "DeviceCMYK" | DevGray => lit "DeviceGray" end.

(** src/color.rs:744-767 [DeviceNMixingHints]. *)
Inductive mix_call := MixSolidities (l : list (bytes * f32)) | MixOrder (l : list bytes)
| MixDotGain (l : list (bytes * f32)).
Definition real_dict (l : list (bytes * f32)) : obj :=
  ODict (map (fun e => (fst e, OPrim (PReal (snd e)))) l).
Definition mix_entry (c : mix_call) : bytes * obj :=
  match c with
  | MixSolidities l => (lit "Solidities", real_dict l)
  | MixOrder l => (lit "PrintingOrder", names l)
  | MixDotGain l => (lit "DotGain", real_dict l)
  end.

(** A call of one of the [ColorSpace] methods, with the calls made on the writer it
    returns.  Methods of [Separation] and [DeviceN] (src/color.rs:465-636) share the type
    [part]; [Separation] has no [attrs]. *)
Inductive cs : Type :=
| CsCalRgb (white : f3) (black gamma : option f3) (matrix : option f9)
| CsCalGray (white : f3) (black : option f3) (gamma : option f32)
| CsLab (white : f3) (black : option f3) (range : option f4)
| CsIccBased (stream : Z)
| CsDeviceRgb | CsDeviceCmyk | CsDeviceGray
| CsSeparation (name : bytes) (calls : list part)
| CsDeviceN (colorants : list bytes) (calls : list part)
| CsIndexed (base : bytes) (hival : Z) (table : bytes)
| CsPattern (base : bytes)
with part : Type :=
| AlternateDevice (d : device_cs)
| AlternateSpace (c : cs)
| AlternateRef (r : Z)
| TintExponential (calls : list exp_call)
| TintStitching (calls : list stitch_call)
| TintRef (r : Z)
| Attrs (calls : list attr_call)
with attr_call : Type :=                     (* src/color.rs:648-672 [DeviceNAttrs] *)
| AtSubtype (n_channel : bool)
| AtColorants (l : list (bytes * list (bytes * obj)))   (* [TypedDict<Dict>] *)
| AtProcess (calls : list proc_call)
| AtMixingHints (calls : list mix_call)
with proc_call : Type :=                     (* src/color.rs:686-710 [DeviceNProcess] *)
| PrColorSpace (n : bytes)
| PrColorSpaceArray (c : cs)
| PrComponents (l : list bytes).

(** src/color.rs:453-456, 536-540: the flags of the [Separation] and [DeviceN] writers. *)
Record sep_state := mkSep { has_alternate : bool }.
Record devn_state := mkDevn { dn_alternate : bool; dn_tint : bool }.

(** src/color.rs:465-524 [Separation::alternate_*] and [tint_*]: which calls panic ([None])
    and how the flag changes. *)
Definition sep_step (s : sep_state) (c : part) : option sep_state :=
  match c with
  | AlternateDevice _ | AlternateSpace _ | AlternateRef _ =>
      if has_alternate s then None else Some (mkSep true)
  | TintExponential _ | TintStitching _ | TintRef _ =>
      if negb (has_alternate s) then None else Some s
  | Attrs _ => None                          (* no such method *)
  end.

(** src/color.rs:550-636 [DeviceN::alternate_*], [tint_*], [attrs]. *)
Definition devn_step (s : devn_state) (c : part) : option devn_state :=
  match c with
  | AlternateDevice _ | AlternateSpace _ | AlternateRef _ =>
      if dn_alternate s then None else Some (mkDevn true (dn_tint s))
  | TintExponential _ | TintStitching _ | TintRef _ =>
      if negb (dn_alternate s) then None
      else if dn_tint s then None
      else Some (mkDevn (dn_alternate s) true)
  | Attrs _ =>
      if negb (dn_alternate s) then None
      else if negb (dn_tint s) then None
      else Some s
  end.

Definition sep_start : sep_state := mkSep false.
Definition devn_start : devn_state := mkDevn false false.

(** Run the state machine over the calls, writing one array element per call that does not
    panic. *)
Section Run.
  Variables (S : Type) (step : S -> part -> option S) (item : part -> option obj).
  Fixpoint run_parts (s : S) (l : list part) : option (list obj) :=
    match l with
    | [] => Some []
    | c :: r =>
        match step s c with
        | None => None
        | Some s' =>
            match item c with
            | None => None
            | Some o => option_map (cons o) (run_parts s' r)
            end
        end
    end.
End Run.
Arguments run_parts {S} step item s l.

(** Sequencing of calls that may panic. *)
Section Sequence.
  Context {A B : Type} (f : A -> option B).
  Fixpoint all_some (l : list A) : option (list B) :=
    match l with
    | [] => Some []
    | a :: r => match f a with Some b => option_map (cons b) (all_some r) | None => None end
    end.
End Sequence.

(** src/color.rs:86-423 [ColorSpace]; [None] if some call panics. *)
Fixpoint cs_obj (c : cs) : option obj :=
  match c with
  | CsCalRgb white black gamma matrix =>      (* 86-110 *)
      Some (OArray [OPrim (PName (cs_type_name TCalRgb));
        ODict ([(lit "WhitePoint", reals (l3 white))]
               ++ opt_pair (lit "BlackPoint") (fun t => reals (l3 t)) black
               ++ opt_pair (lit "Gamma") (fun t => reals (l3 t)) gamma
               ++ opt_pair (lit "Matrix") (fun t => reals (l9 t)) matrix)])
  | CsCalGray white black gamma =>            (* 113-132 *)
      Some (OArray [OPrim (PName (cs_type_name TCalGray));
        ODict ([(lit "WhitePoint", reals (l3 white))]
               ++ opt_pair (lit "BlackPoint") (fun t => reals (l3 t)) black
               ++ opt_pair (lit "Gamma") (fun f => OPrim (PReal f)) gamma)])
  | CsLab white black range =>                (* 135-155 *)
      Some (OArray [OPrim (PName (cs_type_name TLab));
        ODict ([(lit "WhitePoint", reals (l3 white))]
               ++ opt_pair (lit "BlackPoint") (fun t => reals (l3 t)) black
               ++ opt_pair (lit "Range") (fun t => reals (l4 t)) range)])
  | CsIccBased r =>                           (* 160-164 *)
      Some (OArray [OPrim (PName (cs_type_name TIccBased)); OPrim (PRef r)])
  | CsDeviceRgb => Some (OPrim (PName (cs_type_name TDeviceRgb)))
  | CsDeviceCmyk => Some (OPrim (PName (cs_type_name TDeviceCmyk)))
  | CsDeviceGray => Some (OPrim (PName (cs_type_name TDeviceGray)))
  | CsSeparation n calls =>                   (* 385-390 *)
      option_map (fun l => OArray (OPrim (PName (cs_type_name TSeparation)) :: OPrim (PName n) :: l))
        (run_parts sep_step part_obj sep_start calls)
  | CsDeviceN ns calls =>                     (* 396-401 *)
      option_map (fun l => OArray (OPrim (PName (cs_type_name TDeviceN)) :: names ns :: l))
        (run_parts devn_step part_obj devn_start calls)
  | CsIndexed base hival table =>             (* 407-413 *)
      Some (OArray [OPrim (PName (cs_type_name TIndexed)); OPrim (PName base); OPrim (PInt hival);
                    OPrim (PStr table)])
  | CsPattern base =>                         (* 419-423 *)
      Some (OArray [OPrim (PName (cs_type_name TPattern)); OPrim (PName base)])
  end
with part_obj (p : part) : option obj :=
  match p with
  | AlternateDevice d => Some (OPrim (PName (device_cs_name d)))
  | AlternateSpace c => cs_obj c
  | AlternateRef r => Some (OPrim (PRef r))
  | TintExponential l => Some (exp_obj l)
  | TintStitching l => Some (stitch_obj l)
  | TintRef r => Some (OPrim (PRef r))
  | Attrs l => option_map ODict (all_some attr_entry l)
  end
with attr_entry (a : attr_call) : option (bytes * obj) :=
  match a with
  | AtSubtype n => Some (lit "Subtype", OPrim (PName (if n then lit "NChannel" else lit "DeviceN")))
  | AtColorants l => Some (lit "Colorants", ODict (map (fun e => (fst e, ODict (snd e))) l))
  | AtProcess l => option_map (fun es => (lit "Process", ODict es)) (all_some proc_entry l)
  | AtMixingHints l => Some (lit "MixingHints", ODict (map mix_entry l))
  end
with proc_entry (p : proc_call) : option (bytes * obj) :=
  match p with
  | PrColorSpace n => Some (lit "ColorSpace", OPrim (PName n))
  | PrColorSpaceArray c => option_map (fun o => (lit "ColorSpace", o)) (cs_obj c)
  | PrComponents l => Some (lit "Components", names l)
  end.

(** ** Predefined spaces

    The f32 literals of the source, by their bit patterns ([f32_of_bits]). *)
Definition v3 (a b c : Z) : f3 := (f32_of_bits a, f32_of_bits b, f32_of_bits c).
Definition v9 (a b c d e f g h i : Z) : f9 := (v3 a b c, v3 d e f, v3 g h i).

(** src/color.rs:5: [0.9505, 1.0, 1.0888]. *)
Definition cie_d65 : f3 := v3 1064522744 1065353216 1066098124.
(** src/color.rs:8: [0.9642, 1.0, 0.82489]. *)
Definition cie_d50 : f3 := v3 1064752592 1065353216 1062415358.
(** src/color.rs:11: [1.0, 1.0, 1.0]. *)
Definition cie_e : f3 := v3 1065353216 1065353216 1065353216.
(** src/color.rs:14: [0.9807, 1.0, 1.1822]. *)
Definition cie_c : f3 := v3 1065029416 1065353216 1066881620.
(** src/color.rs:238-245 [srgb]: gamma 2.2, matrix [0.4124, 0.2126, 0.0193, 0.3576, 0.715, 0.1192, 0.1805, 0.0722, 0.9505]. *)
Definition cs_srgb : cs :=
  CsCalRgb cie_d65 None (Some (v3 1074580685 1074580685 1074580685))
    (Some (v9 1054025240 1046066128 1016994569 1052186457 1060571709 1039408929 1043911934 1033100696 1064522744)).
(** src/color.rs:250-260 [adobe_rgb]: gamma 2.1992188, matrix [0.57667, 0.29734, 0.02703, 0.18556, 0.62736, 0.07069, 0.18823, 0.07529, 0.99134]. *)
Definition cs_adobe_rgb : cs :=
  CsCalRgb cie_d65 None (Some (v3 1074577408 1074577408 1074577408))
    (Some (v9 1058250917 1050164467 1021144581 1044251505 1059101354 1032898027 1044430685 1033515429 1065207925)).
(** src/color.rs:265-275 [display_p3]: gamma 2.6, matrix [0.48657, 0.2297, 0.0, 0.26567, 0.69174, 0.04511, 0.19822, 0.07929, 1.04394]. *)
Definition cs_display_p3 : cs :=
  CsCalRgb cie_d65 None (Some (v3 1076258406 1076258406 1076258406))
    (Some (v9 1056513972 1047213690 0 1049101798 1060181471 1027130691 1045101103 1034052300 1065721811)).
(** src/color.rs:280-290 [pro_photo]: gamma 1.8, matrix [0.7976749, 0.2880402, 0.0, 0.1351917, 0.7118741, 0.0, 0.0313534, 8.57e-05, 0.82521]. *)
Definition cs_pro_photo : cs :=
  CsCalRgb cie_d50 None (Some (v3 1072064102 1072064102 1072064102))
    (Some (v9 1061958764 1049852417 0 1040871345 1060519266 0 1023437932 951302614 1062420726)).
(** src/color.rs:293-303 [eci_rgb]: gamma 1.8, matrix [0.6502043, 0.3202499, 0.0, 0.1780774, 0.6020711, 0.067839, 0.1359384, 0.0776791, 0.757371]. *)
Definition cs_eci_rgb : cs :=
  CsCalRgb cie_d50 None (Some (v3 1072064102 1072064102 1072064102))
    (Some (v9 1059484618 1050933195 0 1043749356 1058677077 1032515372 1040921456 1033836088 1061282577)).
(** src/color.rs:306-316 [ntsc]: gamma 2.2, matrix [0.6068909, 0.2989164, 0.0, 0.1735011, 0.586599, 0.0660957, 0.200348, 0.1144845, 1.1162243]. *)
Definition cs_ntsc : cs :=
  CsCalRgb cie_c None (Some (v3 1074580685 1074580685 1074580685))
    (Some (v9 1058757940 1050217362 0 1043442246 1058417498 1032281391 1045243911 1038776025 1066328176)).
(** src/color.rs:319-329 [pal]: gamma 2.2, matrix [0.430619, 0.2220379, 0.0201853, 0.3415419, 0.7066384, 0.1295504, 0.1783091, 0.0713236, 0.9390944]. *)
Definition cs_pal : cs :=
  CsCalRgb cie_d65 None (Some (v3 1074580685 1074580685 1074580685))
    (Some (v9 1054636568 1046699495 1017469860 1051647636 1060431425 1040492764 1043764905 1032983068 1064331390)).
(** src/color.rs:333-353 [d65_gray], [d50_gray], [c_gray], [e_gray]. *)
Definition cs_d65_gray : cs := CsCalGray cie_d65 None (Some (f32_of_bits 1074580685)).
Definition cs_d50_gray (gamma : option f32) : cs := CsCalGray cie_d50 None gamma.
Definition cs_c_gray : cs := CsCalGray cie_c None (Some (f32_of_bits 1074580685)).
Definition cs_e_gray (gamma : option f32) : cs := CsCalGray cie_e None gamma.

(** ** ICC profile streams *)

(** src/color.rs:184-228 [IccProfile]: the entries written into the stream dictionary
    after [/Length]; [None] is the panic of the assertion in [n]. *)
Inductive icc_call := IccN (n : Z) | IccAlternate (c : cs) | IccAlternateName (n : bytes)
| IccRange (l : list f32) | IccMetadata (r : Z).
Definition icc_entry (c : icc_call) : option (bytes * obj) :=
  match c with
  | IccN n => if (n =? 1) || (n =? 3) || (n =? 4) then Some (lit "N", OPrim (PInt n)) else None
  | IccAlternate c => option_map (fun o => (lit "Alternate", o)) (cs_obj c)
  | IccAlternateName n => Some (lit "Alternate", OPrim (PName n))
  | IccRange l => Some (lit "Range", reals l)
  | IccMetadata r => Some (lit "Metadata", OPrim (PRef r))
  end.
