(** Specification of colour space objects (ISO 32000-1, 8.6) and of type 2 and 3 function
    dictionaries (7.10.3, 7.10.4): what a reader must find for each call of the API. *)

From Coq Require Import ZArith List Bool.
From Verif Require Import Bytes ModelFloat ModelBuf ModelObject ModelColor SpecLex SpecObj SpecText SpecMeans SpecTyped.
Import ListNotations.
Local Open Scope Z_scope.

Definition is_reals (l : list f32) (v : val) : Prop := is_array_of is_real l v.
(** The elements of a fixed-size array, first to last. *)
Definition in_order3 (t : f3) : list f32 := let '(a, b, c) := t in [a; b; c].
Definition in_order4 (t : f4) : list f32 := let '(a, b, c, d) := t in [a; b; c; d].
Definition in_order9 (t : f9) : list f32 := let '((a, b, c), (d, e, f), (g, h, i)) := t in [a; b; c; d; e; f; g; h; i].
Definition is_names (l : list bytes) (v : val) : Prop := is_array_of is_name l v.
Definition is_refs (l : list Z) (v : val) : Prop := is_array_of is_ref l v.

(** Type 2: C0 and C1 are the values at 0 and 1, N the exponent. *)
Definition exp_reads (c : exp_call) : bytes * (val -> Prop) :=
  match c with
  | ExDomain l => (lit "Domain", is_reals l)
  | ExRange l => (lit "Range", is_reals l)
  | ExC0 l => (lit "C0", is_reals l)
  | ExC1 l => (lit "C1", is_reals l)
  | ExN n => (lit "N", is_real n)
  end.
Definition is_exponential (l : list exp_call) : val -> Prop :=
  is_dict ((lit "FunctionType", is_int 2) :: map exp_reads l).

(** Type 3. *)
Definition stitch_reads (c : stitch_call) : bytes * (val -> Prop) :=
  match c with
  | StDomain l => (lit "Domain", is_reals l)
  | StRange l => (lit "Range", is_reals l)
  | StFunctions l => (lit "Functions", is_refs l)
  | StBounds l => (lit "Bounds", is_reals l)
  | StEncode l => (lit "Encode", is_reals l)
  end.
Definition is_stitching (l : list stitch_call) : val -> Prop :=
  is_dict ((lit "FunctionType", is_int 3) :: map stitch_reads l).

Definition is_real_dict (l : list (bytes * f32)) : val -> Prop :=
  is_dict (map (fun e => (fst e, is_real (snd e))) l).

(** DeviceN mixing hints (table 73). *)
Definition mix_reads (c : mix_call) : bytes * (val -> Prop) :=
  match c with
  | MixSolidities l => (lit "Solidities", is_real_dict l)
  | MixOrder l => (lit "PrintingOrder", is_names l)
  | MixDotGain l => (lit "DotGain", is_real_dict l)
  end.

(** The parameters of the CIE-based spaces (tables 63, 64, 65): three-element white and
    black points, gamma one number per component, matrix and range as given, entries only
    if given. *)
Definition cie_gray (white : f3) (black : option f3) (gamma : option f32) : val -> Prop :=
  is_dict ([(lit "WhitePoint", is_reals (in_order3 white))]
           ++ entry_if (lit "BlackPoint") (fun t => is_reals (in_order3 t)) black
           ++ entry_if (lit "Gamma") is_real gamma).
Definition cie_rgb (white : f3) (black gamma : option f3) (matrix : option f9) : val -> Prop :=
  is_dict ([(lit "WhitePoint", is_reals (in_order3 white))]
           ++ entry_if (lit "BlackPoint") (fun t => is_reals (in_order3 t)) black
           ++ entry_if (lit "Gamma") (fun t => is_reals (in_order3 t)) gamma
           ++ entry_if (lit "Matrix") (fun t => is_reals (in_order9 t)) matrix).
Definition cie_lab (white : f3) (black : option f3) (range : option f4) : val -> Prop :=
  is_dict ([(lit "WhitePoint", is_reals (in_order3 white))]
           ++ entry_if (lit "BlackPoint") (fun t => is_reals (in_order3 t)) black
           ++ entry_if (lit "Range") (fun t => is_reals (in_order4 t)) range).

Definition device_family (d : device_cs) : bytes :=
  match d with DevGray => lit "DeviceGray" | DevRgb => lit "DeviceRGB" | DevCmyk => lit "DeviceCMYK" end.

(** Colour spaces: device spaces are names, all others arrays starting with the family
    name.  Separation: [[/Separation name alternate tint]]; DeviceN:
    [[/DeviceN names alternate tint attributes]]; the elements after the second are one
    per call, in call order. *)
Inductive cs_reads : cs -> val -> Prop :=
| R_cal_rgb w b g m v : cie_rgb w b g m v -> cs_reads (CsCalRgb w b g m) (VArr [VName (lit "CalRGB"); v])
| R_cal_gray w b g v : cie_gray w b g v -> cs_reads (CsCalGray w b g) (VArr [VName (lit "CalGray"); v])
| R_lab w b r v : cie_lab w b r v -> cs_reads (CsLab w b r) (VArr [VName (lit "Lab"); v])
| R_icc r : cs_reads (CsIccBased r) (VArr [VName (lit "ICCBased"); VRef r 0])
| R_gray : cs_reads CsDeviceGray (VName (lit "DeviceGray"))
| R_rgb : cs_reads CsDeviceRgb (VName (lit "DeviceRGB"))
| R_cmyk : cs_reads CsDeviceCmyk (VName (lit "DeviceCMYK"))
| R_separation n calls vs :
    Forall2 part_reads calls vs ->
    cs_reads (CsSeparation n calls) (VArr (VName (lit "Separation") :: VName n :: vs))
| R_device_n ns calls vns vs :
    is_names ns vns -> Forall2 part_reads calls vs ->
    cs_reads (CsDeviceN ns calls) (VArr (VName (lit "DeviceN") :: vns :: vs))
| R_indexed base hival table :
    cs_reads (CsIndexed base hival table)
             (VArr [VName (lit "Indexed"); VName base; VInt hival; VStr table])
| R_pattern base : cs_reads (CsPattern base) (VArr [VName (lit "Pattern"); VName base])
with part_reads : part -> val -> Prop :=
| R_alt_device d : part_reads (AlternateDevice d) (VName (device_family d))
| R_alt_space c v : cs_reads c v -> part_reads (AlternateSpace c) v
| R_alt_ref r : part_reads (AlternateRef r) (VRef r 0)
| R_tint_exp l v : is_exponential l v -> part_reads (TintExponential l) v
| R_tint_stitch l v : is_stitching l v -> part_reads (TintStitching l) v
| R_tint_ref r : part_reads (TintRef r) (VRef r 0)
| R_attrs l d : Forall2 attr_reads l d -> part_reads (Attrs l) (VDict d)
with attr_reads : attr_call -> bytes * val -> Prop :=
| R_subtype nch : attr_reads (AtSubtype nch)
    (lit "Subtype", VName (match nch with true => lit "NChannel" | false => lit "DeviceN" end))
| R_colorants l d :
    Forall2 (fun e x => fst x = fst e /\ means (ODict (snd e)) (snd x)) l d ->
    attr_reads (AtColorants l) (lit "Colorants", VDict d)
| R_process l d : Forall2 proc_reads l d -> attr_reads (AtProcess l) (lit "Process", VDict d)
| R_mixing l v : is_dict (map mix_reads l) v -> attr_reads (AtMixingHints l) (lit "MixingHints", v)
with proc_reads : proc_call -> bytes * val -> Prop :=
| R_proc_name n : proc_reads (PrColorSpace n) (lit "ColorSpace", VName n)
| R_proc_space c v : cs_reads c v -> proc_reads (PrColorSpaceArray c) (lit "ColorSpace", v)
| R_components l v : is_names l v -> proc_reads (PrComponents l) (lit "Components", v).

(** ** Order of calls *)

Definition is_alternate (p : part) : Prop :=
  match p with AlternateDevice _ | AlternateSpace _ | AlternateRef _ => True | _ => False end.
Definition is_tint (p : part) : Prop :=
  match p with TintExponential _ | TintStitching _ | TintRef _ => True | _ => False end.
Definition is_attrs (p : part) : Prop := match p with Attrs _ => True | _ => False end.

(** The calls that do not panic: [Separation] takes an alternate space first and then tints, [DeviceN] an alternate space,
    one tint transform and then attributes; nothing else restricts the calls. *)
Definition separation_order (calls : list part) : Prop :=
  calls = [] \/ exists a ts, calls = a :: ts /\ is_alternate a /\ Forall is_tint ts.
Definition device_n_order (calls : list part) : Prop :=
  calls = [] \/ (exists a, calls = [a] /\ is_alternate a) \/
  exists a t attrs, calls = a :: t :: attrs /\ is_alternate a /\ is_tint t /\ Forall is_attrs attrs.
Section All.
  Context {A : Type} (P : A -> Prop).
  Fixpoint all_of (l : list A) : Prop := match l with [] => True | a :: r => P a /\ all_of r end.
End All.
Fixpoint cs_allowed (c : cs) : Prop :=
  match c with
  | CsSeparation _ l => separation_order l /\ all_of (fun p => part_allowed p) l
  | CsDeviceN _ l => device_n_order l /\ all_of (fun p => part_allowed p) l
  | _ => True
  end
with part_allowed (p : part) : Prop :=
  match p with
  | AlternateSpace c => cs_allowed c
  | Attrs l => all_of (fun a => attr_allowed a) l
  | _ => True
  end
with attr_allowed (a : attr_call) : Prop :=
  match a with AtProcess l => all_of (fun p => proc_allowed p) l | _ => True end
with proc_allowed (p : proc_call) : Prop :=
  match p with PrColorSpaceArray c => cs_allowed c | _ => True end.

(** ** What the caller may pass: finite numbers, valid references, no empty names. *)

Definition ref_ok (r : Z) : bool := (0 <? r) && (r <=? i32_max).
Definition name_ok (n : bytes) : bool := negb (is_nil n).
Definition obj_arg_ok (o : obj) : bool := obj_ok o && names_nonempty o.

Definition exp_ok (c : exp_call) : bool :=
  match c with ExDomain l | ExRange l | ExC0 l | ExC1 l => forallb real_ok l | ExN n => real_ok n end.
Definition stitch_ok (c : stitch_call) : bool :=
  match c with
  | StDomain l | StRange l | StBounds l | StEncode l => forallb real_ok l
  | StFunctions l => forallb ref_ok l
  end.
Definition mix_ok (c : mix_call) : bool :=
  match c with
  | MixSolidities l | MixDotGain l => forallb (fun e => name_ok (fst e) && real_ok (snd e)) l
  | MixOrder l => forallb name_ok l
  end.
Definition opt_ok {A} (f : A -> bool) (o : option A) : bool :=
  match o with Some a => f a | None => true end.
Definition ok3 (t : f3) : bool := forallb real_ok (in_order3 t).
Definition ok4 (t : f4) : bool := forallb real_ok (in_order4 t).
Definition ok9 (t : f9) : bool := forallb real_ok (in_order9 t).

Fixpoint cs_ok (c : cs) : bool :=
  match c with
  | CsCalRgb w b g m => ok3 w && opt_ok ok3 b && opt_ok ok3 g && opt_ok ok9 m
  | CsCalGray w b g => ok3 w && opt_ok ok3 b && opt_ok real_ok g
  | CsLab w b r => ok3 w && opt_ok ok3 b && opt_ok ok4 r
  | CsIccBased r => ref_ok r
  | CsDeviceRgb | CsDeviceCmyk | CsDeviceGray => true
  | CsSeparation n l => name_ok n && forallb (fun p => part_ok p) l
  | CsDeviceN ns l => forallb name_ok ns && forallb (fun p => part_ok p) l
  | CsIndexed base hival _ => name_ok base && in_i32 hival
  | CsPattern base => name_ok base
  end
with part_ok (p : part) : bool :=
  match p with
  | AlternateDevice _ => true
  | AlternateSpace c => cs_ok c
  | AlternateRef r | TintRef r => ref_ok r
  | TintExponential l => forallb exp_ok l
  | TintStitching l => forallb stitch_ok l
  | Attrs l => forallb (fun a => attr_ok a) l
  end
with attr_ok (a : attr_call) : bool :=
  match a with
  | AtSubtype _ => true
  | AtColorants l => forallb (fun e => name_ok (fst e) && obj_arg_ok (ODict (snd e))) l
  | AtProcess l => forallb (fun p => proc_ok p) l
  | AtMixingHints l => forallb mix_ok l
  end
with proc_ok (p : proc_call) : bool :=
  match p with
  | PrColorSpace n => name_ok n
  | PrColorSpaceArray c => cs_ok c
  | PrComponents l => forallb name_ok l
  end.

(** ** ICC profile streams (8.6.5.5, table 66) *)

Inductive icc_reads : icc_call -> bytes * val -> Prop :=
| R_icc_n n : icc_reads (IccN n) (lit "N", VInt n)
| R_icc_alt c v : cs_reads c v -> icc_reads (IccAlternate c) (lit "Alternate", v)
| R_icc_alt_name n : icc_reads (IccAlternateName n) (lit "Alternate", VName n)
| R_icc_range l v : is_reals l v -> icc_reads (IccRange l) (lit "Range", v)
| R_icc_metadata r : icc_reads (IccMetadata r) (lit "Metadata", VRef r 0).

(** The profile takes one, three or four components. *)
Definition icc_allowed (c : icc_call) : Prop :=
  match c with
  | IccN n => n = 1 \/ n = 3 \/ n = 4
  | IccAlternate c => cs_allowed c
  | _ => True
  end.

Definition icc_ok (c : icc_call) : bool :=
  match c with
  | IccN n => in_i32 n
  | IccAlternate c => cs_ok c
  | IccAlternateName n => name_ok n
  | IccRange l => forallb real_ok l
  | IccMetadata r => ref_ok r
  end.

(** ** Predefined RGB spaces

    With components (1, 1, 1) and positive gamma, CalRGB gives X, Y, Z as the column sums of
    the matrix; these must be the white point, here up to 1/1000. *)
Definition near (a b c w : f32) : bool :=
  Z.abs (f32_units a + f32_units b + f32_units c - f32_units w) * 1000 <? 2 ^ 149.

Definition white_is_white (c : cs) : bool :=
  match c with
  | CsCalRgb (wx, wy, wz) None (Some (gr, gg, gb)) (Some ((xa, ya, za), (xb, yb, zb), (xc, yc, zc))) =>
      near xa xb xc wx && near ya yb yc wy && near za zb zc wz &&
      ((0 <? f32_units gr) && (0 <? f32_units gg) && (0 <? f32_units gb)) && (f32_units wy =? 2 ^ 149)
  | _ => false
  end.

(** The numbers that the predefined spaces stand for, in units of 10^-7: white point, gamma of each component, matrix
    [XA YA ZA XB YB ZB XC YC ZC] (the columns are the tristimulus values of the primaries). *)
Definition calibration : Type := list Z * list Z * list Z.
Definition d65 : list Z := [9505000; 10000000; 10888000].
Definition d50 : list Z := [9642000; 10000000; 8248900].
Definition illuminant_c : list Z := [9807000; 10000000; 11822000].
Definition illuminant_e : list Z := [10000000; 10000000; 10000000].
Definition gamma_of (g : Z) : list Z := [g; g; g].
Definition srgb_numbers : calibration :=
  (d65, gamma_of 22000000, [4124000; 2126000; 193000; 3576000; 7150000; 1192000; 1805000; 722000; 9505000]).
Definition adobe_rgb_numbers : calibration :=
  (d65, gamma_of 21992188, [5766700; 2973400; 270300; 1855600; 6273600; 706900; 1882300; 752900; 9913400]).
Definition display_p3_numbers : calibration :=
  (d65, gamma_of 26000000, [4865700; 2297000; 0; 2656700; 6917400; 451100; 1982200; 792900; 10439400]).
Definition pro_photo_numbers : calibration :=
  (d50, gamma_of 18000000, [7976749; 2880402; 0; 1351917; 7118741; 0; 313534; 857; 8252100]).
Definition eci_rgb_numbers : calibration :=
  (d50, gamma_of 18000000, [6502043; 3202499; 0; 1780774; 6020711; 678390; 1359384; 776791; 7573710]).
Definition ntsc_numbers : calibration :=
  (illuminant_c, gamma_of 22000000, [6068909; 2989164; 0; 1735011; 5865990; 660957; 2003480; 1144845; 11162243]).
Definition pal_numbers : calibration :=
  (d65, gamma_of 22000000, [4306190; 2220379; 201853; 3415419; 7066384; 1295504; 1783091; 713236; 9390944]).

(** A reader of calibrated spaces: the numbers in the array and dictionary that were read, in the same units. *)
Definition number7 (v : val) : option Z :=
  match v with
  | VInt n => Some (n * 10 ^ 7)
  | VReal n k => if (k <=? 7)%nat then Some (n * 10 ^ (7 - Z.of_nat k)) else None
  | _ => None
  end.
Fixpoint numbers7 (l : list val) : option (list Z) :=
  match l with
  | [] => Some []
  | v :: l => match number7 v, numbers7 l with Some n, Some r => Some (n :: r) | _, _ => None end
  end.
Definition entry7 (k : bytes) (d : list (bytes * val)) : option (list Z) :=
  match lookup k d with
  | Some (VArr l) => numbers7 l
  | Some v => option_map (fun n => [n]) (number7 v)
  | None => None
  end.
Definition read_cal_rgb (v : val) : option calibration :=
  match v with
  | VArr [VName n; VDict d] =>
      if bytes_eqb n (lit "CalRGB") then
        match entry7 (lit "WhitePoint") d, entry7 (lit "Gamma") d, entry7 (lit "Matrix") d with
        | Some w, Some g, Some m => Some (w, g, m)
        | _, _, _ => None
        end
      else None
  | _ => None
  end.
Definition read_cal_gray (v : val) : option (list Z * list Z) :=
  match v with
  | VArr [VName n; VDict d] =>
      if bytes_eqb n (lit "CalGray") then
        match entry7 (lit "WhitePoint") d, entry7 (lit "Gamma") d with
        | Some w, Some g => Some (w, g)
        | _, _ => None
        end
      else None
  | _ => None
  end.
(** How far the color (1, 1, 1) is from the white point, per coordinate. *)
Definition white_error (c : calibration) : option (Z * Z * Z) :=
  match c with
  | ([wx; wy; wz], _, [xa; ya; za; xb; yb; zb; xc; yc; zc]) =>
      Some (Z.abs (xa + xb + xc - wx), Z.abs (ya + yb + yc - wy), Z.abs (za + zb + zc - wz))
  | _ => None
  end.
