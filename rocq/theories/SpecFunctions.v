(** Specification: functions (ISO 32000-1, 7.10), wherever they are referred to: the numbers, samples, programs and further functions that they are
    made of, with the defaults of the standard. *)

From Coq Require Import ZArith List Bool.
From Verif Require ModelCmap ModelContent SpecContent ModelPs SpecPs.
From Verif Require Import Bytes ModelFloat ModelBuf ModelObject ModelChunk ModelColor ModelSmall ModelPdf ModelTw ModelEnums ModelRoles ModelTwArgs
  ModelTwFiles ModelTwGraphics ModelTwAnnot ModelTwForms ModelTwAttr ModelTwXObj ModelTwFonts ModelTwDoc ModelFontDesc ModelDoc
  SpecLex SpecObj SpecText SpecMeans SpecRenum SpecChunk SpecFile SpecPdf SpecTyped SpecColor SpecSmall SpecTw SpecEnums SpecRoles SpecTwArgs
  SpecTwFiles SpecTwGraphics SpecTwAnnot SpecTwForms SpecTwAttr SpecTwXObj SpecTwFonts SpecTwDoc SpecFontDesc SpecDoc SpecPages SpecExtract SpecNav SpecViews.
Import ListNotations.
Local Open Scope Z_scope.

(** ** The reader *)

(** Numbers are kept as they are written. *)
Inductive pdf_function :=
| Sampled (domain range : list val) (size : list Z) (bits order : Z) (encode decode : list val) (samples : bytes)
| Exponential (domain : list val) (range : option (list val)) (c0 c1 : list val) (n : val)
| Stitching (domain : list val) (range : option (list val)) (parts : list pdf_function) (bounds encode : list val)
| Calculator (domain range : list val) (program : list SpecPs.psv).

Definition read_number (v : val) : option val := match v with VInt _ | VReal _ _ => Some v | _ => None end.
Definition read_whole (v : val) : option Z := match v with VInt z => Some z | _ => None end.
Definition read_array {A} (f : val -> option A) (v : val) : option (list A) := match v with VArr l => all_of (map f l) | _ => None end.
Definition read_numbers : val -> option (list val) := read_array read_number.
Definition or_default {A} (a : option A) (default : A) : A := match a with Some a => a | None => default end.
(** From 0 to the last sample of each dimension. *)
Definition whole_range (size : list Z) : list val := flat_map (fun s => [VInt 0; VInt (s - 1)]) size.

Section Reader.
  Variable decode : option val -> bytes -> option bytes.
  Variable resolved : Z -> option indirect.
  (** A dictionary, or a stream with its decoded data; directly or by reference. *)
  Definition dict_or_stream (v : val) : option (list (bytes * val) * option bytes) :=
    match v with
    | VDict d => Some (d, None)
    | VRef id 0 =>
        match resolved id with
        | Some (IObj _ _ (VDict d)) => Some (d, None)
        | Some (IStream _ _ d _) => option_map (fun s => (d, Some s)) (stream_content decode resolved id)
        | _ => None
        end
    | _ => None
    end.
  (** Tables 38 to 41. *)
  Fixpoint read_function (depth : nat) (v : val) : option pdf_function :=
    match depth with
    | O => None
    | S n =>
        bind (dict_or_stream v) (fun x => let d := fst x in
        required (lit "FunctionType") d (fun t => bind (read_whole t) (fun t =>
        required (lit "Domain") d (fun domain => bind (read_numbers domain) (fun domain =>
        bind (optional (lit "Range") d read_numbers) (fun range =>
        if t =? 0 then
          bind (snd x) (fun samples => bind range (fun range =>
          required (lit "Size") d (fun size => bind (read_array read_whole size) (fun size =>
          required (lit "BitsPerSample") d (fun bits => bind (read_whole bits) (fun bits =>
          bind (optional (lit "Order") d read_whole) (fun order =>
          bind (optional (lit "Encode") d read_numbers) (fun encode => bind (optional (lit "Decode") d read_numbers) (fun decode =>
          Some (Sampled domain range size bits (or_default order 1) (or_default encode (whole_range size)) (or_default decode range) samples))))))))))
        else if t =? 2 then
          bind (optional (lit "C0") d read_numbers) (fun c0 => bind (optional (lit "C1") d read_numbers) (fun c1 =>
          required (lit "N") d (fun n => bind (read_number n) (fun n =>
          Some (Exponential domain range (or_default c0 [VInt 0]) (or_default c1 [VInt 1]) n)))))
        else if t =? 3 then
          required (lit "Functions") d (fun parts => bind (read_array (read_function n) parts) (fun parts =>
          required (lit "Bounds") d (fun bounds => bind (read_numbers bounds) (fun bounds =>
          required (lit "Encode") d (fun encode => bind (read_numbers encode) (fun encode =>
          Some (Stitching domain range parts bounds encode)))))))
        else if t =? 4 then
          bind (snd x) (fun data => bind range (fun range => option_map (Calculator domain range) (SpecPs.ps_parse data)))
        else None))))))
    end.
End Reader.

(** ** The program *)

Inductive function_asked :=
| AskSampled (domain range : list f32) (size : list Z) (bits : Z) (order : option InterpolationOrder) (encode decode : option (list f32)) (samples : bytes)
| AskExponential (domain : list f32) (range c0 c1 : option (list f32)) (n : f32)
| AskStitching (domain : list f32) (range : option (list f32)) (parts : list (Z * function_asked)) (bounds encode : list f32)
| AskCalculator (domain range : list f32) (program : list ModelPs.psop).

(** The methods that are called on the writers of functions. *)
Definition exponential_given (calls : ExponentialFunction_calls) (domain : list f32) (range c0 c1 : option (list f32)) (n : f32) : Prop :=
  called (lit "Domain") <| ExponentialFunction_domain l => l |> calls (Some domain) /\
  called (lit "Range") <| ExponentialFunction_range l => l |> calls range /\
  called (lit "C0") <| ExponentialFunction_c0 l => l |> calls c0 /\
  called (lit "C1") <| ExponentialFunction_c1 l => l |> calls c1 /\
  called (lit "N") <| ExponentialFunction_n n => n |> calls (Some n).
Definition stitching_given (calls : StitchingFunction_calls) (domain : list f32) (range : option (list f32)) (ids : list Z) (bounds encode : list f32) : Prop :=
  called (lit "Domain") <| StitchingFunction_domain l => l |> calls (Some domain) /\
  called (lit "Range") <| StitchingFunction_range l => l |> calls range /\
  called (lit "Functions") <| StitchingFunction_functions ids => ids |> calls (Some ids) /\
  called (lit "Bounds") <| StitchingFunction_bounds l => l |> calls (Some bounds) /\
  called (lit "Encode") <| StitchingFunction_encode l => l |> calls (Some encode).

(** Where a function is written: under an id, or as part of another object (tint transforms, src/color.rs). *)
Inductive function_place :=
| ById (id : Z)
| InlineExponential (calls : ExponentialFunction_calls)
| InlineStitching (calls : StitchingFunction_calls).
Fixpoint function_written decode (ops : list doc_op) (place : function_place) (f : function_asked) : Prop :=
  match f with
  | AskSampled domain range size bits order encode decoded samples =>
      exists id data calls, place = ById id /\ In (DocTyped id (Ck_sampled_function data calls)) ops /\
        stream_called (lit "Domain") (fun _ => []) <| SampledFunction_domain l => l |> calls (Some domain) /\
        stream_called (lit "Range") (fun _ => []) <| SampledFunction_range l => l |> calls (Some range) /\
        stream_called (lit "Size") (fun _ => []) <| SampledFunction_size l => l |> calls (Some size) /\
        stream_called (lit "BitsPerSample") (fun _ => []) <| SampledFunction_bits_per_sample b => b |> calls (Some bits) /\
        stream_called (lit "Order") (fun _ => []) <| SampledFunction_order o => o |> calls order /\
        stream_called (lit "Encode") (fun _ => []) <| SampledFunction_encode l => l |> calls encode /\
        stream_called (lit "Decode") (fun _ => []) <| SampledFunction_decode l => l |> calls decoded /\
        stored_with decode calls data samples
  | AskExponential domain range c0 c1 n =>
      exists calls, exponential_given calls domain range c0 c1 n /\
        match place with
        | ById id => In (DocTyped id (Ck_exponential_function calls)) ops
        | InlineExponential calls' => calls' = calls
        | InlineStitching _ => False
        end
  | AskStitching domain range parts bounds encode =>
      (exists calls, stitching_given calls domain range (map fst parts) bounds encode /\
        match place with
        | ById id => In (DocTyped id (Ck_stitching_function calls)) ops
        | InlineStitching calls' => calls' = calls
        | InlineExponential _ => False
        end) /\
      (fix all l := match l with [] => True | (id, f) :: l => function_written decode ops (ById id) f /\ all l end) parts
  | AskCalculator domain range program =>
      exists id data calls, place = ById id /\ In (DocTyped id (Ck_post_script_function data calls)) ops /\
        stream_called (lit "Domain") (fun _ => []) <| PostScriptFunction_domain l => l |> calls (Some domain) /\
        stream_called (lit "Range") (fun _ => []) <| PostScriptFunction_range l => l |> calls (Some range) /\
        forallb SpecPs.ps_ok program = true /\ stored_with decode calls data (inner (ModelPs.ps_encode program))
  end.

(** ** What is read is what was asked for *)

Definition numbers_are : list f32 -> list val -> Prop := Forall2 is_real.
Definition optionally {A B} (P : A -> B -> Prop) (a : option A) (b : option B) : Prop :=
  match a, b with Some a, Some b => P a b | None, None => True | _, _ => False end.
Definition numbers_or (default : list val) (a : option (list f32)) (vs : list val) : Prop :=
  match a with Some l => numbers_are l vs | None => vs = default end.
Inductive function_is : function_asked -> pdf_function -> Prop :=
| sampled_is d d' r r' size bits o e e' dc dc' samples : numbers_are d d' -> numbers_are r r' ->
    numbers_or (whole_range size) e e' -> numbers_or r' dc dc' ->
    function_is (AskSampled d r size bits o e dc samples)
      (Sampled d' r' size bits (match o with Some InterpolationOrder_Cubic => 3 | _ => 1 end) e' dc' samples)
| exponential_is d d' r r' c0 c0' c1 c1' n n' : numbers_are d d' -> optionally numbers_are r r' -> numbers_or [VInt 0] c0 c0' -> numbers_or [VInt 1] c1 c1' ->
    is_real n n' -> function_is (AskExponential d r c0 c1 n) (Exponential d' r' c0' c1' n')
| stitching_is d d' r r' ps ps' b b' e e' : numbers_are d d' -> optionally numbers_are r r' -> Forall2 (fun p => function_is (snd p)) ps ps' -> numbers_are b b' -> numbers_are e e' ->
    function_is (AskStitching d r ps b e) (Stitching d' r' ps' b' e')
| calculator_is d d' r r' p p' : numbers_are d d' -> numbers_are r r' -> Forall2 SpecPs.ps_means p p' -> function_is (AskCalculator d r p) (Calculator d' r' p').
