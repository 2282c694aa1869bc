(** Specification vocabulary of the typed writers: entries per call, argument conditions. *)

From Coq Require Import ZArith List Bool.
From Verif Require Import Bytes ModelFloat ModelBuf ModelObject ModelChunk ModelColor ModelSmall ModelTw SpecLex SpecObj SpecText SpecMeans
  SpecTyped SpecColor SpecSmall SpecChunk.
Import ListNotations.
Local Open Scope Z_scope.

Definition entry_spec : Type := bytes * (val -> Prop).

(** A call of an untyped method adds its key with its object. *)
Definition raw_doc {C} (doc : C -> list entry_spec) (c : or_raw C) : list entry_spec :=
  match c with Typed c => doc c | Raw k o => [(k, means o)] end.
Definition raw_ok {C} (ok : C -> bool) (c : or_raw C) : bool :=
  match c with Typed c => ok c | Raw k o => name_ok k && obj_arg_ok o end.
(** A dictionary: the entries of the constructor, then those of the calls, in call order. *)
Definition writer_reads {C} (header : list entry_spec) (doc : C -> list entry_spec) (cs : list (or_raw C)) : val -> Prop :=
  is_dict (header ++ flat_map (raw_doc doc) cs).

Definition item_doc {C} (doc : C -> list (val -> Prop)) (c : or_item C) : list (val -> Prop) :=
  match c with TypedItem c => doc c | RawItem o => [means o] end.
Definition item_ok {C} (ok : C -> bool) (c : or_item C) : bool :=
  match c with TypedItem c => ok c | RawItem o => obj_arg_ok o end.
Definition array_reads {C} (doc : C -> list (val -> Prop)) (cs : list (or_item C)) : val -> Prop :=
  is_array (flat_map (item_doc doc) cs).

(** Calls that do not panic. *)
Definition raw_allowed {C} (allowed : C -> Prop) (c : or_raw C) : Prop :=
  match c with Typed c => allowed c | Raw _ _ => True end.

Definition is_dict_of {A} (p : A -> val -> Prop) (l : list (bytes * A)) : val -> Prop :=
  is_dict (map (fun e => (fst e, p (snd e))) l).
Definition dict_ok {A} (ok : A -> bool) (l : list (bytes * A)) : bool :=
  forallb (fun e => name_ok (fst e) && ok (snd e)) l.

(** ** Arguments *)

Definition is_textlike (t : textlike) (v : val) : Prop :=
  match t with
  | TextPlain t => is_text t v
  | TextLang segs => exists s, v = VStr s /\ lang_decode s = Some (map seg_decoded segs)
  end.
Definition text_ok (t : list Z) : bool := forallb is_scalar t.
Definition textlike_ok (t : textlike) : bool :=
  match t with TextPlain t => text_ok t | TextLang segs => forallb (fun s => forallb is_scalar (snd s) && seg_clean s) segs end.

Definition is_date_of (d : date) (v : val) : Prop := exists s, v = VStr s /\ date_parse s = Some (date_reading d).
Definition rect_ok (r : rect) : bool := real_ok (x1 r) && real_ok (y1 r) && real_ok (x2 r) && real_ok (y2 r).
Definition u8_ok (z : Z) : bool := (0 <=? z) && (z <=? 255).
Definition u16_ok (z : Z) : bool := (0 <=? z) && (z <=? 65535).
(** The elements of an array of six numbers, first to last. *)
Definition in_order6 (t : f6) : list f32 := let '((a, b, c), (d, e, f)) := t in [a; b; c; d; e; f].
Definition ok6 (t : f6) : bool := forallb real_ok (in_order6 t).

(** A set of flags: the bits that are set are those of the given flags, where [pos] is the
    position (from 1) in the table of the standard. *)
Definition is_flags {F} (pos : F -> Z) (l : list F) (v : val) : Prop :=
  exists z, v = VInt z /\ 0 <= z /\ forall k, 0 <= k -> (Z.testbit z k = true <-> exists f, In f l /\ pos f = k + 1).

(** A version as a name: two decimal numbers with a period between them. *)
Definition is_version (major minor : Z) (v : val) : Prop :=
  exists a b, v = VName (a ++ lit "." ++ b) /\ a <> [] /\ b <> [] /\ forallb is_digit a = true /\ forallb is_digit b = true /\
    digits_val a = major /\ digits_val b = minor.

Definition is_null (v : val) : Prop := v = VNull.

(** ** Streams *)

Definition stream_doc {S C} (sdoc : S -> list entry_spec) (doc : C -> list entry_spec) (c : or_stream S C) : list entry_spec :=
  match c with STyped c => doc c | SStream s => sdoc s | SRaw k o => [(k, means o)] end.
Definition stream_ok {S C} (sok : S -> bool) (ok : C -> bool) (c : or_stream S C) : bool :=
  match c with STyped c => ok c | SStream s => sok s | SRaw k o => name_ok k && obj_arg_ok o end.
Definition stream_allowed {S C} (sallowed : S -> Prop) (allowed : C -> Prop) (c : or_stream S C) : Prop :=
  match c with STyped c => allowed c | SStream s => sallowed s | SRaw _ _ => True end.

(** Whatever is in the chunk, writing the stream appends one indirect object that reads back
    as a stream with this data, whose dictionary has [/Length] and then entries satisfying
    [xs]; what follows the object does not matter. *)
Definition stream_reads (es : list (bytes * obj)) (xs : list entry_spec) : Prop :=
  forall id data c c', chunk_stream id es data c = Some c' ->
  exists s vs, chunk_bytes c' = chunk_bytes c ++ s /\ is_dict xs (VDict vs) /\
    forall rest, exists ws, forallb is_ws ws = true /\
      parse_indirect (s ++ rest) = Some (IStream id 0 ((lit "Length", VInt (blen data)) :: vs) data, ws ++ rest).
