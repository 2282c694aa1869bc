(** Model of the typed writers: what they have in common.

    A typed writer owns a dictionary (or an array, or an object that is still unwritten) and
    writes one or several entries per call.  By the convention of ModelObject.v the object
    that is in the file once the writer is dropped is the tree with these entries, so a
    writer is modelled by the list of calls made on it, and a call by its entries.

    Most writers dereference to their dictionary (src/macros.rs:62-77 [deref!]), so that
    the untyped methods of [Dict] can be called as well, at any time, with any key and any
    object. *)

From Coq Require Import ZArith List Bool.
From Verif Require Import Bytes ModelFloat ModelBuf ModelObject ModelColor ModelSmall ModelPdf.
Import ListNotations.
Local Open Scope Z_scope.

(** A call of one of the writer's own methods, or [Dict::insert] / [Dict::pair]
    (src/object.rs:957-993) through the dereference. *)
Inductive or_raw (C : Type) := Typed (c : C) | Raw (key : bytes) (o : obj).
Arguments Typed {C} c.
Arguments Raw {C} key o.

Definition raw_entries {C} (f : C -> list (bytes * obj)) (c : or_raw C) : list (bytes * obj) :=
  match c with Typed c => f c | Raw k o => [(k, o)] end.

(** The object written by a dictionary writer whose constructor wrote [header]. *)
Definition dict_writer {C} (header : list (bytes * obj)) (f : C -> list (bytes * obj)) (cs : list (or_raw C)) : obj :=
  ODict (header ++ flat_map (raw_entries f) cs).

(** The same for writers with methods that may panic ([None]): the first panicking call
    ends the run of the program. *)
Definition raw_entries_opt {C} (f : C -> option (list (bytes * obj))) (c : or_raw C) : option (list (bytes * obj)) :=
  match c with Typed c => f c | Raw k o => Some [(k, o)] end.
Definition dict_writer_opt {C} (header : list (bytes * obj)) (f : C -> option (list (bytes * obj)))
  (cs : list (or_raw C)) : option obj :=
  option_map (fun l => ODict (header ++ concat l)) (all_some (raw_entries_opt f) cs).

(** [self.insert(key).start::<W>()] where [W] may panic. *)
Definition sub_entry (key : bytes) (o : option obj) : option (list (bytes * obj)) :=
  option_map (fun o => [(key, o)]) o.

(** Array writers: items of its own methods, or [Array::push] / [Array::item]. *)
Inductive or_item (C : Type) := TypedItem (c : C) | RawItem (o : obj).
Arguments TypedItem {C} c.
Arguments RawItem {C} o.
Definition raw_items {C} (f : C -> list obj) (c : or_item C) : list obj :=
  match c with TypedItem c => f c | RawItem o => [o] end.
Definition array_writer {C} (f : C -> list obj) (cs : list (or_item C)) : obj :=
  OArray (flat_map (raw_items f) cs).

(** src/object.rs:826-921 [TypedArray], 1012-1105 [TypedDict]: the same item writer for all. *)
Definition arr_of {A} (f : A -> obj) (l : list A) : obj := OArray (map f l).
Definition dict_of {A} (f : A -> obj) (l : list (bytes * A)) : obj := ODict (map (fun e => (fst e, f (snd e))) l).

(** ** Argument types *)

(** [impl TextStrLike] (src/object.rs:242-244, 330, 380): a text string, with or without
    language markers. *)
Inductive textlike := TextPlain (t : list Z) | TextLang (segs : list (langid * list Z)).
Definition text_prim (t : textlike) : prim :=
  match t with TextPlain t => PText t | TextLang segs => PTextLang segs end.

(** [[f32; 6]]. *)
Definition f6 : Type := f3 * f3.
Definition l6 (t : f6) : list f32 := let '(a, b) := t in l3 a ++ l3 b.

(** A bitflags value (src/actions.rs:234 and others): the union of some of the declared flags;
    [as i32] keeps the value as all flags are below bit 31. *)
Definition flags_bits {F} (bit : F -> Z) (l : list F) : Z := fold_left (fun a f => Z.lor a (bit f)) l 0.

(** [Name(format!("{major}.{minor}").as_bytes())] (src/structure.rs:98, 246). *)
Definition version_name (major minor : Z) : bytes := dec_u major ++ lit "." ++ dec_u minor.

(** ** Streams *)

(** src/object.rs:1226-1387 [DecodeParms]: see the generated writers; a stream writer has its own
    methods, those of [Stream] ([S]), and those of [Dict]. *)
Inductive or_stream (S C : Type) := STyped (c : C) | SStream (s : S) | SRaw (key : bytes) (o : obj).
Arguments STyped {S C} c.
Arguments SStream {S C} s.
Arguments SRaw {S C} key o.
Definition stream_entries {S C} (fs : S -> option (list (bytes * obj))) (f : C -> option (list (bytes * obj)))
  (c : or_stream S C) : option (list (bytes * obj)) :=
  match c with STyped c => f c | SStream s => fs s | SRaw k o => Some [(k, o)] end.
(** The entries of the stream dictionary after [/Length]. *)
Definition stream_writer {S C} (fs : S -> option (list (bytes * obj))) (header : list (bytes * obj))
  (f : C -> option (list (bytes * obj))) (cs : list (or_stream S C)) : option (list (bytes * obj)) :=
  option_map (fun l => header ++ concat l) (all_some (stream_entries fs f) cs).
