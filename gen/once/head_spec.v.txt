(** Specification: no dictionary has a key twice.

    The standard leaves open what a reader does with a dictionary in which a key occurs twice.  The writers do not check for this.  They need not,
    as long as the caller sets nothing twice: different methods that set different things write different keys, and none of them writes a key
    that the constructor has written. *)

From Coq Require Import ZArith List Bool.
From Verif Require ModelContent ModelCmap.
From Verif Require Import Bytes ModelFloat ModelBuf ModelObject ModelColor ModelSmall ModelPdf ModelTw ModelEnums ModelRoles ModelTwArgs ModelTwFiles ModelTwGraphics ModelTwAnnot ModelTwForms ModelTwAttr ModelTwXObj ModelTwFonts ModelTwDoc.
Import ListNotations.
Local Open Scope Z_scope.

(** The calls of the writer's own methods, and the keys of the entries inserted with the untyped methods. *)
Definition typed_calls {C} (cs : list (or_raw C)) : list C := flat_map (fun c => match c with Typed c => [c] | Raw _ _ => [] end) cs.
Definition raw_keys {C} (cs : list (or_raw C)) : list bytes := flat_map (fun c => match c with Typed _ => [] | Raw k _ => [k] end) cs.
Definition keys (o : obj) : list bytes := match o with ODict es => map fst es | _ => [] end.
Definition every {C} (c : C) : bool := true.

(** [sets c] names what the call [c] sets.  If nothing is set twice, and the keys that are inserted untyped are different from each other and from
    those the writer's own methods and constructor write, then no key occurs twice.  The names are not too coarse: if no key occurs twice, then
    nothing was set twice. *)
Definition never_twice {C} (own : C -> bool) (sets : C -> list bytes) (written : list (or_raw C) -> option obj) : Prop :=
  (forall cs typed o,
    forallb own (typed_calls cs) = true ->
    NoDup (flat_map sets (typed_calls cs)) ->
    written (map Typed (typed_calls cs)) = Some typed ->
    NoDup (raw_keys cs) -> (forall k, In k (raw_keys cs) -> ~ In k (keys typed)) ->
    written cs = Some o ->
    exists es, o = ODict es /\ NoDup (map fst es)) /\
  (forall cs es, forallb own cs = true -> written (map Typed cs) = Some (ODict es) -> NoDup (map fst es) -> NoDup (flat_map sets cs)).
(** For writers without untyped methods. *)
Definition never_twice_typed {C} (sets : C -> list bytes) (written : list C -> option obj) : Prop :=
  (forall cs o, NoDup (flat_map sets cs) -> written cs = Some o -> exists es, o = ODict es /\ NoDup (map fst es)) /\
  (forall cs es, written cs = Some (ODict es) -> NoDup (map fst es) -> NoDup (flat_map sets cs)).

(** Streams: there are the methods of [Stream], too, and the entry [/Length] comes first. *)
Definition stream_call_typed {C} (c : or_stream Stream_call C) : bool := match c with SRaw _ _ => false | _ => true end.
Definition stream_raw_keys {C} (cs : list (or_stream Stream_call C)) : list bytes :=
  flat_map (fun c => match c with SRaw k _ => [k] | _ => [] end) cs.
Definition Stream_sets (c : Stream_call) : list bytes :=
  match c with
  | Stream_filter _ => [lit "filter"]
  | Stream_decode_parms _ => [lit "decode_parms"]
  end.
Definition stream_call_sets {C} (sets : C -> list bytes) (c : or_stream Stream_call C) : list bytes :=
  match c with STyped c => sets c | SStream s => Stream_sets s | SRaw _ _ => [] end.
Definition never_twice_in_stream {C} (sets : C -> list bytes) (dict : list (or_stream Stream_call C) -> option (list (bytes * obj))) : Prop :=
  (forall cs typed es,
    NoDup (flat_map (stream_call_sets sets) cs) ->
    dict (List.filter stream_call_typed cs) = Some typed ->
    NoDup (stream_raw_keys cs) -> (forall k, In k (stream_raw_keys cs) -> ~ In k (lit "Length" :: map fst typed)) ->
    dict cs = Some es ->
    NoDup (lit "Length" :: map fst es)) /\
  (forall cs es, forallb stream_call_typed cs = true -> dict cs = Some es -> NoDup (map fst es) -> NoDup (flat_map (stream_call_sets sets) cs)).

(** ** What each method sets

    The name is that of the method, without the variant if there are several methods for the same thing.  Four pairs of methods share a name although
    they set different things: [annot_page_close] writes the key of [annot_page_visible] (C48), [signature_policy_commitment_type] that of
    [signature_policy_hash_algorithm] and [appearance_filter] that of [lock_document] (C52); [page_close] and [form_calculate] are for
    different objects. *)

