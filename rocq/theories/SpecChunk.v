(** Specification: what a chunk should contain after a history of operations, as a list of
    (id, object) pairs; and when a parsed indirect object is the one that was asked for. *)

From Coq Require Import ZArith List Bool.
From Verif Require Import Bytes ModelFloat ModelBuf ModelObject ModelChunk SpecLex SpecObj SpecMeans SpecRenum.
Import ListNotations.
Local Open Scope Z_scope.

(** What was written under one id: an object, or a stream with the extra entries of its
    dictionary and its data. *)
Inductive body : Type :=
| BObj (o : obj)
| BStream (entries : list (bytes * obj)) (data : bytes).

Definition item : Type := Z * body.

(** All references of an item, in document order: its own id first. *)
Definition entries_refs (es : list (bytes * obj)) : list Z := flat_map (fun e => obj_refs (snd e)) es.
Definition body_refs (b : body) : list Z :=
  match b with BObj o => obj_refs o | BStream es _ => entries_refs es end.
Definition item_refs (it : item) : list Z := fst it :: body_refs (snd it).

(** Renumbering an item with a pure function. *)
Definition map_entries (f : Z -> Z) (es : list (bytes * obj)) : list (bytes * obj) :=
  map (fun e => (fst e, map_refs f (snd e))) es.
Definition map_body (f : Z -> Z) (b : body) : body :=
  match b with BObj o => BObj (map_refs f o) | BStream es d => BStream (map_entries f es) d end.
Definition map_item (f : Z -> Z) (it : item) : item := (f (fst it), map_body f (snd it)).

(** ... and with a stateful one: the id first, then the references in document order. *)
Section Stateful.
  Context {T : Type} (f : T -> Z -> Z * T).
  Definition map_entries_st (es : list (bytes * obj)) (t : T) : list (bytes * obj) * T :=
    thread (fun e t => let '(v, t) := map_refs_st f (snd e) t in ((fst e, v), t)) es t.
  Definition map_body_st (b : body) (t : T) : body * T :=
    match b with
    | BObj o => let '(o, t) := map_refs_st f o t in (BObj o, t)
    | BStream es d => let '(es, t) := map_entries_st es t in (BStream es d, t)
    end.
  Definition map_item_st (it : item) (t : T) : item * T :=
    let '(id, t) := f t (fst it) in
    let '(b, t) := map_body_st (snd it) t in ((id, b), t).
End Stateful.

(** The items of a history, in order. *)
Fixpoint hist_items (h : hist) : list item :=
  match h with
  | HNew _ => []
  | HObject h id o => hist_items h ++ [(id, BObj o)]
  | HStream h id es data => hist_items h ++ [(id, BStream es data)]
  | HExtend h other => hist_items h ++ hist_items other
  | HMerge h _ => hist_items h
  | HRenumber target source T f s =>
      hist_items target ++ fst (thread (map_item_st f) (hist_items source) s)
  end.

(** Ids are positive i32 ([Ref]), values have their Rust types, closures return [Ref]s. *)
Definition id_ok (id : Z) : bool := (0 <? id) && (id <=? i32_max).
Definition entries_typed (es : list (bytes * obj)) : bool := forallb (fun e => obj_typed (snd e)) es.
Definition body_typed (b : body) : bool :=
  match b with BObj o => obj_typed o | BStream es _ => entries_typed es end.
Definition item_typed (it : item) : bool := id_ok (fst it) && body_typed (snd it).

Fixpoint hist_typed (h : hist) : Prop :=
  match h with
  | HNew _ => True
  | HObject h id o => hist_typed h /\ item_typed (id, BObj o) = true
  | HStream h id es data => hist_typed h /\ item_typed (id, BStream es data) = true
  | HExtend h other => hist_typed h /\ hist_typed other
  | HMerge h _ => hist_typed h
  | HRenumber target source T f s =>
      hist_typed target /\ hist_typed source /\ (forall t id, id_ok (fst (f t id)) = true)
  end.

(** Streams are small enough for their length to be an i32. *)
Definition body_fits (b : body) : bool :=
  match b with BObj _ => true | BStream _ d => blen d <=? i32_max end.
Definition items_fit (l : list item) : bool := forallb (fun it => body_fits (snd it)) l.

(** Every name is kept apart from what follows (no empty names before regular characters:
    property C13), every real is finite, no text contains the escape character. *)
Definition entries_readable (es : list (bytes * obj)) : bool :=
  obj_ok (ODict es) && separable (ODict es).
Definition body_readable (b : body) : bool :=
  match b with BObj o => obj_ok o && separable o | BStream es _ => entries_readable es end.
Definition item_readable (it : item) : bool := id_ok (fst it) && body_readable (snd it).

(** The parsed indirect object is the item. *)
Inductive item_means : item -> indirect -> Prop :=
| IM_obj id o v : means o v -> item_means (id, BObj o) (IObj id 0 v)
| IM_stream id es data vs :
    means (ODict es) (VDict vs) ->
    item_means (id, BStream es data)
               (IStream id 0 ((lit "Length", VInt (blen data)) :: vs) data).

(** Every object and stream written in a history is readable; renumbering closures may
    return any ids. *)
Fixpoint hist_readable (h : hist) : Prop :=
  match h with
  | HNew _ => True
  | HObject h id o => hist_readable h /\ body_readable (BObj o) = true
  | HStream h id es data => hist_readable h /\ body_readable (BStream es data) = true
  | HExtend h other => hist_readable h /\ hist_readable other
  | HMerge h _ => hist_readable h
  | HRenumber target source T f s => hist_readable target /\ hist_readable source
  end.

(** Write the items of a list one after the other into a fresh chunk. *)
Definition write_item (h : hist) (it : item) : hist :=
  match snd it with
  | BObj o => HObject h (fst it) o
  | BStream es data => HStream h (fst it) es data
  end.
Definition written_anew (pretty : bool) (l : list item) : hist :=
  fold_left write_item l (HNew pretty).

(** Every chunk involved in a history has the given setting. *)
Fixpoint hist_uniform (p : bool) (h : hist) : Prop :=
  match h with
  | HNew q => q = p
  | HObject h _ _ | HStream h _ _ _ | HMerge h _ => hist_uniform p h
  | HExtend h other => hist_uniform p h /\ hist_uniform p other
  | HRenumber target source _ _ _ => hist_uniform p target /\ hist_uniform p source
  end.
