(** Specification: what is left in a document if writers may be leaked, objects left unused, panics caught, and chunks with damaged objects
    renumbered. *)

From Coq Require Import ZArith List Bool.
From Verif Require Import Bytes ModelFloat ModelBuf ModelObject ModelRenumber ModelChunk ModelApi ModelPdf ModelCrash ModelLeak SpecLex SpecObj SpecMeans
  SpecRenum SpecChunk SpecApi SpecPdf SpecCrash.
Import ListNotations.
Local Open Scope Z_scope.

(** What an operation leaves: a whole object or stream, or a damaged one. *)
Inductive left := Whole (it : item) | Damaged (id : Z).
Definition left_id (x : left) : Z := match x with Whole it => fst it | Damaged id => id end.

(** A writer was forgotten, or an object left unused. *)
Definition something_lost (cs : list leak_call) : Prop := In LForget cs \/ In (LCall CAbandon) cs.

(** An object is damaged only by what happened to its own writers: one of them was forgotten, or a panic (or the end of the scope) came while a
    place for a value was open.  Otherwise it is whole, with all that was written. *)
Inductive object_leaves (id : Z) (cs : list leak_call) : left -> Prop :=
| OV_tree calls o : cs = map LCall calls -> tree_so_far calls o -> object_leaves id cs (Whole (id, BObj o))
| OV_open calls : cs = map LCall calls -> consumed calls -> stops_open calls -> object_leaves id cs (Damaged id)
| OV_lost : something_lost cs -> object_leaves id cs (Damaged id).
Inductive stream_leaves (id : Z) (data : bytes) (cs : list leak_call) : left -> Prop :=
| SV_stream calls es : blen data <= i32_max -> cs = map LCall calls -> entries_so_far calls es -> stream_leaves id data cs (Whole (id, BStream es data))
| SV_open calls : blen data <= i32_max -> cs = map LCall calls -> consumed calls -> stream_stops_open calls -> stream_leaves id data cs (Damaged id)
| SV_lost : blen data <= i32_max -> something_lost cs -> stream_leaves id data cs (Damaged id)
| SV_too_long : i32_max < blen data -> stream_leaves id data cs (Whole (id, BObj (ODict []))).

(** The closure is called some number of times. *)
Inductive asked {T} (f : T -> Z -> option (Z * T)) : T -> T -> Prop :=
| As_none t : asked f t t
| As_once t id n t1 t2 : f t id = Some (n, t1) -> asked f t1 t2 -> asked f t t2.

(** [copies f l t out]: renumbering the objects [l], starting with the closure state [t], leaves [out].  Whole objects become whole objects in which
    the id and all references were given to the closure, in order.  A damaged object is left out or becomes a damaged object under the number that
    the closure gave for its id; the closure may be asked about what looks like a reference in it. *)
Inductive copies {T} (f : T -> Z -> option (Z * T)) : list left -> T -> list left -> Prop :=
| Cp_end t : copies f [] t []
| Cp_panic x l t : f t (left_id x) = None -> copies f (x :: l) t []
| Cp_whole id bd l t new t1 bd' t2 out :
    f t id = Some (new, t1) -> map_body_st (answering f) bd (Some t1) = (bd', Some t2) -> copies f l t2 out ->
    copies f (Whole (id, bd) :: l) t (Whole (new, bd') :: out)
| Cp_cut id bd l t new t1 bd' :
    f t id = Some (new, t1) -> map_body_st (answering f) bd (Some t1) = (bd', None) -> copies f (Whole (id, bd) :: l) t [Damaged new]
| Cp_left_out id l t new t1 out : f t id = Some (new, t1) -> copies f l t1 out -> copies f (Damaged id :: l) t out
| Cp_damaged id l t new t1 t2 out :
    f t id = Some (new, t1) -> asked f t1 t2 -> copies f l t2 out -> copies f (Damaged id :: l) t (Damaged new :: out)
| Cp_damaged_cut id l t new t1 t2 id2 :
    f t id = Some (new, t1) -> asked f t1 t2 -> f t2 id2 = None -> copies f (Damaged id :: l) t [Damaged new].

Inductive chunk_leaves : leak_hist -> list left -> Prop :=
| V_new p : chunk_leaves (KkNew p) []
| V_object h id cs l x : chunk_leaves h l -> object_leaves id cs x -> chunk_leaves (KkObject h id cs) (l ++ [x])
| V_stream h id data cs l x : chunk_leaves h l -> stream_leaves id data cs x -> chunk_leaves (KkStream h id data cs) (l ++ [x])
| V_extend h o l l' : chunk_leaves h l -> chunk_leaves o l' -> chunk_leaves (KkExtend h o) (l ++ l')
| V_merge h m l : chunk_leaves h l -> chunk_leaves (KkMerge h m) l
| V_renumber t src T f (s : T) l l' out : chunk_leaves t l -> chunk_leaves src l' -> copies f l' s out -> chunk_leaves (KkRenumber t src T f s) (l ++ out).

Inductive op_leaves : leak_op -> list left -> Prop :=
| OpV_object id cs x : object_leaves id cs x -> op_leaves (LpObject id cs) [x]
| OpV_stream id data cs x : stream_leaves id data cs x -> op_leaves (LpStream id data cs) [x]
| OpV_extend o l : chunk_leaves o l -> op_leaves (LpExtend o) l
| OpV_merge m : op_leaves (LpMerge m) []
| OpV_renumber src T f (s : T) l out : chunk_leaves src l -> copies f l s out -> op_leaves (LpRenumber src T f s) out
| OpV_catalog id cs x : object_leaves id (LCall CDict :: LCall (CPair (lit "Type") (PName (lit "Catalog"))) :: cs) x -> op_leaves (LpCatalog id cs) [x]
| OpV_info id cs x : object_leaves id (LCall CDict :: cs) x -> op_leaves (LpInfo id cs) [x]
| OpV_file_id x : op_leaves (LpFileId x) []
| OpV_version M N : op_leaves (LpVersion M N) []
| OpV_marker m : op_leaves (LpMarker m) [].
Inductive document_leaves : list leak_op -> list left -> Prop :=
| D_none : document_leaves [] []
| D_op op ops l l' : op_leaves op l -> document_leaves ops l' -> document_leaves (op :: ops) (l ++ l').

(** Ids are positive i32, the values have their Rust types, closures answer with ids. *)
Definition values_typed (c : leak_call) : bool :=
  match c with
  | LCall (CPrimitive p) | LCall (CItem p) | LCall (CPair _ p) => prim_typed p
  | LCall (CItems l) => forallb prim_typed l
  | LCall (CPairs l) => forallb (fun e => prim_typed (snd e)) l
  | _ => true
  end.
Definition calls_typed (cs : list leak_call) : Prop := forallb values_typed cs = true.
Definition answers {T} (f : T -> Z -> option (Z * T)) : Prop := forall t id n t', f t id = Some (n, t') -> id_ok n = true.
Fixpoint leak_hist_typed (h : leak_hist) : Prop :=
  match h with
  | KkNew _ => True
  | KkObject h id cs | KkStream h id _ cs => leak_hist_typed h /\ id_ok id = true /\ calls_typed cs
  | KkExtend h o => leak_hist_typed h /\ leak_hist_typed o
  | KkMerge h _ => leak_hist_typed h
  | KkRenumber t src T f s => leak_hist_typed t /\ leak_hist_typed src /\ answers f
  end.
Definition leak_op_typed (op : leak_op) : Prop :=
  match op with
  | LpObject id cs | LpStream id _ cs | LpCatalog id cs | LpInfo id cs => id_ok id = true /\ calls_typed cs
  | LpExtend o => leak_hist_typed o
  | LpRenumber src T f s => leak_hist_typed src /\ answers f
  | LpVersion M N => 0 <= M < 256 /\ 0 <= N < 256
  | LpMerge _ | LpFileId _ | LpMarker _ => True
  end.

(** What the calls ask of the header and the trailer. *)
Definition leak_header_call (op : leak_op) : list pdf_op :=
  match op with
  | LpCatalog id _ => [PdfCatalog id []]
  | LpInfo id _ => [PdfInfo id []]
  | LpFileId x => [PdfFileId x]
  | LpVersion M N => [PdfVersion M N]
  | LpMarker m => [PdfMarker m]
  | _ => []
  end.
Definition leak_header_calls (ops : list leak_op) : list pdf_op := flat_map leak_header_call ops.

Definition whole (l : list left) : list item := flat_map (fun x => match x with Whole it => [it] | Damaged _ => [] end) l.
