(** Specification: which objects a sequence of calls leaves in a document if any of them may have been cut short by a panic. *)

From Coq Require Import ZArith List Bool.
From Verif Require Import Bytes ModelFloat ModelBuf ModelObject ModelRenumber ModelChunk ModelApi ModelPdf ModelCrash SpecLex SpecObj SpecMeans
  SpecRenum SpecChunk SpecApi SpecPdf.
Import ListNotations.
Local Open Scope Z_scope.

(** The calls stop right after a place for a value was opened ([push], [insert], or the indirect object itself) and before it was filled. *)
Definition stops_open (cs : list call) : Prop :=
  expanded cs = [] \/ (exists before, expanded cs = before ++ [CPush]) \/ (exists before k, expanded cs = before ++ [CInsert k]).

(** [tree_so_far cs o]: [o] is the tree that the calls would have written if the caller had closed all open writers and made no further call. *)
Definition tree_so_far (cs : list call) (o : obj) : Prop := exists n, expanded cs ++ repeat CDrop n = calls_of o.
Definition entries_so_far (cs : list call) (es : list (bytes * obj)) : Prop := exists n, expanded cs ++ repeat CDrop n = inserts es ++ [CDrop].
Definition stream_stops_open (cs : list call) : Prop :=
  (exists before, expanded cs = before ++ [CPush]) \/ (exists before k, expanded cs = before ++ [CInsert k]).

(** What is left of an object, and of a stream: an item, or only a damaged object with this id. *)
Inductive object_left (id : Z) (cs : list call) : list item -> list Z -> Prop :=
| OL_tree o : tree_so_far cs o -> object_left id cs [(id, BObj o)] []
| OL_open : stops_open cs -> object_left id cs [] [id].
Inductive stream_left (id : Z) (data : bytes) (cs : list call) : list item -> list Z -> Prop :=
| SL_stream es : blen data <= i32_max -> entries_so_far cs es -> stream_left id data cs [(id, BStream es data)] []
| SL_open : blen data <= i32_max -> stream_stops_open cs -> stream_left id data cs [] [id]
| SL_too_long : i32_max < blen data -> stream_left id data cs [(id, BObj (ODict []))] [].

(** A closure that panics, as one that stops answering (the number 1 in that case plays no role: the result is then dropped). *)
Definition answering {T} (f : T -> Z -> option (Z * T)) (t : option T) (id : Z) : Z * option T :=
  match t with
  | Some t => match f t id with Some (n, t) => (n, Some t) | None => (1, None) end
  | None => (1, None)
  end.
(** The items that are copied completely before the closure panics, and the id of the one that is not. *)
Fixpoint copied {T} (f : T -> Z -> option (Z * T)) (its : list item) (t : T) : list item * list Z :=
  match its with
  | [] => ([], [])
  | it :: r =>
      match f t (fst it) with
      | None => ([], [])
      | Some (new, t) =>
          match map_body_st (answering f) (snd it) (Some t) with
          | (bd, Some t) => let '(a, d) := copied f r t in ((new, bd) :: a, d)
          | (_, None) => ([], [new])
          end
      end
  end.

(** [left_in h items damaged]: the objects that the history leaves complete, in order, and the ids of those it leaves damaged. *)
Inductive left_in : caught_hist -> list item -> list Z -> Prop :=
| L_new p : left_in (KNew p) [] []
| L_object h id cs a d a' d' : left_in h a d -> object_left id cs a' d' -> left_in (KObject h id cs) (a ++ a') (d ++ d')
| L_stream h id data cs a d a' d' : left_in h a d -> stream_left id data cs a' d' -> left_in (KStream h id data cs) (a ++ a') (d ++ d')
| L_extend h o a d a' d' : left_in h a d -> left_in o a' d' -> left_in (KExtend h o) (a ++ a') (d ++ d')
| L_merge h l a d : left_in h a d -> left_in (KMerge h l) a d
| L_renumber t src T f (s : T) a d : left_in t a d ->
    left_in (KRenumber t src T f s) (a ++ fst (copied f (hist_items src) s)) (d ++ snd (copied f (hist_items src) s)).

Inductive op_left : caught_op -> list item -> list Z -> Prop :=
| PL_object id cs a d : object_left id cs a d -> op_left (KpObject id cs) a d
| PL_stream id data cs a d : stream_left id data cs a d -> op_left (KpStream id data cs) a d
| PL_extend o a d : left_in o a d -> op_left (KpExtend o) a d
| PL_renumber src T f (s : T) : op_left (KpRenumber src T f s) (fst (copied f (hist_items src) s)) (snd (copied f (hist_items src) s))
| PL_catalog id cs a d : object_left id (CDict :: CPair (lit "Type") (PName (lit "Catalog")) :: cs) a d -> op_left (KpCatalog id cs) a d
| PL_info id cs a d : object_left id (CDict :: cs) a d -> op_left (KpInfo id cs) a d
| PL_merge l : op_left (KpMerge l) [] []
| PL_file_id x : op_left (KpFileId x) [] []
| PL_version M N : op_left (KpVersion M N) [] []
| PL_marker m : op_left (KpMarker m) [] [].
Inductive left_by : list caught_op -> list item -> list Z -> Prop :=
| B_none : left_by [] [] []
| B_op op ops a d a' d' : op_left op a d -> left_by ops a' d' -> left_by (op :: ops) (a ++ a') (d ++ d').

(** Ids are positive i32, every [Obj] outside a panic was used, closures answer with ids. *)
Fixpoint hist_fair (h : caught_hist) : Prop :=
  match h with
  | KNew _ => True
  | KObject h id cs => hist_fair h /\ id_ok id = true /\ consumed cs
  | KStream h id _ cs => hist_fair h /\ id_ok id = true /\ consumed cs
  | KExtend h o => hist_fair h /\ hist_fair o
  | KMerge h _ => hist_fair h
  | KRenumber t src T f s => hist_fair t /\ hist_typed src /\ (forall t id n t', f t id = Some (n, t') -> id_ok n = true)
  end.
Definition op_fair (op : caught_op) : Prop :=
  match op with
  | KpObject id cs | KpStream id _ cs | KpCatalog id cs | KpInfo id cs => id_ok id = true /\ consumed cs
  | KpExtend o => hist_fair o
  | KpRenumber src T f s => hist_typed src /\ (forall t id n t', f t id = Some (n, t') -> id_ok n = true)
  | KpVersion M N => 0 <= M < 256 /\ 0 <= N < 256
  | KpMerge _ | KpFileId _ | KpMarker _ => True
  end.

(** What the calls ask of the header and the trailer: like the calls without panics ([catalog] and [document_info] count even if cut short). *)
Definition header_call (op : caught_op) : list pdf_op :=
  match op with
  | KpCatalog id _ => [PdfCatalog id []]
  | KpInfo id _ => [PdfInfo id []]
  | KpFileId x => [PdfFileId x]
  | KpVersion M N => [PdfVersion M N]
  | KpMarker m => [PdfMarker m]
  | _ => []
  end.
Definition header_calls (ops : list caught_op) : list pdf_op := flat_map header_call ops.
