(** Model of writers that are leaked ([std::mem::forget], a [Box::leak], a reference cycle): their [Drop] does not run, and the borrow ends.
    Safe Rust allows this at any time, so that closing brackets, [endstream] and [endobj] may be missing.  Also: objects that were never used,
    panics that are caught (as in ModelCrash), and renumbering from chunks in which there are such damaged objects. *)

From Coq Require Import ZArith List Bool.
From Verif Require Import Bytes ModelFloat ModelBuf ModelObject ModelRenumber ModelChunk ModelApi ModelPdf ModelCrash.
Import ListNotations.
Local Open Scope Z_scope.

(** A call of the API on the uppermost writer, or [std::mem::forget] of it. *)
Inductive leak_call : Type := LCall (c : call) | LForget.

(** Forgetting a writer ends its borrow without [Drop] (src/object.rs:844-856 for [Array], 1013-1035 for [Dict], 1147-1167 for [Stream]); the
    writer below can be used again. *)
Definition leak_step (c : leak_call) (s : state) : option state :=
  match c with
  | LCall c => api_step c s
  | LForget => match s with (_ :: st, b) => Some (st, b) | ([], _) => None end
  end.
Fixpoint leak_run (cs : list leak_call) (s : state) : option state :=
  match cs with
  | [] => Some s
  | c :: cs => match leak_step c s with Some s => leak_run cs s | None => None end
  end.

(** [chunk.indirect(id)] (src/chunk.rs:193-196) and the calls; writers that are still open are dropped (end of the scope, or a panic). *)
Definition leaked_object (id : Z) (cs : list leak_call) (c : chunk) : option chunk :=
  let '(w, c) := chunk_indirect id c in
  match leak_run cs ([WObj w], c_buf c) with
  | Some (st, b) => Some (mkChunk (unwind st b) (c_offsets c) (c_pretty c))
  | None => None
  end.
(** [chunk.stream(id, data)] (src/chunk.rs:247-249); too much data as in [caught_stream]. *)
Definition leaked_stream (id : Z) (data : bytes) (cs : list leak_call) (c : chunk) : option chunk :=
  let '(w, c) := chunk_indirect id c in
  match stream_start w data (c_buf c) with
  | Some (d, b) =>
      match leak_run cs ([WStream data d], b) with
      | Some (st, b) => Some (mkChunk (unwind st b) (c_offsets c) (c_pretty c))
      | None => None
      end
  | None => let '(d, b) := dict_start w (c_buf c) in Some (mkChunk (dict_drop d b) (c_offsets c) (c_pretty c))
  end.

(** How a chunk comes to be.  Here the source of a renumbering may itself contain damaged objects. *)
Inductive leak_hist : Type :=
| KkNew (pretty : bool)
| KkObject (h : leak_hist) (id : Z) (cs : list leak_call)
| KkStream (h : leak_hist) (id : Z) (data : bytes) (cs : list leak_call)
| KkExtend (h other : leak_hist)
| KkMerge (h : leak_hist) (l : limits)
| KkRenumber (target source : leak_hist) (T : Type) (mapping : T -> Z -> option (Z * T)) (s : T).

(** src/chunk.rs:41-68, 193-196, 247-249, 88-93, 126-128, 181-187. *)
Fixpoint leak_hist_run (h : leak_hist) : option chunk :=
  match h with
  | KkNew pretty => Some (chunk_with_settings pretty)
  | KkObject h id cs => match leak_hist_run h with Some c => leaked_object id cs c | None => None end
  | KkStream h id data cs => match leak_hist_run h with Some c => leaked_stream id data cs c | None => None end
  | KkExtend h other =>
      match leak_hist_run h, leak_hist_run other with
      | Some c, Some o => Some (chunk_extend o c)
      | _, _ => None
      end
  | KkMerge h l => option_map (chunk_merge_limits l) (leak_hist_run h)
  | KkRenumber target source T mapping s =>
      match leak_hist_run target, leak_hist_run source with
      | Some t, Some c => option_map fst (caught_renumber_into mapping c t s)
      | _, _ => None
      end
  end.

(** The same for a [Pdf]. *)
Inductive leak_op : Type :=
| LpObject (id : Z) (cs : list leak_call)
| LpStream (id : Z) (data : bytes) (cs : list leak_call)
| LpExtend (other : leak_hist)
| LpMerge (l : limits)
| LpRenumber (source : leak_hist) (T : Type) (mapping : T -> Z -> option (Z * T)) (s : T)
| LpCatalog (id : Z) (cs : list leak_call)
| LpInfo (id : Z) (cs : list leak_call)
| LpFileId (id : bytes * bytes)
| LpVersion (major minor : Z)
| LpMarker (m : byte * byte * byte * byte).

(** [catalog] (src/lib.rs:293-296; src/structure.rs:12-17) and [document_info] (src/lib.rs:303-306) as in ModelCrash. *)
Definition leak_pdf_step (op : leak_op) (p : pdf) : option pdf :=
  match op with
  | LpObject id cs => on_chunk_opt (leaked_object id cs) p
  | LpStream id data cs => on_chunk_opt (leaked_stream id data cs) p
  | LpExtend other => option_map (fun o => on_chunk (chunk_extend o) p) (leak_hist_run other)
  | LpMerge l => Some (on_chunk (chunk_merge_limits l) p)
  | LpRenumber source T f s =>
      match leak_hist_run source with
      | Some c => on_chunk_opt (fun t => option_map fst (caught_renumber_into f c t s)) p
      | None => None
      end
  | LpCatalog id cs =>
      on_chunk_opt (leaked_object id (LCall CDict :: LCall (CPair (lit "Type") (PName (lit "Catalog"))) :: cs))
        (mkPdf (p_chunk p) (Some id) (p_info p) (p_file_id p))
  | LpInfo id cs => on_chunk_opt (leaked_object id (LCall CDict :: cs)) (mkPdf (p_chunk p) (p_catalog p) (Some id) (p_file_id p))
  | LpFileId id => Some (set_file_id id p)
  | LpVersion ma mi => Some (set_version ma mi p)
  | LpMarker m => Some (set_binary_marker m p)
  end.
Fixpoint leak_pdf_run (ops : list leak_op) (p : pdf) : option pdf :=
  match ops with
  | [] => Some p
  | op :: r => match leak_pdf_step op p with Some p => leak_pdf_run r p | None => None end
  end.
