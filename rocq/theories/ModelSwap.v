(** Model of a [Pdf] whose chunk is replaced, taken or swapped through [DerefMut], and of chunks that come out of a [Pdf]. *)

From Coq Require Import ZArith List Bool.
From Verif Require Import Bytes ModelFloat ModelBuf ModelObject ModelRenumber ModelChunk ModelPdf.
Import ListNotations.
Local Open Scope Z_scope.

(** src/lib.rs:492-504 [Deref]/[DerefMut]: [*pdf = chunk], and what [mem::replace(&mut *pdf, ..)] returns.  [mem::swap] of two Pdfs' chunks is both,
    twice. *)
Definition replace_chunk (c : chunk) (p : pdf) : pdf := mkPdf c (p_catalog p) (p_info p) (p_file_id p).
Definition taken_chunk (p : pdf) : chunk := p_chunk p.

(** [Vec] indexing panics out of bounds: the indices that src/lib.rs:260-262 and 270-277 assign to.  (A [Pdf] that still has its header has
    16 bytes at least, which is why [ModelPdf] does not need this.) *)
Definition reaches (n : Z) (p : pdf) : bool := n <=? chunk_len (p_chunk p).

(** src/lib.rs:260-262 [set_binary_marker] ([inner\[10..14\]]); [None] is a panic. *)
Definition checked_marker (m : byte * byte * byte * byte) (p : pdf) : option pdf :=
  if reaches 14 p then Some (set_binary_marker m p) else None.

(** src/lib.rs:270-277 [set_version] ([inner\[5\]], then [inner\[7\]]). *)
Definition checked_version (major minor : Z) (p : pdf) : option pdf :=
  if ((10 <=? major) || reaches 6 p) && ((10 <=? minor) || reaches 8 p) then Some (set_version major minor p) else None.

(** Histories in which chunks and Pdfs mix.  Every method of [Chunk] can be called on a [Pdf] through [DerefMut], that is: the chunk is used in
    place, [SwReplace d (the call on (ShTaken d))]. *)
Inductive swap_hist : Type :=
| ShNew (pretty : bool)
| ShObject (h : swap_hist) (id : Z) (o : obj)
| ShStream (h : swap_hist) (id : Z) (entries : list (bytes * obj)) (data : bytes)
| ShExtend (h other : swap_hist)
| ShMerge (h : swap_hist) (l : limits)
| ShRenumber (target source : swap_hist) (T : Type) (mapping : T -> Z -> Z * T) (s : T)
| ShTaken (d : swap_pdf)
with swap_pdf : Type :=
| SwNew (pretty : bool)
| SwReplace (d : swap_pdf) (h : swap_hist)
| SwCatalog (d : swap_pdf) (id : Z) (entries : list (bytes * obj))
| SwInfo (d : swap_pdf) (id : Z) (entries : list (bytes * obj))
| SwFileId (d : swap_pdf) (id : bytes * bytes)
| SwVersion (d : swap_pdf) (major minor : Z)
| SwMarker (d : swap_pdf) (m : byte * byte * byte * byte).

(** The operations of [ModelChunk.run] and [ModelPdf.pdf_step], with the two above; [None] is a panic. *)
Fixpoint swap_run (h : swap_hist) : option chunk :=
  match h with
  | ShNew pretty => Some (chunk_with_settings pretty)
  | ShObject h id o => option_map (chunk_object id o) (swap_run h)
  | ShStream h id entries data => match swap_run h with Some c => chunk_stream id entries data c | None => None end
  | ShExtend h other =>
      match swap_run h, swap_run other with
      | Some c, Some o => Some (chunk_extend o c)
      | _, _ => None
      end
  | ShMerge h l => option_map (chunk_merge_limits l) (swap_run h)
  | ShRenumber target source T mapping s =>
      match swap_run target, swap_run source with
      | Some t, Some c => option_map fst (chunk_renumber_into mapping c t s)
      | _, _ => None
      end
  | ShTaken d => option_map taken_chunk (swap_pdf_run d)
  end
with swap_pdf_run (d : swap_pdf) : option pdf :=
  match d with
  | SwNew pretty => Some (pdf_with_settings pretty)
  | SwReplace d h =>
      match swap_pdf_run d, swap_run h with
      | Some p, Some c => Some (replace_chunk c p)
      | _, _ => None
      end
  | SwCatalog d id es => option_map (pdf_catalog id es) (swap_pdf_run d)
  | SwInfo d id es => option_map (pdf_info id es) (swap_pdf_run d)
  | SwFileId d id => option_map (set_file_id id) (swap_pdf_run d)
  | SwVersion d M N => match swap_pdf_run d with Some p => checked_version M N p | None => None end
  | SwMarker d m => match swap_pdf_run d with Some p => checked_marker m p | None => None end
  end.
