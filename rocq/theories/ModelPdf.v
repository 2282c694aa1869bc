(** Model of src/lib.rs: [Pdf], cross-reference tables and streams, trailer. *)

From Coq Require Import ZArith List Lia Bool.
From Verif Require Import Bytes ModelFloat ModelBuf ModelObject ModelRenumber ModelChunk.
Import ListNotations.
Local Open Scope Z_scope.

(** ** Cross-reference entries *)

(** What a [XRefWriter] (src/lib.rs:534-538) is asked to write: a free entry with the next
    free object number, or an occupied one with the byte offset; and a generation. *)
Inductive xref_entry := Free (next gen : Z) | Used (offset gen : Z).

(** [Vec<(Ref, usize)>::sort] (lexicographic): insertion sort (the result of sorting by a total
    order does not depend on the algorithm). *)
Definition pair_leb (a b : Z * Z) : bool :=
  (fst a <? fst b) || ((fst a =? fst b) && (snd a <=? snd b)).
Fixpoint insert_pair (a : Z * Z) (l : list (Z * Z)) : list (Z * Z) :=
  match l with
  | [] => [a]
  | b :: r => if pair_leb a b then a :: l else b :: insert_pair a r
  end.
Fixpoint sort_pairs (l : list (Z * Z)) : list (Z * Z) :=
  match l with [] => [] | a :: r => insert_pair a (sort_pairs r) end.

(** src/lib.rs:466-473 the search for the next free id among [offsets\[i..\]]. *)
Fixpoint next_free (next : Z) (rest : list (Z * Z)) : Z :=
  match rest with
  | [] => next
  | (used, _) :: r => if next <? used then next else next_free (used + 1) r
  end.

(** src/lib.rs:462-479 the loop [for free_id in start..object_id], with [n] iterations
    to go; [rest] is [offsets\[i..\]].  i32 additions do not overflow as long as ids are below
    [i32::MAX]; [%] is the remainder of the Rust operator. *)
Fixpoint free_run (n : nat) (free_id object_id xref_len : Z) (rest : list (Z * Z)) : list xref_entry :=
  match n with
  | O => []
  | S n =>
      let next := free_id + 1 in
      let next := if next =? object_id then next_free next rest else next in
      let gen := if free_id =? 0 then 65535 else 0 in
      Free (Z.rem next xref_len) gen :: free_run n (free_id + 1) object_id xref_len rest
  end.

(** src/lib.rs:453-485 the loop over the sorted offsets; [None] is the panic for a
    duplicate id. *)
Fixpoint offsets_loop (written xref_len : Z) (rest : list (Z * Z)) : option (list xref_entry) :=
  match rest with
  | [] => Some []
  | (object_id, offset) :: tail =>
      if object_id <? written then None
      else
        let frees := free_run (Z.to_nat (object_id - written)) written object_id xref_len rest in
        let written := written + Z.of_nat (List.length frees) in
        option_map (fun es => frees ++ Used offset 0 :: es) (offsets_loop (written + 1) xref_len tail)
  end.

(** The id of the last entry, [offsets.last().map_or(0, ..)]. *)
Definition last_id (l : list (Z * Z)) : Z := last (map fst l) 0.

(** src/lib.rs:443-488 [write_offsets]: the number [xref_len] and the entries, in the order in
    which the writer is called.  [1 + last] overflows for [i32::MAX] (release profile: wraps). *)
Definition write_offsets (offsets : list (Z * Z)) : option (Z * list xref_entry) :=
  let offsets := sort_pairs offsets in
  let xref_len := wrap_i32 (1 + last_id offsets) in
  let first := match offsets with [] => [Free 0 65535] | _ => [] end in
  option_map (fun es => (xref_len, first ++ es)) (offsets_loop 0 xref_len offsets).

(** ** Plain tables *)

(** [{n:0w}] of the standard formatter, for [n >= 0]. *)
Definition zero_padded (w : nat) (n : Z) : bytes :=
  let d := dec_u n in repeat x30 (w - List.length d) ++ d.

(** src/lib.rs:594-600 the two entry writers (they bypass the limits). *)
Definition plain_entry (e : xref_entry) : bytes :=
  match e with
  | Free next gen => zero_padded 10 next ++ [x20] ++ zero_padded 5 gen ++ lit " f" ++ [x0d; x0a]
  | Used offset gen => zero_padded 10 offset ++ [x20] ++ zero_padded 5 gen ++ lit " n" ++ [x0d; x0a]
  end.

(** src/lib.rs:588-592 [prologue]. *)
Definition plain_prologue (xref_len : Z) (b : buf) : buf :=
  push x0a (push_int xref_len (extend (lit "xref" ++ [x0a] ++ lit "0 ") b)).

(** ** Cross-reference streams *)

(** The [w] low-order bytes of [n], most significant first. *)
Fixpoint be_bytes (w : nat) (n : Z) : bytes :=
  match w with O => [] | S w => be_bytes w (n / 256) ++ [zb n] end.

(** src/lib.rs:551-562 [XRefStreamWriter::write] with the entry types of 568-574:
    [(offset as u64).to_be_bytes()] without its first [8 - field_width] bytes. *)
Definition stream_entry (field_width : Z) (e : xref_entry) : bytes :=
  let '(ty, v, gen) := match e with Free next gen => (x00, next, gen) | Used offset gen => (x01, offset, gen) end in
  [ty] ++ skipn (8 - Z.to_nat field_width) (be_bytes 8 v) ++ be_bytes 2 gen.

(** src/lib.rs:602-604 [determine_field_width]: number of significant bits divided by 8,
    rounded up. *)
Definition field_width (offset : Z) : Z :=
  let bits := if offset =? 0 then 0 else Z.log2 offset + 1 in (bits + 7) / 8.

(** ** Pdf *)

(** src/lib.rs:505-510 [TrailerData] and 217-220 [Pdf]. *)
Record pdf := mkPdf {
  p_chunk : chunk;
  p_catalog : option Z;
  p_info : option Z;
  p_file_id : option (bytes * bytes)
}.

(** src/lib.rs:249 the header. *)
Definition pdf_header : bytes :=
  lit "%PDF-1.7" ++ [x0a] ++ lit "%" ++ [x80; x80; x80; x80] ++ [x0a; x0a].

(** src/lib.rs:226-251 the constructors. *)
Definition pdf_with_settings (pretty : bool) : pdf :=
  let c := chunk_with_settings pretty in
  mkPdf (mkChunk (extend pdf_header (c_buf c)) (c_offsets c) (c_pretty c)) None None None.
Definition pdf_new : pdf := pdf_with_settings true.

(** [DerefMut] to the chunk (src/lib.rs:496-506). *)
Definition on_chunk (f : chunk -> chunk) (p : pdf) : pdf :=
  mkPdf (f (p_chunk p)) (p_catalog p) (p_info p) (p_file_id p).

(** Overwriting bytes in the buffer ([copy_from_slice] into a range, index assignment); the
    header is there, so the indices are in bounds. *)
Definition splice (i : nat) (new s : bytes) : bytes := firstn i s ++ new ++ skipn (i + List.length new) s.
Definition splice_buf (i : nat) (new : bytes) (c : chunk) : chunk :=
  mkChunk (mkBuf (splice i new (inner (c_buf c))) (lims (c_buf c))) (c_offsets c) (c_pretty c).

(** src/lib.rs:260-262 [set_binary_marker]. *)
Definition set_binary_marker (m : byte * byte * byte * byte) (p : pdf) : pdf :=
  let '(a, b, c, d) := m in on_chunk (splice_buf 10 [a; b; c; d]) p.

(** src/lib.rs:270-277 [set_version]. *)
Definition set_version (major minor : Z) (p : pdf) : pdf :=
  let p := if major <? 10 then on_chunk (splice_buf 5 [zb (48 + major)]) p else p in
  if minor <? 10 then on_chunk (splice_buf 7 [zb (48 + minor)]) p else p.

(** src/lib.rs:285-287 [set_file_id]. *)
Definition set_file_id (id : bytes * bytes) (p : pdf) : pdf :=
  mkPdf (p_chunk p) (p_catalog p) (p_info p) (Some id).

(** src/lib.rs:293-296 [catalog] with the entries then written; [Catalog::start]
    (src/structure.rs:12-17) writes the [Type] entry. *)
Definition catalog_obj (entries : list (bytes * obj)) : obj :=
  ODict ((lit "Type", OPrim (PName (lit "Catalog"))) :: entries).
Definition pdf_catalog (id : Z) (entries : list (bytes * obj)) (p : pdf) : pdf :=
  on_chunk (chunk_object id (catalog_obj entries)) (mkPdf (p_chunk p) (Some id) (p_info p) (p_file_id p)).

(** src/lib.rs:303-306 [document_info] with the entries then written. *)
Definition pdf_info (id : Z) (entries : list (bytes * obj)) (p : pdf) : pdf :=
  on_chunk (chunk_object id (ODict entries)) (mkPdf (p_chunk p) (p_catalog p) (Some id) (p_file_id p)).

(** src/lib.rs:513-532 [TrailerData::write_into_dict], as the entries written. *)
Definition trailer_entries (p : pdf) (xref_len : Z) : list (bytes * obj) :=
  [(lit "Size", OPrim (PInt xref_len))] ++
  match p_catalog p with Some id => [(lit "Root", OPrim (PRef id))] | None => [] end ++
  match p_info p with Some id => [(lit "Info", OPrim (PRef id))] | None => [] end ++
  match p_file_id p with
  | Some (a, b) => [(lit "ID", OArray [OPrim (PStr a); OPrim (PStr b)])]
  | None => []
  end.

(** src/lib.rs:432-441 [finish_trailer]. *)
Definition finish_trailer (b : buf) (xref_offset : Z) (pad : bytes) : bytes :=
  let b := extend pad b in
  let b := extend (lit "startxref" ++ [x0a]) b in
  let b := extend (dec_u xref_offset) b in
  let b := extend ([x0a] ++ lit "%%EOF") b in
  inner b.

(** src/lib.rs:312-328 [Pdf::finish]; [None] is a panic. *)
Definition finish (p : pdf) : option bytes :=
  let b := c_buf (p_chunk p) in
  let xref_offset := blen (inner b) in
  match write_offsets (c_offsets (p_chunk p)) with
  | None => None
  | Some (xref_len, entries) =>
      let b := plain_prologue xref_len b in
      let b := extend (flat_map plain_entry entries) b in
      let b := extend (lit "trailer" ++ [x0a]) b in
      let b := write_obj (ODict (trailer_entries p xref_len)) (obj_direct 0 (c_pretty (p_chunk p)) false) b in
      Some (finish_trailer b xref_offset [x0a])
  end.

(** src/lib.rs:423-429 [XRefFilter]. *)
Inductive xref_filter := Single (f : filter) | Multiple (fs : list filter).

Definition filter_entries (f : option xref_filter) : list (bytes * obj) :=
  match f with
  | None => []
  | Some (Single f) => [(lit "Filter", OPrim (PName (filter_name f)))]
  | Some (Multiple fs) => [(lit "Filter", OArray (map (fun f => OPrim (PName (filter_name f))) fs))]
  end.

(** src/lib.rs:370-420 [finish_with_xref_stream_inner]. *)
Definition finish_stream_inner (p : pdf) (xref_id : Z) (filter : bytes -> bytes * option xref_filter)
  : option bytes :=
  let b := c_buf (p_chunk p) in
  let pretty := c_pretty (p_chunk p) in
  let xref_offset := blen (inner b) in
  let offsets := c_offsets (p_chunk p) ++ [(xref_id, xref_offset)] in
  let fw := field_width xref_offset in
  match write_offsets offsets with
  | None => None
  | Some (xref_len, entries) =>
      let '(data, flt) := filter (flat_map (stream_entry fw) entries) in
      let '(w, b) := obj_indirect xref_id pretty b in
      let es := [(lit "Type", OPrim (PName (lit "XRef")))] ++ filter_entries flt ++
                trailer_entries p xref_len ++
                [(lit "W", OArray [OPrim (PInt 1); OPrim (PInt fw); OPrim (PInt 2)])] in
      match write_stream w es data b with
      | None => None
      | Some b => Some (finish_trailer b xref_offset [])
      end
  end.

(** src/lib.rs:346-348 and 359-368. *)
Definition finish_with_xref_stream (p : pdf) (xref_id : Z) : option bytes :=
  finish_stream_inner p xref_id (fun buf => (buf, None)).
Definition finish_with_xref_stream_and_filter (p : pdf) (xref_id : Z) (filter : bytes -> bytes * xref_filter)
  : option bytes :=
  finish_stream_inner p xref_id (fun buf => let '(data, f) := filter buf in (data, Some f)).

(** ** Histories of a [Pdf] *)
Inductive pdf_op : Type :=
| PdfObject (id : Z) (o : obj)
| PdfStream (id : Z) (entries : list (bytes * obj)) (data : bytes)
| PdfExtend (other : hist)
| PdfMerge (l : limits)
| PdfRenumber (source : hist) (T : Type) (mapping : T -> Z -> Z * T) (s : T)
| PdfCatalog (id : Z) (entries : list (bytes * obj))
| PdfInfo (id : Z) (entries : list (bytes * obj))
| PdfFileId (id : bytes * bytes)
| PdfVersion (major minor : Z)
| PdfMarker (m : byte * byte * byte * byte).

Definition pdf_step (op : pdf_op) (p : pdf) : option pdf :=
  match op with
  | PdfObject id o => Some (on_chunk (chunk_object id o) p)
  | PdfStream id es data =>
      option_map (fun c => on_chunk (fun _ => c) p) (chunk_stream id es data (p_chunk p))
  | PdfExtend other => option_map (fun o => on_chunk (chunk_extend o) p) (run other)
  | PdfMerge l => Some (on_chunk (chunk_merge_limits l) p)
  | PdfRenumber source T f s =>
      match run source with
      | Some c => option_map (fun r => on_chunk (fun _ => fst r) p) (chunk_renumber_into f c (p_chunk p) s)
      | None => None
      end
  | PdfCatalog id es => Some (pdf_catalog id es p)
  | PdfInfo id es => Some (pdf_info id es p)
  | PdfFileId id => Some (set_file_id id p)
  | PdfVersion ma mi => Some (set_version ma mi p)
  | PdfMarker m => Some (set_binary_marker m p)
  end.

Fixpoint pdf_run (ops : list pdf_op) (p : pdf) : option pdf :=
  match ops with
  | [] => Some p
  | op :: r => match pdf_step op p with Some p => pdf_run r p | None => None end
  end.
