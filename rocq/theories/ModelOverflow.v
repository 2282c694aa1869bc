(** Model of the i32 arithmetic of the writers in debug and in release builds: [None] is the panic of a debug build ("attempt to
    add with overflow"), release builds wrap around.  The functions are those of ModelBuf and ModelObject again, with
    every i32 addition and [abs] made explicit; C63 relates the two.  (All other additions in these functions are on usize, or
    on u8 with small arguments.) *)

From Coq Require Import ZArith List Bool.
From Verif Require Import Bytes ModelFloat ModelBuf ModelObject ModelRenumber ModelChunk ModelPdf.
Import ListNotations.
Local Open Scope Z_scope.

Inductive profile := Debug | Release.

(** [n + 1] and [v.abs()] on i32. *)
Definition i32_succ (p : profile) (n : Z) : option Z :=
  match p with
  | Debug => if n =? i32_max then None else Some (n + 1)
  | Release => Some (wrap_i32 (n + 1))
  end.
Definition i32_abs (p : profile) (v : Z) : option Z :=
  match p with
  | Debug => if v =? i32_min then None else Some (Z.abs v)
  | Release => Some (wrap_i32 (Z.abs v))
  end.
(** [n as usize] of an i32: sign extension to 64 bits. *)
Definition as_usize (n : Z) : Z := n mod 2 ^ 64.

(** src/buf.rs:45-48 [push_int] with 194-196 [register_int]. *)
Definition push_int_in (p : profile) (v : Z) (b : buf) : option buf :=
  match i32_abs p v with
  | Some n =>
      let l := lims b in
      Some (extend (dec_i v) (mkBuf (inner b) (mkLimits (Z.max (l_int l) n) (l_real l) (l_name l) (l_str l) (l_array l) (l_dict l))))
  | None => None
  end.
(** src/buf.rs:51-59 [push_float]. *)
Definition push_float_in (p : profile) (v : f32) (b : buf) : option buf :=
  if f32_eqb (f32_of_i32 (f32_as_i32 v)) v then push_int_in p (f32_as_i32 v) b else Some (push_decimal v b).

(** src/object.rs:84-95 [Str::is_balanced]; [depth] is an i32. *)
Fixpoint is_balanced_in (p : profile) (depth : Z) (s : bytes) : option bool :=
  match s with
  | [] => Some (depth =? 0)
  | c :: r =>
      if beq c x28 then match i32_succ p depth with Some d => is_balanced_in p d r | None => None end
      else if beq c x29 then (if 0 <? depth then is_balanced_in p (depth - 1) r else Some false)
      else is_balanced_in p depth r
  end.
(** src/object.rs:112-142: the loop over the bytes with the memoised [balanced]. *)
Fixpoint str_literal_in (p : profile) (whole : bytes) (balanced : option bool) (s : bytes) : option bytes :=
  match s with
  | [] => Some []
  | c :: r =>
      let known :=
        if beq c x28 || beq c x29 then
          match balanced with
          | Some v => Some (Some v)
          | None => if beq c x29 then Some (Some false) else option_map Some (is_balanced_in p 0 whole)
          end
        else Some balanced in
      match known with
      | Some bal =>
          let '(bal, out) := str_byte whole bal c in
          option_map (app out) (str_literal_in p whole bal r)
      | None => None
      end
  end.
(** src/object.rs:98-150 [Str::write]. *)
Definition write_str_in (p : profile) (s : bytes) (b : buf) : option buf :=
  let b := with_limits (register_str_len (blen s)) b in
  if forallb (fun c => bz c <? 128) s
  then option_map (fun out => extend ([x28] ++ out ++ [x29]) b) (str_literal_in p s None s)
  else Some (extend ([x3c] ++ flat_map hex2 s ++ [x3e]) b).
(** src/object.rs:169-183 [TextStr::write]: visible ASCII text is written as a [Str]. *)
Definition write_text_in (p : profile) (t : list Z) (b : buf) : option buf :=
  let b := with_limits (register_str_len (blen (str_utf8 t))) b in
  if forallb (fun c => (32 <=? bz c) && (bz c <=? 126)) (str_utf8 t)
  then write_str_in p (str_utf8 t) b
  else Some (extend (text_header ++ hex_utf16 t ++ text_footer) b).
(** src/object.rs:444-452 [Ref::write]. *)
Definition write_ref_in (p : profile) (r : Z) (b : buf) : option buf := option_map (extend (lit " 0 R")) (push_int_in p r b).
(** src/object.rs:484-501 [Rect::write]. *)
Definition write_rect_in (p : profile) (r : rect) (b : buf) : option buf :=
  match push_float_in p (x1 r) (push x5b b) with
  | Some b => match push_float_in p (y1 r) (push x20 b) with
    | Some b => match push_float_in p (x2 r) (push x20 b) with
      | Some b => match push_float_in p (y2 r) (push x20 b) with
        | Some b => Some (with_limits (register_array_len 4) (push x5d b))
        | None => None end
      | None => None end
    | None => None end
  | None => None end.
Definition write_prim_in (p : profile) (v : prim) (b : buf) : option buf :=
  match v with
  | PInt v => push_int_in p v b
  | PReal v => push_float_in p v b
  | PStr s => write_str_in p s b
  | PText t => write_text_in p t b
  | PRef r => write_ref_in p r b
  | PRect r => write_rect_in p r b
  | PNull | PBool _ | PTextLang _ | PName _ | PDate _ => Some (write_prim v b)
  end.

(** src/object.rs:680-713 [Obj::primitive]. *)
Definition obj_primitive_in (p : profile) (w : objw) (v : prim) (b : buf) : option buf :=
  let ends_with_delimiter :=
    match last_byte (inner b) with Some c => is_delimiter_character c | None => false end in
  let b := if o_pad w && negb (starts_with_delimiter v) && negb ends_with_delimiter
           then extend [x20] b else b in
  option_map (endobj (o_indirect w) (o_pretty w)) (write_prim_in p v b).

(** src/object.rs:799-814 [Array::push] with [self.len += 1]; 844-856 [Drop for Array] with [self.len() as usize]. *)
Definition array_push_in (p : profile) (a : arrw) (b : buf) : option (objw * arrw * buf) :=
  match i32_succ p (a_len a) with
  | Some n => let '(w, _, b) := array_push a b in Some (w, mkArrw (a_indirect a) (a_indent a) (a_pretty a) n, b)
  | None => None
  end.
Definition array_drop_in (a : arrw) (b : buf) : buf :=
  endobj (a_indirect a) (a_pretty a) (push x5d (with_limits (register_array_len (as_usize (a_len a))) b)).
(** src/object.rs:961-984 [Dict::insert] and 1013-1033 [Drop for Dict]. *)
Definition dict_insert_in (p : profile) (key : bytes) (d : dictw) (b : buf) : option (objw * dictw * buf) :=
  match i32_succ p (d_len d) with
  | Some n => let '(w, _, b) := dict_insert key d b in Some (w, mkDictw (d_indirect d) (d_indent d) (d_pretty d) n, b)
  | None => None
  end.
Definition dict_drop_in (d : dictw) (b : buf) : buf :=
  let b := with_limits (register_dict_entries (as_usize (d_len d))) b in
  let b := if negb (d_len d =? 0) && d_pretty d
           then extend (spaces (d_indent d - 2)) (push x0a b) else b in
  endobj (d_indirect d) (d_pretty d) (extend [x3e; x3e] b).

(** The calls for a tree, as [write_obj]. *)
Fixpoint write_obj_in (p : profile) (o : obj) (w : objw) (b : buf) {struct o} : option buf :=
  match o with
  | OPrim v => obj_primitive_in p w v b
  | OArray items =>
      let '(a, b) := array_start w b in
      match
        (fix go (l : list obj) (a : arrw) (b : buf) {struct l} : option (arrw * buf) :=
           match l with
           | [] => Some (a, b)
           | it :: l =>
               match array_push_in p a b with
               | Some (w', a, b) => match write_obj_in p it w' b with Some b => go l a b | None => None end
               | None => None
               end
           end) items a b with
      | Some (a, b) => Some (array_drop_in a b)
      | None => None
      end
  | ODict entries =>
      let '(d, b) := dict_start w b in
      match
        (fix go (l : list (bytes * obj)) (d : dictw) (b : buf) {struct l} : option (dictw * buf) :=
           match l with
           | [] => Some (d, b)
           | (k, v) :: l =>
               match dict_insert_in p k d b with
               | Some (w', d, b) => match write_obj_in p v w' b with Some b => go l d b | None => None end
               | None => None
               end
           end) entries d b with
      | Some (d, b) => Some (dict_drop_in d b)
      | None => None
      end
  end.
Fixpoint write_items_in (p : profile) (l : list obj) (a : arrw) (b : buf) : option (arrw * buf) :=
  match l with
  | [] => Some (a, b)
  | it :: l =>
      match array_push_in p a b with
      | Some (w', a, b) => match write_obj_in p it w' b with Some b => write_items_in p l a b | None => None end
      | None => None
      end
  end.
Fixpoint write_entries_in (p : profile) (l : list (bytes * obj)) (d : dictw) (b : buf) : option (dictw * buf) :=
  match l with
  | [] => Some (d, b)
  | (k, v) :: l =>
      match dict_insert_in p k d b with
      | Some (w', d, b) => match write_obj_in p v w' b with Some b => write_entries_in p l d b | None => None end
      | None => None
      end
  end.

(** src/object.rs:1118-1130 [Stream::start]: a dictionary with [/Length]; 1148-1166 [Drop for Stream] with [self.dict.len as usize]. *)
Definition stream_drop_in (data : bytes) (d : dictw) (b : buf) : buf :=
  stream_drop data (mkDictw (d_indirect d) (d_indent d) (d_pretty d) (as_usize (d_len d))) b.
Definition write_stream_in (p : profile) (w : objw) (entries : list (bytes * obj)) (data : bytes) (b : buf) : option buf :=
  let '(d, b) := dict_start w b in
  if blen data <=? i32_max then
    match write_entries_in p ((lit "Length", OPrim (PInt (blen data))) :: entries) d b with
    | Some (d, b) => Some (stream_drop_in data d b)
    | None => None
    end
  else None.

(** src/object.rs:666-676 [Obj::indirect], src/chunk.rs:193-196 [Chunk::indirect], 247-249 [Chunk::stream]. *)
Definition chunk_indirect_in (p : profile) (id : Z) (c : chunk) : option (objw * chunk) :=
  let offs := c_offsets c ++ [(id, chunk_len c)] in
  match push_int_in p id (c_buf c) with
  | Some b => Some (mkObjw true 0 (c_pretty c) false, mkChunk (extend (lit " 0 obj" ++ [x0a]) b) offs (c_pretty c))
  | None => None
  end.
Definition chunk_object_in (p : profile) (id : Z) (o : obj) (c : chunk) : option chunk :=
  match chunk_indirect_in p id c with
  | Some (w, c) => option_map (fun b => mkChunk b (c_offsets c) (c_pretty c)) (write_obj_in p o w (c_buf c))
  | None => None
  end.
Definition chunk_stream_in (p : profile) (id : Z) (entries : list (bytes * obj)) (data : bytes) (c : chunk) : option chunk :=
  match chunk_indirect_in p id c with
  | Some (w, c) => option_map (fun b => mkChunk b (c_offsets c) (c_pretty c)) (write_stream_in p w entries data (c_buf c))
  | None => None
  end.

(** ** Renumbering (src/renumber.rs)

    The object numbers written are positive, so [push_int] cannot overflow in [abs]; [depth] of the string loop is an i32. *)
Definition i32_pred (p : profile) (n : Z) : option Z :=
  match p with
  | Debug => if n =? i32_min then None else Some (n - 1)
  | Release => Some (wrap_i32 (n - 1))
  end.
(** src/renumber.rs:92-104. *)
Fixpoint skip_string_in (p : profile) (depth : Z) (s : bytes) : option nat :=
  match s with
  | [] => Some O
  | c :: r =>
      if beq c x28 then match i32_succ p depth with Some d => option_map S (skip_string_in p d r) | None => None end
      else if beq c x29 then
        (if depth =? 1 then Some O
         else match i32_pred p depth with Some d => option_map S (skip_string_in p d r) | None => None end)
      else if beq c x5c then
        match r with
        | [] => Some 2%nat
        | _ :: r' => option_map (fun n => S (S n)) (skip_string_in p depth r')
        end
      else option_map S (skip_string_in p depth r)
  end.

Section Mapping.
  Context (p : profile) {T : Type} (mapping : T -> Z -> Z * T).

  (** src/renumber.rs:52-122 [patch_object]. *)
  Fixpoint patch_loop_in (fuel : nat) (slice : bytes) (seen written : nat) (b : buf) (s : T) : option (buf * T) :=
    match fuel with
    | O => None
    | S fuel =>
        match nth_error slice seen with
        | None =>
            match slice_get slice written (length slice) with
            | Some t => Some (extend t b, s)
            | None => None
            end
        | Some c =>
            if beq c x52 then
              match validate_ref (firstn seen slice) with
              | Some (head, id, gen) =>
                  let '(new, s) := mapping s id in
                  match slice_get slice written head with
                  | None => None
                  | Some t =>
                      match push_int_in p new (extend t b) with
                      | None => None
                      | Some b =>
                          match push_int_in p gen (push x20 b) with
                          | None => None
                          | Some b => patch_loop_in fuel slice (seen + 1) (seen + 1) (push x52 (push x20 b)) s
                          end
                      end
                  end
              | None => patch_loop_in fuel slice (seen + 1) written b s
              end
            else if beq c x25 then
              patch_loop_in fuel slice (seen + skip_comment (skipn seen slice) + 1) written b s
            else if beq c x28 then
              match skip_string_in p 0 (skipn seen slice) with
              | Some n => patch_loop_in fuel slice (seen + n + 1) written b s
              | None => None
              end
            else if beq c x73 && starts_with (lit "stream") (skipn seen slice)
                    && validate_stream (firstn seen slice)
            then
              match slice_get slice written (length slice) with
              | Some t => Some (extend t b, s)
              | None => None
              end
            else patch_loop_in fuel slice (seen + 1) written b s
        end
    end.

  (** src/renumber.rs:10-25. *)
  Fixpoint renumber_loop_in (src : bytes) (offsets : list (Z * Z)) (pretty : bool) (b : buf) (offs : list (Z * Z)) (s : T)
    : option (buf * list (Z * Z) * T) :=
    match offsets with
    | [] => Some (b, offs, s)
    | (id, offset) :: iter =>
        let '(new, s) := mapping s id in
        let stop := match iter with [] => blen src | (_, o) :: _ => o end in
        match slice_get src (Z.to_nat offset) (Z.to_nat stop) with
        | None => None
        | Some slice =>
            match extract_object slice with
            | None => renumber_loop_in src iter pretty b offs s
            | Some (gen, slice) =>
                let offs := offs ++ [(new, blen (inner b))] in
                match push_int_in p new b with
                | None => None
                | Some b =>
                    match push_int_in p gen (push x20 b) with
                    | None => None
                    | Some b =>
                        let b := extend (lit " obj" ++ [x0a]) b in
                        match patch_loop_in (S (length slice)) slice 0 0 b s with
                        | None => None
                        | Some (b, s) =>
                            let b := extend ([x0a] ++ lit "endobj" ++ [x0a]) b in
                            let b := if pretty then extend [x0a] b else b in
                            renumber_loop_in src iter pretty b offs s
                        end
                    end
                end
            end
        end
    end.
  (** src/chunk.rs:181-187 [Chunk::renumber_into]. *)
  Definition chunk_renumber_into_in (source target : chunk) (s : T) : option (chunk * T) :=
    let b := with_limits (fun m => merge m (chunk_limits source)) (c_buf target) in
    match renumber_loop_in (chunk_bytes source) (c_offsets source) (c_pretty target) b (c_offsets target) s with
    | Some (b, offs, s) => Some (mkChunk b offs (c_pretty target), s)
    | None => None
    end.
End Mapping.

(** A history of calls, as [run]. *)
Fixpoint run_in (p : profile) (h : hist) : option chunk :=
  match h with
  | HNew pretty => Some (chunk_with_settings pretty)
  | HObject h id o => match run_in p h with Some c => chunk_object_in p id o c | None => None end
  | HStream h id entries data => match run_in p h with Some c => chunk_stream_in p id entries data c | None => None end
  | HExtend h other =>
      match run_in p h, run_in p other with
      | Some c, Some o => Some (chunk_extend o c)
      | _, _ => None
      end
  | HMerge h l => option_map (chunk_merge_limits l) (run_in p h)
  | HRenumber target source T mapping s =>
      match run_in p target, run_in p source with
      | Some t, Some c => option_map fst (chunk_renumber_into_in p mapping c t s)
      | _, _ => None
      end
  end.

(** ** Files (src/lib.rs) *)

(** src/lib.rs:466-473. *)
Fixpoint next_free_in (p : profile) (next : Z) (rest : list (Z * Z)) : option Z :=
  match rest with
  | [] => Some next
  | (used, _) :: r =>
      if next <? used then Some next
      else match i32_succ p used with Some n => next_free_in p n r | None => None end
  end.
(** src/lib.rs:461-477; [next % xref_len] panics for 0 in either profile. *)
Fixpoint free_run_in (p : profile) (n : nat) (free_id object_id xref_len : Z) (rest : list (Z * Z)) : option (list xref_entry) :=
  match n with
  | O => Some []
  | S n =>
      match i32_succ p free_id with
      | None => None
      | Some next =>
          match (if next =? object_id then next_free_in p next rest else Some next) with
          | None => None
          | Some next =>
              if xref_len =? 0 then None else
              let gen := if free_id =? 0 then 65535 else 0 in
              option_map (cons (Free (Z.rem next xref_len) gen)) (free_run_in p n (free_id + 1) object_id xref_len rest)
          end
      end
  end.
(** src/lib.rs:453-481; [written] counts up to the id, and then once more. *)
Fixpoint offsets_loop_in (p : profile) (written xref_len : Z) (rest : list (Z * Z)) : option (list xref_entry) :=
  match rest with
  | [] => Some []
  | (object_id, offset) :: tail =>
      if object_id <? written then None
      else
        match free_run_in p (Z.to_nat (object_id - written)) written object_id xref_len rest with
        | None => None
        | Some frees =>
            match i32_succ p object_id with
            | None => None
            | Some written => option_map (fun es => frees ++ Used offset 0 :: es) (offsets_loop_in p written xref_len tail)
            end
        end
  end.
(** src/lib.rs:443-484 [write_offsets]. *)
Definition write_offsets_in (p : profile) (offsets : list (Z * Z)) : option (Z * list xref_entry) :=
  let offsets := sort_pairs offsets in
  match i32_succ p (last_id offsets) with
  | None => None
  | Some xref_len =>
      let first := match offsets with [] => [Free 0 65535] | _ => [] end in
      option_map (fun es => (xref_len, first ++ es)) (offsets_loop_in p 0 xref_len offsets)
  end.

(** src/lib.rs:312-328 [Pdf::finish]. *)
Definition finish_in (pr : profile) (p : pdf) : option bytes :=
  let b := c_buf (p_chunk p) in
  let xref_offset := blen (inner b) in
  match write_offsets_in pr (c_offsets (p_chunk p)) with
  | None => None
  | Some (xref_len, entries) =>
      match push_int_in pr xref_len (extend (lit "xref" ++ [x0a] ++ lit "0 ") b) with
      | None => None
      | Some b =>
          let b := extend (flat_map plain_entry entries) (push x0a b) in
          let b := extend (lit "trailer" ++ [x0a]) b in
          option_map (fun b => finish_trailer b xref_offset [x0a])
            (write_obj_in pr (ODict (trailer_entries p xref_len)) (obj_direct 0 (c_pretty (p_chunk p)) false) b)
      end
  end.
(** src/lib.rs:370-420 [finish_with_xref_stream_inner]. *)
Definition finish_stream_inner_in (pr : profile) (p : pdf) (xref_id : Z) (filter : bytes -> bytes * option xref_filter) : option bytes :=
  let b := c_buf (p_chunk p) in
  let pretty := c_pretty (p_chunk p) in
  let xref_offset := blen (inner b) in
  let offsets := c_offsets (p_chunk p) ++ [(xref_id, xref_offset)] in
  let fw := field_width xref_offset in
  match write_offsets_in pr offsets with
  | None => None
  | Some (xref_len, entries) =>
      let '(data, flt) := filter (flat_map (stream_entry fw) entries) in
      match push_int_in pr xref_id b with
      | None => None
      | Some b =>
          let w := mkObjw true 0 pretty false in
          let b := extend (lit " 0 obj" ++ [x0a]) b in
          let es := [(lit "Type", OPrim (PName (lit "XRef")))] ++ filter_entries flt ++
                    trailer_entries p xref_len ++
                    [(lit "W", OArray [OPrim (PInt 1); OPrim (PInt fw); OPrim (PInt 2)])] in
          match write_stream_in pr w es data b with
          | None => None
          | Some b => Some (finish_trailer b xref_offset [])
          end
      end
  end.

(** A history of a [Pdf], as [pdf_run]. *)
Definition pdf_step_in (pr : profile) (op : pdf_op) (p : pdf) : option pdf :=
  let set c := on_chunk (fun _ => c) p in
  match op with
  | PdfObject id o => option_map set (chunk_object_in pr id o (p_chunk p))
  | PdfStream id es data => option_map set (chunk_stream_in pr id es data (p_chunk p))
  | PdfExtend other => option_map (fun o => on_chunk (chunk_extend o) p) (run_in pr other)
  | PdfRenumber source T f s =>
      match run_in pr source with
      | Some c => option_map (fun r => set (fst r)) (chunk_renumber_into_in pr f c (p_chunk p) s)
      | None => None
      end
  | PdfCatalog id es =>
      option_map (fun c => mkPdf c (Some id) (p_info p) (p_file_id p)) (chunk_object_in pr id (catalog_obj es) (p_chunk p))
  | PdfInfo id es =>
      option_map (fun c => mkPdf c (p_catalog p) (Some id) (p_file_id p)) (chunk_object_in pr id (ODict es) (p_chunk p))
  | PdfMerge _ | PdfFileId _ | PdfVersion _ _ | PdfMarker _ => pdf_step op p
  end.
Fixpoint pdf_run_in (pr : profile) (ops : list pdf_op) (p : pdf) : option pdf :=
  match ops with
  | [] => Some p
  | op :: r => match pdf_step_in pr op p with Some p => pdf_run_in pr r p | None => None end
  end.
