(** Model of panics that the caller catches ([std::panic::catch_unwind]) or that unwind past a borrowed [Chunk] or [Pdf]: what is in the
    document afterwards.  All writers that are open are dropped while the stack unwinds; the crate has no other clean-up.  The panic may come
    from the caller's own code between two calls, from a closure given to [renumber_into], from [Chunk::stream] (too much data), or from an
    assertion of a typed method (these stand before anything is written by that call: src/color.rs:185, 467-630, 814, 825;
    src/object.rs:1241, 1255; src/structure.rs:314, 2092), which is then a panic between two calls. *)

From Coq Require Import ZArith List Bool.
From Verif Require Import Bytes ModelFloat ModelBuf ModelObject ModelRenumber ModelChunk ModelApi ModelPdf.
Import ListNotations.
Local Open Scope Z_scope.

(** The open writers are dropped, the innermost first ([Drop] of [Array], src/object.rs:844-856; [Dict], 1013-1035; [Stream], 1147-1167; an [Obj],
    638-644, has none). *)
Fixpoint unwind (st : list writer) (b : buf) : buf :=
  match st with
  | [] => b
  | WObj _ :: st => unwind st b
  | WArray a :: st => unwind st (array_drop a b)
  | WDict d :: st => unwind st (dict_drop d b)
  | WStream data d :: st => unwind st (stream_drop data d b)
  end.

(** [chunk.indirect(id)] (src/chunk.rs:193-196), the calls [cs] on the object, and then a panic (or just the end of the scope, if no writer is
    open any more).  [None]: calls that do not compile. *)
Definition caught_object (id : Z) (cs : list call) (c : chunk) : option chunk :=
  let '(w, c) := chunk_indirect id c in
  match api_run cs ([WObj w], c_buf c) with
  | Some (st, b) => Some (mkChunk (unwind st b) (c_offsets c) (c_pretty c))
  | None => None
  end.

(** [chunk.stream(id, data)] (src/chunk.rs:247-249), the calls [cs] on the stream, and a panic.  If the data is too long, [Stream::start]
    (src/object.rs:1118-1131) panics itself: its dictionary is open at that point, and its [Drop] runs. *)
Definition caught_stream (id : Z) (data : bytes) (cs : list call) (c : chunk) : option chunk :=
  let '(w, c) := chunk_indirect id c in
  match stream_start w data (c_buf c) with
  | Some (d, b) =>
      match api_run cs ([WStream data d], b) with
      | Some (st, b) => Some (mkChunk (unwind st b) (c_offsets c) (c_pretty c))
      | None => None
      end
  | None => let '(d, b) := dict_start w (c_buf c) in Some (mkChunk (dict_drop d b) (c_offsets c) (c_pretty c))
  end.

(** A closure that may panic: [mapping s id = None]. *)
Section Mapping.
  Context {S : Type} (mapping : S -> Z -> option (Z * S)).

  (** src/renumber.rs:52-122 [patch_object], as [patch_loop]; when the closure panics (70), what has been written stays: the result has no closure
      state. *)
  Fixpoint caught_patch_loop (fuel : nat) (slice : bytes) (seen written : nat) (b : buf) (s : S) : option (buf * option S) :=
    match fuel with
    | O => None
    | Datatypes.S fuel =>
        match nth_error slice seen with
        | None =>
            match slice_get slice written (length slice) with
            | Some t => Some (extend t b, Some s)
            | None => None
            end
        | Some c =>
            if beq c x52 then
              match validate_ref (firstn seen slice) with
              | Some (head, id, gen) =>
                  match mapping s id with
                  | None => Some (b, None)
                  | Some (new, s) =>
                      match slice_get slice written head with
                      | None => None
                      | Some t =>
                          let b := extend t b in
                          let b := push_int new b in
                          let b := push x20 b in
                          let b := push_int gen b in
                          let b := push x20 b in
                          let b := push x52 b in
                          caught_patch_loop fuel slice (seen + 1) (seen + 1) b s
                      end
                  end
              | None => caught_patch_loop fuel slice (seen + 1) written b s
              end
            else if beq c x25 then
              caught_patch_loop fuel slice (seen + skip_comment (skipn seen slice) + 1) written b s
            else if beq c x28 then
              caught_patch_loop fuel slice (seen + skip_string 0 (skipn seen slice) + 1) written b s
            else if beq c x73 && starts_with (lit "stream") (skipn seen slice)
                    && validate_stream (firstn seen slice)
            then
              match slice_get slice written (length slice) with
              | Some t => Some (extend t b, Some s)
              | None => None
              end
            else caught_patch_loop fuel slice (seen + 1) written b s
        end
    end.

  (** src/renumber.rs:10-25, as [renumber_loop]. *)
  Fixpoint caught_renumber_loop (src : bytes) (offsets : list (Z * Z)) (pretty : bool) (b : buf) (offs : list (Z * Z)) (s : S)
    : option (buf * list (Z * Z) * option S) :=
    match offsets with
    | [] => Some (b, offs, Some s)
    | (id, offset) :: iter =>
        match mapping s id with
        | None => Some (b, offs, None)
        | Some (new, s) =>
            let stop := match iter with [] => blen src | (_, o) :: _ => o end in
            match slice_get src (Z.to_nat offset) (Z.to_nat stop) with
            | None => None
            | Some slice =>
                match extract_object slice with
                | None => caught_renumber_loop src iter pretty b offs s
                | Some (gen, slice) =>
                    let offs := offs ++ [(new, blen (inner b))] in
                    let b := push_int new b in
                    let b := push x20 b in
                    let b := push_int gen b in
                    let b := extend (lit " obj" ++ [x0a]) b in
                    match caught_patch_loop (Datatypes.S (length slice)) slice 0 0 b s with
                    | None => None
                    | Some (b, None) => Some (b, offs, None)
                    | Some (b, Some s) =>
                        let b := extend ([x0a] ++ lit "endobj" ++ [x0a]) b in
                        let b := if pretty then extend [x0a] b else b in
                        caught_renumber_loop src iter pretty b offs s
                    end
                end
            end
        end
    end.

  (** src/chunk.rs:181-187 [Chunk::renumber_into]; the closure state is lost in a panic. *)
  Definition caught_renumber_into (source target : chunk) (s : S) : option (chunk * option S) :=
    let b := with_limits (fun m => merge m (chunk_limits source)) (c_buf target) in
    match caught_renumber_loop (chunk_bytes source) (c_offsets source) (c_pretty target) b (c_offsets target) s with
    | Some (b, offs, s) => Some (mkChunk b offs (c_pretty target), s)
    | None => None
    end.
End Mapping.

(** How a chunk comes to be if panics are caught; every call may have been cut short.  (The source of a renumbering is an ordinary chunk.) *)
Inductive caught_hist : Type :=
| KNew (pretty : bool)
| KObject (h : caught_hist) (id : Z) (cs : list call)
| KStream (h : caught_hist) (id : Z) (data : bytes) (cs : list call)
| KExtend (h other : caught_hist)
| KMerge (h : caught_hist) (l : limits)
| KRenumber (target : caught_hist) (source : hist) (T : Type) (mapping : T -> Z -> option (Z * T)) (s : T).

(** The operations one after the other: src/chunk.rs:41-68, 193-196, 247-249, 88-93, 126-128, 181-187. *)
Fixpoint caught_run (h : caught_hist) : option chunk :=
  match h with
  | KNew pretty => Some (chunk_with_settings pretty)
  | KObject h id cs => match caught_run h with Some c => caught_object id cs c | None => None end
  | KStream h id data cs => match caught_run h with Some c => caught_stream id data cs c | None => None end
  | KExtend h other =>
      match caught_run h, caught_run other with
      | Some c, Some o => Some (chunk_extend o c)
      | _, _ => None
      end
  | KMerge h l => option_map (chunk_merge_limits l) (caught_run h)
  | KRenumber target source T mapping s =>
      match caught_run target, run source with
      | Some t, Some c => option_map fst (caught_renumber_into mapping c t s)
      | _, _ => None
      end
  end.

(** The same for a [Pdf]. *)
Inductive caught_op : Type :=
| KpObject (id : Z) (cs : list call)
| KpStream (id : Z) (data : bytes) (cs : list call)
| KpExtend (other : caught_hist)
| KpMerge (l : limits)
| KpRenumber (source : hist) (T : Type) (mapping : T -> Z -> option (Z * T)) (s : T)
| KpCatalog (id : Z) (cs : list call)
| KpInfo (id : Z) (cs : list call)
| KpFileId (id : bytes * bytes)
| KpVersion (major minor : Z)
| KpMarker (m : byte * byte * byte * byte).

Definition on_chunk_opt (f : chunk -> option chunk) (p : pdf) : option pdf := option_map (fun c => on_chunk (fun _ => c) p) (f (p_chunk p)).

(** [catalog] (src/lib.rs:293-296) stores the id and opens the dictionary with its [Type] (src/structure.rs:12-17) before the caller can make
    any call; [document_info] (src/lib.rs:303-306) stores the id and opens a dictionary. *)
Definition caught_step (op : caught_op) (p : pdf) : option pdf :=
  match op with
  | KpObject id cs => on_chunk_opt (caught_object id cs) p
  | KpStream id data cs => on_chunk_opt (caught_stream id data cs) p
  | KpExtend other => option_map (fun o => on_chunk (chunk_extend o) p) (caught_run other)
  | KpMerge l => Some (on_chunk (chunk_merge_limits l) p)
  | KpRenumber source T f s =>
      match run source with
      | Some c => on_chunk_opt (fun t => option_map fst (caught_renumber_into f c t s)) p
      | None => None
      end
  | KpCatalog id cs =>
      on_chunk_opt (caught_object id (CDict :: CPair (lit "Type") (PName (lit "Catalog")) :: cs)) (mkPdf (p_chunk p) (Some id) (p_info p) (p_file_id p))
  | KpInfo id cs => on_chunk_opt (caught_object id (CDict :: cs)) (mkPdf (p_chunk p) (p_catalog p) (Some id) (p_file_id p))
  | KpFileId id => Some (set_file_id id p)
  | KpVersion ma mi => Some (set_version ma mi p)
  | KpMarker m => Some (set_binary_marker m p)
  end.

Fixpoint caught_pdf_run (ops : list caught_op) (p : pdf) : option pdf :=
  match ops with
  | [] => Some p
  | op :: r => match caught_step op p with Some p => caught_pdf_run r p | None => None end
  end.
