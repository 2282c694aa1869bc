(** Model of a [Pdf] used where a [Chunk] is expected: [Pdf] dereferences to its chunk. *)

From Coq Require Import ZArith List Bool.
From Verif Require Import Bytes ModelFloat ModelBuf ModelObject ModelRenumber ModelChunk ModelPdf.
Import ListNotations.
Local Open Scope Z_scope.

(** src/lib.rs:492-498 [Deref for Pdf], then src/chunk.rs:88-93: [chunk.extend(&pdf)]. *)
Definition extend_by_pdf (p : pdf) (c : chunk) : chunk := chunk_extend (p_chunk p) c.

(** src/lib.rs:492-504 and src/chunk.rs:88-93: [pdf.extend(&other_pdf)]. *)
Definition pdf_extend_by_pdf (other self : pdf) : pdf := on_chunk (chunk_extend (p_chunk other)) self.

(** src/lib.rs:492-498 and src/chunk.rs:181-187: [pdf.renumber_into(&mut chunk, mapping)]. *)
Definition pdf_renumber_into {S} (mapping : S -> Z -> Z * S) (p : pdf) (target : chunk) (s : S) : option (chunk * S) :=
  chunk_renumber_into mapping (p_chunk p) target s.

(** src/lib.rs:492-498 and src/chunk.rs:170-177: [pdf.renumber(mapping)]. *)
Definition pdf_renumber {S} (mapping : S -> Z -> Z * S) (p : pdf) (s : S) : option (chunk * S) :=
  chunk_renumber mapping (p_chunk p) s.

(** src/lib.rs:492-504 and src/chunk.rs:181-187: [pdf.renumber_into(&mut other_pdf, mapping)]. *)
Definition pdf_renumber_into_pdf {S} (mapping : S -> Z -> Z * S) (p target : pdf) (s : S) : option (pdf * S) :=
  option_map (fun r => (on_chunk (fun _ => fst r) target, snd r)) (chunk_renumber_into mapping (p_chunk p) (p_chunk target) s).
