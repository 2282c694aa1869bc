(** Specification: which objects make an i32 overflow while they are written. *)

From Coq Require Import ZArith List Bool.
From Verif Require Import Bytes ModelFloat ModelBuf ModelObject ModelRenumber ModelChunk ModelPdf ModelOverflow SpecMeans SpecRenum SpecChunk.
Import ListNotations.
Local Open Scope Z_scope.

(** The values have their Rust types; integers are i32. *)
Definition prim_fits (v : prim) : bool := match v with PInt z => in_i32 z | _ => prim_typed v end.
Fixpoint fits (o : obj) : bool :=
  match o with
  | OPrim v => prim_fits v
  | OArray l => forallb fits l
  | ODict l => forallb (fun e => fits (snd e)) l
  end.

Definition count (c : byte) (s : bytes) : Z := Z.of_nat (length (List.filter (beq c) s)).

(** Somewhere in the string, more than [i32::MAX] parentheses are open (counting from the left, up to the first closing
    parenthesis that closes nothing). *)
Definition opened_beyond (start : Z) (s : bytes) : Prop :=
  exists pre post, s = pre ++ post /\
    (forall a b, pre = a ++ b -> count x29 a <= start + count x28 a) /\
    i32_max < start + count x28 pre - count x29 pre.
Definition deep_string (s : bytes) : Prop := forallb (fun c => bz c <? 128) s = true /\ opened_beyond 0 s.

(** The text of the value has such a string. *)
Definition deep (v : prim) : Prop :=
  match v with
  | PStr s => deep_string s
  | PText t => forallb (fun c => (32 <=? bz c) && (bz c <=? 126)) (str_utf8 t) = true /\ opened_beyond 0 (str_utf8 t)
  | _ => False
  end.

(** The number [i32::MIN] is written. *)
Definition is_min (v : f32) : Prop := f32_finite v = true /\ f32_units v = - 2 ^ 31 * 2 ^ 149.
Definition has_min (v : prim) : Prop :=
  match v with
  | PInt n => n = - 2 ^ 31
  | PReal r => is_min r
  | PRect r => is_min (x1 r) \/ is_min (y1 r) \/ is_min (x2 r) \/ is_min (y2 r)
  | _ => False
  end.

(** An object and everything in it. *)
Inductive part_of : obj -> obj -> Prop :=
| part_self o : part_of o o
| part_item x o l : In o l -> part_of x o -> part_of x (OArray l)
| part_entry x k o l : In (k, o) l -> part_of x o -> part_of x (ODict l).

(** [i32::MIN] is written somewhere in the object. *)
Definition writes_min (o : obj) : Prop := exists v, part_of (OPrim v) o /\ has_min v.
(** Some array or dictionary in it has more than [i32::MAX] items, or some string in it opens more than [i32::MAX] parentheses. *)
Definition too_long (o : obj) : Prop :=
  exists x, part_of x o /\
    match x with
    | OPrim v => deep v
    | OArray l => i32_max < Z.of_nat (length l)
    | ODict l => i32_max < Z.of_nat (length l)
    end.
(** What makes a debug build panic, and what can make a release build write something else than it should. *)
Definition overflows (p : profile) (o : obj) : Prop := too_long o \/ (p = Debug /\ writes_min o).
(** The same for the entries of a stream, which has [/Length] too. *)
Definition stream_overflows (p : profile) (es : list (bytes * obj)) : Prop :=
  i32_max < 1 + Z.of_nat (length es) \/ exists k o, In (k, o) es /\ overflows p o.

(** ** Histories *)

(** [P] of a history and of every history in it. *)
Fixpoint every (P : hist -> Prop) (h : hist) : Prop :=
  P h /\
  match h with
  | HNew _ => True
  | HObject h _ _ | HStream h _ _ _ | HMerge h _ => every P h
  | HExtend a b | HRenumber a b _ _ _ => every P a /\ every P b
  end.
(** The last call of a history writes integers that are i32, but not (in a debug build) [i32::MIN]. *)
Definition body_plain (p : profile) (b : body) : Prop :=
  match b with
  | BObj o => fits o = true /\ (p = Debug -> ~ writes_min o)
  | BStream es _ => fits (ODict es) = true /\ (p = Debug -> ~ writes_min (ODict es))
  end.
Definition call_plain (p : profile) (h : hist) : Prop :=
  match h with
  | HObject _ _ o => body_plain p (BObj o)
  | HStream _ _ es data => body_plain p (BStream es data)
  | _ => True
  end.
(** The chunk is smaller than 2 GiB. *)
Definition below_2GiB (h : hist) : Prop := forall c, run h = Some c -> blen (chunk_bytes c) <= i32_max.

Definition op_plain (p : profile) (op : pdf_op) : Prop :=
  match op with
  | PdfObject _ o => body_plain p (BObj o)
  | PdfStream _ es data => body_plain p (BStream es data)
  | PdfExtend h | PdfRenumber h _ _ _ => every (call_plain p) h /\ every below_2GiB h
  | PdfCatalog _ es | PdfInfo _ es => body_plain p (BObj (ODict es))
  | PdfMerge _ | PdfFileId _ | PdfVersion _ _ | PdfMarker _ => True
  end.
(** At no time the file is larger than 2 GiB. *)
Definition always_below_2GiB (start : pdf) (ops : list pdf_op) : Prop :=
  forall a b p, ops = a ++ b -> pdf_run a start = Some p -> blen (chunk_bytes (p_chunk p)) <= i32_max.
