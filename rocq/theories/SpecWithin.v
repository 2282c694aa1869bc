(** Specification: what the reported limits promise about a file.

    [Chunk::limits] and [Limits] are there for programs that have to keep to the implementation limits of a standard.  Such a program looks
    at six numbers; what it needs to know is how they bound the values that a reader meets in the finished file and in the contents of its pages. *)

From Coq Require Import ZArith List Bool.
From Verif Require Import Bytes ModelFloat ModelBuf ModelObject ModelChunk ModelPdf SpecLex SpecObj SpecText SpecMeans.
Import ListNotations.
Local Open Scope Z_scope.

Definition size {A} (l : list A) : Z := Z.of_nat (List.length l).

(** A number that is too large for an integer of 32 bits, if it is whole at all. *)
Definition not_an_i32 (r : f32) : Prop := forall z, f32_units r = z * 2 ^ 149 -> 2 ^ 31 <= Z.abs z.

(** Everything in a value is within the limits [l].  (A text string may be written with two bytes for every byte it has in UTF-8, and a byte order mark;
    a date has at most 22 characters and does not count.) *)
Inductive within (l : limits) : val -> Prop :=
| in_null : within l VNull
| in_bool b : within l (VBool b)
| in_int z : Z.abs z <= l_int l \/ z = - 2 ^ 31 -> within l (VInt z)
| in_whole z r : rounds_to z 0 r -> not_an_i32 r -> f32_leb (f32_abs r) (l_real l) = true -> within l (VInt z)
| in_real n k r : rounds_to n k r -> not_an_i32 r -> f32_leb (f32_abs r) (l_real l) = true -> within l (VReal n k)
| in_str s : blen s <= 2 * l_str l + 2 \/ blen s <= 22 -> within l (VStr s)
| in_name s : blen s <= l_name l -> within l (VName s)
| in_ref n : 0 < n <= l_int l -> within l (VRef n 0)
| in_array items : size items <= l_array l -> Forall (within l) items -> within l (VArr items)
| in_dict entries : size entries <= l_dict l -> Forall (fun e => blen (fst e) <= l_name l /\ within l (snd e)) entries -> within l (VDict entries).

(** An indirect object or a stream, with its number. *)
Definition within_object (l : limits) (i : indirect) : Prop :=
  match i with
  | IObj n g v => 0 < n <= l_int l /\ g = 0 /\ within l v
  | IStream n g d data => 0 < n <= l_int l /\ g = 0 /\ within l (VDict d) /\ blen data <= l_int l
  end.

(** The limits [l] are merged in somewhere in the making of a chunk, with [Chunk::merge_limits], or in that of a document. *)
Inductive merged_into (l : limits) : hist -> Prop :=
| merged_now h : merged_into l (HMerge h l)
| merged_then_object h id o : merged_into l h -> merged_into l (HObject h id o)
| merged_then_stream h id es data : merged_into l h -> merged_into l (HStream h id es data)
| merged_then_merged h m : merged_into l h -> merged_into l (HMerge h m)
| merged_then_extended h other : merged_into l h -> merged_into l (HExtend h other)
| merged_in_extension h other : merged_into l other -> merged_into l (HExtend h other)
| merged_then_renumbered h source T f s : merged_into l h -> merged_into l (HRenumber h source T f s)
| merged_in_source h source T f s : merged_into l source -> merged_into l (HRenumber h source T f s).
Inductive op_merges (l : limits) : pdf_op -> Prop :=
| op_merge : op_merges l (PdfMerge l)
| op_extend h : merged_into l h -> op_merges l (PdfExtend h)
| op_renumber h T f s : merged_into l h -> op_merges l (PdfRenumber h T f s).
Definition merged_in (l : limits) (ops : list pdf_op) : Prop := Exists (op_merges l) ops.

(** ** The limits of the archival standard (ISO 19005-1, 6.1.12, with ISO 32000-1, annex C) *)
Inductive conforming : val -> Prop :=
| ok_null : conforming VNull
| ok_bool b : conforming (VBool b)
| ok_int z : -2147483648 <= z <= 2147483647 -> conforming (VInt z)
| ok_real n k : Z.abs n <= 32767 * 10 ^ Z.of_nat k -> conforming (VReal n k)
| ok_str s : blen s <= 32767 -> conforming (VStr s)
| ok_name s : blen s <= 127 -> conforming (VName s)
| ok_ref n g : conforming (VRef n g)
| ok_array items : size items <= 8191 -> Forall conforming items -> conforming (VArr items)
| ok_dict entries : size entries <= 4095 -> Forall (fun e => blen (fst e) <= 127 /\ conforming (snd e)) entries -> conforming (VDict entries).
Definition conforming_object (i : indirect) : Prop :=
  match i with IObj _ _ v => conforming v | IStream _ _ d _ => conforming (VDict d) end.

(** What a program has to check.  (Strings: half of the limit, as a text string may take twice as much in the file.) *)
Definition archival_limits (l : limits) : Prop :=
  f32_leb (l_real l) (FFin false 16776704 (-9)) = true (* 32767.0 *) /\
  l_str l <= 16382 /\ l_name l <= 127 /\ l_array l <= 8191 /\ l_dict l <= 4095.
