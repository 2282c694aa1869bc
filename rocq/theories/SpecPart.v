(** Specification of documents assembled from renumbered parts. *)

From Coq Require Import ZArith List Bool.
From Verif Require ModelContent ModelCmap.
From Verif Require Import Bytes ModelFloat ModelBuf ModelObject ModelChunk ModelColor ModelSmall ModelPdf ModelTw ModelEnums ModelRoles ModelTwArgs
  ModelTwFiles ModelTwGraphics ModelTwAnnot ModelTwForms ModelTwAttr ModelTwXObj ModelTwFonts ModelTwDoc ModelFontDesc ModelDoc ModelPart
  SpecLex SpecObj SpecText SpecMeans SpecRenum SpecChunk SpecFile SpecPdf SpecTyped SpecColor SpecSmall SpecTw SpecEnums SpecRoles SpecTwArgs
  SpecTwFiles SpecTwGraphics SpecTwAnnot SpecTwForms SpecTwAttr SpecTwXObj SpecTwFonts SpecTwDoc SpecFontDesc SpecDoc.
Import ListNotations.
Local Open Scope Z_scope.

(** ** Values under a renaming of object numbers *)

Fixpoint map_val (g : Z -> Z) (v : val) : val :=
  match v with
  | VRef n gen => VRef (g n) gen
  | VArr l => VArr (map (map_val g) l)
  | VDict l => VDict (map (fun e => (fst e, map_val g (snd e))) l)
  | _ => v
  end.
(** The same object or stream under its new number; the data of a stream is not touched. *)
Definition map_indirect (g : Z -> Z) (i : indirect) : indirect :=
  match i with
  | IObj id gen v => IObj (g id) gen (map_val g v)
  | IStream id gen d data => IStream (g id) gen (map (fun e => (fst e, map_val g (snd e))) d) data
  end.

(** ** Closures *)

(** Asked about the ids in order, the closure gives the same answer to the same id. *)
Definition consistent {T} (f : T -> Z -> Z * T) (s : T) (ids : list Z) : Prop :=
  forall i j id a b, nth_error ids i = Some id -> nth_error ids j = Some id ->
    nth_error (fst (call_all f ids s)) i = Some a -> nth_error (fst (call_all f ids s)) j = Some b -> a = b.
(** The renaming it then stands for; ids that it was not asked about stay. *)
Definition renaming {T} (f : T -> Z -> Z * T) (s : T) (ids : list Z) (id : Z) : Z :=
  match find (fun e => fst e =? id) (combine ids (fst (call_all f ids s))) with Some e => snd e | None => id end.

(** ** What a program asks for *)

(** The ids of a part: of its objects, each followed by the references in it. *)
Definition part_ids (p : part) : list Z :=
  match part_hist p with Some h => flat_map item_refs (hist_items h) | None => [] end.
(** The calls that wrote the objects of the part, with the id and the renaming that was applied since. *)
Fixpoint part_found (p : part) : list (Z * (Z -> Z) * part_call) :=
  match p with
  | PartNew _ => []
  | PartWrite p id c => part_found p ++ [(id, fun n => n, c)]
  | PartMerge p _ => part_found p
  | PartExtend p other => part_found p ++ part_found other
  | PartRenumber target source T f s =>
      part_found target ++
      map (fun x => (fst (fst x), fun n => renaming f s (part_ids source) (snd (fst x) n), snd x)) (part_found source)
  end.

Definition part_call_reads (id : Z) (c : part_call) : indirect -> Prop :=
  match c with PcTyped c => chunk_call_reads id c | PcObject o => is_object id (means o) end.
Definition part_call_ok (c : part_call) : bool :=
  match c with PcTyped c => chunk_call_ok c | PcObject o => body_typed (BObj o) && body_readable (BObj o) end.

(** Arguments are in the ranges of the writers' theorems; closures are consistent and return references. *)
Definition closure_ok {T} (f : T -> Z -> Z * T) (s : T) (ids : list Z) : Prop :=
  consistent f s ids /\ Forall (fun n => id_ok n = true) (fst (call_all f ids s)).
Fixpoint part_ok (p : part) : Prop :=
  match p with
  | PartNew _ => True
  | PartWrite p id c => part_ok p /\ id_ok id = true /\ part_call_ok c = true
  | PartMerge p _ => part_ok p
  | PartExtend p other => part_ok p /\ part_ok other
  | PartRenumber target source T f s => part_ok target /\ part_ok source /\ closure_ok f s (part_ids source)
  end.

(** Under its new id a reader finds what the call asked for, with the new numbers in its references. *)
Definition found_reads (resolved : Z -> option indirect) (x : Z * (Z -> Z) * part_call) : Prop :=
  let '(id, g, c) := x in exists i, part_call_reads id c i /\ resolved (g id) = Some (map_indirect g i).

Definition merge_op_ok (op : merge_op) : Prop :=
  match op with
  | MDoc op => doc_op_ok op
  | MExtend p => part_ok p
  | MRenumber p T f s => part_ok p /\ closure_ok f s (part_ids p)
  end.
Definition merge_op_ids (op : merge_op) : list Z :=
  match op with
  | MDoc op => doc_op_ids op
  | MExtend p => map (fun x => snd (fst x) (fst (fst x))) (part_found p)
  | MRenumber p T f s => map (fun x => renaming f s (part_ids p) (snd (fst x) (fst (fst x)))) (part_found p)
  end.
Definition merge_ids (ops : list merge_op) : list Z := flat_map merge_op_ids ops.
Definition merge_op_reads (op : merge_op) (resolved : Z -> option indirect) : Prop :=
  match op with
  | MDoc op => doc_op_reads op resolved
  | MExtend p => Forall (found_reads resolved) (part_found p)
  | MRenumber p T f s => Forall (found_reads resolved) (part_found (PartRenumber (PartNew true) p T f s))
  end.
(** The last catalog; [extend] and [renumber_into] do not touch it. *)
Definition merge_catalog (ops : list merge_op) : option Z :=
  doc_catalog (flat_map (fun op => match op with MDoc op => [op] | _ => [] end) ops).

(** ** The documented closure *)

(** The distinct ids in the order in which they first appear. *)
Fixpoint first_seen (ids : list Z) : list Z :=
  match ids with
  | [] => []
  | id :: r => id :: List.filter (fun i => negb (i =? id)) (first_seen r)
  end.
Fixpoint position (id : Z) (l : list Z) : Z :=
  match l with [] => 0 | i :: r => if i =? id then 0 else 1 + position id r end.
(** Consecutive ids, starting from [alloc], in the order of first appearance. *)
Definition consecutive (alloc : Z) (ids : list Z) (id : Z) : Z := alloc + position id (first_seen ids).
