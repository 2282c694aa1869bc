(** Property C78, continued: copying a [Pdf] into another, by any closure, and finishing it in either way. *)

From Coq Require Import ZArith List Lia Bool Permutation Sorted ZifyBool.
From Verif Require Import Bytes ModelFloat ModelBuf ModelObject ModelRenumber ModelChunk ModelPdf ModelMerge SpecLex SpecObj SpecMeans
  SpecRenum SpecChunk SpecFile SpecPdf SpecLimits SpecMerge ProofBasic ProofObj ProofParse ProofTree ProofRenum ProofXref ProofChunk ProofChunkParse ProofChunk2
  ProofFile ProofFile2 ProofPdf ProofFile3 ProofFile4 ProofMerge PropChunk PropPdf PropPdf2 PropMerge.
Import ListNotations.
Local Open Scope Z_scope.

(** The objects of the target and, after them, those of the source with the ids and references that the closure gave, called once for
    each object and each reference in order. *)
Definition copied_items {T} (f : T -> Z -> Z * T) (s : T) (ops' ops : list pdf_op) : list item :=
  pdf_items ops' ++ fst (thread (map_item_st f) (pdf_items ops) s).

Lemma trailer_copied ops' h T (f : T -> Z -> Z * T) s k : trailer_value (ops' ++ [PdfRenumber h T f s]) k = trailer_value ops' k.
Proof.
  unfold trailer_value, catalog_of, info_of, file_id_of. rewrite !last_call_snoc. reflexivity.
Qed.

Section Copied.
  Variables (pretty pretty' : bool) (ops ops' : list pdf_op) (p q : pdf).
  Variables (T : Type) (f : T -> Z -> Z * T) (s s' : T) (q' : pdf).
  Hypothesis Ht : ops_typed ops.
  Hypothesis Hm : ops_merges_ok ops.
  Hypothesis Hf : forall t id, id_ok (fst (f t id)) = true.
  Hypothesis Ht' : ops_typed ops'.
  Hypothesis R : pdf_run ops (pdf_with_settings pretty) = Some p.
  Hypothesis R' : pdf_run ops' (pdf_with_settings pretty') = Some q.
  Hypothesis E : pdf_renumber_into_pdf f p q s = Some (q', s').

  Lemma copy_run : exists l, ops_typed l /\ pdf_run l (pdf_with_settings pretty') = Some q' /\ pdf_items l = copied_items f s ops' ops /\
    forall k, trailer_value l k = trailer_value ops' k.
  Proof using All.
    destruct (C78_copy_is_a_call pretty ops p pretty' ops' q T f s Ht Hm Hf Ht' R R') as (q2 & s2 & E2 & RC & TC & IC).
    rewrite E in E2. apply ProofFile3.some_inj in E2. injection E2 as <- <-.
    eexists. split; [exact TC|]. split; [exact RC|]. split; [exact IC|]. intro k. apply trailer_copied.
  Qed.
End Copied.

(** Every object of both is found, the copied ones as the closure renamed them, and no others; the trailer is that of the target. *)
Theorem C78_copied_documents : forall decode pretty ops p pretty' ops' q T (f : T -> Z -> Z * T) s s' q' file,
  ops_typed ops -> ops_merges_ok ops -> (forall t id, id_ok (fst (f t id)) = true) -> ops_typed ops' ->
  pdf_run ops (pdf_with_settings pretty) = Some p -> pdf_run ops' (pdf_with_settings pretty') = Some q ->
  pdf_renumber_into_pdf f p q s = Some (q', s') -> finish q' = Some file -> blen file <= 10 ^ 10 ->
  ids_below (map fst (copied_items f s ops' ops)) ->
  (forall it, In it (copied_items f s ops' ops) -> body_readable (snd it) = true ->
     exists i, resolve decode file (fst it) = Some i /\ item_means it i) /\
  (forall id, ~ In id (map fst (copied_items f s ops' ops)) -> resolve decode file id = None) /\
  exists entries trailer, read_file decode file = Some (entries, trailer) /\
    forall k, k <> lit "Size" -> lookup k trailer = trailer_value ops' k.
Proof.
  intros decode pretty ops p pretty' ops' q T f s s' q' file Ht Hm Hf Ht' R R' E F L B.
  destruct (copy_run pretty pretty' ops ops' p q T f s s' q' Ht Hm Hf Ht' R R' E) as (l & TC & RC & IC & KC).
  assert (BI : ids_below (pdf_ids l)) by (unfold pdf_ids; rewrite IC; exact B).
  destruct (C23_every_object_is_found decode pretty' l q' file TC RC F BI L) as [A1 A2].
  destruct (C29_finish decode pretty' l q' file TC RC F BI L) as (_ & _ & entries & trailer & _ & _ & _ & _ & _ & _ & X & _ & K).
  unfold pdf_ids in A2. rewrite IC in A1, A2. split; [exact A1|]. split; [exact A2|]. exists entries, trailer. split; [exact X|].
  intros k Hk. rewrite (K k Hk). apply KC.
Qed.

(** The same with a cross-reference stream. *)
Theorem C78_copied_documents_stream : forall decode pretty ops p pretty' ops' q T (f : T -> Z -> Z * T) s s' q' xref_id file,
  ops_typed ops -> ops_merges_ok ops -> (forall t id, id_ok (fst (f t id)) = true) -> ops_typed ops' ->
  pdf_run ops (pdf_with_settings pretty) = Some p -> pdf_run ops' (pdf_with_settings pretty') = Some q ->
  pdf_renumber_into_pdf f p q s = Some (q', s') -> id_ok xref_id = true -> finished_with_stream decode q' xref_id file -> blen file < 2 ^ 64 ->
  ids_below (xref_id :: map fst (copied_items f s ops' ops)) ->
  (forall it, In it (copied_items f s ops' ops) -> body_readable (snd it) = true ->
     exists i, resolve decode file (fst it) = Some i /\ item_means it i) /\
  (forall id, id <> xref_id -> ~ In id (map fst (copied_items f s ops' ops)) -> resolve decode file id = None) /\
  exists entries trailer, read_file decode file = Some (entries, trailer) /\
    forall k, k <> lit "Size" -> ~ In k stream_keys -> lookup k trailer = trailer_value ops' k.
Proof.
  intros decode pretty ops p pretty' ops' q T f s s' q' xid file Ht Hm Hf Ht' R R' E X F L B.
  destruct (copy_run pretty pretty' ops ops' p q T f s s' q' Ht Hm Hf Ht' R R' E) as (l & TC & RC & IC & KC).
  assert (BI : ids_below (xid :: pdf_ids l)) by (unfold pdf_ids; rewrite IC; exact B).
  destruct (C27_every_object_is_found decode pretty' l q' xid file TC RC X BI F L) as [A1 A2].
  destruct (C29_stream decode pretty' l q' xid file TC RC X BI F L) as (_ & _ & entries & trailer & _ & _ & _ & _ & _ & Y & _ & _ & K).
  unfold pdf_ids in A2. rewrite IC in A1, A2. split; [exact A1|]. split; [exact A2|]. exists entries, trailer. split; [exact Y|].
  intros k Hk Hn. rewrite (K k Hk Hn). apply KC.
Qed.

(** A closure with a memory, which numbers upwards from 20 whatever it is asked for. *)
Definition upwards (t : Z) (id : Z) : Z * Z := (t, t + 1).
Example C78_copied_case :
  map fst (copied_items upwards 20 outer_ops inner_ops) = [7; 20; 22] /\
  match pdf_run inner_ops (pdf_with_settings false), pdf_run outer_ops (pdf_with_settings true) with
  | Some p, Some q =>
      option_map (fun r => (snd r, option_map (fun file => (map (resolve no_filter file) [20; 21; 22], blen file <=? 10 ^ 10)) (finish (fst r))))
        (pdf_renumber_into_pdf upwards p q 20) =
      Some (24, Some ([Some (IObj 20 0 (VRef 21 0)); None; Some (IObj 22 0 (VDict [(lit "Type", VName (lit "Catalog")); (lit "K", VRef 23 0)]))], true))
  | _, _ => False
  end.
Proof. vm_compute. split; reflexivity. Qed.

Print Assumptions C78_copied_documents.
Print Assumptions C78_copied_documents_stream.
