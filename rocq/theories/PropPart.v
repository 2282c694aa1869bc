(** C59, C60: documents assembled from chunks that are written separately, extended and renumbered; the documented closure. *)

From Coq Require Import ZArith List Lia Bool.
From Verif Require ModelContent ModelCmap.
From Verif Require Import Bytes ModelFloat ModelBuf ModelObject ModelRenumber ModelChunk ModelColor ModelSmall ModelPdf ModelTw ModelEnums ModelRoles ModelTwArgs
  ModelTwFiles ModelTwGraphics ModelTwAnnot ModelTwForms ModelTwAttr ModelTwXObj ModelTwFonts ModelTwDoc ModelFontDesc ModelDoc ModelPart
  SpecLex SpecObj SpecText SpecMeans SpecRenum SpecChunk SpecFile SpecPdf SpecTyped SpecColor SpecSmall SpecTw SpecEnums SpecRoles SpecTwArgs
  SpecTwFiles SpecTwGraphics SpecTwAnnot SpecTwForms SpecTwAttr SpecTwXObj SpecTwFonts SpecTwDoc SpecFontDesc SpecDoc SpecPart
  ProofBasic ProofObj ProofParse ProofTree ProofRenum ProofRenumTree ProofChunk ProofChunk2 ProofPdf ProofSmall ProofTyped ProofColor ProofTw ProofDoc PropPdf PropPdf2 PropDoc ProofPart.
Import ListNotations.
Local Open Scope Z_scope.

Lemma doc_step_catalog op q : doc_op_plain op = Some q ->
  forall a, match q with PdfCatalog id _ => Some id | _ => a end =
            match op with DocCatalog id _ | DocOther (PdfCatalog id _) => Some id | _ => a end.
Proof.
  intros E a. destruct op as [id c|id calls|id calls|op]; cbn [doc_op_plain] in E.
  - destruct (chunk_call_body c) as [[]|]; try discriminate; apply some_inj in E; subst q; reflexivity.
  - destruct (writer_list_opt [] Catalog_entries calls); [|discriminate]. apply some_inj in E. subst q. reflexivity.
  - apply some_inj in E. subst q. reflexivity.
  - apply some_inj in E. subst q. destruct op; reflexivity.
Qed.

Lemma founds_ids fs its : Forall2 found_item fs its -> map fst its = map (fun x => snd (fst x) (fst (fst x))) fs.
Proof. induction 1 as [|x it fs its F FS IH]; [reflexivity|]. cbn [map]. f_equal; [apply found_id; exact F|exact IH]. Qed.
Lemma founds_reads resolved fs its : Forall2 found_item fs its ->
  (forall it, In it its -> body_readable (snd it) = true -> exists i, resolved (fst it) = Some i /\ item_means it i) ->
  Forall (found_reads resolved) fs.
Proof.
  induction 1 as [|x it fs its F FS IH]; intro R; [constructor|]. constructor.
  - eapply found_reads_item; [exact F|]. apply R. left. reflexivity.
  - apply IH. intros j J. apply R. right. exact J.
Qed.

Lemma merge_op_spec op q : merge_op_ok op -> merge_plain op = Some q ->
  exists q', op_typed q' /\ map fst (op_items q') = merge_op_ids op /\
  (forall resolved, (forall it, In it (op_items q') -> body_readable (snd it) = true ->
      exists i, resolved (fst it) = Some i /\ item_means it i) -> merge_op_reads op resolved) /\
  (forall h l p, holds (hdr h) l (p_chunk p) -> pdf_step q p = pdf_step q' p) /\
  (forall a, match q' with PdfCatalog id _ => Some id | _ => a end =
     fold_left (fun a op => match op with DocCatalog id _ | DocOther (PdfCatalog id _) => Some id | _ => a end)
       (match op with MDoc op => [op] | _ => [] end) a).
Proof.
  destruct op as [op|p|p T f s]; cbn [merge_op_ok merge_plain merge_op_ids merge_op_reads]; intros K E.
  - exists q. destruct (doc_op_spec op q K E) as (S1 & S2 & S3). split; [exact S1|]. split; [exact S2|]. split; [exact S3|].
    split; [reflexivity|]. intro a. cbn [fold_left]. apply doc_step_catalog. exact E.
  - destruct (part_hist p) as [h|] eqn:P; [|discriminate]. cbn [option_map] in E. apply some_inj in E. subst q.
    destruct (part_spec p h K P) as (h' & H1 & H2 & H3 & H4 & _). exists (PdfExtend h'). cbn [op_typed op_items pdf_step]. rewrite H3.
    split; [exact H1|]. split; [apply founds_ids; exact H4|].
    split; [intros resolved R; eapply founds_reads; [exact H4|exact R]|].
    split; [intros h0 l p0 _; rewrite H2; reflexivity|]. reflexivity.
  - destruct (part_hist p) as [h|] eqn:P; [|discriminate]. cbn [option_map] in E. apply some_inj in E. subst q.
    destruct K as [K1 K2]. destruct (part_spec p h K1 P) as (h' & H1 & H2 & H3 & H4 & _).
    assert (PI : part_ids p = flat_map item_refs (hist_items h)) by (unfold part_ids; rewrite P; reflexivity).
    cbn [part_found app]. rewrite PI in *. set (ids := flat_map item_refs (hist_items h)) in *.
    destruct (closure_total f s ids K2) as (G1 & G2 & G3).
    exists (PdfRenumber h' unit (fun t id => (totally (renaming f s ids) id, t)) tt). cbn [op_typed op_items].
    rewrite map_items_pure. cbn [fst]. rewrite H3.
    assert (EX : map (map_item (totally (renaming f s ids))) (hist_items h) = map (map_item (renaming f s ids)) (hist_items h)).
    { apply map_ext_in. intros it I. apply map_item_ext. intros r R. apply G2. unfold ids. apply in_flat_map. exists it. split; assumption. }
    rewrite EX. pose proof (founds_renamed (renaming f s ids) _ _ H4 G3) as FF.
    split; [split; [exact H1|intros t id; apply totally_ok]|].
    split; [rewrite (founds_ids _ _ FF), map_map; reflexivity|].
    split; [intros resolved R; eapply founds_reads; [exact FF|exact R]|].
    split; [|reflexivity]. intros h0 l p0 Hp. cbn [pdf_step]. rewrite <- H2.
    pose proof (run_holds h' H1) as RB. destruct (items_fit (hist_items h')); [|rewrite RB; reflexivity].
    destruct RB as (cb & lb & R1 & R2 & R3 & _). rewrite R1.
    destruct (renumber_agrees f (totally (renaming f s ids)) [] (hdr h0) lb l cb (p_chunk p0) s R2 Hp) as (c' & X1 & X2).
    + rewrite R3. apply items_typed. exact H1.
    + rewrite R3, H3. exact G1.
    + rewrite X1, X2. reflexivity.
Qed.

Lemma merge_ops_spec ops l : Forall merge_op_ok ops -> all_some merge_plain ops = Some l ->
  exists l', ops_typed l' /\ pdf_ids l' = merge_ids ops /\
  (forall resolved, (forall it, In it (pdf_items l') -> body_readable (snd it) = true ->
      exists i, resolved (fst it) = Some i /\ item_means it i) -> Forall (fun op => merge_op_reads op resolved) ops) /\
  (forall h k p, holds (hdr h) k (p_chunk p) -> pdf_run l p = pdf_run l' p) /\
  catalog_of l' = merge_catalog ops.
Proof.
  intros K E. apply all_some_forall2 in E. unfold catalog_of, last_call, merge_catalog, doc_catalog.
  assert (X : exists l', ops_typed l' /\ pdf_ids l' = merge_ids ops /\
    (forall resolved, (forall it, In it (pdf_items l') -> body_readable (snd it) = true ->
        exists i, resolved (fst it) = Some i /\ item_means it i) -> Forall (fun op => merge_op_reads op resolved) ops) /\
    (forall h k p, holds (hdr h) k (p_chunk p) -> pdf_run l p = pdf_run l' p) /\
    forall a, fold_left (fun a op => match match op with PdfCatalog id _ => Some id | _ => None end with Some x => Some x | None => a end) l' a =
      fold_left (fun a op => match op with DocCatalog id _ | DocOther (PdfCatalog id _) => Some id | _ => a end)
        (flat_map (fun op => match op with MDoc op => [op] | _ => [] end) ops) a).
  2:{ destruct X as (l' & X1 & X2 & X3 & X4 & X5). exists l'. repeat (split; [assumption|]). apply X5. }
  unfold ops_typed, pdf_ids, pdf_items, merge_ids.
  induction E as [|op q ops l E F IH].
  { exists []. split; [constructor|]. split; [reflexivity|]. split; [intros; constructor|]. split; reflexivity. }
  inversion K as [|? ? K1 K2]; subst. destruct (IH K2) as (l' & I1 & I2 & I3 & I4 & I5).
  destruct (merge_op_spec op q K1 E) as (q' & S1 & S2 & S3 & S4 & S5). exists (q' :: l').
  split; [constructor; assumption|]. cbn [flat_map]. split; [rewrite map_app; f_equal; [exact S2|exact I2]|].
  split; [intros resolved R; constructor; [apply S3|apply I3]; intros it J; apply R; apply in_or_app; [left|right]; exact J|].
  split.
  - intros h k p H. cbn [pdf_run]. rewrite (S4 h k p H).
    pose proof (step_spec q' (c_pretty (p_chunk p)) S1) as S. destruct (items_fit (op_items q')); [|rewrite S; reflexivity].
    destruct S as (k' & _ & S). destruct (S h k p H eq_refl) as (p' & -> & H' & _). eapply I4. exact H'.
  - intro a. cbn [fold_left flat_map]. rewrite fold_left_app, I5. f_equal. rewrite <- S5. destruct q'; reflexivity.
Qed.
Lemma merge_run_plain ops pretty q : Forall merge_op_ok ops -> merge_run ops (pdf_with_settings pretty) = Some q ->
  exists l', ops_typed l' /\ pdf_ids l' = merge_ids ops /\
  (forall resolved, (forall it, In it (pdf_items l') -> body_readable (snd it) = true ->
      exists i, resolved (fst it) = Some i /\ item_means it i) -> Forall (fun op => merge_op_reads op resolved) ops) /\
  pdf_run l' (pdf_with_settings pretty) = Some q /\ catalog_of l' = merge_catalog ops.
Proof.
  unfold merge_run. intros K R. destruct (all_some merge_plain ops) as [l|] eqn:E; [|discriminate].
  destruct (merge_ops_spec ops l K E) as (l' & S1 & S2 & S3 & S4 & S5). exists l'. repeat (split; [assumption|]). split; [|exact S5].
  rewrite <- (S4 hdr0 [] (pdf_with_settings pretty)); [exact R|]. split; reflexivity.
Qed.

(** However a document is assembled — parts extended with parts, renumbered into parts and into the document, by closures
    with a memory — every object that was written to a part reads back from the finished file: under the number that the
    closures gave it, what was asked for, with all its references renamed in the same way. *)
Theorem C59_assembled_documents : forall decode pretty ops p file,
  Forall merge_op_ok ops -> merge_run ops (pdf_with_settings pretty) = Some p -> finish p = Some file ->
  ids_below (merge_ids ops) -> blen file <= 10 ^ 10 ->
  Forall (fun op => merge_op_reads op (resolve decode file)) ops /\
  forall id, ~ In id (merge_ids ops) -> resolve decode file id = None.
Proof.
  intros decode pretty ops p file K R F B L. destruct (merge_run_plain ops pretty p K R) as (l & S1 & S2 & S3 & S4 & _).
  rewrite <- S2 in *. destruct (C23_every_object_is_found decode pretty l p file S1 S4 F B L) as [X1 X2].
  split; [|exact X2]. apply S3. exact X1.
Qed.
Theorem C59_assembled_documents_stream : forall decode pretty ops p xref_id file,
  Forall merge_op_ok ops -> merge_run ops (pdf_with_settings pretty) = Some p ->
  id_ok xref_id = true -> ids_below (xref_id :: merge_ids ops) ->
  finished_with_stream decode p xref_id file -> blen file < 2 ^ 64 ->
  Forall (fun op => merge_op_reads op (resolve decode file)) ops /\
  forall id, id <> xref_id -> ~ In id (merge_ids ops) -> resolve decode file id = None.
Proof.
  intros decode pretty ops p xref_id file K R I B F L. destruct (merge_run_plain ops pretty p K R) as (l & S1 & S2 & S3 & S4 & _).
  rewrite <- S2 in *. destruct (C27_every_object_is_found decode pretty l p xref_id file S1 S4 I B F L) as [X1 X2].
  split; [|exact X2]. apply S3. exact X1.
Qed.
(** The trailer points at the last catalog of the document itself. *)
Theorem C59_root : forall decode pretty ops p file id,
  Forall merge_op_ok ops -> merge_run ops (pdf_with_settings pretty) = Some p -> finish p = Some file ->
  ids_below (merge_ids ops) -> blen file <= 10 ^ 10 -> merge_catalog ops = Some id ->
  exists entries trailer, read_file decode file = Some (entries, trailer) /\ lookup (lit "Root") trailer = Some (VRef id 0).
Proof.
  intros decode pretty ops p file id K R F B L C. destruct (merge_run_plain ops pretty p K R) as (l & S1 & S2 & _ & S4 & S5).
  rewrite <- S2 in *. rewrite <- S5 in C.
  destruct (C29_finish decode pretty l p file S1 S4 F B L) as (body & section & entries & trailer & _ & _ & _ & _ & _ & _ & E & _ & T).
  exists entries, trailer. split; [exact E|]. rewrite T; [|discriminate].
  change (trailer_value l (lit "Root")) with (option_map (fun id => VRef id 0) (catalog_of l)). rewrite C. reflexivity.
Qed.
Theorem C59_root_stream : forall decode pretty ops p xref_id file id,
  Forall merge_op_ok ops -> merge_run ops (pdf_with_settings pretty) = Some p ->
  id_ok xref_id = true -> ids_below (xref_id :: merge_ids ops) ->
  finished_with_stream decode p xref_id file -> blen file < 2 ^ 64 -> merge_catalog ops = Some id ->
  exists entries trailer, read_file decode file = Some (entries, trailer) /\ lookup (lit "Root") trailer = Some (VRef id 0).
Proof.
  intros decode pretty ops p xref_id file id K R I B F L C. destruct (merge_run_plain ops pretty p K R) as (l & S1 & S2 & _ & S4 & S5).
  rewrite <- S2 in *. rewrite <- S5 in C.
  destruct (C29_stream decode pretty l p xref_id file S1 S4 I B F L) as (body & section & entries & trailer & _ & _ & _ & _ & _ & E & _ & _ & T).
  exists entries, trailer. split; [exact E|]. rewrite T; [|discriminate|].
  2:{ unfold stream_keys. cbn [In]. intros [H|[H|[H|[H|[]]]]]; discriminate H. }
  change (trailer_value l (lit "Root")) with (option_map (fun id => VRef id 0) (catalog_of l)). rewrite C. reflexivity.
Qed.

(** ** The documented closure *)

(** A fresh table answers every id with the next free number, in order of first appearance, and the allocator ends after
    the last of them. *)
Theorem C60_documented_closure : forall alloc ids, 0 < alloc -> alloc + Z.of_nat (length (first_seen ids)) <= i32_max ->
  fst (call_all memo ids ([], alloc)) = map (consecutive alloc ids) ids /\
  snd (snd (call_all memo ids ([], alloc))) = alloc + Z.of_nat (length (first_seen ids)).
Proof.
  intros alloc ids A L. destruct (memo_run alloc ids A [] []) as (m' & _ & E).
  - intro id. reflexivity.
  - rewrite grow_nil. exact L.
  - cbn [length] in E. rewrite Z.add_0_r in E. rewrite E, grow_nil. split; reflexivity.
Qed.
(** These numbers are the interval from [alloc], each once, in order of first appearance. *)
Theorem C60_consecutive : forall alloc ids,
  (forall id, In id ids -> alloc <= consecutive alloc ids id < alloc + Z.of_nat (length (first_seen ids))) /\
  (forall a b, In a ids -> In b ids -> consecutive alloc ids a = consecutive alloc ids b -> a = b) /\
  (forall n, alloc <= n < alloc + Z.of_nat (length (first_seen ids)) -> exists id, In id ids /\ consecutive alloc ids id = n) /\
  (forall before id after, ids = before ++ id :: after -> ~ In id before ->
     consecutive alloc ids id = alloc + Z.of_nat (length (first_seen before))).
Proof.
  intros alloc ids. unfold consecutive. split; [|split; [|split]].
  - intros id I. apply first_seen_in in I. pose proof (position_range _ _ I). lia.
  - intros a b A B E. apply first_seen_in in A. apply first_seen_in in B.
    assert (E' : position a (first_seen ids) = position b (first_seen ids)) by lia.
    apply position_nth in A. apply position_nth in B. rewrite E' in A. congruence.
  - intros n N. destruct (nth_error (first_seen ids) (Z.to_nat (n - alloc))) as [id|] eqn:E.
    + exists id. split; [apply first_seen_in; eapply nth_error_In; exact E|].
      rewrite (nth_position id _ _ (first_seen_nodup ids) E). lia.
    + apply nth_error_None in E. lia.
  - intros before id after -> N. f_equal. rewrite <- !grow_nil. apply nth_position; [rewrite grow_nil; apply first_seen_nodup|].
    assert (G : forall a b seen, grow seen (a ++ b) = grow (grow seen a) b).
    { induction a as [|x a IH]; intros b seen; [reflexivity|]. cbn [app grow]. apply IH. }
    rewrite G. cbn [grow]. rewrite grow_nil. destruct (zmem id (first_seen before)) eqn:Z.
    + exfalso. apply N. apply first_seen_in. apply zmem_in. exact Z.
    + rewrite grow_seen. rewrite nth_error_app1 by (rewrite app_length; cbn [length]; lia).
      rewrite nth_error_app2 by lia. rewrite Nat.sub_diag. reflexivity.
Qed.

(** Hence [renumber] with this closure is the renumbering by a function, and the next chunk that uses the same allocator
    gets other ids. *)
Theorem C60_documented_renumbering : forall h c pretty alloc,
  hist_typed h -> run h = Some c ->
  let ids := flat_map item_refs (hist_items h) in
  0 < alloc -> alloc + Z.of_nat (length (first_seen ids)) <= i32_max ->
  exists c' table,
    chunk_renumber_into memo c (chunk_with_settings pretty) ([], alloc) = Some (c', (table, alloc + Z.of_nat (length (first_seen ids)))) /\
    chunk_renumber_into (fun (t : unit) id => (consecutive alloc ids id, t)) c (chunk_with_settings pretty) tt = Some (c', tt).
Proof.
  intros h c pretty alloc H R ids A L. pose proof (run_holds h H) as RH. destruct (items_fit (hist_items h)); [|congruence].
  destruct RH as (c0 & l & R1 & R2 & R3 & _). rewrite R in R1. apply some_inj in R1. subst c0.
  destruct (C60_documented_closure alloc ids A L) as [E1 E2].
  destruct (renumber_agrees memo (consecutive alloc ids) [] [] l [] c (chunk_with_settings pretty) ([], alloc)) as (c' & X1 & X2).
  - exact R2.
  - split; reflexivity.
  - rewrite R3. apply items_typed. exact H.
  - rewrite R3. exact E1.
  - rewrite R3 in X1. fold ids in X1. destruct (call_all memo ids ([], alloc)) as [ns [table fin]]. cbn [fst snd] in *. subst fin.
    exists c', table. split; [exact X1|exact X2].
Qed.
(** It is one of the closures of C59. *)
Theorem C60_closure_ok : forall alloc ids, 0 < alloc -> alloc + Z.of_nat (length (first_seen ids)) <= i32_max ->
  closure_ok memo ([], alloc) ids /\ forall id, In id ids -> renaming memo ([], alloc) ids id = consecutive alloc ids id.
Proof.
  intros alloc ids A L. destruct (C60_documented_closure alloc ids A L) as [E _]. split; [split|].
  - intros i j id a b I J. rewrite E, !nth_error_map, I, J. cbn [option_map]. congruence.
  - rewrite E. apply Forall_forall. intros n N. apply in_map_iff in N as (id & <- & I).
    destruct (C60_consecutive alloc ids) as [R _]. specialize (R id I). unfold id_ok.
    apply andb_true_iff. split; [apply Z.ltb_lt|apply Z.leb_le]; lia.
  - intros id I. apply renaming_agrees; [exact E|exact I].
Qed.

(** The example of the documentation: 10 becomes 1, 17 becomes 2; the text is not touched. *)
Definition memo_dict : obj :=
  ODict [(lit "Self", OPrim (PRef 17)); (lit "Ref", OPrim (PRef 10)); (lit "NoRef", OPrim (PText (map bz (lit "Text with 10 0 R"))))].
Definition memo_part : part :=
  PartWrite (PartWrite (PartNew true) 10 (PcObject (OPrim (PBool true)))) 17 (PcObject memo_dict).
Example C60_case :
  part_ids memo_part = [10; 17; 17; 10] /\ first_seen (part_ids memo_part) = [10; 17] /\
  map (consecutive 1 (part_ids memo_part)) [10; 17] = [1; 2] /\
  match part_run memo_part with
  | Some c => option_map (fun r => (parse_body 3 (chunk_bytes (fst r)), snd (snd r)))
                (chunk_renumber_into memo c (chunk_with_settings true) ([], 1))
  | None => None
  end = Some (Some [IObj 1 0 (VBool true);
                    IObj 2 0 (VDict [(lit "Self", VRef 2 0); (lit "Ref", VRef 1 0); (lit "NoRef", VStr (lit "Text with 10 0 R"))])], 3).
Proof. split; [|split; [|split]]; vm_compute; reflexivity. Qed.

(** A document of two parts that use the same ids, renumbered with one allocator, and a third part that is itself assembled. *)
Definition page_part : part :=
  PartWrite (PartWrite (PartNew false) 10 (PcTyped (Ck_page [Typed (Page_contents 17)]))) 17 (PcTyped (Ck_stream (lit "10 0 m") [])).
Definition nested_part : part :=
  PartRenumber (PartWrite (PartNew true) 30 (PcObject (OArray [OPrim (PRef 31)]))) memo_part unit (fun t id => (id + 21, t)) tt.
Definition merge_sample : list merge_op := [
  MRenumber memo_part memo_state memo ([], 1);
  MRenumber page_part memo_state memo ([], 3);
  MDoc (DocCatalog 20 [Typed (Catalog_pages 5)]);
  MExtend nested_part].
Example C59_case :
  Forall merge_op_ok merge_sample /\ ids_below (merge_ids merge_sample) /\ merge_ids merge_sample = [1; 2; 3; 4; 20; 30; 31; 38] /\
  merge_catalog merge_sample = Some 20 /\
  exists p file, merge_run merge_sample (pdf_with_settings true) = Some p /\ finish p = Some file /\ blen file <= 10 ^ 10 /\
    resolve no_filter file 3 = Some (IObj 3 0 (VDict [(lit "Type", VName (lit "Page")); (lit "Contents", VRef 4 0)])) /\
    resolve no_filter file 38 = Some (IObj 38 0 (VDict [(lit "Self", VRef 38 0); (lit "Ref", VRef 31 0); (lit "NoRef", VStr (lit "Text with 10 0 R"))])).
Proof.
  assert (I : merge_ids merge_sample = [1; 2; 3; 4; 20; 30; 31; 38]) by (vm_compute; reflexivity).
  assert (M : part_ok memo_part) by (cbn [part_ok memo_part]; repeat split).
  assert (P : part_ok page_part) by (cbn [part_ok page_part]; repeat split).
  split.
  { constructor; [|constructor; [|constructor; [|constructor; [|constructor]]]]; cbn [merge_op_ok].
    - split; [exact M|]. apply C60_closure_ok; vm_compute; congruence.
    - split; [exact P|]. apply C60_closure_ok; vm_compute; congruence.
    - cbn [doc_op_ok]. split; reflexivity.
    - cbn [part_ok nested_part]. split; [repeat split|]. split; [exact M|]. split; [apply consistent_pure|].
      rewrite agree_pure. cbn [fst]. replace (part_ids memo_part) with [10; 17; 17; 10] by (vm_compute; reflexivity). repeat constructor. }
  split; [rewrite I; unfold ids_below; repeat constructor|]. split; [exact I|]. split; [reflexivity|].
  assert (X : match merge_run merge_sample (pdf_with_settings true) with
              | Some p => match finish p with Some f => (blen f <=? 10 ^ 10, resolve no_filter f 3, resolve no_filter f 38) | None => (false, None, None) end
              | None => (false, None, None) end = (true, 
      Some (IObj 3 0 (VDict [(lit "Type", VName (lit "Page")); (lit "Contents", VRef 4 0)])),
      Some (IObj 38 0 (VDict [(lit "Self", VRef 38 0); (lit "Ref", VRef 31 0); (lit "NoRef", VStr (lit "Text with 10 0 R"))]))))
    by (vm_compute; reflexivity).
  destruct (merge_run merge_sample (pdf_with_settings true)) as [p|]; [|discriminate].
  destruct (finish p) as [file|] eqn:F; [|discriminate]. exists p, file. split; [reflexivity|]. split; [exact F|].
  split; [apply Z.leb_le; exact (f_equal (fun x => fst (fst x)) X)|].
  split; [exact (f_equal (fun x => snd (fst x)) X)|exact (f_equal snd X)].
Qed.

Print Assumptions C59_assembled_documents.
Print Assumptions C59_assembled_documents_stream.
Print Assumptions C59_root.
Print Assumptions C59_root_stream.
Print Assumptions C60_documented_closure.
Print Assumptions C60_consecutive.
Print Assumptions C60_documented_renumbering.
Print Assumptions C60_closure_ok.
