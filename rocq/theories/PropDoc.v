(** C57: documents built with the typed constructors read back through the cross-reference section. *)

From Coq Require Import ZArith List Bool.
From Verif Require ModelContent ModelCmap.
From Verif Require Import Bytes ModelFloat ModelBuf ModelObject ModelChunk ModelColor ModelSmall ModelPdf ModelTw ModelEnums ModelRoles ModelTwArgs
  ModelTwFiles ModelTwGraphics ModelTwAnnot ModelTwForms ModelTwAttr ModelTwXObj ModelTwFonts ModelTwDoc ModelFontDesc ModelDoc
  SpecLex SpecObj SpecText SpecMeans SpecRenum SpecChunk SpecFile SpecPdf SpecTyped SpecColor SpecSmall SpecTw SpecEnums SpecRoles SpecTwArgs
  SpecTwFiles SpecTwGraphics SpecTwAnnot SpecTwForms SpecTwAttr SpecTwXObj SpecTwFonts SpecTwDoc SpecFontDesc SpecDoc
  ProofTyped ProofColor ProofTw ProofEnums ProofTwArgs ProofTwFiles ProofTwGraphics ProofTwAnnot ProofTwForms ProofTwAttr ProofTwXObj ProofTwFonts ProofTwDoc ProofFontDesc PropTree ProofDoc PropPdf PropPdf2.
Import ListNotations.
Local Open Scope Z_scope.

Lemma catalog_plain calls es : writer_list_opt [] Catalog_entries calls = Some es ->
  Catalog_obj calls = Some (ODict ((lit "Type", OPrim (PName (lit "Catalog"))) :: es)).
Proof.
  unfold writer_list_opt, Catalog_obj, dict_writer_opt. destruct (all_some (raw_entries_opt Catalog_entries) calls); [|discriminate].
  intro E. apply some_inj in E. cbn [app] in E. subst es. reflexivity.
Qed.

Lemma doc_op_spec op q : doc_op_ok op -> doc_op_plain op = Some q ->
  op_typed q /\ map fst (op_items q) = doc_op_ids op /\
  forall resolved, (forall it, In it (op_items q) -> body_readable (snd it) = true ->
      exists i, resolved (fst it) = Some i /\ item_means it i) -> doc_op_reads op resolved.
Proof.
  destruct op as [id c|id calls|id calls|op]; cbn [doc_op_ok doc_op_plain doc_op_ids doc_op_reads].
  - intros [I K] E. destruct (chunk_call_body c) as [b|] eqn:B; [|discriminate]. apply some_inj in E.
    destruct (chunk_call_good c b K B) as (G1 & G2 & G3).
    assert (X : op_typed q /\ op_items q = [(id, b)]).
    { subst q. destruct b; (split; [|reflexivity]); cbn [op_typed]; unfold item_typed; cbn [fst snd]; rewrite I; exact G1. }
    destruct X as [X1 X2]. split; [exact X1|]. rewrite X2. split; [reflexivity|]. intros resolved R.
    destruct (R (id, b) (or_introl eq_refl) G2) as (i & R1 & R2). exists i. split; [exact R1|]. apply G3. exact R2.
  - intros [I K] E. destruct (writer_list_opt [] Catalog_entries calls) as [es|] eqn:B; [|discriminate]. apply some_inj in E. subst q.
    apply catalog_plain in B. destruct (good_body_obj _ _ (good_Catalog _ _ K B)) as (G1 & G2 & G3).
    split; [split; [exact I|]|].
    { cbn [body_typed obj_typed forallb snd prim_typed andb] in G1. exact G1. }
    cbn [op_items map fst]. split; [reflexivity|]. intros resolved R.
    destruct (R _ (or_introl eq_refl) G2) as (i & R1 & R2). exists i. split; [exact R1|]. apply G3. exact R2.
  - intros [I K] E. apply some_inj in E. subst q. pose proof (good_DocumentInfo _ K) as G.
    change (DocumentInfo_obj calls) with (ODict (writer_list [] DocumentInfo_entries calls)) in G.
    destruct (good_body_obj _ _ G) as (G1 & G2 & G3).
    split; [split; [exact I|exact G1]|]. cbn [op_items map fst]. split; [reflexivity|]. intros resolved R.
    destruct (R _ (or_introl eq_refl) G2) as (i & R1 & R2). exists i. split; [exact R1|]. apply G3. exact R2.
  - intros K E. apply some_inj in E. subst q. split; [exact K|]. split; [reflexivity|]. intros resolved R. exact R.
Qed.

Lemma doc_ops_spec ops l : Forall doc_op_ok ops -> all_some doc_op_plain ops = Some l ->
  ops_typed l /\ pdf_ids l = doc_ids ops /\
  forall resolved, (forall it, In it (pdf_items l) -> body_readable (snd it) = true ->
      exists i, resolved (fst it) = Some i /\ item_means it i) -> Forall (fun op => doc_op_reads op resolved) ops.
Proof.
  intros K E. apply all_some_forall2 in E. unfold ops_typed, pdf_ids, pdf_items, doc_ids.
  induction E as [|op q ops l E F IH]; [split; [constructor|]; split; [reflexivity|]; intros; constructor|].
  inversion K as [|? ? K1 K2]; subst. destruct (IH K2) as (I1 & I2 & I3). destruct (doc_op_spec op q K1 E) as (S1 & S2 & S3).
  split; [constructor; assumption|]. cbn [flat_map]. split; [rewrite map_app; f_equal; [exact S2|exact I2]|].
  intros resolved R. constructor; [apply S3|apply I3]; intros it J; apply R; apply in_or_app; [left|right]; exact J.
Qed.
Lemma doc_run_plain ops p q : doc_run ops p = Some q -> exists l, all_some doc_op_plain ops = Some l /\ pdf_run l p = Some q.
Proof. unfold doc_run. destruct (all_some doc_op_plain ops) as [l|]; [|discriminate]. intro H. exists l. split; [reflexivity|exact H]. Qed.

(** Whatever is written with the typed constructors, in whatever order and among whatever else: in the finished file,
    every reference resolves to what was asked for under this id, and other ids to nothing. *)
Theorem C57_typed_objects_are_found : forall decode pretty ops p file,
  Forall doc_op_ok ops -> doc_run ops (pdf_with_settings pretty) = Some p -> finish p = Some file ->
  ids_below (doc_ids ops) -> blen file <= 10 ^ 10 ->
  Forall (fun op => doc_op_reads op (resolve decode file)) ops /\
  forall id, ~ In id (doc_ids ops) -> resolve decode file id = None.
Proof.
  intros decode pretty ops p file K R F B L. apply doc_run_plain in R as (l & A & R).
  destruct (doc_ops_spec ops l K A) as (S1 & S2 & S3). rewrite <- S2 in *.
  destruct (C23_every_object_is_found decode pretty l p file S1 R F B L) as [X1 X2].
  split; [|exact X2]. apply S3. exact X1.
Qed.
Theorem C57_typed_objects_are_found_stream : forall decode pretty ops p xref_id file,
  Forall doc_op_ok ops -> doc_run ops (pdf_with_settings pretty) = Some p ->
  id_ok xref_id = true -> ids_below (xref_id :: doc_ids ops) ->
  finished_with_stream decode p xref_id file -> blen file < 2 ^ 64 ->
  Forall (fun op => doc_op_reads op (resolve decode file)) ops /\
  forall id, id <> xref_id -> ~ In id (doc_ids ops) -> resolve decode file id = None.
Proof.
  intros decode pretty ops p xref_id file K R I B F L. apply doc_run_plain in R as (l & A & R).
  destruct (doc_ops_spec ops l K A) as (S1 & S2 & S3). rewrite <- S2 in *.
  destruct (C27_every_object_is_found decode pretty l p xref_id file S1 R I B F L) as [X1 X2].
  split; [|exact X2]. apply S3. exact X1.
Qed.

(** The trailer points at the last catalog. *)
Lemma doc_catalog_plain ops l : all_some doc_op_plain ops = Some l -> catalog_of l = doc_catalog ops.
Proof.
  intro E. apply all_some_forall2 in E. unfold catalog_of, last_call, doc_catalog. 
  match goal with |- fold_left ?f l None = fold_left ?g ops None => enough (H : forall a, fold_left f l a = fold_left g ops a) by apply H end.
  induction E as [|op q ops l E F IH]; intro a; [reflexivity|]. cbn [fold_left]. rewrite IH. f_equal.
  destruct op as [id c|id calls|id calls|op]; cbn [doc_op_plain] in E.
  - destruct (chunk_call_body c) as [[]|]; try discriminate; apply some_inj in E; subst q; reflexivity.
  - destruct (writer_list_opt [] Catalog_entries calls); [|discriminate]. apply some_inj in E. subst q. reflexivity.
  - apply some_inj in E. subst q. reflexivity.
  - apply some_inj in E. subst q. destruct op; reflexivity.
Qed.
Theorem C57_root : forall decode pretty ops p file id,
  Forall doc_op_ok ops -> doc_run ops (pdf_with_settings pretty) = Some p -> finish p = Some file ->
  ids_below (doc_ids ops) -> blen file <= 10 ^ 10 -> doc_catalog ops = Some id ->
  exists entries trailer, read_file decode file = Some (entries, trailer) /\ lookup (lit "Root") trailer = Some (VRef id 0).
Proof.
  intros decode pretty ops p file id K R F B L C. apply doc_run_plain in R as (l & A & R).
  destruct (doc_ops_spec ops l K A) as (S1 & S2 & _). rewrite <- S2 in *.
  destruct (C29_finish decode pretty l p file S1 R F B L) as (body & section & entries & trailer & _ & _ & _ & _ & _ & _ & E & _ & T).
  exists entries, trailer. split; [exact E|]. rewrite T; [|discriminate]. rewrite <- (doc_catalog_plain _ _ A) in C.
  change (trailer_value l (lit "Root")) with (option_map (fun id => VRef id 0) (catalog_of l)). rewrite C. reflexivity.
Qed.

Theorem C57_root_stream : forall decode pretty ops p xref_id file id,
  Forall doc_op_ok ops -> doc_run ops (pdf_with_settings pretty) = Some p ->
  id_ok xref_id = true -> ids_below (xref_id :: doc_ids ops) ->
  finished_with_stream decode p xref_id file -> blen file < 2 ^ 64 -> doc_catalog ops = Some id ->
  exists entries trailer, read_file decode file = Some (entries, trailer) /\ lookup (lit "Root") trailer = Some (VRef id 0).
Proof.
  intros decode pretty ops p xref_id file id K R I B F L C. apply doc_run_plain in R as (l & A & R).
  destruct (doc_ops_spec ops l K A) as (S1 & S2 & _). rewrite <- S2 in *.
  destruct (C29_stream decode pretty l p xref_id file S1 R I B F L) as (body & section & entries & trailer & _ & _ & _ & _ & _ & E & _ & _ & T).
  exists entries, trailer. split; [exact E|]. rewrite T; [|discriminate|].
  2:{ unfold stream_keys. cbn [In]. intros [H|[H|[H|[H|[]]]]]; discriminate H. }
  rewrite <- (doc_catalog_plain _ _ A) in C.
  change (trailer_value l (lit "Root")) with (option_map (fun id => VRef id 0) (catalog_of l)). rewrite C. reflexivity.
Qed.

(** Which of the calls panic. *)
Theorem C57_panics : forall c, chunk_call_body c <> None <-> chunk_call_allowed c.
Proof. exact chunk_call_none. Qed.

(** A document: the ids are out of order, the catalog is replaced, and an object is written without its typed constructor. *)
Definition doc_sample : list doc_op := [
  DocTyped 4 (Ck_page [Typed (Page_parent 2); Typed (Page_contents 7)]);
  DocCatalog 1 [];
  DocTyped 7 (Ck_stream (lit "0 0 m endstream") []);
  DocOther (PdfObject 9 (OArray [OPrim (PInt 3)]));
  DocTyped 2 (Ck_pages [Typed (Pages_kids [4]); Typed (Pages_count 1)]);
  DocTyped 5 (Ck_font_descriptor [Fd_name (lit "F"); Fd_override [Ov_cjk_class_ref CjkClass_Kana 8]]);
  DocCatalog 3 [Typed (Catalog_pages 2)]].
Example C57_case : Forall doc_op_ok doc_sample /\ ids_below (doc_ids doc_sample) /\ doc_catalog doc_sample = Some 3 /\
  exists p file, doc_run doc_sample (pdf_with_settings false) = Some p /\ finish p = Some file /\
    resolve no_filter file 2 =
      Some (IObj 2 0 (VDict [(lit "Type", VName (lit "Pages")); (lit "Kids", VArr [VRef 4 0]); (lit "Count", VInt 1)])).
Proof.
  split; [repeat (apply Forall_cons; [cbn [doc_op_ok op_typed]; repeat split|]); apply Forall_nil|].
  split; [unfold ids_below; repeat constructor|]. split; [reflexivity|].
  assert (X : match doc_run doc_sample (pdf_with_settings false) with
              | Some p => match finish p with Some f => resolve no_filter f 2 | None => None end
              | None => None end =
      Some (IObj 2 0 (VDict [(lit "Type", VName (lit "Pages")); (lit "Kids", VArr [VRef 4 0]); (lit "Count", VInt 1)])))
    by (vm_compute; reflexivity).
  destruct (doc_run doc_sample (pdf_with_settings false)) as [p|]; [|discriminate].
  destruct (finish p) as [file|] eqn:F; [|discriminate]. exists p, file. split; [reflexivity|]. split; [exact F|exact X].
Qed.

Print Assumptions C57_typed_objects_are_found.
Print Assumptions C57_typed_objects_are_found_stream.
Print Assumptions C57_root.
Print Assumptions C57_panics.
