(** C71: what the pages paint, and with which graphics state. *)

From Coq Require Import ZArith List Bool Lia.
From Verif Require ModelCmap SpecCmap ModelContent SpecContent PropContent.
From Verif Require Import Bytes ModelFloat ModelBuf ModelObject ModelChunk ModelColor ModelSmall ModelPdf ModelTw ModelEnums ModelRoles ModelTwArgs
  ModelTwFiles ModelTwGraphics ModelTwAnnot ModelTwForms ModelTwAttr ModelTwXObj ModelTwFonts ModelTwDoc ModelFontDesc ModelDoc
  SpecLex SpecObj SpecText SpecMeans SpecRenum SpecChunk SpecFile SpecPdf SpecTyped SpecColor SpecSmall SpecTw SpecEnums SpecRoles SpecTwArgs
  SpecTwFiles SpecTwGraphics SpecTwAnnot SpecTwForms SpecTwAttr SpecTwXObj SpecTwFonts SpecTwDoc SpecFontDesc SpecDoc SpecPages SpecExtract SpecNav SpecViews SpecPaint
  ProofBasic ProofTree ProofTyped ProofTw ProofTwDoc PropDoc PropPdf2 PropPages PropExtract PropNav PropTagged.
Import ListNotations.
Local Open Scope Z_scope.

(** ** The machine on related operations *)
Definition draws_alike (da : bytes -> list (in_effect asked_op FormXObject_calls) -> option (list (painted asked_op FormXObject_calls asked_image)))
    (dr : nat -> bytes -> list (in_effect read_op read_form) -> option (list (painted read_op read_form read_image))) (depth : nat) : Prop :=
  forall name s s' l, Forall2 effect_is s s' -> da name s = Some l ->
    exists l', Forall2 painted_is l l' /\ forall n, (depth <= n)%nat -> dr n name s' = Some l'.
Inductive graphics_is : @graphics asked_op FormXObject_calls -> @graphics read_op read_form -> Prop :=
| graphics_are s s' ss ss' p p' b t t' : Forall2 effect_is s s' -> Forall2 (Forall2 effect_is) ss ss' -> Forall2 op_is p p' -> Forall2 op_is t t' ->
    graphics_is (mkGraphics s ss p b t) (mkGraphics s' ss' p' b t').
Lemma steps_alike da dr depth e x y g h l g' : draws_alike da dr depth -> op_is x y -> graphics_is g h -> graphics_step da e x g = Some (l, g') ->
  exists l' h', Forall2 painted_is l l' /\ graphics_is g' h' /\ forall n, (depth <= n)%nat -> graphics_step (dr n) e y h = Some (l', h').
Proof.
  intros D X G E. destruct G as [s s' ss ss' p p' b t t' S1 S2 S3 S4].
  assert (CL : Forall2 effect_is (if b then ClippedTo p :: s else s) (if b then ClippedTo p' :: s' else s')).
  { destruct b; [constructor; [constructor; exact S3|exact S1]|exact S1]. }
  destruct e; cbn [graphics_step] in *;
    try (apply some_inj in E; injection E as <- <-; eexists; eexists; split; [|split; [|intros; reflexivity]];
         [repeat (constructor; try assumption)|constructor; try assumption; constructor; try assumption; constructor; assumption]; fail).
  - destruct S2 as [|r r' ss ss' S0 S2]; [discriminate|]. apply some_inj in E. injection E as <- <-.
    eexists; eexists; split; [|split; [|intros; reflexivity]]; constructor; assumption.
  - destruct (da name s) as [l0|] eqn:Q; [|discriminate]. cbn [option_map] in E. apply some_inj in E. injection E as <- <-.
    destruct (D _ _ _ _ S1 Q) as (l' & P & R). exists l', (mkGraphics s' ss' p' b t'). split; [exact P|]. split; [constructor; assumption|].
    intros n L. rewrite (R n L). reflexivity.
Qed.
Lemma effects_alike c op e : SpecContent.ccall_means c op -> call_effect c = Some e -> operation_effect op = Some e.
Proof.
  intros [F E] A. destruct op as [vs k]. cbn [fst snd] in F, E.
  destruct c; cbn [call_effect] in A;
    try (apply some_inj in A; subst e; cbn [SpecContent.iso_operation] in E; try match type of E with context [match ?x with _ => _ end] => destruct x end;
         cbn [snd] in E; subst k; reflexivity).
  - cbn [SpecContent.iso_operation snd] in E. subst k. cbn [existsb] in A. unfold operation_effect. cbn [snd].
    destruct (bytes_eqb operator (lit "Do")); [discriminate|]. cbn [orb] in A.
    assert (G : forall l, existsb (bytes_eqb operator) (flat_map fst l) = false -> effect_in operator l = ENothing).
    { induction l as [|[ks x] l IH]; intro H; [reflexivity|]. cbn [flat_map fst effect_in] in *. rewrite existsb_app in H.
      destruct (existsb (bytes_eqb operator) ks); [discriminate|]. exact (IH H). }
    destruct (existsb (bytes_eqb operator) (flat_map fst operator_effects)) eqn:Q; [discriminate|]. rewrite (G _ Q). exact A.
  - cbn [SpecContent.iso_operation fst snd] in E, F. subst k. inversion F as [|? v1 ? vs1 M1 F1]; subst. inversion F1; subst.
    inversion M1; subst. exact A.
Qed.
Lemma runs_alike da dr depth : draws_alike da dr depth -> forall l l', Forall2 op_is l l' -> forall g h p, graphics_is g h ->
  graphics_run da (fun x => call_effect (snd x)) l g = Some p ->
  exists p', Forall2 painted_is p p' /\ forall n, (depth <= n)%nat -> graphics_run (dr n) (fun x => operation_effect (snd x)) l' h = Some p'.
Proof.
  intros D. induction 1 as [|x y l l' X F IH]; intros g h p G E.
  - apply some_inj in E. subst p. exists []. split; [constructor|reflexivity].
  - cbn [graphics_run] in *. destruct (call_effect (snd x)) as [e|] eqn:Q1; [|discriminate]. cbn [bind] in E.
    destruct (graphics_step da e x g) as [[a g']|] eqn:Q2; [|discriminate]. cbn [bind fst snd] in E.
    destruct (steps_alike _ _ _ _ _ _ _ _ _ _ D X G Q2) as (a' & h' & A & G' & R).
    destruct (graphics_run da (fun x => call_effect (snd x)) l g') as [b|] eqn:Q3; [|discriminate]. cbn [option_map] in E. apply some_inj in E. subst p.
    destruct (IH _ _ _ G' Q3) as (b' & B & R'). exists (a' ++ b'). split; [apply Forall2_app; assumption|]. intros n L.
    rewrite (effects_alike _ _ _ (proj2 X) Q1). cbn [bind]. rewrite (R n L). cbn [bind fst snd]. rewrite (R' n L). reflexivity.
Qed.
Lemma ops_alike res rv calls l : Resources_reads res rv -> Forall2 SpecContent.ccall_means calls l -> Forall2 op_is (map (pair res) calls) (map (pair rv) l).
Proof. intros K F. induction F; constructor; [split; assumption|assumption]. Qed.
Lemma start_alike s s' : Forall2 effect_is s s' -> graphics_is (graphics_start s) (graphics_start s').
Proof. intro H. constructor; [exact H|constructor..]. Qed.

(** ** XObjects *)
Fixpoint drawing_depth (d : xobject) : nat :=
  match d with
  | DrawnImage _ _ => 1%nat
  | DrawnForm _ _ xs _ => S ((fix deepest (l : list (bytes * (Z * xobject))) := match l with [] => 0%nat | (_, (_, d)) :: l => Nat.max (drawing_depth d) (deepest l) end) xs)
  end.
Fixpoint deepest (l : list (bytes * (Z * xobject))) : nat := match l with [] => 0%nat | (_, (_, d)) :: l => Nat.max (drawing_depth d) (deepest l) end.

(** The filter of a stream among its entries. *)
Definition stored_entries (decode : option val -> bytes -> option bytes) (xs : list entry_spec) (data content : bytes) : Prop :=
  exists f, entries_for (lit "Filter") xs = entry_or_none (lit "Filter") (option_map is_filter f) /\ undone decode f data content.
Lemma stored_with_entries {C} decode head (doc : C -> list entry_spec) calls data content :
  entries_for (lit "Filter") head = [] -> (forall c, entries_for (lit "Filter") (doc c) = []) ->
  stored_with decode calls data content -> stored_entries decode (head ++ flat_map (stream_doc Stream_doc doc) calls) data content.
Proof.
  intros H1 H2 (f & S1 & S2). exists f. split; [|exact S2]. apply (stream_called_entries _ _ _ is_filter head Stream_doc doc) in S1; [exact S1|exact H1|each_call|exact H2].
Qed.
(** The type that a writer gives to its stream by itself. *)
Lemma subtype_entries {S C} head (sdoc : S -> list entry_spec) (doc : C -> list entry_spec) calls :
  (forall c, entries_for (lit "Subtype") (sdoc c) = []) -> (forall c, entries_for (lit "Subtype") (doc c) = []) ->
  stream_called (lit "Subtype") no_method no_method calls None ->
  entries_for (lit "Subtype") (head ++ flat_map (stream_doc sdoc doc) calls) = entries_for (lit "Subtype") head.
Proof.
  intros H1 H2 H. rewrite (stream_given_entries (lit "Subtype") no_method no_method (fun (x : False) _ => match x with end) head sdoc doc calls H1 H2), H.
  apply app_nil_r.
Qed.

Section Draw.
  Variables (decode : option val -> bytes -> option bytes) (resolved : Z -> option indirect) (ops : list doc_op).
  Hypothesis R : Forall (fun op => doc_op_reads op resolved) ops.
  Lemma stream_with_found id xs data content vs : resolved id = Some (IStream id 0 ((lit "Length", VInt (blen data)) :: vs) data) -> is_dict xs (VDict vs) ->
    stored_entries decode xs data content -> stream_content decode resolved id = Some content.
  Proof using Type.
    intros E D (f & S1 & S2). unfold stream_content. rewrite E.
    change (lookup (lit "Filter") ((lit "Length", VInt (blen data)) :: vs)) with (lookup (lit "Filter") vs). destruct f as [f|].
    - destruct (dict_lookup _ _ _ _ D S1) as (v & L & P). rewrite L. unfold is_filter in P. subst v. exact S2.
    - rewrite (dict_lookup_none _ _ _ D S1). cbn [undone] in S2. subst. reflexivity.
  Qed.
  Lemma named_found res rv xs : Resources_reads res rv -> xobjects_named res xs -> forall name,
    resource_xobject rv name = (fix find l := match l with [] => None | (n, (id, _)) :: r => if bytes_eqb name n then Some id else find r end) xs.
  Proof using Type.
    intros K W name. destruct (dict_is _ _ K) as [d ->]. unfold resource_xobject, required. destruct W as [[-> W]|W].
    - entries W Resources_head Resources_doc (fun es => means (ODict es)). rewrite (dict_lookup_none _ _ _ K W). reflexivity.
    - entries W Resources_head Resources_doc (fun es => means (ODict es)). destruct (dict_lookup _ _ _ _ K W) as (v & L & P). rewrite L. cbn [bind].
      unfold as_references in P. rewrite map_map in P. cbn [fst snd] in P. inversion P as [| | | | | | | | | | | |? ws M]; subst. clear - M.
      revert ws M. induction xs as [|[n [id d]] xs IH]; intros ws M; inversion M as [|? [k v] ? ws' [A B] M']; subst; [reflexivity|].
      cbn [fst snd] in *. subst k. cbn [lookup]. destruct (bytes_eqb name n); [|exact (IH ws' M')]. inversion B; subst. reflexivity.
  Qed.
  Lemma drawings_found : forall d id, drawing_written decode ops id d -> forall rv name s s' l,
    resource_xobject rv name = Some id -> Forall2 effect_is s s' -> ask_drawing d s = Some l ->
    exists l', Forall2 painted_is l l' /\ forall n, (drawing_depth d <= n)%nat -> read_drawing decode resolved n rv name s' = Some l'.
  Proof using R.
    fix IH 1. intros [calls content|calls res xs content] id W rv name s s' l N S A; cbn [drawing_depth].
    - destruct W as (data & H1 & H2 & H3).
      apply (subtype_entries ImageXObject_head Stream_doc ImageXObject_doc) in H2; [|each_call..].
      apply (stored_with_entries decode ImageXObject_head ImageXObject_doc) in H3; [|reflexivity|each_call].
      destruct (found resolved ops R _ _ H1) as (i & E & vs & -> & D).
      cbn [ask_drawing] in A. apply some_inj in A. subst l.
      exists [PaintedImage s' ((lit "Length", VInt (blen data)) :: vs, content)]. split.
      { constructor; [|constructor]. constructor; [exact S|]. split; [|reflexivity]. exists (blen data), vs. split; [reflexivity|exact D]. }
      intros [|n] L; [inversion L|]. cbn [read_drawing]. rewrite N. cbn [bind]. rewrite (stream_with_found _ _ _ _ _ E D H3). rewrite E. unfold required at 1.
      change (lookup (lit "Subtype") ((lit "Length", VInt (blen data)) :: vs)) with (lookup (lit "Subtype") vs).
      destruct (dict_lookup _ _ _ _ D H2) as (v & K & P). rewrite K. unfold is_name in P. subst v. cbn [bind read_name].
      change (bytes_eqb (lit "Image") (lit "Image")) with true. reflexivity.
    - destruct W as ((data & pretty & c & H1 & H2 & H3 & H4 & H5 & H6) & W2 & W3).
      apply (subtype_entries FormXObject_head Stream_doc FormXObject_doc) in H2; [|each_call..].
      apply (stream_called_entries _ _ _ Resources_reads FormXObject_head Stream_doc FormXObject_doc) in H3; [|reflexivity|each_call..].
      apply (stored_with_entries decode FormXObject_head FormXObject_doc) in H6; [|reflexivity|each_call].
      destruct (found resolved ops R _ _ H1) as (i & E & vs & -> & D).
      destruct (dict_lookup _ _ _ _ D H3) as (rv' & K2 & P2).
      destruct (PropContent.C36_finish_keeps_operations pretty content c H4 H5) as (_ & l0 & P0 & M).
      cbn [ask_drawing] in A.
      match goal with |- context [(Datatypes.S ?x <= _)%nat] => set (depth := x) end.
      destruct (fun H => runs_alike _ (fun n => read_drawing decode resolved n rv') depth H _ _ (ops_alike res rv' content l0 P2 M) _
        (graphics_start (InForm ((lit "Length", VInt (blen data)) :: vs) :: s')) l
        (start_alike _ _ (Forall2_cons _ _ (in_form_is _ _ (ex_intro _ (blen data) (ex_intro _ vs (conj eq_refl D)))) S)) A) as (l' & Q & T).
      + intros name' t t' l1 T A'. pose proof (named_found res rv' xs P2 W2 name') as NF. subst depth. clear - IH R W3 NF T A'.
        revert NF A'. induction xs as [|[n1 [id1 d1]] xs IHx]; intros NF A; [discriminate|]. destruct W3 as [W3 W4].
        destruct (bytes_eqb name' n1).
        * destruct (IH d1 id1 W3 rv' name' t t' l1 NF T A) as (l' & Q1 & Q2). exists l'. split; [exact Q1|]. intros n L. apply Q2.
          etransitivity; [apply Nat.le_max_l|exact L].
        * destruct (IHx W4 NF A) as (l' & Q1 & Q2). exists l'. split; [exact Q1|]. intros n L. apply Q2. etransitivity; [apply Nat.le_max_r|exact L].
      + exists l'. split; [exact Q|]. intros [|n] L; [inversion L|]. apply le_S_n in L.
        cbn [read_drawing]. rewrite N. cbn [bind]. rewrite (stream_with_found _ _ _ _ _ E D H6). rewrite E. unfold required at 1.
        change (lookup (lit "Subtype") ((lit "Length", VInt (blen data)) :: vs)) with (lookup (lit "Subtype") vs).
        destruct (dict_lookup _ _ _ _ D H2) as (v & K & P). rewrite K. unfold is_name in P. subst v. cbn [bind read_name].
        change (bytes_eqb (lit "Form") (lit "Image")) with false. change (bytes_eqb (lit "Form") (lit "Form")) with true. cbv iota.
        unfold required.
        change (lookup (lit "Resources") ((lit "Length", VInt (blen data)) :: vs)) with (lookup (lit "Resources") vs).
        rewrite K2. cbn [bind]. rewrite P0. cbn [bind]. exact (T n L).
  Qed.
  Lemma page_draws_alike res rv xs : Resources_reads res rv -> xobjects_named res xs -> Forall (fun x => drawing_written decode ops (fst (snd x)) (snd (snd x))) xs ->
    draws_alike (ask_named xs) (fun n => read_drawing decode resolved n rv) (deepest xs).
  Proof using R.
    intros K W F name s s' l S A. pose proof (named_found res rv xs K W name) as NF. clear K W. revert NF A.
    induction F as [|[n1 [id1 d1]] xs H F IHx]; intros NF A; [discriminate|]. cbn [deepest ask_named fst snd] in *. destruct (bytes_eqb name n1).
    - destruct (drawings_found d1 id1 H rv name s s' l NF S A) as (l' & Q1 & Q2). exists l'. split; [exact Q1|]. intros n L. apply Q2.
      etransitivity; [apply Nat.le_max_l|exact L].
    - destruct (IHx NF A) as (l' & Q1 & Q2). exists l'. split; [exact Q1|]. intros n L. apply Q2. etransitivity; [apply Nat.le_max_r|exact L].
  Qed.
End Draw.

(** A reader that starts from the trailer finds for every page what is painted, in order, each with the graphics state the program asked
    for, whatever was saved and restored and drawn in forms before. *)
Theorem C71_painting : forall decode ops cat file calls tree paintings,
  finished_document decode ops cat file -> In (DocCatalog cat calls) ops ->
  views_written decode ops calls tree ->
  Forall2 (page_paints decode ops) (vt_pages [] tree) paintings ->
  exists read depth, Forall2 (Forall2 painted_is) paintings read /\
    forall n, (depth <= n)%nat -> read_painting decode n file = Some read.
Proof.
  intros decode ops cat file calls tree paintings D I W P. destruct (document_facts _ _ _ _ D) as [X _].
  destruct (views_found _ _ _ _ _ _ D I W) as (vs & F & V).
  assert (Y : exists read depth, Forall2 (Forall2 painted_is) paintings read /\ forall n, (depth <= n)%nat ->
    all_of (map (fun v => let res := snd (fst v) in
      graphics_run (read_drawing decode (resolve decode file) n res) (fun x => operation_effect (snd x)) (map (pair res) (snd v)) (graphics_start [])) vs) = Some read).
  { clear - P F X. revert paintings P. induction F as [|p v ps vs (H1 & H2 & H3) F IH]; intros paintings P; inversion P as [|? l ? ls (xs & M1 & M2 & M3) P']; subst.
    - exists [], 0%nat. split; [constructor|reflexivity].
    - destruct (IH ls P') as (read & depth & Q1 & Q2).
      destruct (runs_alike _ _ _ (page_draws_alike decode (resolve decode file) ops X _ _ _ H2 M1 M2) _ _ (ops_alike _ _ _ _ H2 H3) _ _ l
        (start_alike [] [] (Forall2_nil _)) M3) as (l' & Z1 & Z2).
      exists (l' :: read), (deepest xs + depth)%nat. split; [constructor; assumption|].
      intros n Hn. cbn [map all_of]. cbv zeta. rewrite Z2 by lia. rewrite Q2 by lia. reflexivity. }
  destruct Y as (read & depth & Q1 & Q2). exists read, (vt_depth tree + depth)%nat. split; [exact Q1|]. intros n Hn.
  unfold read_painting. rewrite V by lia. cbn [bind]. apply Q2. lia.
Qed.

(** A page that draws a form with an image, clipped and under a gray, and then a rectangle after restoring the state. *)
Definition one : f32 := FFin false 8388608 (-23).
Definition paint_rect : ModelContent.ccall := ModelContent.CRect f32_zero f32_zero one one.
Definition paint_page : list ModelContent.ccall :=
  [ModelContent.CSaveState; ModelContent.CSetFillGray one; paint_rect; ModelContent.CClipNonzero; ModelContent.CEndPath;
   ModelContent.CXObject (lit "Fm"); ModelContent.CRestoreState; paint_rect; ModelContent.CFillNonzero].
Definition paint_form : list ModelContent.ccall := [ModelContent.CSetLineWidth one; ModelContent.CXObject (lit "Im")].
Definition paint_resources : Resources_calls := [Typed (Resources_x_objects [(lit "Im", OPrim (PRef 5)); (lit "Fm", OPrim (PRef 6))])].
Definition form_resources : Resources_calls := [Typed (Resources_x_objects [(lit "Im", OPrim (PRef 5))])].
Definition paint_image_calls : ImageXObject_calls := [STyped (ImageXObject_width 1); STyped (ImageXObject_height 2)].
Definition paint_form_calls : FormXObject_calls := [STyped (FormXObject_bbox (mkRect f32_zero f32_zero one one)); STyped (FormXObject_resources form_resources)].
Definition paint_sample : list doc_op := [
  DocTyped 3 (Ck_page [Typed (Page_contents 4)]);
  DocTyped 2 (Ck_pages [Typed (Pages_kids [3]); Typed (Pages_resources paint_resources)]);
  DocTyped 4 (Ck_stream (content_of paint_page) []);
  DocTyped 5 (Ck_image_xobject [x00; xff] paint_image_calls);
  DocTyped 6 (Ck_form_xobject (content_of paint_form) paint_form_calls);
  DocCatalog 1 [Typed (Catalog_pages 2)]].
Definition paint_views : view_tree := VtNode 2 (Some paint_resources) [VtPage 3 None (OneStream paint_page)].
Definition paint_image : xobject := DrawnImage paint_image_calls [x00; xff].
Definition paint_xs : list (bytes * (Z * xobject)) :=
  [(lit "Im", (5, paint_image)); (lit "Fm", (6, DrawnForm paint_form_calls form_resources [(lit "Im", (5, paint_image))] paint_form))].
Example C71_case : views_written no_filter paint_sample [Typed (Catalog_pages 2)] paint_views /\
  Forall2 (page_paints no_filter paint_sample) (vt_pages [] paint_views)
    [[PaintedImage [Setting (form_resources, ModelContent.CSetLineWidth one); InForm paint_form_calls;
                    ClippedTo [(paint_resources, ModelContent.CClipNonzero); (paint_resources, paint_rect)];
                    Setting (paint_resources, ModelContent.CSetFillGray one)] (paint_image_calls, [x00; xff]);
      PaintedPath [] [(paint_resources, paint_rect)] (paint_resources, ModelContent.CFillNonzero)]].
Proof.
  assert (IM : drawing_written no_filter paint_sample 5 paint_image).
  { eexists. split; [cbn [paint_sample In]; tauto|]. split; [reflexivity|]. exists None. split; reflexivity. }
  split.
  - split; [reflexivity|]. split; [eexists; split; [cbn [paint_sample In]; tauto|split; reflexivity]|].
    split; [|exact I]. eexists; split; [cbn [paint_sample In]; tauto|split; [reflexivity|]]. eexists; split; [reflexivity|].
    apply content_case; [cbn [paint_sample In]; tauto|vm_compute; reflexivity|vm_compute; discriminate].
  - constructor; [|constructor]. exists paint_xs. split; [right; reflexivity|]. split; [|vm_compute; reflexivity].
    apply Forall_cons; [exact IM|]. apply Forall_cons; [|apply Forall_nil]. split; [|split; [right; reflexivity|split; [exact IM|exact I]]].
    assert (C : exists c, ModelContent.content_run paint_form (ModelContent.content_with_settings false) = Some c).
    { destruct (ModelContent.content_run paint_form (ModelContent.content_with_settings false)) as [c|] eqn:E; [eexists; reflexivity|]. vm_compute in E. discriminate. }
    destruct C as [c C]. exists (content_of paint_form), false, c. split; [cbn [paint_sample In]; tauto|]. split; [reflexivity|]. split; [reflexivity|].
    split; [vm_compute; reflexivity|]. split; [exact C|]. exists None. split; [reflexivity|]. unfold content_of. rewrite C. reflexivity.
Qed.
Example C71_file : exists file, finished_document no_filter paint_sample 1 file /\
  match read_painting no_filter 3 file with Some [[PaintedImage [_; _; _; _] (_, data); PaintedPath [] [(_, (_, re))] (_, ([], f))]] => Some (data, re, f) | _ => None end =
  Some ([x00; xff], lit "re", lit "f").
Proof.
  assert (X : match doc_run paint_sample (pdf_with_settings true) with
              | Some p => match finish p with Some file => (blen file <=? 10 ^ 10,
                  match read_painting no_filter 3 file with Some [[PaintedImage [_; _; _; _] (_, data); PaintedPath [] [(_, (_, re))] (_, ([], f))]] => Some (data, re, f) | _ => None end)
                  | None => (false, None) end
              | None => (false, None) end = (true, Some ([x00; xff], lit "re", lit "f"))) by (vm_compute; reflexivity).
  destruct (doc_run paint_sample (pdf_with_settings true)) as [p|] eqn:R; [|discriminate].
  destruct (finish p) as [file|] eqn:F; [|discriminate]. exists file.
  split; [apply (finished_table _ _ _ _ true p); [|exact R|exact F| |apply Z.leb_le; exact (f_equal fst X)|reflexivity]|exact (f_equal snd X)].
  - repeat (apply Forall_cons; [cbn [doc_op_ok op_typed]; repeat split|]); apply Forall_nil.
  - unfold ids_below; repeat constructor.
Qed.

Print Assumptions C71_painting.
