(** Property C105: the corners of a rectangle as quadrilateral of an annotation. *)

From Coq Require Import ZArith List Lia Bool ZifyBool ZifyNat.
From Verif Require ModelCmap ModelContent SpecContent SpecForm.
From Verif Require Import Bytes ModelFloat ModelBuf ModelObject ModelChunk ModelColor ModelSmall ModelPdf ModelTw ModelEnums ModelRoles ModelTwArgs
  ModelTwFiles ModelTwGraphics ModelTwAnnot ModelTwForms ModelTwAttr ModelTwXObj ModelTwFonts ModelTwDoc ModelFontDesc ModelDoc
  SpecLex SpecObj SpecText SpecMeans SpecRenum SpecChunk SpecFile SpecPdf SpecTyped SpecColor SpecSmall SpecTw SpecEnums SpecRoles SpecTwArgs
  SpecTwFiles SpecTwGraphics SpecTwAnnot SpecTwForms SpecTwAttr SpecTwXObj SpecTwFonts SpecTwDoc SpecFontDesc SpecDoc SpecPages SpecExtract SpecNav SpecViews SpecTagged SpecPaint SpecFunctions SpecActions SpecPresent SpecColors SpecImages SpecAppear SpecAttrs
  SpecMarks ProofRound ProofFile3 ProofSepar PropMarks SpecCorners.
Import ListNotations.
Local Open Scope Z_scope.

Lemma corners_points r : four_points (to_quad_points r) =
  Some ((f32_units (x1 r), f32_units (y1 r)), (f32_units (x2 r), f32_units (y1 r)), (f32_units (x2 r), f32_units (y2 r)), (f32_units (x1 r), f32_units (y2 r))).
Proof. reflexivity. Qed.

(** The corners come in counterclockwise order exactly if the first corner of the rectangle is its lower left or its upper right one. *)
Theorem C105_counterclockwise : forall r,
  counterclockwise (to_quad_points r) <->
  (f32_units (x1 r) < f32_units (x2 r) /\ f32_units (y1 r) < f32_units (y2 r)) \/
  (f32_units (x2 r) < f32_units (x1 r) /\ f32_units (y2 r) < f32_units (y1 r)).
Proof.
  intro r. unfold counterclockwise. rewrite corners_points.
  generalize (f32_units (x1 r)), (f32_units (x2 r)), (f32_units (y1 r)), (f32_units (y2 r)). intros a b c d. unfold turn. cbn [fst snd]. split.
  - intros (p & q & s & t & E & H1 & _). injection E as <- <- <- <-. cbn [fst snd] in *.
    assert (0 < (b - a) * (d - c)) by lia. destruct (Z.lt_trichotomy a b) as [|[|]]; [left|subst; lia|right]; nia.
  - intro H. exists (a, c), (b, c), (b, d), (a, d). split; [reflexivity|]. cbn [fst snd]. nia.
Qed.

(** Whatever the order, the quadrilateral is the rectangle. *)
Theorem C105_region : forall r p, proper r -> (in_quadrilateral (to_quad_points r) p <-> in_rectangle r p).
Proof.
  intros r [px py] [H1 H2]. unfold in_quadrilateral, in_rectangle, between. rewrite corners_points. revert H1 H2.
  generalize (f32_units (x1 r)), (f32_units (x2 r)), (f32_units (y1 r)), (f32_units (y2 r)). intros a b c d H1 H2. unfold turn. cbn [fst snd].
  split.
  - intros (p & q & s & t & E & H). injection E as <- <- <- <-. cbn [fst snd] in *.
    assert (K : (0 <= (b - a) * (py - c) /\ 0 <= (d - c) * (b - px) /\ 0 <= (b - a) * (d - py) /\ 0 <= (d - c) * (px - a)) \/
                ((b - a) * (py - c) <= 0 /\ (d - c) * (b - px) <= 0 /\ (b - a) * (d - py) <= 0 /\ (d - c) * (px - a) <= 0)) by lia.
    clear H. destruct (Z.lt_trichotomy a b) as [A|[A|A]]; [|lia|]; (destruct (Z.lt_trichotomy c d) as [C|[C|C]]; [|lia|]);
      destruct K as [(K1 & K2 & K3 & K4)|(K1 & K2 & K3 & K4)]; nia.
  - intros [HX HY]. exists (a, c), (b, c), (b, d), (a, d). split; [reflexivity|]. cbn [fst snd].
    destruct (Z.lt_trichotomy a b) as [A|[A|A]]; [|lia|]; (destruct (Z.lt_trichotomy c d) as [C|[C|C]]; [|lia|]);
      first [left; nia|right; nia].
Qed.

(** ** In a document *)

Lemma units_same l l' q : Forall2 is_real l q -> Forall2 is_real l' q -> map f32_units l = map f32_units l'.
Proof.
  intro H. revert l'. induction H as [|f v l q H1 H IH]; intros l' H'; inversion H' as [|f' ? l2 ? H1' H2']; subst; [reflexivity|].
  cbn [map]. f_equal; [|apply IH; assumption].
  assert (E : f32_eqb f f' = true) by (inversion H1; subst; inversion H1'; subst; eapply rounds_to_unique; eassumption).
  destruct f, f'; try discriminate E; try (inversion H1; subst; match goal with R : rounds_to _ _ _ |- _ => destruct R as [R _]; discriminate R end).
  apply Z.eqb_eq, E.
Qed.

Lemma points_same l l' : map f32_units l = map f32_units l' -> four_points l = four_points l'.
Proof.
  assert (X : forall l, four_points l = match map f32_units l with
    | [a; b; c; d; e; f; g; h] => Some ((a, b), (c, d), (e, f), (g, h)) | _ => None end).
  { clear. intro l. do 9 (destruct l as [|? l]; [reflexivity|]). reflexivity. }
  intro H. rewrite (X l), (X l'), H. reflexivity.
Qed.

Lemma corners_cover r q : proper r -> Forall2 is_real (to_quad_points r) q -> covers r q.
Proof.
  intros P H. split; [eexists; exact H|]. intros l H' p. rewrite <- (C105_region r p P). unfold in_quadrilateral.
  rewrite (points_same _ _ (units_same _ _ _ H' H)). reflexivity.
Qed.

Lemma quads_cover rs : Forall proper rs -> forall n vs, (List.length rs <= n)%nat -> Forall2 is_real (flat_map to_quad_points rs) vs ->
  Forall2 covers rs (quadrilaterals n vs).
Proof.
  induction 1 as [|r rs P F IH]; intros n vs Hn H.
  - inversion H; subst. destruct n; constructor.
  - cbn [flat_map] in H. apply Forall2_app_inv_l in H. destruct H as (q & vs' & H1 & H2 & ->).
    assert (L : List.length q = 8%nat) by (rewrite <- (Forall2_len _ _ _ H1); reflexivity).
    destruct n as [|n]; [cbn in Hn; lia|]. cbn [quadrilaterals].
    destruct (q ++ vs') eqn:E; [destruct q; discriminate|]. rewrite <- E. clear E.
    rewrite firstn_app, skipn_app, L, Nat.sub_diag, <- L, firstn_all, skipn_all, firstn_O, app_nil_r. cbn [skipn app].
    constructor; [apply corners_cover; assumption|apply IH; [cbn in Hn; lia|assumption]].
Qed.

(** A reader that starts from the trailer finds for every annotation whose quadrilaterals were made from rectangles as many
    quadrilaterals, which cover exactly the points of the rectangles. *)
Theorem C105_document : forall decode ops cat file calls tree marks,
  finished_document decode ops cat file -> In (DocCatalog cat calls) ops ->
  pages_written ops calls tree -> Forall2 (page_marks decode ops) (it_pages tree) marks ->
  exists found depth, (forall n, (depth <= n)%nat -> read_marks decode n file = Some found) /\
    Forall2 (Forall2 (fun x m => forall rects, rm_quads (snd x) = Some (flat_map to_quad_points rects) -> Forall proper rects ->
      exists vs, rm_quads m = Some vs /\ Forall2 covers rects (quadrilaterals_of vs))) marks found.
Proof.
  intros decode ops cat file calls tree marks D I P W.
  destruct (C88_annotations decode ops cat file calls tree marks D I P W) as (rs & depth & M & R).
  exists rs, depth. split; [exact R|]. clear - M.
  assert (X : forall l l', Forall2 remark_is (map snd l) l' -> Forall2 (fun (x : Z * remark f32) m => forall rects, rm_quads (snd x) = Some (flat_map to_quad_points rects) -> Forall proper rects ->
      exists vs, rm_quads m = Some vs /\ Forall2 covers rects (quadrilaterals_of vs)) l l').
  { clear. induction l as [|x l IH]; intros l' H; inversion H as [|? m ? ms H1 H2]; subst; constructor; [|apply IH; assumption].
    intros rects E F. destruct H1 as (_ & _ & _ & _ & _ & _ & _ & _ & _ & _ & _ & _ & _ & Q & _). rewrite E in Q. cbn [optionally] in Q.
    destruct (rm_quads m) as [vs|]; [|contradiction]. exists vs. split; [reflexivity|]. apply quads_cover; [exact F| |exact Q].
    rewrite <- (Forall2_len _ _ _ Q). clear. induction rects as [|r rs IH]; [reflexivity|]. cbn [flat_map]. rewrite app_length. cbn [List.length to_quad_points]. lia. }
  revert rs M. induction marks as [|l marks IH]; intros rs M; inversion M as [|? r ? rs' H1 H2]; subst; constructor; [apply X; assumption|apply IH; assumption].
Qed.

(** ** Cases *)

(** The rectangle (0, 0, 1, 1/2). *)
Definition small_rect : rect := mkRect f32_zero f32_zero (FFin false 8388608 (-23)) (FFin false 8388608 (-24)).

Example C105_case : proper small_rect /\ counterclockwise (to_quad_points small_rect) /\
  in_rectangle small_rect (2 ^ 148, 2 ^ 147) /\ ~ in_rectangle small_rect (2 ^ 148, 2 ^ 149).
Proof.
  split; [split; vm_compute; discriminate|]. split; [apply C105_counterclockwise; left; split; vm_compute; reflexivity|].
  split; [split; split; vm_compute; discriminate|]. intros [_ [_ H]]. vm_compute in H. apply H. reflexivity.
Qed.

(** With the upper left corner first, the documented order is not the actual one. *)
Theorem C105_clockwise_refuted : exists r, proper r /\ ~ counterclockwise (to_quad_points r).
Proof.
  exists (mkRect f32_zero (FFin false 8388608 (-24)) (FFin false 8388608 (-23)) f32_zero). split; [split; vm_compute; discriminate|].
  intro H. apply C105_counterclockwise in H. destruct H as [[_ H]|[H _]]; vm_compute in H; discriminate H.
Qed.

Definition link_calls : Annotation_calls := [Typed (Annotation_subtype AnnotationType_Link); Typed (Annotation_rect small_rect);
  Typed (Annotation_quad_points (flat_map to_quad_points [small_rect; small_rect]))].
Definition link_sample : list doc_op := [
  DocTyped 2 (Ck_pages [Typed (Pages_kids [3])]);
  DocTyped 3 (Ck_page [Typed (Page_annotations [4])]);
  DocTyped 4 (Ck_annotation link_calls);
  DocCatalog 1 [Typed (Catalog_pages 2)]].
Definition links_asked : list (Z * remark f32) := [
  (4, mkRemark None None None None None None None None None None None None None (Some (flat_map to_quad_points [small_rect; small_rect])) None None None None None None)].
Ltac there := cbn [link_sample In]; tauto.
Example C105_document_case :
  pages_written link_sample [Typed (Catalog_pages 2)] (ItNode 2 [ItPage 3]) /\ Forall2 (page_marks no_filter link_sample) [3] [links_asked] /\
  exists file, finished_document no_filter link_sample 1 file.
Proof.
  split; [split; [reflexivity|]; split; [eexists; split; [there|reflexivity]|]; split; [eexists; there|exact Logic.I]|]. split.
  - apply Forall2_cons; [|apply Forall2_nil]. split; [eexists; split; [there|right; reflexivity]|].
    apply Forall_cons; [|apply Forall_nil]. exists (inl link_calls). split; [there|]. repeat (split; [reflexivity|]). reflexivity.
  - assert (X : match doc_run link_sample (pdf_with_settings true) with
              | Some p => match finish p with Some file => Some (blen file <=? 10 ^ 10) | None => None end
              | None => None end = Some true) by (vm_compute; reflexivity).
    destruct (doc_run link_sample (pdf_with_settings true)) as [p|] eqn:R; [|discriminate].
    destruct (finish p) as [file|] eqn:F; [|discriminate]. exists file. apply some_inj in X.
    apply (finished_table _ _ _ _ true p); [|exact R|exact F| |apply Z.leb_le; exact X|reflexivity].
    + repeat (apply Forall_cons; [cbn [doc_op_ok op_typed]; repeat split|]); apply Forall_nil.
    + unfold ids_below; repeat constructor.
Qed.

Print Assumptions C105_counterclockwise.
Print Assumptions C105_region.
Print Assumptions C105_document.
Print Assumptions C105_clockwise_refuted.
