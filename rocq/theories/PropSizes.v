(** C75: the geometry of the pages. *)

From Coq Require Import ZArith List Bool Lia.
From Verif Require ModelCmap ModelContent SpecContent.
From Verif Require Import Bytes ModelFloat ModelBuf ModelObject ModelChunk ModelColor ModelSmall ModelPdf ModelTw ModelEnums ModelRoles ModelTwArgs
  ModelTwFiles ModelTwGraphics ModelTwAnnot ModelTwForms ModelTwAttr ModelTwXObj ModelTwFonts ModelTwDoc ModelFontDesc ModelDoc
  SpecLex SpecObj SpecText SpecMeans SpecRenum SpecChunk SpecFile SpecPdf SpecTyped SpecColor SpecSmall SpecTw SpecEnums SpecRoles SpecTwArgs
  SpecTwFiles SpecTwGraphics SpecTwAnnot SpecTwForms SpecTwAttr SpecTwXObj SpecTwFonts SpecTwDoc SpecFontDesc SpecDoc SpecPages SpecExtract SpecNav SpecViews SpecSizes
  ProofBasic ProofTree ProofTyped ProofTw ProofTwDoc PropDoc PropPdf2 PropPages PropExtract PropNav.
Import ListNotations.
Local Open Scope Z_scope.

Lemma plain_rect r v : means (OPrim (PRect r)) v -> is_rect r v.
Proof. intro H. inversion H; subst. exists a, b, c, d. repeat split; assumption. Qed.
Lemma number_read f v : real_means f v -> match v with VInt _ | VReal _ _ => true | _ => false end = true.
Proof. intros []; reflexivity. Qed.
Lemma rectangle_read r v : is_rect r v -> read_rectangle v = Some v.
Proof.
  intros (a & b & c & d & -> & A & B & C & D). unfold read_rectangle. cbn [forallb].
  rewrite (number_read _ _ A), (number_read _ _ B), (number_read _ _ C), (number_read _ _ D). reflexivity.
Qed.
Definition rect_given (k : bytes) (xs : list entry_spec) (r : option rect) : Prop :=
  entries_for k xs = entry_or_none k (option_map is_rect r) \/ entries_for k xs = entry_or_none k (option_map (fun r => means (OPrim (PRect r))) r).
Definition int_given (k : bytes) (xs : list entry_spec) (i : option Z) : Prop :=
  entries_for k xs = entry_or_none k (option_map is_int i) \/ entries_for k xs = entry_or_none k (option_map (fun i => means (OPrim (PInt i))) i).
Definition own_given (xs : list entry_spec) (g : given) : Prop :=
  rect_given (lit "MediaBox") xs (fst (fst g)) /\ rect_given (lit "CropBox") xs (snd (fst g)) /\ int_given (lit "Rotate") xs (snd g).
Lemma called_or_plain_entries {C A} k (P : A -> val -> Prop) sel plain head (doc : C -> list entry_spec) calls a : entries_for k head = [] ->
  (forall c, entries_for k (doc c) = map (reading k P) (sel c)) -> called_or_plain k sel plain calls a ->
  entries_for k (writer_doc head doc calls) = entry_or_none k (option_map P a) \/
  entries_for k (writer_doc head doc calls) = entry_or_none k (option_map (fun x => means (OPrim (plain x))) a).
Proof.
  intros H1 H2 [H|(x & -> & H)].
  - left. exact (called_entries k sel P head doc calls a H1 H2 H).
  - right. rewrite (given_entries k sel P head doc calls H2), H1, H. reflexivity.
Qed.
Lemma page_own calls g : page_given calls g -> own_given (writer_doc Page_head Page_doc calls) g.
Proof.
  intros (H1 & H2 & H3). split; [|split].
  - apply (called_or_plain_entries _ is_rect _ _ Page_head Page_doc) in H1; [exact H1|reflexivity|each_call].
  - apply (called_or_plain_entries _ is_rect _ _ Page_head Page_doc) in H2; [exact H2|reflexivity|each_call].
  - apply (called_or_plain_entries _ is_int _ _ Page_head Page_doc) in H3; [exact H3|reflexivity|each_call].
Qed.
Lemma node_own calls g : node_given calls g -> own_given (writer_doc Pages_head Pages_doc calls) g.
Proof.
  intros (H1 & H2 & H3). split; [|split].
  - apply (called_or_plain_entries _ is_rect _ _ Pages_head Pages_doc) in H1; [exact H1|reflexivity|each_call].
  - apply (called_or_plain_entries _ is_rect _ _ Pages_head Pages_doc) in H2; [exact H2|reflexivity|each_call].
  - apply (called_or_plain_entries _ is_int _ _ Pages_head Pages_doc) in H3; [exact H3|reflexivity|each_call].
Qed.
Lemma rect_found k xs d r : is_dict xs (VDict d) -> rect_given k xs r ->
  exists v, optional k d read_rectangle = Some v /\ option_is is_rect r v.
Proof.
  intros D [G|G]; destruct r as [r|]; cbn [option_map entry_or_none] in G; unfold optional.
  - destruct (dict_lookup _ _ _ _ D G) as (v & L & Q). rewrite L, (rectangle_read _ _ Q). exists (Some v). split; [reflexivity|exact Q].
  - rewrite (dict_lookup_none _ _ _ D G). exists None. split; [reflexivity|exact Logic.I].
  - destruct (dict_lookup _ _ _ _ D G) as (v & L & Q). apply plain_rect in Q. rewrite L, (rectangle_read _ _ Q). exists (Some v). split; [reflexivity|exact Q].
  - rewrite (dict_lookup_none _ _ _ D G). exists None. split; [reflexivity|exact Logic.I].
Qed.
Lemma int_found k xs d i : is_dict xs (VDict d) -> int_given k xs i -> optional k d read_integer = Some i.
Proof.
  intros D [G|G]; destruct i as [i|]; cbn [option_map entry_or_none] in G; unfold optional.
  - destruct (dict_lookup _ _ _ _ D G) as (v & L & ->). rewrite L. reflexivity.
  - rewrite (dict_lookup_none _ _ _ D G). reflexivity.
  - destruct (dict_lookup _ _ _ _ D G) as (v & L & Q). inversion Q; subst. rewrite L. reflexivity.
  - rewrite (dict_lookup_none _ _ _ D G). reflexivity.
Qed.
Lemma inherited_is {A} (P : A -> val -> Prop) a v b w : option_is P a v -> option_is P b w -> option_is P (or_inherited a b) (or_inherited v w).
Proof. intros H1 H2. destruct a, v; cbn [or_inherited option_is] in *; try contradiction; assumption. Qed.
Definition inherited_alike (g : given) (i : inheritable) : Prop :=
  option_is is_rect (fst (fst g)) (fst (fst i)) /\ option_is is_rect (snd (fst g)) (snd (fst i)) /\ snd g = snd i.
Lemma inheritable_found xs d own g i : is_dict xs (VDict d) -> own_given xs own -> inherited_alike g i ->
  exists i', read_inheritable d i = Some i' /\ inherited_alike (inherit_given own g) i'.
Proof.
  intros D (G1 & G2 & G3) (A1 & A2 & A3). destruct i as [[im ic] ir]. destruct g as [[gm gc] gr]. destruct own as [[om oc] r]. cbn [fst snd] in *.
  destruct (rect_found _ _ _ _ D G1) as (m & M1 & M2). destruct (rect_found _ _ _ _ D G2) as (c & C1 & C2).
  unfold read_inheritable. rewrite M1. cbn [bind]. rewrite C1. cbn [bind]. rewrite (int_found _ _ _ _ D G3). cbn [bind].
  eexists. split; [reflexivity|]. split; [|split]; cbn [inherit_given fst snd].
  - apply inherited_is; assumption.
  - apply inherited_is; assumption.
  - rewrite A3. reflexivity.
Qed.
Fixpoint sz_depth (t : sized_tree) : nat :=
  match t with SzPage _ _ _ _ _ _ => 1%nat | SzNode _ _ kids => S (fold_right Nat.max 0%nat (map sz_depth kids)) end.

Section Walk.
  Variables (resolved : Z -> option indirect) (ops : list doc_op).
  Hypothesis R : Forall (fun op => doc_op_reads op resolved) ops.

  Lemma geometries_found : forall t g i, sized_tree_written ops t -> inherited_alike g i -> exists rs,
    Forall2 geometry_is (asked_geometries g t) rs /\
    forall n, (sz_depth t <= n)%nat -> geometries_below resolved n i (VRef (sz_id t) 0) = Some rs.
  Proof using R.
    fix IH 1. intros [id own bleed trim art unit|id own kids] g i W A; cbn [sized_tree_written sz_id sz_depth] in *.
    - destruct W as (calls & H & G & G1 & G2 & G3 & G4). apply page_own in G. entries G4 Page_head Page_doc is_real.
      apply (called_or_plain_entries _ is_rect _ _ Page_head Page_doc) in G1; [|reflexivity|each_call].
      apply (called_or_plain_entries _ is_rect _ _ Page_head Page_doc) in G2; [|reflexivity|each_call].
      apply (called_or_plain_entries _ is_rect _ _ Page_head Page_doc) in G3; [|reflexivity|each_call].
      destruct (found resolved ops R _ _ H) as (x & E & v & -> & D). destruct (dict_is _ _ D) as [d ->].
      destruct (inheritable_found _ _ _ _ _ D G A) as ([[m c] r] & I1 & I2 & I3 & I4).
      destruct (rect_found _ _ _ _ D G1) as (b & B1 & B2). destruct (rect_found _ _ _ _ D G2) as (t & T1 & T2). destruct (rect_found _ _ _ _ D G3) as (a & A1 & A2).
      cbn [asked_geometries]. destruct (inherit_given own g) as [[gm gc] gr]. cbn [fst snd] in *.
      assert (C : option_is is_rect (or_inherited gc gm) (or_inherited c m)) by (apply inherited_is; assumption).
      eexists. split.
      2:{ intros [|n] L; [inversion L|]. cbn [geometries_below]. rewrite E. unfold required.
          destruct (dict_first _ _ _ _ D) as (ty & L1 & P). rewrite L1. unfold is_name in P. subst ty. cbn [bind read_name].
          change (bytes_eqb (lit "Page") (lit "Pages")) with false. change (bytes_eqb (lit "Page") (lit "Page")) with true. cbv iota.
          unfold page_geometry. rewrite I1. cbn [bind]. cbv zeta. rewrite B1. cbn [bind]. rewrite T1. cbn [bind]. rewrite A1. cbn [bind option_map]. reflexivity. }
      constructor; [|constructor]. unfold geometry_is.
      cbn [ga_media ga_crop ga_bleed ga_trim ga_art ga_rotate ga_unit ge_media ge_crop ge_bleed ge_trim ge_art ge_rotate ge_unit].
      split; [exact I2|]. split; [exact C|]. split; [apply inherited_is; assumption|]. split; [apply inherited_is; assumption|].
      split; [apply inherited_is; assumption|]. split; [rewrite I4; reflexivity|].
      destruct unit as [u|]; cbn [option_map entry_or_none] in G4.
      + destruct (dict_lookup _ _ _ _ D G4) as (v & L & Q). rewrite L. exact Q.
      + rewrite (dict_lookup_none _ _ _ D G4). exact Logic.I.
    - destruct W as [(calls & H & G & H2) W]. apply node_own in G. apply kids_entry_of in H2.
      destruct (found resolved ops R _ _ H) as (x & E & v & -> & D). destruct (dict_is _ _ D) as [d ->].
      destruct (inheritable_found _ _ _ _ _ D G A) as (i' & I1 & I2). cbn [asked_geometries].
      assert (K : exists rs, Forall2 geometry_is (flat_map (asked_geometries (inherit_given own g)) kids) rs /\
        forall n, (fold_right Nat.max 0 (map sz_depth kids) <= n)%nat ->
          concat_all (map (geometries_below resolved n i') (map (fun r => VRef r 0) (map sz_id kids))) = Some rs).
      { clear H2. induction kids as [|t kids IHk]; [exists []; split; [constructor|reflexivity]|].
        destruct W as [W1 W2]. destruct (IH t _ _ W1 I2) as (p1 & F1 & D1). destruct (IHk W2) as (p2 & F2 & D2).
        exists (p1 ++ p2). split; [apply Forall2_app; assumption|]. intros n L. cbn [map fold_right] in L. cbn [map concat_all].
        rewrite D1 by (etransitivity; [apply Nat.le_max_l|exact L]). rewrite D2 by (etransitivity; [apply Nat.le_max_r|exact L]). reflexivity. }
      destruct K as (rs & F & K). exists rs. split; [exact F|]. intros [|n] L; [inversion L|]. apply le_S_n in L.
      cbn [geometries_below]. rewrite E. unfold required. destruct (dict_first _ _ _ _ D) as (ty & L1 & P). rewrite L1. unfold is_name in P. subst ty.
      cbn [bind read_name]. change (bytes_eqb (lit "Pages") (lit "Pages")) with true. cbv iota.
      destruct (dict_lookup _ _ _ _ D H2) as (v & L2 & vs & -> & Q). rewrite L2. cbn [bind]. apply refs_found in Q. subst vs.
      rewrite I1. cbn [bind]. exact (K n L).
  Qed.
End Walk.

(** A reader that starts from the trailer finds for every page its boxes, rotation and unit, inherited from the nearest node that gives them
    and with the defaults. *)
Theorem C75_geometry : forall decode ops cat file calls tree,
  finished_document decode ops cat file -> In (DocCatalog cat calls) ops ->
  sizes_written ops calls tree ->
  exists read, Forall2 geometry_is (asked_geometries (None, None, None) tree) read /\
    exists depth, forall n, (depth <= n)%nat -> read_geometries decode n file = Some read.
Proof.
  intros decode ops cat file calls tree D I [W1 W2]. apply root_entry in W1. destruct (document_facts _ _ _ _ D) as [X _].
  destruct (catalog_found _ _ _ _ _ D I) as (c & C1 & C2).
  destruct (geometries_found _ ops X tree (None, None, None) (None, None, None) W2) as (rs & F & E); [split; [exact Logic.I|split; [exact Logic.I|reflexivity]]|].
  exists rs. split; [exact F|]. exists (sz_depth tree). intros n Hn. unfold read_geometries. rewrite C1. cbn [bind]. unfold required.
  destruct (dict_lookup _ _ _ _ C2 W1) as (v & L & ->). rewrite L. cbn [bind]. exact (E n Hn).
Qed.

(** ** A concrete case *)
Definition power (e : Z) : f32 := FFin false 8388608 (e - 23).
Definition box (e : Z) : rect := mkRect f32_zero f32_zero (power e) (power e).
Definition sizes_sample : list doc_op := [
  DocTyped 2 (Ck_pages [Typed (Pages_kids [3; 6]); Typed (Pages_media_box (box 9)); Raw (lit "Rotate") (OPrim (PInt 90))]);
  DocTyped 3 (Ck_pages [Typed (Pages_kids [4; 5]); Raw (lit "CropBox") (OPrim (PRect (box 8)))]);
  DocTyped 4 (Ck_page [Typed (Page_trim_box (box 7))]);
  DocTyped 5 (Ck_page [Typed (Page_crop_box (box 6)); Typed (Page_rotate (-90)); Typed (Page_user_unit (power 1))]);
  DocTyped 6 (Ck_page [Typed (Page_media_box (box 5)); Typed (Page_art_box (box 4))]);
  DocCatalog 1 [Typed (Catalog_pages 2)]].
Definition sizes_tree : sized_tree :=
  SzNode 2 (Some (box 9), None, Some 90) [
    SzNode 3 (None, Some (box 8), None) [
      SzPage 4 (None, None, None) None (Some (box 7)) None None;
      SzPage 5 (None, Some (box 6), Some (-90)) None None None (Some (power 1))];
    SzPage 6 (Some (box 5), None, None) None None (Some (box 4)) None].
Definition sizes_found : list geometry_asked := [
  mkAskedGeometry (Some (box 9)) (Some (box 8)) (Some (box 8)) (Some (box 7)) (Some (box 8)) 90 None;
  mkAskedGeometry (Some (box 9)) (Some (box 6)) (Some (box 6)) (Some (box 6)) (Some (box 6)) (-90) (Some (power 1));
  mkAskedGeometry (Some (box 5)) (Some (box 5)) (Some (box 5)) (Some (box 5)) (Some (box 4)) 90 None].
Example C75_case : sizes_written sizes_sample [Typed (Catalog_pages 2)] sizes_tree /\
  asked_geometries (None, None, None) sizes_tree = sizes_found.
Proof.
  split; [|reflexivity]. split; [reflexivity|]. split.
  - eexists. split; [cbn [sizes_sample In]; tauto|]. split; [|reflexivity]. split; [left; reflexivity|]. split; [left; reflexivity|right; eexists; split; reflexivity].
  - split.
    + split.
      * eexists. split; [cbn [sizes_sample In]; tauto|]. split; [|reflexivity]. split; [left; reflexivity|]. split; [right; eexists; split; reflexivity|left; reflexivity].
      * split; [|split; [|exact Logic.I]]; (eexists; split; [cbn [sizes_sample In]; tauto|];
          split; [split; [left; reflexivity|split; left; reflexivity]|split; [left; reflexivity|split; [left; reflexivity|split; [left; reflexivity|reflexivity]]]]).
    + split; [|exact Logic.I]. eexists; split; [cbn [sizes_sample In]; tauto|];
        split; [split; [left; reflexivity|split; left; reflexivity]|split; [left; reflexivity|split; [left; reflexivity|split; [left; reflexivity|reflexivity]]]].
Qed.
Definition sizes_seen (l : option (list geometry)) :=
  option_map (map (fun g => (map (fun b => match b with Some (VArr [_; _; VInt x; _]) => x | _ => 0 end) [ge_media g; ge_crop g; ge_bleed g; ge_trim g; ge_art g], ge_rotate g,
    ge_unit g))) l.
(** And the file is really read so. *)
Example C75_file : exists file, finished_document no_filter sizes_sample 1 file /\
  sizes_seen (read_geometries no_filter 3 file) =
    Some [([512; 256; 256; 128; 256], 90, None); ([512; 64; 64; 64; 64], -90, Some (VInt 2)); ([32; 32; 32; 32; 16], 90, None)].
Proof.
  assert (X : match doc_run sizes_sample (pdf_with_settings true) with
              | Some p => match finish p with Some f => (blen f <=? 10 ^ 10, sizes_seen (read_geometries no_filter 3 f)) | None => (false, None) end
              | None => (false, None) end =
    (true, Some [([512; 256; 256; 128; 256], 90, None); ([512; 64; 64; 64; 64], -90, Some (VInt 2)); ([32; 32; 32; 32; 16], 90, None)])) by (vm_compute; reflexivity).
  destruct (doc_run sizes_sample (pdf_with_settings true)) as [p|] eqn:R; [|discriminate].
  destruct (finish p) as [file|] eqn:F; [|discriminate]. exists file.
  split; [apply (finished_table _ _ _ _ true p); [|exact R|exact F| |apply Z.leb_le; exact (f_equal fst X)|reflexivity]|].
  - repeat (apply Forall_cons; [cbn [doc_op_ok op_typed]; repeat split|]); apply Forall_nil.
  - unfold ids_below; repeat constructor.
  - exact (f_equal snd X).
Qed.

Print Assumptions C75_geometry.
