(** C83: color spaces, shadings, patterns and graphics state dictionaries. *)

From Coq Require Import ZArith List Bool Lia.
From Verif Require ModelCmap ModelContent SpecContent ModelPs SpecPs PropContent.
From Verif Require Import Bytes ModelFloat ModelBuf ModelObject ModelChunk ModelColor ModelSmall ModelPdf ModelTw ModelEnums ModelRoles ModelTwArgs
  ModelTwFiles ModelTwGraphics ModelTwAnnot ModelTwForms ModelTwAttr ModelTwXObj ModelTwFonts ModelTwDoc ModelFontDesc ModelDoc
  SpecLex SpecObj SpecText SpecMeans SpecRenum SpecChunk SpecFile SpecPdf SpecTyped SpecColor SpecSmall SpecTw SpecEnums SpecRoles SpecTwArgs
  SpecTwFiles SpecTwGraphics SpecTwAnnot SpecTwForms SpecTwAttr SpecTwXObj SpecTwFonts SpecTwDoc SpecFontDesc SpecDoc SpecPages SpecExtract SpecNav SpecViews SpecPaint SpecFunctions SpecColors
  ProofBasic ProofTree ProofTyped ProofColor ProofTw ProofTwGraphics ProofTwDoc PropDoc PropPdf2 PropPages PropExtract PropNav PropTagged PropPaint PropFunctions.
Import ListNotations.
Local Open Scope Z_scope.

(** Both kinds of writers of the same function dictionaries. *)
Lemma inline_exponential l v : is_exponential l v -> ExponentialFunction_reads (map as_exponential l) v.
Proof.
  intro H. unfold is_exponential in H. unfold ExponentialFunction_reads, writer_reads, writer_doc, ExponentialFunction_head.
  replace (flat_map (raw_doc ExponentialFunction_doc) (map as_exponential l)) with (map exp_reads l); [exact H|].
  clear H. induction l as [|[] l IH]; cbn [map flat_map]; [reflexivity|..]; rewrite <- IH; reflexivity.
Qed.
Lemma inline_stitching l v : is_stitching l v -> StitchingFunction_reads (map as_stitching l) v.
Proof.
  intro H. unfold is_stitching in H. unfold StitchingFunction_reads, writer_reads, writer_doc, StitchingFunction_head.
  replace (flat_map (raw_doc StitchingFunction_doc) (map as_stitching l)) with (map stitch_reads l); [exact H|].
  clear H. induction l as [|[] l IH]; cbn [map flat_map]; [reflexivity|..]; rewrite <- IH; reflexivity.
Qed.
Lemma names_found l v : is_names l v -> read_array read_name v = Some l.
Proof.
  intros (vs & -> & F). unfold read_array. induction F as [|f v l vs H F IH]; [reflexivity|]. unfold is_name in H. subst v. cbn [map SpecNav.all_of read_name]. rewrite IH. reflexivity.
Qed.

(** Found by every reader that may look deep enough. *)
Definition finds {A B} (P : A -> B -> Prop) (a : A) (f : nat -> option B) : Prop := exists r depth, P a r /\ forall n, (depth <= n)%nat -> f n = Some r.

Section Find.
  Variables (decode : option val -> bytes -> option bytes) (resolved : Z -> option indirect) (ops : list doc_op).
  Hypothesis R : Forall (fun op => doc_op_reads op resolved) ops.

  Lemma tint_found p t v : tint_written decode ops p t -> part_reads p v -> finds function_is t (fun n => read_function decode resolved n v).
  Proof using R.
    intros W P.
    assert (X : exists place, function_written decode ops place t /\ function_stands place v).
    { destruct p; try contradiction; inversion P; subst.
      - eexists; split; [exact W|]. apply inline_exponential. assumption.
      - eexists; split; [exact W|]. apply inline_stitching. assumption.
      - eexists; split; [exact W|]. reflexivity. }
    destruct X as (place & W' & S). destruct (function_found decode resolved ops R _ _ _ W' S) as (r & H & G). exists r, (function_depth t). split; assumption.
  Qed.
  Lemma device_reads d : cs_reads (device_space d) (VName (device_family d)).
  Proof using Type. destruct d; constructor. Qed.
  Lemma space_found : forall s c v, space_written decode ops c s -> cs_reads c v -> finds space_is s (fun n => read_color_space decode resolved n v).
  Proof using R.
    induction s as [c'|calls profile|colorants alternate IH tint attributes]; intros c v W P; cbn [space_written] in W.
    - destruct W as [-> W]. exists (PlainSpace v), 1%nat. split; [constructor; exact P|]. intros [|n] L; [inversion L|].
      destruct P; try contradiction; reflexivity.
    - destruct W as (id & data & -> & I & S). inversion P; subst.
      apply (stored_with_entries decode [] icc_call_doc) in S; [|reflexivity|each_call].
      destruct (found resolved ops R _ _ I) as (i & E & vs & -> & D). exists (IccSpace ((lit "Length", VInt (blen data)) :: vs) profile), 1%nat. split.
      { constructor. exists (blen data), vs. split; [reflexivity|exact D]. }
      intros [|n] L; [inversion L|]. cbn [read_color_space]. change (bytes_eqb (lit "ICCBased") (lit "ICCBased")) with true. cbv iota. cbv zeta.
      rewrite (stream_with_found decode resolved _ _ _ _ _ E D S). rewrite E. reflexivity.
    - destruct W as (a & t & C & A & T).
      assert (X : exists av tv ws, part_reads a av /\ part_reads t tv /\ Forall2 part_reads attributes ws /\
        forall n, read_color_space decode resolved (S n) v =
          bind (read_color_space decode resolved n av) (fun alternate => bind (read_function decode resolved n tv) (fun tint =>
          Some (TintedSpace colorants alternate tint ws)))).
      { destruct c; try contradiction; destruct C as [-> ->]; inversion P as [| | | | | | |? ? vs F|? ? vns vs N F| |]; subst;
          inversion F as [|? av ? vs1 F1 F2]; subst; inversion F2 as [|? tv ? ws F3 F4]; subst; exists av, tv, ws; (split; [exact F1|split; [exact F3|split; [exact F4|]]]);
          intro n; cbn [read_color_space].
        - reflexivity.
        - rewrite (names_found _ _ N). reflexivity. }
      destruct X as (av & tv & ws & Pa & Pt & Pw & X). clear C P.
      assert (Y : finds space_is alternate (fun n => read_color_space decode resolved n av)).
      { destruct a; try contradiction; inversion Pa; subst.
        - apply (IH _ _ A). apply device_reads.
        - apply (IH _ _ A). assumption.
        - destruct A as (c' & I & A). destruct (found resolved ops R _ _ I) as (i & E & v' & -> & D).
          destruct (IH _ _ A D) as (r' & depth & H & G). exists r', (S depth). split; [exact H|]. intros [|n] L; [inversion L|]. cbn [read_color_space]. rewrite E.
          apply G. lia. }
      destruct Y as (a' & da & Ha & Ga). destruct (tint_found _ _ _ T Pt) as (t' & dt & Ht & Gt).
      exists (TintedSpace colorants a' t' ws), (S (da + dt)). split; [constructor; assumption|].
      intros [|n] L; [inversion L|]. rewrite X, Ga, Gt by lia. reflexivity.
  Qed.

  Section Entry.
    Variables (xs : list entry_spec) (d : list (bytes * val)).
    Hypothesis D : is_dict xs (VDict d).
    Lemma maybe_found k (given : option Z -> Prop) f : (forall o, given o -> entries_for k xs = entry_or_none k (option_map is_ref o)) ->
      maybe_function decode ops given f -> finds (optionally function_is) f (fun n => optional k d (read_function decode resolved n)).
    Proof using R D.
      intros G W. unfold optional. destruct f as [f|]; cbn [maybe_function] in W.
      - destruct W as (id & W1 & W2). destruct (dict_lookup _ _ _ _ D (G _ W1)) as (v & L & P).
        destruct (function_found decode resolved ops R f (ById id) v W2 P) as (r & H & Q). exists (Some r), (function_depth f). split; [exact H|].
        intros n N. rewrite L, (Q n N). reflexivity.
      - exists None, 0%nat. split; [exact Logic.I|]. intros n _. rewrite (dict_lookup_none _ _ _ D (G _ W)). reflexivity.
    Qed.
    Lemma its_space k c s : entries_for k xs = [(k, cs_reads c)] -> space_written decode ops c s ->
      exists r depth, space_is s r /\ forall n, (depth <= n)%nat -> forall A (f : read_space -> option A),
        required k d (fun v => bind (read_color_space decode resolved n v) f) = f r.
    Proof using R D.
      intros E W. destruct (dict_lookup _ _ _ _ D E) as (v & L & P). destruct (space_found _ _ _ W P) as (r & depth & H & G). exists r, depth. split; [exact H|].
      intros n N A f. unfold required. rewrite L. cbn [bind]. rewrite (G n N). reflexivity.
    Qed.
  End Entry.

  (** ** Shadings *)
  Lemma function_shading_found calls space f v d : function_shading_written decode ops calls space f -> dict_or_stream decode resolved v = Some (d, None) ->
    FunctionShading_reads calls (VDict d) -> finds shading_is (AskFunctionShading calls space f) (fun n => read_shading_at decode resolved n v).
  Proof using R.
    intros [(c & C & W) F] E D. entries C FunctionShading_head FunctionShading_doc cs_reads.
    destruct (its_space _ _ D _ _ _ C W) as (s & d1 & H1 & G1).
    destruct (maybe_found _ _ D (lit "Function") (called (lit "Function") <| FunctionShading_function id => id |> calls) f
      (fun o H => ltac:(entries H FunctionShading_head FunctionShading_doc is_ref; exact H)) F) as (r & d2 & H2 & G2).
    exists (mkShading d s r None), (d1 + d2)%nat. split; [constructor; assumption|]. intros n L. unfold read_shading_at. rewrite E. cbn [bind fst snd]. cbv zeta.
    rewrite G1, G2 by lia. reflexivity.
  Qed.
  Lemma shading_id_found id s : shading_by_id decode ops id s -> finds shading_is s (fun n => read_shading_at decode resolved n (VRef id 0)).
  Proof using R.
    destruct s as [calls space f|calls content space f]; cbn [shading_by_id].
    - intros [I W]. destruct (found resolved ops R _ _ I) as (i & E & v & -> & D). destruct (dict_is _ _ D) as [d ->].
      apply (function_shading_found _ _ _ _ d W); [|exact D]. cbn [dict_or_stream]. rewrite E. reflexivity.
    - intros (data & I & S & (c & C & W) & F). sentries C StreamShading_head StreamShading_doc cs_reads.
      apply (stored_with_entries decode StreamShading_head StreamShading_doc) in S; [|reflexivity|each_call].
      destruct (found resolved ops R _ _ I) as (i & E & vs & -> & D).
      pose proof (stream_with_found decode resolved _ _ _ _ _ E D S) as K. pose proof (length_before _ _ (blen data) D) as D'.
      destruct (its_space _ _ D' (lit "ColorSpace") c space C W) as (s & d1 & H1 & G1).
      destruct (maybe_found _ _ D' (lit "Function") (stream_called (lit "Function") (fun _ => []) <| StreamShading_function id => id |> calls) f
        (fun o H => ltac:(sentries H StreamShading_head StreamShading_doc is_ref; exact H)) F) as (r & d2 & H2 & G2).
      exists (mkShading ((lit "Length", VInt (blen data)) :: vs) s r (Some content)), (d1 + d2)%nat. split.
      { constructor; [|assumption..]. exists (blen data), vs. split; [reflexivity|exact D]. }
      intros n L. unfold read_shading_at. cbn [dict_or_stream]. rewrite K, E. cbn [option_map bind fst snd]. cbv zeta. rewrite G1, G2 by lia. reflexivity.
  Qed.

  (** ** Graphics state dictionaries *)
  Lemma group_found id group l : drawing_written decode ops id group -> ask_drawing group [] = Some l -> finds paintings_are l (fun n => read_group decode resolved n id).
  Proof using R.
    intros W A. destruct (drawings_found decode resolved ops R group id W (VDict [(lit "XObject", VDict [(lit "G", VRef id 0)])]) (lit "G") [] [] l eq_refl (Forall2_nil _) A) as (l' & H & G).
    exists l', (drawing_depth group). split; assumption.
  Qed.
  Lemma mask_found calls d m : mask_written decode ops calls m -> ExtGraphicsState_reads calls (VDict d) ->
    finds (optionally mask_is) m (fun n => optional (lit "SMask") d (read_soft_mask decode resolved n)).
  Proof using R.
    intros W D.
    assert (M : forall m, mask_given calls m -> entries_for (lit "SMask") (writer_doc ExtGraphicsState_head ExtGraphicsState_doc calls) =
      entry_or_none (lit "SMask") (option_map (fun m => match m with inl n => is_name n | inr c => SoftMask_reads c end) m)).
    { intros m' H. unfold mask_given in H.
      entries H ExtGraphicsState_head ExtGraphicsState_doc (fun m : bytes + SoftMask_calls => match m with inl n => is_name n | inr c => SoftMask_reads c end). exact H. }
    unfold optional. destruct m as [[n|mc group l f]|]; cbn [mask_written] in W.
    - destruct (dict_lookup _ _ _ _ D (M _ W)) as (v & L & P). cbv beta iota in P. unfold is_name in P. subst v. exists (Some (MaskByName n)), 0%nat. split; [constructor|].
      intros k _. rewrite L. reflexivity.
    - destruct W as (W & (id & I & G) & A & F). destruct (dict_lookup _ _ _ _ D (M _ W)) as (v & L & P). cbv beta iota in P. destruct (dict_is _ _ P) as [e ->].
      entries I SoftMask_head SoftMask_doc is_ref. destruct (dict_lookup _ _ _ _ P I) as (gv & L1 & ->).
      destruct (group_found _ _ _ G A) as (l' & d1 & H1 & G1).
      destruct (maybe_found _ _ P (lit "TR") (called (lit "TR") <| SoftMask_transfer_function id => id |> mc) f
        (fun o H => ltac:(entries H SoftMask_head SoftMask_doc is_ref; exact H)) F) as (r & d2 & H2 & G2).
      exists (Some (MaskByGroup e l' r)), (d1 + d2)%nat. split; [constructor; assumption|]. intros k K. rewrite L. cbn [read_soft_mask]. unfold required. rewrite L1. cbn [bind read_id].
      rewrite G1 by lia. cbn [bind]. rewrite G2 by lia. reflexivity.
    - exists None, 0%nat. split; [exact Logic.I|]. intros k _. rewrite (dict_lookup_none _ _ _ D (M _ W)). reflexivity.
  Qed.
  Lemma gstate_found g v d : gstate_written decode ops g -> dict_or_stream decode resolved v = Some (d, None) -> ExtGraphicsState_reads (ga_calls g) (VDict d) ->
    finds gstate_is g (fun n => read_gstate_at decode resolved n v).
  Proof using R.
    destruct g as [calls m bg ucr tr]. unfold gstate_written. cbn [ga_calls ga_mask ga_black ga_undercolor ga_transfer]. intros (W1 & W2 & W3 & W4) E D.
    destruct (mask_found _ _ _ W1 D) as (r1 & d1 & H1 & G1).
    destruct (maybe_found _ _ D (lit "BG") (called (lit "BG") <| ExtGraphicsState_black_generation id => id |> calls) bg
      (fun o H => ltac:(entries H ExtGraphicsState_head ExtGraphicsState_doc is_ref; exact H)) W2) as (r2 & d2 & H2 & G2).
    destruct (maybe_found _ _ D (lit "UCR") (called (lit "UCR") <| ExtGraphicsState_undercolor_removal id => id |> calls) ucr
      (fun o H => ltac:(entries H ExtGraphicsState_head ExtGraphicsState_doc is_ref; exact H)) W3) as (r3 & d3 & H3 & G3).
    destruct (maybe_found _ _ D (lit "TR") (called (lit "TR") <| ExtGraphicsState_transfer id => id |> calls) tr
      (fun o H => ltac:(entries H ExtGraphicsState_head ExtGraphicsState_doc is_ref; exact H)) W4) as (r4 & d4 & H4 & G4).
    exists (mkGstate d r1 r2 r3 r4), (d1 + d2 + d3 + d4)%nat. split.
    { unfold gstate_is. cbn [ga_calls ga_mask ga_black ga_undercolor ga_transfer gs_dict gs_mask gs_black gs_undercolor gs_transfer].
      split; [exact D|]. split; [exact H1|]. split; [exact H2|]. split; [exact H3|exact H4]. }
    intros n L. unfold read_gstate_at. rewrite E. cbn [bind fst snd]. cbv zeta. rewrite G1, G2, G3, G4 by lia. reflexivity.
  Qed.

  (** ** Patterns *)
  Lemma tiles_found id calls tile : tiles_written decode ops id calls tile -> finds pattern_is (AskTiles calls tile) (fun n => read_pattern_at decode resolved n (VRef id 0)).
  Proof using R.
    intros (data & pretty & c & res & xs & content & I & H1 & H2 & H3 & S & X1 & X2 & A).
    sentries H1 TilingPattern_head TilingPattern_doc Resources_reads.
    apply (stored_with_entries decode TilingPattern_head TilingPattern_doc) in S; [|reflexivity|each_call].
    destruct (found resolved ops R _ _ I) as (i & E & vs & -> & D).
    pose proof (stream_with_found decode resolved _ _ _ _ _ E D S) as K. pose proof (length_before _ _ (blen data) D) as D'.
    destruct (dict_lookup (lit "Resources") (Resources_reads res) _ _ D' H1) as (rv & L1 & P1).
    destruct (PropContent.C36_finish_keeps_operations pretty content c H2 H3) as (_ & l0 & P0 & M).
    destruct (runs_alike _ _ _ (page_draws_alike decode resolved ops R _ _ _ P1 X1 X2) _ _ (ops_alike _ _ _ _ P1 M) _ _ tile (start_alike [] [] (Forall2_nil _)) A) as (l' & Z1 & Z2).
    exists (Tiles ((lit "Length", VInt (blen data)) :: vs) l'), (deepest xs). split.
    { constructor; [|exact Z1]. exists (blen data), vs. split; [reflexivity|exact D]. }
    intros n L. unfold read_pattern_at. cbn [dict_or_stream]. rewrite K, E. cbn [option_map bind fst snd]. cbv zeta.
    assert (T : lookup (lit "PatternType") ((lit "Length", VInt (blen data)) :: vs) = Some (VInt 1)).
    { destruct D as (d & Q & F). injection Q as <-. inversion F as [|? [k1 v1] ? ? [Q1 Q2] F1]; subst. inversion F1 as [|? [k2 v2] ? ? [Q3 Q4] F2]; subst. cbn [fst snd] in *. unfold is_int in Q4. subst.
      reflexivity. }
    unfold required at 1. rewrite T. cbn [bind read_whole]. change (1 =? 1) with true. cbv iota. unfold required. rewrite L1. cbn [bind]. rewrite P0. cbn [bind].
    rewrite Z2 by lia. reflexivity.
  Qed.
  Lemma shades_found calls s g v d : shades_written decode ops calls s g -> dict_or_stream decode resolved v = Some (d, None) -> ShadingPattern_reads calls (VDict d) ->
    finds pattern_is (AskShades calls s g) (fun n => read_pattern_at decode resolved n v).
  Proof using R.
    intros [W1 W2] E D.
    assert (M : forall m, shading_given calls m -> entries_for (lit "Shading") (writer_doc ShadingPattern_head ShadingPattern_doc calls) =
      [(lit "Shading", match m with inl c => FunctionShading_reads c | inr id => is_ref id end)]).
    { intros m' H. unfold shading_given in H.
      entries H ShadingPattern_head ShadingPattern_doc (fun m : FunctionShading_calls + Z => match m with inl c => FunctionShading_reads c | inr id => is_ref id end). exact H. }
    assert (X : exists sv, lookup (lit "Shading") d = Some sv /\ finds shading_is s (fun n => read_shading_at decode resolved n sv)).
    { destruct W1 as [(id & W & S)|W].
      - destruct (dict_lookup _ _ _ _ D (M _ W)) as (sv & L & P). unfold is_ref in P. subst sv. eexists. split; [exact L|]. apply shading_id_found. exact S.
      - destruct s as [l space f|]; [|contradiction]. destruct W as [W S]. destruct (dict_lookup _ _ _ _ D (M _ W)) as (sv & L & P). destruct (dict_is _ _ P) as [e ->].
        eexists. split; [exact L|]. apply (function_shading_found _ _ _ _ e S); [reflexivity|exact P]. }
    destruct X as (sv & L1 & s' & d1 & H1 & G1).
    assert (X : finds (optionally gstate_is) g (fun n => optional (lit "ExtGState") d (read_gstate_at decode resolved n))).
    { unfold optional. destruct g as [g|].
      - destruct W2 as [W2 W3]. entries W2 ShadingPattern_head ShadingPattern_doc ExtGraphicsState_reads. destruct (dict_lookup _ _ _ _ D W2) as (gv & L & P). destruct (dict_is _ _ P) as [e ->].
        destruct (gstate_found g (VDict e) e W3 eq_refl P) as (g' & dg & H & G). exists (Some g'), dg. split; [exact H|]. intros n N. rewrite L, (G n N). reflexivity.
      - entries W2 ShadingPattern_head ShadingPattern_doc ExtGraphicsState_reads. exists None, 0%nat. split; [exact Logic.I|]. intros n _. rewrite (dict_lookup_none _ _ _ D W2). reflexivity. }
    destruct X as (g' & d2 & H2 & G2).
    exists (Shades d s' g'), (d1 + d2)%nat. split; [constructor; assumption|]. intros n L. unfold read_pattern_at. rewrite E. cbn [bind fst snd]. cbv zeta.
    assert (T : lookup (lit "PatternType") d = Some (VInt 2)).
    { destruct D as (d' & Q & F). injection Q as <-. inversion F as [|? [k1 v1] ? ? [Q1 Q2] F1]; subst. inversion F1 as [|? [k2 v2] ? ? [Q3 Q4] F2]; subst. cbn [fst snd] in *. unfold is_int in Q4. subst.
      reflexivity. }
    unfold required at 1. rewrite T. cbn [bind read_whole]. change (2 =? 1) with false. change (2 =? 2) with true. cbv iota. unfold required. rewrite L1. cbn [bind].
    rewrite G1 by lia. cbn [bind]. rewrite G2 by lia. reflexivity.
  Qed.

  (** ** Resources *)
  Lemma space_at_found o s v : space_at decode ops o s -> means o v -> finds space_is s (fun n => read_color_space decode resolved n v).
  Proof using R.
    intros (c & W & [(id & -> & I)|C]) M.
    - inversion M; subst. destruct (found resolved ops R _ _ I) as (i & E & v & -> & D). destruct (space_found _ _ _ W D) as (r & depth & H & G).
      exists r, (S depth). split; [exact H|]. intros [|n] L; [inversion L|]. cbn [read_color_space]. rewrite E. apply G. lia.
    - apply (space_found _ _ _ W). exact (proj1 cs_reads_all _ _ _ C M).
  Qed.
  Lemma shading_at_found o s v : shading_at decode ops o s -> means o v -> finds shading_is s (fun n => read_shading_at decode resolved n v).
  Proof using R.
    intros [(id & -> & W)|W] M.
    - inversion M; subst. apply shading_id_found. exact W.
    - destruct s as [calls space f|]; [|contradiction]. destruct W as (C & O & W). pose proof (proj2 (good_FunctionShading _ _ O C) _ M) as D. destruct (dict_is _ _ D) as [d ->].
      apply (function_shading_found _ _ _ _ d W); [reflexivity|exact D].
  Qed.
  Lemma gstate_at_found o g v : gstate_at decode ops o g -> means o v -> finds gstate_is g (fun n => read_gstate_at decode resolved n v).
  Proof using R.
    intros [W [(id & -> & I)|[-> O]]] M.
    - inversion M; subst. destruct (found resolved ops R _ _ I) as (i & E & v & -> & D). destruct (dict_is _ _ D) as [d ->]. apply (gstate_found _ _ d W); [|exact D].
      cbn [dict_or_stream]. rewrite E. reflexivity.
    - pose proof (proj2 (good_ExtGraphicsState _ O) _ M) as D. destruct (dict_is _ _ D) as [d ->]. apply (gstate_found _ _ d W); [reflexivity|exact D].
  Qed.
  Lemma pattern_at_found o p v : pattern_at decode ops o p -> means o v -> finds pattern_is p (fun n => read_pattern_at decode resolved n v).
  Proof using R.
    destruct p as [calls tile|calls s g]; cbn [pattern_at].
    - intros (id & -> & W) M. inversion M; subst. apply tiles_found. exact W.
    - intros [W [(id & -> & I)|[C O]]] M.
      + inversion M; subst. destruct (found resolved ops R _ _ I) as (i & E & v & -> & D). destruct (dict_is _ _ D) as [d ->]. apply (shades_found _ _ _ _ d W); [|exact D].
        cbn [dict_or_stream]. rewrite E. reflexivity.
      + pose proof (proj2 (good_ShadingPattern _ _ O C) _ M) as D. destruct (dict_is _ _ D) as [d ->]. apply (shades_found _ _ _ _ d W); [reflexivity|exact D].
  Qed.
  Lemma category_found {A B} (P : A -> B -> Prop) (at_ : obj -> A -> Prop) (f : nat -> val -> option B) (given : option (list (bytes * obj)) -> Prop) k xs d l :
    is_dict xs (VDict d) -> (forall o, given o -> entries_for k xs = entry_or_none k (option_map (fun es => means (ODict es)) o)) ->
    (forall o a v, at_ o a -> means o v -> finds P a (fun n => f n v)) ->
    category_written given at_ l -> finds (named_are P) l (fun n => named_in k (f n) (VDict d)).
  Proof using Type.
    intros D G F [[-> W]|(es & W & F2)]; unfold named_in.
    - exists [], 0%nat. split; [constructor|]. intros n _. rewrite (dict_lookup_none _ _ _ D (G _ W)). reflexivity.
    - destruct (dict_lookup _ _ _ _ D (G _ W)) as (v & L & M). inversion M as [| | | | | | | | | | | |? ws MM]; subst. rewrite L. clear - F F2 MM.
      revert l F2. induction MM as [|[k1 o] [k2 v] es ws [A1 A2] MM IH]; intros l F2; inversion F2 as [|? [k3 a] ? l' [B1 B2] F3]; subst.
      + exists [], 0%nat. split; [constructor|reflexivity].
      + cbn [fst snd] in *. destruct (IH _ F3) as (rs & d1 & H1 & G1). destruct (F _ _ _ B2 A2) as (r & d2 & H2 & G2).
        exists ((k2, r) :: rs), (d1 + d2)%nat. split; [constructor; [cbn [fst snd]; split; [congruence|exact H2]|exact H1]|].
        intros n N. cbn [map SpecNav.all_of fst snd]. rewrite G2 by lia. cbn [option_map]. rewrite G1 by lia. reflexivity.
  Qed.
  Lemma colors_found res rv a : colors_written decode ops res a -> Resources_reads res rv -> finds colors_are a (fun n => colors_of decode resolved n rv).
  Proof using R.
    intros (W1 & W2 & W3 & W4) D. destruct (dict_is _ _ D) as [d ->].
    destruct (category_found space_is _ (read_color_space decode resolved) (called (lit "ColorSpace") <| Resources_color_spaces es => es |> res) (lit "ColorSpace") _ _ _ D
      (fun o H => ltac:(entries H Resources_head Resources_doc (fun es => means (ODict es)); exact H)) space_at_found W1) as (r1 & d1 & H1 & G1).
    destruct (category_found shading_is _ (read_shading_at decode resolved) (called (lit "Shading") <| Resources_shadings es => es |> res) (lit "Shading") _ _ _ D
      (fun o H => ltac:(entries H Resources_head Resources_doc (fun es => means (ODict es)); exact H)) shading_at_found W2) as (r2 & d2 & H2 & G2).
    destruct (category_found pattern_is _ (read_pattern_at decode resolved) (called (lit "Pattern") <| Resources_patterns es => es |> res) (lit "Pattern") _ _ _ D
      (fun o H => ltac:(entries H Resources_head Resources_doc (fun es => means (ODict es)); exact H)) pattern_at_found W3) as (r3 & d3 & H3 & G3).
    destruct (category_found gstate_is _ (read_gstate_at decode resolved) (called (lit "ExtGState") <| Resources_ext_g_states es => es |> res) (lit "ExtGState") _ _ _ D
      (fun o H => ltac:(entries H Resources_head Resources_doc (fun es => means (ODict es)); exact H)) gstate_at_found W4) as (r4 & d4 & H4 & G4).
    exists (mkColors r1 r2 r3 r4), (d1 + d2 + d3 + d4)%nat. split; [split; [exact H1|split; [exact H2|split; [exact H3|exact H4]]]|].
    intros n L. unfold colors_of. rewrite G1, G2, G3, G4 by lia. reflexivity.
  Qed.
End Find.

(** A reader that starts from the trailer finds for every page the color spaces, shadings, patterns and graphics state dictionaries that its
    contents can refer to, by their names, with everything they refer to themselves. *)
Theorem C83_colors : forall decode ops cat file calls tree asked,
  finished_document decode ops cat file -> In (DocCatalog cat calls) ops ->
  views_written decode ops calls tree ->
  Forall2 (fun p a => colors_written decode ops (pa_resources p) a) (vt_pages [] tree) asked ->
  exists read depth, Forall2 colors_are asked read /\ forall n, (depth <= n)%nat -> read_page_colors decode n file = Some read.
Proof.
  intros decode ops cat file calls tree asked D I W P. destruct (document_facts _ _ _ _ D) as [X _].
  destruct (views_found _ _ _ _ _ _ D I W) as (vs & F & V).
  assert (Y : exists read depth, Forall2 colors_are asked read /\ forall n, (depth <= n)%nat ->
    SpecNav.all_of (map (fun v => colors_of decode (resolve decode file) n (snd (fst v))) vs) = Some read).
  { clear - P F X. revert asked P. induction F as [|p v ps vs (H1 & H2 & H3) F IH]; intros asked P; inversion P as [|? a ? l A P']; subst.
    - exists [], 0%nat. split; [constructor|reflexivity].
    - destruct (IH _ P') as (read & depth & Q1 & Q2).
      destruct (colors_found decode (resolve decode file) ops X _ _ _ A H2) as (r & d & Z1 & Z2).
      exists (r :: read), (d + depth)%nat. split; [constructor; assumption|].
      intros n Hn. cbn [map SpecNav.all_of]. rewrite Z2 by lia. rewrite Q2 by lia. reflexivity. }
  destruct Y as (read & depth & Q1 & Q2). exists read, (vt_depth tree + depth)%nat. split; [exact Q1|]. intros n Hn.
  unfold read_page_colors. rewrite V by lia. cbn [bind]. apply Q2. lia.
Qed.

(** A page with a spot color whose alternate is an ICC-based space, a gradient in that color in place, a pattern of tiles that draws an image, a
    gradient as a pattern, and a graphics state with a mask. *)
Definition color_tint : list exp_call := [ExDomain unit_f; ExN one].
Definition color_spot : cs := CsSeparation (lit "Spot") [AlternateRef 11; TintExponential color_tint].
Definition color_gradient : FunctionShading_calls :=
  [Typed (FunctionShading_shading_type FunctionShadingType_Axial); Typed (FunctionShading_color_space color_spot); Typed (FunctionShading_function 14)].
Definition color_gradient_obj : obj := match FunctionShading_obj color_gradient with Some o => o | None => OPrim PNull end.
Definition color_state : ExtGraphicsState_calls :=
  [Typed (ExtGraphicsState_soft_mask [Typed (SoftMask_group 6); Typed (SoftMask_transfer_function 14)]); Typed (ExtGraphicsState_black_generation 14)].
Definition color_resources : Resources_calls := [
  Typed (Resources_color_spaces [(lit "Cs", OPrim (PRef 10))]);
  Typed (Resources_shadings [(lit "Sh", color_gradient_obj)]);
  Typed (Resources_patterns [(lit "P1", OPrim (PRef 15)); (lit "P2", OPrim (PRef 16))]);
  Typed (Resources_ext_g_states [(lit "Gs", OPrim (PRef 17))])].
Definition tile_calls : TilingPattern_calls := [STyped (TilingPattern_resources form_resources)].
Definition tile_content : list ModelContent.ccall := [ModelContent.CXObject (lit "Im")].
Definition shades_calls : ShadingPattern_calls := [Typed (ShadingPattern_function_shading color_gradient)].
Definition color_sample : list doc_op := [
  DocTyped 3 (Ck_page [Typed (Page_contents 4)]);
  DocTyped 2 (Ck_pages [Typed (Pages_kids [3]); Typed (Pages_resources color_resources)]);
  DocTyped 4 (Ck_stream (content_of []) []);
  DocTyped 5 (Ck_image_xobject [x00; xff] paint_image_calls);
  DocTyped 6 (Ck_form_xobject (content_of paint_form) paint_form_calls);
  DocTyped 10 (Ck_color_space color_spot);
  DocTyped 11 (Ck_color_space (CsIccBased 12));
  DocTyped 12 (Ck_icc_profile [xff] [STyped (IccN 3)]);
  DocTyped 14 (Ck_exponential_function [Typed (ExponentialFunction_domain unit_f); Typed (ExponentialFunction_n one)]);
  DocTyped 15 (Ck_tiling_pattern (content_of tile_content) tile_calls);
  DocTyped 16 (Ck_shading_pattern shades_calls);
  DocTyped 17 (Ck_ext_graphics color_state);
  DocCatalog 1 [Typed (Catalog_pages 2)]].
Definition color_views : view_tree := VtNode 2 (Some color_resources) [VtPage 3 None (OneStream [])].
Definition linear : function_asked := AskExponential unit_f None None None one.
Definition spot_asked : space_asked := AskTinted [lit "Spot"] (AskIcc [STyped (IccN 3)] [xff]) linear [].
Definition gradient_asked : shading_asked := AskFunctionShading color_gradient spot_asked (Some linear).
Definition mask_drawing : xobject := DrawnForm paint_form_calls form_resources [(lit "Im", (5, paint_image))] paint_form.
Definition mask_painted : asked_paintings := [PaintedImage [Setting (form_resources, ModelContent.CSetLineWidth one); InForm paint_form_calls] (paint_image_calls, [x00; xff])].
Definition color_asked : colors_asked := mkAskedColors
  [(lit "Cs", spot_asked)] [(lit "Sh", gradient_asked)]
  [(lit "P1", AskTiles tile_calls [PaintedImage [] (paint_image_calls, [x00; xff])]); (lit "P2", AskShades shades_calls gradient_asked None)]
  [(lit "Gs", mkAskedGstate color_state
     (Some (AskMaskGroup [Typed (SoftMask_group 6); Typed (SoftMask_transfer_function 14)] mask_drawing mask_painted (Some linear)))
     (Some linear) None None)].
Example C83_case : views_written no_filter color_sample [Typed (Catalog_pages 2)] color_views /\
  Forall2 (fun p a => colors_written no_filter color_sample (pa_resources p) a) (vt_pages [] color_views) [color_asked].
Proof.
  assert (IM : drawing_written no_filter color_sample 5 paint_image).
  { eexists. split; [cbn [color_sample In]; tauto|]. split; [reflexivity|]. exists None. split; reflexivity. }
  assert (LI : function_written no_filter color_sample (ById 14) linear).
  { eexists. split; [|cbn [color_sample In]; tauto]. repeat split. }
  assert (SP : space_written no_filter color_sample color_spot spot_asked).
  { eexists; eexists. split; [split; reflexivity|]. split.
    - exists (CsIccBased 12). split; [cbn [color_sample In]; tauto|]. eexists; eexists. split; [reflexivity|]. split; [cbn [color_sample In]; tauto|]. exists None. split; reflexivity.
    - eexists. split; [|reflexivity]. repeat split. }
  assert (GR : function_shading_written no_filter color_sample color_gradient spot_asked (Some linear)).
  { split; [exists color_spot; split; [reflexivity|exact SP]|]. exists 14. split; [reflexivity|exact LI]. }
  assert (CC : exists c, ModelContent.content_run paint_form (ModelContent.content_with_settings false) = Some c).
  { destruct (ModelContent.content_run paint_form (ModelContent.content_with_settings false)) as [c|] eqn:E; [eexists; reflexivity|]. vm_compute in E. discriminate. }
  destruct CC as [c C].
  assert (CT : exists c, ModelContent.content_run tile_content (ModelContent.content_with_settings false) = Some c).
  { destruct (ModelContent.content_run tile_content (ModelContent.content_with_settings false)) as [c'|] eqn:E; [eexists; reflexivity|]. vm_compute in E. discriminate. }
  destruct CT as [ct CT].
  split.
  - split; [reflexivity|]. split; [eexists; split; [cbn [color_sample In]; tauto|split; reflexivity]|].
    split; [|exact I]. eexists; split; [cbn [color_sample In]; tauto|split; [reflexivity|]]. eexists; split; [reflexivity|].
    apply content_case; [cbn [color_sample In]; tauto|vm_compute; reflexivity|vm_compute; discriminate].
  - constructor; [|constructor]. split; [|split; [|split]]; right; (eexists; split; [reflexivity|]); repeat (apply Forall2_cons; [split; [reflexivity|]|]); try apply Forall2_nil.
    + exists color_spot. split; [exact SP|]. left. exists 10. split; [reflexivity|]. cbn [color_sample In]; tauto.
    + right. cbn [snd]. split; [vm_compute; reflexivity|]. split; [vm_compute; reflexivity|exact GR].
    + exists 15. split; [reflexivity|]. exists (content_of tile_content), false, ct, form_resources, [(lit "Im", (5, paint_image))], tile_content.
      split; [cbn [color_sample In]; tauto|]. split; [reflexivity|]. split; [vm_compute; reflexivity|]. split; [exact CT|].
      split; [exists None; split; [reflexivity|]; unfold content_of; rewrite CT; reflexivity|]. split; [right; reflexivity|].
      split; [apply Forall_cons; [exact IM|apply Forall_nil]|vm_compute; reflexivity].
    + split; [|left; exists 16; split; [reflexivity|]; cbn [color_sample In]; tauto]. split; [|reflexivity]. right. split; [reflexivity|exact GR].
    + split; [|left; exists 17; split; [reflexivity|]; cbn [color_sample In]; tauto]. split; [|split; [|split; reflexivity]].
      * split; [reflexivity|]. split; [|split; [vm_compute; reflexivity|]].
        -- exists 6. split; [reflexivity|]. split; [|split; [right; reflexivity|split; [exact IM|exact I]]].
           exists (content_of paint_form), false, c. split; [cbn [color_sample In]; tauto|]. split; [reflexivity|]. split; [reflexivity|].
           split; [vm_compute; reflexivity|]. split; [exact C|]. exists None. split; [reflexivity|]. unfold content_of. rewrite C. reflexivity.
        -- exists 14. split; [reflexivity|exact LI].
      * exists 14. split; [reflexivity|exact LI].
Qed.
Definition colors_seen (l : option (list read_colors)) : option (bytes * bytes * bytes * bytes) :=
  match l with
  | Some [mkColors [(_, TintedSpace [spot] (IccSpace _ profile) (Exponential _ None [VInt 0] [VInt 1] _) [])] [(_, mkShading _ (TintedSpace _ (IccSpace _ _) _ _) (Some _) None)]
      [(_, Tiles _ [PaintedImage [] (_, data)]); (_, Shades _ _ None)] [(_, mkGstate _ (Some (MaskByGroup _ [PaintedImage [_; _] (_, masked)] (Some _))) (Some _) None None)]] =>
      Some (spot, profile, data, masked)
  | _ => None
  end.
Example C83_file : exists file, finished_document no_filter color_sample 1 file /\
  colors_seen (read_page_colors no_filter 4 file) = Some (lit "Spot", [xff], [x00; xff], [x00; xff]).
Proof.
  assert (X : match doc_run color_sample (pdf_with_settings true) with
              | Some p => match finish p with Some file => (blen file <=? 10 ^ 10, colors_seen (read_page_colors no_filter 4 file))
                  | None => (false, None) end
              | None => (false, None) end = (true, Some (lit "Spot", [xff], [x00; xff], [x00; xff]))) by (vm_compute; reflexivity).
  destruct (doc_run color_sample (pdf_with_settings true)) as [p|] eqn:R; [|discriminate].
  destruct (finish p) as [file|] eqn:F; [|discriminate]. exists file.
  split; [apply (finished_table _ _ _ _ true p); [|exact R|exact F| |apply Z.leb_le; exact (f_equal fst X)|reflexivity]|exact (f_equal snd X)].
  - repeat (apply Forall_cons; [cbn [doc_op_ok op_typed]; repeat split|]); apply Forall_nil.
  - unfold ids_below; repeat constructor.
Qed.

Print Assumptions C83_colors.
