(** C64: the text of the pages, from the trailer to the Unicode text of the shown strings. *)

From Coq Require Import ZArith List Bool Lia.
From Verif Require ModelCmap SpecCmap PropCmap ModelContent SpecContent PropContent.
From Verif Require Import Bytes ModelFloat ModelBuf ModelObject ModelChunk ModelColor ModelSmall ModelPdf ModelTw ModelEnums ModelRoles ModelTwArgs
  ModelTwFiles ModelTwGraphics ModelTwAnnot ModelTwForms ModelTwAttr ModelTwXObj ModelTwFonts ModelTwDoc ModelFontDesc ModelDoc
  SpecLex SpecObj SpecText SpecMeans SpecRenum SpecChunk SpecFile SpecPdf SpecTyped SpecColor SpecSmall SpecTw SpecEnums SpecRoles SpecTwArgs
  SpecTwFiles SpecTwGraphics SpecTwAnnot SpecTwForms SpecTwAttr SpecTwXObj SpecTwFonts SpecTwDoc SpecFontDesc SpecDoc SpecPages SpecExtract
  ProofBasic ProofTw PropDoc PropPdf2 PropPages.
Import ListNotations.
Local Open Scope Z_scope.

Lemma some_inj {A} (x y : A) : Some x = Some y -> x = y.
Proof. intro H. injection H as H. exact H. Qed.

(** ** Strings *)

Definition width (g : ModelCmap.glyph_type) : nat := match g with ModelCmap.GU8 => 1 | ModelCmap.GU16 => 2 end.
(** The reader's knowledge of a font is what the program asked for. *)
Definition font_is (m : mapped_font) (f : font_reading) : Prop :=
  fr_width f = width (fst m) /\
  (forall c, List.length c = width (fst m) -> existsb (in_space c) (fr_spaces f) = true) /\
  fr_texts f = map (fun p => (width (fst m), fst p, snd p)) (snd m).

Lemma entry_text_is w code : forall pairs a,
  fold_left (fun a e => if Nat.eqb (fst (fst e)) w && (snd (fst e) =? code) then Some (snd e) else a)
    (map (fun p : Z * list Z => (w, fst p, snd p)) pairs) a =
  match glyph_text pairs code with Some t => Some t | None => a end.
Proof.
  induction pairs as [|[g t] pairs IH]; intro a; [reflexivity|]. cbn [map fold_left fst snd glyph_text]. rewrite Nat.eqb_refl, andb_true_l.
  rewrite IH. destruct (glyph_text pairs code); [reflexivity|]. destruct (g =? code); reflexivity.
Qed.
Lemma code_text_is m f c : font_is m f -> List.length c = width (fst m) ->
  code_text f c = glyph_text (snd m) (SpecCmap.code_val c).
Proof.
  intros (_ & S & T) L. unfold code_text, entry_text. rewrite (S c L), T, L, entry_text_is. destruct (glyph_text _ _); reflexivity.
Qed.
Lemma codes_are g : forall s fuel l, (List.length s <= fuel)%nat -> glyphs g s = Some l ->
  exists cs, codes fuel (width g) s = Some cs /\ map SpecCmap.code_val cs = l /\ Forall (fun c => List.length c = width g) cs.
Proof.
  destruct g; cbn [glyphs width].
  - induction s as [|b s IH]; intros fuel l L E; apply some_inj in E; subst l.
    + exists []. destruct fuel; repeat split; constructor.
    + destruct fuel as [|fuel]; [cbn [List.length] in L; lia|]. cbn [List.length] in L.
      destruct (IH fuel _ ltac:(lia) eq_refl) as (cs & E & M & F). exists ([b] :: cs). split.
      * cbn [codes List.length firstn skipn]. change (1 <=? S (List.length s))%nat with true. cbv iota. rewrite E. reflexivity.
      * split; [cbn [map]; f_equal; exact M|constructor; [reflexivity|exact F]].
  - fix IH 1. intros [|a [|b s]] fuel l L E.
    + apply some_inj in E. subst l. exists []. destruct fuel; repeat split; constructor.
    + discriminate.
    + cbn [glyph_pairs] in E. destruct (glyph_pairs s) as [l'|] eqn:G; [|discriminate]. apply some_inj in E. subst l.
      destruct fuel as [|fuel]; [cbn [List.length] in L; lia|]. cbn [List.length] in L.
      destruct (IH s fuel l' ltac:(lia) G) as (cs & E & M & F). exists ([a; b] :: cs). split.
      * cbn [codes List.length firstn skipn]. change (2 <=? S (S (List.length s)))%nat with true. cbv iota. rewrite E. reflexivity.
      * split; [cbn [map]; f_equal; exact M|constructor; [reflexivity|exact F]].
Qed.
Lemma string_text_is m f s t : font_is m f -> asked_string (Some m) s = Some t -> string_text f s = Some t.
Proof.
  intros K A. unfold asked_string in A. destruct m as [g pairs]. destruct (glyphs g s) as [l|] eqn:G; [|discriminate].
  destruct (codes_are g s (List.length s) l (le_n _) G) as (cs & E & M & F). unfold string_text.
  destruct K as (W & K). rewrite W. cbn [fst]. rewrite E. rewrite <- A, <- M, map_map. f_equal.
  clear E M A G. induction F as [|c cs L F IH]; [reflexivity|]. cbn [map]. f_equal; [|exact IH].
  apply (code_text_is (g, pairs) f c); [split; [exact W|exact K]|exact L].
Qed.

(** ** Operations *)

Definition knows (m : option mapped_font) (f : option font_reading) : Prop :=
  match m with None => True | Some m => exists f', f = Some f' /\ font_is m f' end.
Definition state_is (st : asked_state) (rs : text_state) : Prop := knows (fst st) (fst rs) /\ Forall2 knows (snd st) (snd rs).

Lemma shown_is m rs s t : knows m (fst rs) -> asked_string m s = Some t -> shown rs s = Some t.
Proof.
  intros K A. destruct m as [m|]; [|discriminate]. destruct K as (f & E & K). unfold shown. rewrite E. exact (string_text_is m f s t K A).
Qed.
Lemma shown_items_are m rs : knows m (fst rs) -> forall items vs t,
  Forall2 means (map (fun i => match i with ModelContent.Show s => SpecContent.str s | ModelContent.Adjust v => SpecContent.num v end) items) vs ->
  concat_all (map (fun i => match i with ModelContent.Show s => asked_string m s | ModelContent.Adjust _ => Some [] end) items) = Some t ->
  concat_all (map (shown_item rs) vs) = Some t.
Proof.
  intro K. induction items as [|i items IH]; intros vs t F A.
  - inversion F; subst. exact A.
  - inversion F as [|o v os vs' M F' E1 E2]; subst. cbn [map concat_all] in *.
    assert (X : exists a, (match i with ModelContent.Show s => asked_string m s | ModelContent.Adjust _ => Some [] end) = Some a /\ shown_item rs v = Some a).
    { destruct i as [s|r].
      - destruct (asked_string m s) as [a|] eqn:Q; [|discriminate]. exists a. split; [reflexivity|].
        inversion M; subst. cbn [shown_item]. exact (shown_is m rs s a K Q).
      - exists []. split; [reflexivity|]. inversion M as [| | |? ? RM| | | | | | | | |]; subst. inversion RM; subst; reflexivity. }
    destruct X as (a & E1 & E2). rewrite E1 in A. rewrite E2.
    destruct (concat_all (map (fun i => match i with ModelContent.Show s => asked_string m s | ModelContent.Adjust _ => Some [] end) items)) as [b|] eqn:Q; [|discriminate].
    rewrite (IH vs' b F' eq_refl). exact A.
Qed.

Lemma step_is fonts font c op st rs t st' :
  (forall n, knows (named_font fonts n) (font n)) -> state_is st rs -> SpecContent.ccall_means c op ->
  asked_step fonts st c = Some (t, st') ->
  exists rs', read_step font rs op = Some (t, rs') /\ state_is st' rs'.
Proof.
  intros KF [K1 K2] [F E] A. destruct op as [vs k]. cbn [fst snd] in F, E.
  assert (Plain : (t, st') = ([], st) -> read_step font rs (vs, k) = Some ([], rs) ->
    exists rs', read_step font rs (vs, k) = Some (t, rs') /\ state_is st' rs').
  { intros Q R. injection Q as -> ->. exists rs. split; [exact R|split; assumption]. }
  destruct c; cbn [asked_step] in A;
    try (apply some_inj in A; apply Plain; [symmetry; exact A|];
         cbn [SpecContent.iso_operation] in E; try match type of E with context [match ?x with _ => _ end] => destruct x end; cbn [snd] in E; subst k; reflexivity).
  - (* COp *) cbn [SpecContent.iso_operation snd] in E. subst k. cbn [existsb] in A.
    destruct (bytes_eqb operator (lit "q")) eqn:E1; [discriminate|]. destruct (bytes_eqb operator (lit "Q")) eqn:E2; [discriminate|].
    destruct (bytes_eqb operator (lit "Tf")) eqn:E3; [discriminate|]. destruct (bytes_eqb operator (lit "Tj")) eqn:E4; [discriminate|].
    destruct (bytes_eqb operator (lit "TJ")) eqn:E5; [discriminate|]. destruct (bytes_eqb operator (lit "'")) eqn:E6; [discriminate|].
    destruct (bytes_eqb operator [x22]) eqn:E7; [discriminate|]. cbn [orb] in A. apply some_inj in A. apply Plain; [symmetry; exact A|].
    unfold read_step. rewrite E1, E2, E3, E4, E5, E6, E7. reflexivity.
  - (* q *) cbn [SpecContent.iso_operation snd] in E. subst k. apply some_inj in A. injection A as <- <-.
    exists (fst rs, fst rs :: snd rs). split; [reflexivity|]. split; [exact K1|constructor; assumption].
  - (* Q *) cbn [SpecContent.iso_operation snd] in E. subst k. destruct st as [f fs], rs as [rf rfs]. cbn [fst snd] in *.
    destruct K2 as [|m f' l l' K2 K3]; [discriminate|].
    apply some_inj in A. injection A as <- <-. exists (f', l'). split; [reflexivity|split; assumption].
  - (* Tf *) cbn [SpecContent.iso_operation fst snd] in E, F. subst k. apply some_inj in A. injection A as <- <-.
    inversion F as [|? v1 ? vs1 M1 F1]; subst. inversion F1 as [|? v2 ? vs2 M2 F2]; subst. inversion F2; subst. inversion M1; subst.
    exists (font font0, snd rs). split; [reflexivity|]. split; [apply KF|exact K2].
  - (* Tj *) cbn [SpecContent.iso_operation fst snd] in E, F. subst k.
    inversion F as [|? v1 ? vs1 M1 F1]; subst. inversion F1; subst. inversion M1; subst.
    destruct (asked_string (fst st) text) as [a|] eqn:Q; [|discriminate]. apply some_inj in A. injection A as <- <-.
    exists rs. split; [|split; assumption]. change (option_map (fun t => (t, rs)) (shown rs text) = Some (a, rs)).
    rewrite (shown_is _ _ _ _ K1 Q). reflexivity.
  - (* ' *) cbn [SpecContent.iso_operation fst snd] in E, F. subst k.
    inversion F as [|? v1 ? vs1 M1 F1]; subst. inversion F1; subst. inversion M1; subst.
    destruct (asked_string (fst st) text) as [a|] eqn:Q; [|discriminate]. apply some_inj in A. injection A as <- <-.
    exists rs. split; [|split; assumption]. change (option_map (fun t => (t, rs)) (shown rs text) = Some (a, rs)).
    rewrite (shown_is _ _ _ _ K1 Q). reflexivity.
  - (* the quotation mark *) cbn [SpecContent.iso_operation fst snd] in E, F. subst k.
    inversion F as [|? v1 ? vs1 M1 F1]; subst. inversion F1 as [|? v2 ? vs2 M2 F2]; subst. inversion F2 as [|? v3 ? vs3 M3 F3]; subst.
    inversion F3; subst. inversion M3; subst.
    destruct (asked_string (fst st) text) as [a|] eqn:Q; [|discriminate]. apply some_inj in A. injection A as <- <-.
    exists rs. split; [|split; assumption]. change (option_map (fun t => (t, rs)) (shown rs text) = Some (a, rs)).
    rewrite (shown_is _ _ _ _ K1 Q). reflexivity.
  - (* TJ *) cbn [SpecContent.iso_operation fst snd] in E, F. subst k.
    inversion F as [|? v1 ? vs1 M1 F1]; subst. inversion F1; subst. inversion M1 as [| | | | | | | | | | |? ws M|]; subst.
    destruct (concat_all (map _ items)) as [a|] eqn:Q; [|discriminate]. apply some_inj in A. injection A as <- <-.
    exists rs. split; [|split; assumption].
    change (option_map (fun t => (t, rs)) (concat_all (map (shown_item rs) ws)) = Some (a, rs)).
    rewrite (shown_items_are _ _ K1 _ _ _ M Q). reflexivity.
Qed.

Lemma text_is fonts font : (forall n, knows (named_font fonts n) (font n)) -> forall calls ops st rs t,
  Forall2 SpecContent.ccall_means calls ops -> state_is st rs -> asked_text fonts st calls = Some t -> read_text font rs ops = Some t.
Proof.
  intros KF calls ops st rs t F. revert st rs t. induction F as [|c op calls ops M F IH]; intros st rs t S A; [exact A|].
  cbn [asked_text] in A. destruct (asked_step fonts st c) as [[a st']|] eqn:Q; [|discriminate].
  destruct (step_is _ _ _ _ _ _ _ _ KF S M Q) as (rs' & R & S'). cbn [read_text]. rewrite R.
  destruct (asked_text fonts st' calls) as [b|] eqn:B; [|discriminate]. rewrite (IH _ _ _ S' B). exact A.
Qed.

(** ** Fonts *)

Lemma width_is g : width g = PropCmap.code_width g.
Proof. destruct g; reflexivity. Qed.
Lemma code_val_bound : forall c a, 0 <= a ->
  0 <= fold_left (fun a c => 256 * a + bz c) c a < (a + 1) * 256 ^ Z.of_nat (List.length c).
Proof.
  induction c as [|b c IH]; intros a A; [cbn [fold_left List.length]; change (256 ^ Z.of_nat 0) with 1; lia|].
  cbn [fold_left List.length]. pose proof (bz_range b) as B. destruct (IH (256 * a + bz b) ltac:(lia)) as [H1 H2].
  split; [exact H1|]. rewrite Nat2Z.inj_succ, Z.pow_succ_r by apply Nat2Z.is_nonneg.
  assert (P : 0 < 256 ^ Z.of_nat (List.length c)) by (apply Z.pow_pos_nonneg; lia). nia.
Qed.
Lemma cmap_is g name info mode pairs : cmap_arguments g name info pairs ->
  exists secs spaces, SpecCmap.cmap_sections (inner (ModelCmap.cmap_build g name info mode pairs)) = Some secs /\
    SpecCmap.cmap_code_spaces (inner (ModelCmap.cmap_build g name info mode pairs)) = Some spaces /\
    font_is (g, pairs) (mkFont (width g) spaces (List.concat (map snd secs))).
Proof.
  intros [N F].
  assert (F' : Forall (PropCmap.mapping_ok g) pairs).
  { eapply Forall_impl; [|exact F]. intros p [H1 H2]. split; [|exact H2]. destruct g; [change (0 <= fst p < 256)|change (0 <= fst p < 65536)]; lia. }
  destruct (PropCmap.C38_mappings g name info mode pairs N F') as (secs & E & _ & C).
  destruct (PropCmap.C38_code_space g name info mode pairs N) as (lo & hi & S & L1 & L2 & V1 & V2).
  exists secs, [(lo, hi)]. split; [exact E|]. split; [exact S|]. split; [reflexivity|]. cbn [fst snd fr_spaces fr_texts].
  split.
  - intros c L. rewrite width_is in L. cbn [existsb]. unfold in_space. cbn [fst snd]. rewrite L1, L2, V1, V2, L, Nat.eqb_refl, orb_false_r. cbn [andb].
    pose proof (code_val_bound c 0 ltac:(lia)) as [H1 H2]. fold (SpecCmap.code_val c) in H1, H2. rewrite L in H2.
    apply andb_true_intro. split; apply Z.leb_le; lia.
  - rewrite C. reflexivity.
Qed.

Section Walk.
  Variables (decode : option val -> bytes -> option bytes) (resolved : Z -> option indirect) (ops : list doc_op).
  Hypothesis R : Forall (fun op => doc_op_reads op resolved) ops.

  Lemma cmap_stream cid data mcalls content : In (DocTyped cid (Ck_cmap data mcalls)) ops ->
    stored_with decode mcalls data content -> stream_content decode resolved cid = Some content.
  Proof.
    intros H (f & S1 & S2). destruct (found resolved ops R _ _ H) as (i & E & vs & -> & D). unfold stream_content. rewrite E.
    change (lookup (lit "Filter") ((lit "Length", VInt (blen data)) :: vs)) with (lookup (lit "Filter") vs).
    apply (stream_called_entries _ _ _ is_filter Cmap_head Stream_doc Cmap_doc) in S1; [|reflexivity|each_call|each_call]. destruct f as [f|].
    - destruct (dict_lookup _ _ _ _ D S1) as (v & L & P). rewrite L. unfold is_filter in P. subst v. exact S2.
    - rewrite (dict_lookup_none _ _ _ D S1). cbn [undone] in S2. subst. reflexivity.
  Qed.

  Lemma second_entry k1 P1 k P xs vs : bytes_eqb k k1 = false -> is_dict ((k1, P1) :: (k, P) :: xs) (VDict vs) -> exists v, lookup k vs = Some v /\ P v.
  Proof.
    intros N (d & E & F). injection E as <-. inversion F as [|? [k' v] ? ? [A B] F']; subst. cbn [fst snd] in *. subst k'.
    cbn [lookup]. rewrite N. apply (dict_first k P xs). exists l'. split; [reflexivity|exact F'].
  Qed.

  Lemma font_found id m : font_written decode ops id m -> exists f, read_font decode resolved id = Some f /\ font_is m f.
  Proof.
    destruct m as [g pairs]. intros (c & cid & data & mcalls & name & info & mode & H1 & H3 & H5 & H6 & H7). cbn [fst snd] in *.
    destruct (cmap_is g name info mode pairs H6) as (secs & spaces & C1 & C2 & C3).
    assert (D : exists d, (exists i j, resolved id = Some (IObj i j (VDict d))) /\ lookup (lit "ToUnicode") d = Some (VRef cid 0) /\ font_width d = Some (width g)).
    { destruct (found resolved ops R _ _ H1) as (i & E & Q).
      destruct g, c; cbn [font_for] in H3; try contradiction; destruct Q as (v & -> & D);
        destruct (dict_is _ _ D) as [d ->]; exists d; (split; [exists id, 0; exact E|]); unfold font_width;
        (destruct (second_entry (lit "Type") _ (lit "Subtype") _ _ _ eq_refl D) as (t & L & P)); rewrite L; unfold is_name in P; subst t.
      - entries H3 Type1Font_head Type1Font_doc is_ref. destruct (dict_lookup _ _ _ _ D H3) as (v & L' & ->). split; [exact L'|reflexivity].
      - entries H3 Type3Font_head Type3Font_doc is_ref. destruct (dict_lookup _ _ _ _ D H3) as (v & L' & ->). split; [exact L'|reflexivity].
      - destruct H3 as (H3 & n & N & H4). entries H3 Type0Font_head Type0Font_doc is_ref.
        entries H4 Type0Font_head Type0Font_doc (fun x => match x with inl n => is_name n | inr id => is_ref id end).
        destruct (dict_lookup _ _ _ _ D H3) as (v & L' & ->). split; [exact L'|].
        change (bytes_eqb (lit "Type0") (lit "Type0")) with true. cbv iota.
        destruct (dict_lookup _ _ _ _ D H4) as (v & L2 & P'); rewrite L2; unfold is_name in P'; subst v. destruct N; subst n; reflexivity. }
    destruct D as (d & (i & j & E) & L & W). exists (mkFont (width g) spaces (List.concat (map snd secs))). split; [|exact C3].
    unfold read_font. rewrite E, W, L, (cmap_stream _ _ _ _ H5 H7), C1, C2. reflexivity.
  Qed.

  Definition fonts_are (fonts : font_set) (res : val) : Prop := forall n, knows (named_font fonts n) (resource_font decode resolved res n).

  Lemma fonts_found fonts ws : Forall (fun f => match snd (snd f) with Some m => font_written decode ops (fst (snd f)) m | None => True end) fonts ->
    Forall2 (fun e e' => fst e = fst e' /\ means (snd e) (snd e')) (map (fun f => (fst f, OPrim (PRef (fst (snd f))))) fonts) ws ->
    forall n, knows (named_font fonts n) (match lookup n ws with Some (VRef id 0) => read_font decode resolved id | _ => None end).
  Proof.
    intros F. revert ws. induction F as [|[n0 [id m]] fonts H F IH]; intros ws M n; [exact I|].
    cbn [map fst snd] in M, H. inversion M as [|? [n1 v] ? ws' [A B] M']; subst. cbn [fst snd] in A, B. subst n1.
    cbn [named_font lookup]. destruct (bytes_eqb n n0); [|apply IH; exact M'].
    inversion B; subst. destruct m as [m|]; [|exact I]. apply font_found. exact H.
  Qed.
  Lemma fonts_entry res l : fonts_given res l ->
    entries_for (lit "Font") (writer_doc Resources_head Resources_doc res) = entry_or_none (lit "Font") (option_map (fun l => means (ODict (as_references l))) l).
  Proof. intro H. unfold fonts_given in H. entries H Resources_head Resources_doc (fun es => means (ODict es)). rewrite H. destruct l; reflexivity. Qed.
  Lemma resources_found xs d own res inherited iv : is_dict xs (VDict d) ->
    entries_for (lit "Resources") xs = entry_or_none (lit "Resources") (option_map Resources_reads own) ->
    resources_written decode ops own res -> fonts_are inherited iv ->
    fonts_are (inherit inherited res) (match lookup (lit "Resources") d with Some r => r | None => iv end).
  Proof.
    intros D W1 W K. destruct own as [rcalls|], res as [fonts|]; cbn [resources_written inherit option_map entry_or_none] in *; try contradiction.
    - destruct W as (W2 & W3). apply fonts_entry in W2. destruct (dict_lookup _ _ _ _ D W1) as (v & L & P). rewrite L.
      destruct (dict_is _ _ P) as [r ->]. destruct (dict_lookup _ _ _ _ P W2) as (w & L2 & P2). unfold as_references in P2. rewrite map_map in P2. cbn [fst snd] in P2.
      inversion P2 as [| | | | | | | | | | | |? ws M]; subst. intro n. unfold resource_font. rewrite L2. apply fonts_found; assumption.
    - rewrite (dict_lookup_none _ _ _ D W1). exact K.
  Qed.
  Lemma page_resources_entry calls own : page_resources_given calls own ->
    entries_for (lit "Resources") (writer_doc Page_head Page_doc calls) = entry_or_none (lit "Resources") (option_map Resources_reads own).
  Proof. intro H. unfold page_resources_given in H. entries H Page_head Page_doc Resources_reads. exact H. Qed.
  Lemma node_resources_entry calls own : node_resources_given calls own ->
    entries_for (lit "Resources") (writer_doc Pages_head Pages_doc calls) = entry_or_none (lit "Resources") (option_map Resources_reads own).
  Proof. intro H. unfold node_resources_given in H. entries H Pages_head Pages_doc Resources_reads. exact H. Qed.

  (** The operations of a page (as in C58). *)
  Lemma operations_found calls contents : contents_written decode ops calls contents ->
    exists l, page_reads (contents_calls contents) l /\
      forall d, is_dict (writer_doc Page_head Page_doc calls) (VDict d) -> page_operations decode resolved d = Some l.
  Proof.
    intro H2. destruct contents as [|content|l]; cbn [contents_calls contents_written] in *.
    + apply contents_entry in H2. exists []. split; [constructor|]. intros d D. unfold page_operations. rewrite (dict_lookup_none _ _ _ D H2). reflexivity.
    + destruct H2 as (cid & H2 & H3). apply contents_entry in H2; cbn [option_map entry_or_none contents_are] in H2.
      destruct (content_found _ _ _ R _ _ H3) as (pretty & out & E1 & E2 & c & E3 & ->).
      destruct (PropContent.C36_finish_keeps_operations pretty content c E2 E3) as (_ & l & P & M).
      exists l. split; [exact M|]. intros d D. destruct (dict_lookup _ _ _ _ D H2) as (v & K & Q). unfold is_ref in Q. subst v.
      unfold page_operations. rewrite K, E1. exact P.
    + destruct H2 as (cids & H2 & H3). apply contents_entry in H2; cbn [option_map entry_or_none contents_are] in H2.
      destruct (contents_found _ _ _ R _ _ H3) as (parts & outs & <- & E2 & E3).
      destruct (PropContent.C36_split_over_streams parts outs E3) as (l & P & M). rewrite flat_snd in M.
      exists l. split; [exact M|]. intros d D. destruct (dict_lookup _ _ _ _ D H2) as (v & K & vs & -> & Q).
      apply refs_found in Q. subst vs. unfold page_operations. rewrite K, E2. exact P.
  Qed.

  Fixpoint text_depth (t : text_tree) : nat :=
    match t with TtPage _ _ _ => 1%nat | TtNode _ _ kids => S (fold_right Nat.max 0%nat (map text_depth kids)) end.

  Lemma walk_texts : forall t inherited iv texts, text_tree_written decode ops t -> fonts_are inherited iv ->
    tree_texts inherited t = Some texts ->
    forall n, (text_depth t <= n)%nat -> texts_below decode resolved n iv (VRef (text_tree_id t) 0) = Some texts.
  Proof.
    fix IH 1. intros [id res contents|id res kids] inherited iv texts W K A [|n] L; try (inversion L; fail);
      cbn [text_tree_written tree_texts text_tree_id text_depth] in *.
    - destruct W as (calls & own & H1 & H2 & H2' & H3). apply page_resources_entry in H2. destruct (operations_found _ _ H3) as (l & M & P).
      destruct (found resolved ops R _ _ H1) as (i & E & v & -> & D). destruct (dict_is _ _ D) as [d ->].
      cbn [texts_below]. rewrite E. pose proof (resources_found _ _ _ _ _ _ D H2 H2' K) as K'.
      set (r := match lookup (lit "Resources") d with Some r => r | None => iv end) in *.
      destruct (dict_first _ _ _ _ D) as (t & L1 & Q). rewrite L1. unfold is_name in Q. subst t.
      change (bytes_eqb (lit "Page") (lit "Pages")) with false. change (bytes_eqb (lit "Page") (lit "Page")) with true. cbv iota.
      rewrite (P d D). destruct (asked_text (inherit inherited res) (None, []) (contents_calls contents)) as [t|] eqn:T; [|discriminate].
      rewrite (text_is _ _ K' _ _ (None, []) (None, []) t M (conj I (Forall2_nil _)) T). exact A.
    - destruct W as [(calls & own & H1 & H2 & H2' & H3) W]. apply node_resources_entry in H2. apply kids_entry_of in H3. apply le_S_n in L.
      destruct (found resolved ops R _ _ H1) as (i & E & v & -> & D). destruct (dict_is _ _ D) as [d ->].
      cbn [texts_below]. rewrite E. pose proof (resources_found _ _ _ _ _ _ D H2 H2' K) as K'.
      set (r := match lookup (lit "Resources") d with Some r => r | None => iv end) in *. clearbody r.
      destruct (dict_first _ _ _ _ D) as (t & L1 & Q). rewrite L1. unfold is_name in Q. subst t.
      change (bytes_eqb (lit "Pages") (lit "Pages")) with true. cbv iota.
      destruct (dict_lookup _ _ _ _ D H3) as (v & L2 & vs & -> & Q). rewrite L2. apply refs_found in Q. subst vs.
      clear L1 L2 D H1 H2 H2' H3 E. revert texts A L. induction kids as [|t kids IHk]; intros texts A L; [exact A|].
      destruct W as [W1 W2]. cbn [map concat_all fold_right] in *.
      destruct (tree_texts (inherit inherited res) t) as [a|] eqn:T; [|discriminate].
      destruct (concat_all (map (tree_texts (inherit inherited res)) kids)) as [b|] eqn:B; [|discriminate].
      rewrite (IH t _ r a W1 K' T n) by (etransitivity; [apply Nat.le_max_l|exact L]).
      rewrite (IHk W2 b eq_refl) by (etransitivity; [apply Nat.le_max_r|exact L]). exact A.
  Qed.
End Walk.

Lemma no_fonts decode resolved : fonts_are decode resolved [] (VDict []).
Proof. intro n. exact I. Qed.

Lemma texts_in_file decode ops file cat calls tree texts entries trailer :
  Forall (fun op => doc_op_reads op (resolve decode file)) ops ->
  read_file decode file = Some (entries, trailer) -> lookup (lit "Root") trailer = Some (VRef cat 0) ->
  In (DocCatalog cat calls) ops ->
  root_given calls (text_tree_id tree) ->
  text_tree_written decode ops tree -> tree_texts [] tree = Some texts ->
  exists depth, forall n, (depth <= n)%nat -> read_texts decode n file = Some texts.
Proof.
  intros X T1 T2 I E W A. apply root_entry in E. exists (text_depth tree). intros n Hn. unfold read_texts. rewrite T1, T2.
  pose proof (walk_texts decode (resolve decode file) ops X tree [] (VDict []) texts W (no_fonts _ _) A n Hn) as D.
  rewrite Forall_forall in X. destruct (X _ I) as (i & E1 & v & -> & M). rewrite E1. destruct (dict_is _ _ M) as [d ->].
  destruct (dict_lookup _ _ _ _ M E) as (v & L1 & P). rewrite L1. unfold is_ref in P. subst v. exact D.
Qed.

(** In a document with a page tree, contents, fonts and character maps, among any other objects and in any order, a reader that
    starts from the trailer extracts, page by page, exactly the text that the shown glyphs stand for. *)
Theorem C64_text_is_extracted : forall decode pretty ops p file cat calls tree texts,
  Forall doc_op_ok ops -> doc_run ops (pdf_with_settings pretty) = Some p -> finish p = Some file ->
  ids_below (doc_ids ops) -> blen file <= 10 ^ 10 ->
  doc_catalog ops = Some cat -> In (DocCatalog cat calls) ops ->
  root_given calls (text_tree_id tree) ->
  text_tree_written decode ops tree -> tree_texts [] tree = Some texts ->
  exists depth, forall n, (depth <= n)%nat -> read_texts decode n file = Some texts.
Proof.
  intros decode pretty ops p file cat calls tree texts K R F B L C I E W A.
  destruct (C57_typed_objects_are_found decode pretty ops p file K R F B L) as [X _].
  destruct (C57_root decode pretty ops p file cat K R F B L C) as (entries & trailer & T1 & T2).
  eapply texts_in_file; eassumption.
Qed.
Theorem C64_text_is_extracted_stream : forall decode pretty ops p xref_id file cat calls tree texts,
  Forall doc_op_ok ops -> doc_run ops (pdf_with_settings pretty) = Some p ->
  id_ok xref_id = true -> ids_below (xref_id :: doc_ids ops) ->
  finished_with_stream decode p xref_id file -> blen file < 2 ^ 64 ->
  doc_catalog ops = Some cat -> In (DocCatalog cat calls) ops ->
  root_given calls (text_tree_id tree) ->
  text_tree_written decode ops tree -> tree_texts [] tree = Some texts ->
  exists depth, forall n, (depth <= n)%nat -> read_texts decode n file = Some texts.
Proof.
  intros decode pretty ops p xref_id file cat calls tree texts K R I B F L C Ic E W A.
  destruct (C57_typed_objects_are_found_stream decode pretty ops p xref_id file K R I B F L) as [X _].
  destruct (C57_root_stream decode pretty ops p xref_id file cat K R I B F L C) as (entries & trailer & T1 & T2).
  eapply texts_in_file; eassumption.
Qed.

(** Two pages: the first inherits a composite font from its parent, the second has its own resources with a simple font whose
    glyph 2 is the ligature fi and a composite font. *)
Definition text_info : ModelCmap.system_info := ModelCmap.mkSystemInfo (lit "Adobe") (lit "UCS") 0.
Definition text_map16 : list (Z * list Z) := [(1, [72]); (515, [960; 33]); (2, [128512])].
Definition text_map8 : list (Z * list Z) := [(2, [88]); (2, [102; 105]); (65, [65])].
Definition text_cmap16 : bytes := inner (ModelCmap.cmap_build ModelCmap.GU16 (lit "M") text_info ModelCmap.WHorizontal text_map16).
Definition text_cmap8 : bytes := inner (ModelCmap.cmap_build ModelCmap.GU8 (lit "N") text_info ModelCmap.WHorizontal text_map8).
Definition text_page1 : list ModelContent.ccall :=
  [ModelContent.CBeginText; ModelContent.CSetFont (lit "F") f32_zero; ModelContent.CShow [x00; x01; x02; x03];
   ModelContent.CSaveState; ModelContent.CSetFont (lit "G") f32_zero; ModelContent.CRestoreState;
   ModelContent.CShowPositioned [ModelContent.Show [x00; x02]; ModelContent.Adjust f32_zero; ModelContent.Show [x00; x01]];
   ModelContent.CEndText].
Definition text_page2 : list ModelContent.ccall :=
  [ModelContent.CSetFont (lit "F") f32_zero; ModelContent.CNextLineShow [x02; x41]; ModelContent.CSetFont (lit "G") f32_zero; ModelContent.CShow [x00; x02]].
Definition text_sample : list doc_op := [
  DocTyped 4 (Ck_page [Typed (Page_parent 2); Typed (Page_contents 7)]);
  DocTyped 5 (Ck_page [Typed (Page_contents 8); Typed (Page_resources [Typed (Resources_fonts [(lit "F", OPrim (PRef 11)); (lit "G", OPrim (PRef 10))])])]);
  DocTyped 7 (Ck_stream (content_of text_page1) []);
  DocTyped 8 (Ck_stream (content_of text_page2) []);
  DocTyped 10 (Ck_type0_font [Typed (Type0Font_base_font (lit "Go")); Typed (Type0Font_encoding_predefined (lit "Identity-H")); Typed (Type0Font_to_unicode 12)]);
  DocTyped 11 (Ck_type1_font [Typed (Type1Font_to_unicode 13)]);
  DocTyped 12 (Ck_cmap text_cmap16 []);
  DocTyped 13 (Ck_cmap text_cmap8 [STyped (Cmap_name (lit "N"))]);
  DocTyped 2 (Ck_pages [Typed (Pages_kids [4; 5]); Typed (Pages_count 2);
                        Typed (Pages_resources [Typed (Resources_fonts [(lit "F", OPrim (PRef 10))])])]);
  DocCatalog 1 [Typed (Catalog_pages 2)]].
Definition text_tree_sample : text_tree :=
  TtNode 2 (Some [(lit "F", (10, Some (ModelCmap.GU16, text_map16)))])
    [TtPage 4 None (OneStream text_page1);
     TtPage 5 (Some [(lit "F", (11, Some (ModelCmap.GU8, text_map8))); (lit "G", (10, Some (ModelCmap.GU16, text_map16)))]) (OneStream text_page2)].
Example C64_case :
  Forall doc_op_ok text_sample /\ ids_below (doc_ids text_sample) /\ doc_catalog text_sample = Some 1 /\
  In (DocCatalog 1 [Typed (Catalog_pages 2)]) text_sample /\
  root_given [Typed (Catalog_pages 2)] (text_tree_id text_tree_sample) /\
  text_tree_written no_filter text_sample text_tree_sample /\
  tree_texts [] text_tree_sample = Some [[72; 960; 33; 128512; 72]; [102; 105; 65; 128512]] /\
  exists p file, doc_run text_sample (pdf_with_settings true) = Some p /\ finish p = Some file /\ blen file <= 10 ^ 10 /\
    read_texts no_filter 2 file = Some [[72; 960; 33; 128512; 72]; [102; 105; 65; 128512]].
Proof.
  split; [repeat (apply Forall_cons; [cbn [doc_op_ok op_typed]; repeat split|]); apply Forall_nil|].
  split; [unfold ids_below; repeat constructor|]. split; [reflexivity|]. split; [cbn [text_sample In]; tauto|]. split; [reflexivity|].
  assert (D : forall calls id, In (DocTyped id (Ck_stream (content_of calls) [])) text_sample -> forallb (SpecContent.ccall_ok false) calls = true ->
      ModelContent.content_run calls (ModelContent.content_with_settings false) <> None -> content_written no_filter text_sample calls id).
  { intros calls id H1 H2 H3. exists [], (content_of calls), false. unfold content_of.
    destruct (ModelContent.content_run calls (ModelContent.content_with_settings false)) as [c|] eqn:Q; [|congruence].
    exists c. split; [|split; [exact H2|split; [reflexivity|exists None; split; reflexivity]]]. unfold content_of in H1. rewrite Q in H1. exact H1. }
  assert (F10 : font_written no_filter text_sample 10 (ModelCmap.GU16, text_map16)).
  { eexists _, 12, text_cmap16, [], (lit "M"), text_info, ModelCmap.WHorizontal.
    split; [right; right; right; right; left; reflexivity|]. split; [split; [reflexivity|exists (lit "Identity-H"); split; [left; reflexivity|reflexivity]]|].
    split; [cbn [text_sample In]; tauto|]. split; [split; [reflexivity|repeat constructor; discriminate]|]. exists None; split; reflexivity. }
  assert (F11 : font_written no_filter text_sample 11 (ModelCmap.GU8, text_map8)).
  { eexists _, 13, text_cmap8, [STyped (Cmap_name (lit "N"))], (lit "N"), text_info, ModelCmap.WHorizontal.
    split; [right; right; right; right; right; left; reflexivity|]. split; [reflexivity|].
    split; [cbn [text_sample In]; tauto|]. split; [split; [reflexivity|repeat constructor; discriminate]|]. exists None; split; reflexivity. }
  split.
  { cbn [text_tree_written text_tree_sample map text_tree_id]. split.
    { eexists _, (Some _). split; [right; right; right; right; right; right; right; right; left; reflexivity|]. split; [reflexivity|]. split; [|reflexivity].
      split; [reflexivity|]. apply Forall_cons; [exact F10|apply Forall_nil]. }
    split.
    { eexists _, None. split; [left; reflexivity|]. split; [reflexivity|]. split; [exact I|]. exists 7. split; [reflexivity|].
      apply D; [cbn [text_sample In]; tauto|vm_compute; reflexivity|vm_compute; discriminate]. }
    split; [|exact I]. eexists _, (Some _). split; [right; left; reflexivity|]. split; [reflexivity|]. split.
    { split; [reflexivity|]. apply Forall_cons; [exact F11|apply Forall_cons; [exact F10|apply Forall_nil]]. }
    exists 8. split; [reflexivity|]. apply D; [cbn [text_sample In]; tauto|vm_compute; reflexivity|vm_compute; discriminate]. }
  split; [vm_compute; reflexivity|].
  assert (X : match doc_run text_sample (pdf_with_settings true) with
              | Some p => match finish p with Some f => (blen f <=? 10 ^ 10, read_texts no_filter 2 f) | None => (false, None) end
              | None => (false, None) end = (true, Some [[72; 960; 33; 128512; 72]; [102; 105; 65; 128512]])) by (vm_compute; reflexivity).
  destruct (doc_run text_sample (pdf_with_settings true)) as [p|]; [|discriminate].
  destruct (finish p) as [file|] eqn:F; [|discriminate]. exists p, file. split; [reflexivity|]. split; [exact F|].
  split; [apply Z.leb_le; exact (f_equal fst X)|exact (f_equal snd X)].
Qed.

Print Assumptions C64_text_is_extracted.
Print Assumptions C64_text_is_extracted_stream.
