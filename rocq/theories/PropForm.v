(** C72: the fields of interactive forms, from the trailer on. *)

From Coq Require Import ZArith List Bool Lia.
From Verif Require ModelCmap ModelContent SpecContent.
From Verif Require Import Bytes ModelFloat ModelBuf ModelObject ModelChunk ModelColor ModelSmall ModelPdf ModelTw ModelEnums ModelRoles ModelTwArgs
  ModelTwFiles ModelTwGraphics ModelTwAnnot ModelTwForms ModelTwAttr ModelTwXObj ModelTwFonts ModelTwDoc ModelFontDesc ModelDoc
  SpecLex SpecObj SpecText SpecMeans SpecRenum SpecChunk SpecFile SpecPdf SpecTyped SpecColor SpecSmall SpecTw SpecEnums SpecRoles SpecTwArgs
  SpecTwFiles SpecTwGraphics SpecTwAnnot SpecTwForms SpecTwAttr SpecTwXObj SpecTwFonts SpecTwDoc SpecFontDesc SpecDoc SpecPages SpecExtract SpecNav SpecViews SpecForm
  ProofBasic ProofTree ProofTyped ProofTw ProofTwDoc PropDoc PropPdf2 PropPages PropExtract PropNav.
Import ListNotations.
Local Open Scope Z_scope.

Lemma present_found k P xs d {A} (f : val -> option A) (x : option A) : is_dict xs (VDict d) -> entries_for k xs = entry_or_none k P ->
  match P, x with
  | None, None => True
  | Some P, Some x => forall v, P v -> v <> VNull /\ f v = Some x
  | Some P, None => forall v, P v -> v = VNull
  | None, Some _ => False
  end -> present k d f = Some x.
Proof.
  intros D E H. unfold present. destruct P as [P|], x as [x|]; try contradiction; cbn [entry_or_none] in E.
  - destruct (dict_lookup _ _ _ _ D E) as (v & L & Q). rewrite L. destruct (H v Q) as [N F]. rewrite F. destruct v; try reflexivity. contradiction.
  - destruct (dict_lookup _ _ _ _ D E) as (v & L & Q). rewrite L. rewrite (H v Q). reflexivity.
  - rewrite (dict_lookup_none _ _ _ D E). reflexivity.
Qed.
Lemma flags_read l v : is_flags FieldFlags_pos l v -> v <> VNull /\ read_flags v = Some (asked_flags l).
Proof.
  intros (z & -> & Z0 & H). split; [discriminate|]. cbn [read_flags]. f_equal. unfold asked_flags. apply filter_ext_in. intros p I.
  assert (1 <= p). { apply in_map_iff in I. destruct I as (k & <- & I). apply in_seq in I. lia. }
  apply eq_true_iff_eq. rewrite (H (p - 1)) by lia. rewrite existsb_exists.
  split; intros (f & I1 & I2); exists f; (split; [exact I1|]); lia.
Qed.
Lemma texts_read l : forall vs, Forall2 is_text l vs -> all_of (map read_textstring vs) = Some l.
Proof.
  induction l as [|t l IH]; intros vs F; inversion F as [|? v ? vs' H F']; subst; [reflexivity|]. cbn [map all_of].
  rewrite (text_found t v H). rewrite (IH vs' F'). reflexivity.
Qed.
Lemma check_read s v : is_CheckBoxState s v -> v = VName (match s with CheckBoxState_Yes => lit "Yes" | CheckBoxState_Off => lit "Off" end).
Proof.
  intros (n & -> & H). unfold CheckBoxState_table in H. cbn [by_name] in H.
  destruct (bytes_eqb n (lit "Yes")) eqn:E1.
  { apply bytes_eqb_spec in E1. apply some_inj in H. subst. reflexivity. }
  destruct (bytes_eqb n (lit "Off")) eqn:E2; [|discriminate]. apply bytes_eqb_spec in E2. apply some_inj in H. subst. reflexivity.
Qed.
(** From the calls to the entries. *)
Lemma field_entries {A} k (P : A -> val -> Prop) own annot calls a :
  bytes_eqb k (lit "Type") = false -> bytes_eqb k (lit "Subtype") = false ->
  (forall c, match c with Field_into_annotation _ => True | _ => entries_for k (Field_doc c) = map (reading k P) (own c) end) ->
  (forall c, entries_for k (Annotation_doc c) = map (reading k P) (annot c)) ->
  field_called k own annot calls a -> entries_for k (writer_doc Field_head Field_doc calls) = entry_or_none k (option_map P a).
Proof.
  intros T S H1 H2 H. apply (called_entries _ _ P Field_head Field_doc) in H; [exact H|reflexivity|]. intro c. specialize (H1 c).
  destruct c; try exact H1. cbn [Field_doc]. unfold entries_for at 1. cbn [List.filter fst]. rewrite T, S. fold (entries_for k (writer_doc [] Annotation_doc calls0)).
  apply (given_entries k annot P [] Annotation_doc calls0 H2).
Qed.
Ltac field_call H P := apply (field_entries _ P) in H;
  [|reflexivity|reflexivity|let c := fresh in intro c; destruct c; exact Logic.I || reflexivity|each_call].
Definition value_reads (v : value_asked) : val -> Prop :=
  match v with
  | AskText t => is_textlike (TextPlain t)
  | AskCheck s => is_CheckBoxState s
  | AskName n => is_name n
  | AskTexts l => is_array_of is_text l
  | AskNull => is_null
  end.
(** A single value of a choice field is written as a text or null. *)
Definition value_entry (k : bytes) (xs : list entry_spec) (v : option value_asked) : Prop :=
  entries_for k xs = entry_or_none k (option_map value_reads v) \/
  match v with
  | Some (AskText t) => entries_for k xs = [(k, is_text_or_null (Some t))]
  | Some AskNull => entries_for k xs = [(k, is_text_or_null None)]
  | _ => False
  end.
Definition attributes_entries (xs : list entry_spec) (a : attributes_asked) : Prop :=
  entries_for (lit "FT") xs = entry_or_none (lit "FT") (option_map is_FieldType (aa_type a)) /\
  entries_for (lit "Ff") xs = entry_or_none (lit "Ff") (option_map (is_flags FieldFlags_pos) (aa_flags a)) /\
  value_entry (lit "V") xs (aa_value a) /\
  entries_for (lit "DA") xs = entry_or_none (lit "DA") (option_map is_str (aa_appearance a)) /\
  entries_for (lit "Q") xs = entry_or_none (lit "Q") (option_map is_Quadding (aa_quadding a)).
Definition value_call_reads (c : Field_call) : val -> Prop :=
  match c with
  | Field_text_value t => is_textlike t
  | Field_checkbox_value s => is_CheckBoxState s
  | Field_radio_value n => is_name n
  | Field_choice_value t => is_text_or_null t
  | Field_choice_values l => is_array_of is_text l
  | _ => fun _ => False
  end.
Lemma attributes_of calls a : attributes_written calls a -> attributes_entries (writer_doc Field_head Field_doc calls) a.
Proof.
  intros (H1 & H2 & (c & H3 & V) & H4 & H5). field_call H1 is_FieldType. field_call H2 (is_flags FieldFlags_pos). field_call H3 value_call_reads.
  field_call H4 is_str. field_call H5 is_Quadding.
  split; [exact H1|]. split; [exact H2|]. split; [|split; [exact H4|exact H5]].
  destruct (aa_value a) as [v|]; (destruct c as [c|]; [|discriminate || (left; exact H3)]); [|discriminate]. cbn [option_map] in V. apply some_inj in V.
  destruct c; try discriminate; cbn [call_asks] in V; cbn [option_map value_call_reads entry_or_none] in H3.
  - apply some_inj in V. subst v. left. exact H3.
  - apply some_inj in V. subst v. left. exact H3.
  - destruct value; [|discriminate..]. apply some_inj in V. subst v. left. exact H3.
  - destruct option as [t|]; apply some_inj in V; subst v; right; exact H3.
  - apply some_inj in V. subst v. left. exact H3.
Qed.
Lemma value_found k xs d v : is_dict xs (VDict d) -> value_entry k xs v -> present k d read_value = Some (bind v asked_value).
Proof.
  intros D W.
  assert (T : forall t v, is_text t v -> v <> VNull /\ read_value v = Some (ValueText t)).
  { intros t w (s & -> & H). split; [discriminate|]. cbn [read_value]. rewrite H. reflexivity. }
  destruct W as [W|W].
  - apply (present_found _ _ _ _ _ _ D W). destruct v as [[t|s|n|l|]|]; cbn [option_map value_reads bind asked_value].
    + intros w H. exact (T t w H).
    + destruct s; cbn [asked_value]; intros w H; rewrite (check_read _ _ H); (split; [discriminate|reflexivity]).
    + intros w H. unfold is_name in H. subst w. split; [discriminate|reflexivity].
    + intros w (vs & -> & F). split; [discriminate|]. cbn [read_value]. rewrite (texts_read l vs F). reflexivity.
    + intros w H. exact H.
    + exact I.
  - destruct v as [[t|s|n|l|]|]; try contradiction; cbn [bind asked_value].
    + apply (present_found _ (Some (is_text t)) _ _ _ (Some (ValueText t)) D W). exact (T t).
    + apply (present_found _ (Some is_null) _ _ _ None D W). intros w H. exact H.
Qed.
Lemma attributes_found xs d inherited a : is_dict xs (VDict d) -> attributes_entries xs a ->
  read_attributes inherited d = Some (asked_attributes inherited a).
Proof.
  intros D (H1 & H2 & H3 & H4 & H5). unfold read_attributes, asked_attributes.
  rewrite (present_found _ _ _ _ read_field_type (aa_type a) D H1);
    [|destruct (aa_type a); [|exact I]; intros v (n & -> & Q); split; [discriminate|exact Q]]. cbn [bind].
  rewrite (present_found _ _ _ _ read_flags (option_map asked_flags (aa_flags a)) D H2);
    [|destruct (aa_flags a) as [l|]; [|exact I]; exact (flags_read l)]. cbn [bind].
  rewrite (value_found _ _ _ _ D H3). cbn [bind].
  rewrite (present_found _ _ _ _ read_string (aa_appearance a) D H4);
    [|destruct (aa_appearance a); [|exact I]; intros v Q; unfold is_str in Q; subst v; split; [discriminate|reflexivity]]. cbn [bind].
  rewrite (present_found _ _ _ _ read_quadding (aa_quadding a) D H5);
    [|destruct (aa_quadding a); [|exact I]; intros v (n & -> & Q); split; [discriminate|exact Q]]. cbn [bind].
  destruct (aa_flags a); reflexivity.
Qed.

Lemma annotation_entries calls t : field_annotation calls t ->
  entries_for (lit "Subtype") (writer_doc Field_head Field_doc calls) = entry_or_none (lit "Subtype") (option_map is_AnnotationType t).
Proof.
  intro H. apply (called_entries _ _ is_AnnotationType Field_head Field_doc) in H; [exact H|reflexivity|]. intros []; try reflexivity.
  cbn [Field_doc]. unfold entries_for at 1. cbn [List.filter fst]. change (bytes_eqb (lit "Subtype") (lit "Type")) with false. change (bytes_eqb (lit "Subtype") (lit "Subtype")) with true.
  cbv iota. cbn [map]. unfold reading at 1. f_equal. fold (entries_for (lit "Subtype") (writer_doc [] Annotation_doc calls0)).
  apply (given_entries (lit "Subtype") <| Annotation_subtype t => t |> is_AnnotationType [] Annotation_doc calls0). each_call.
Qed.

Fixpoint field_depth (f : field) : nat :=
  match f with FieldNode _ _ _ kids => S (fold_right Nat.max 0%nat (map field_depth kids)) | FieldLeaf _ _ _ _ => 1%nat end.
Section Walk.
  Variables (resolved : Z -> option indirect) (ops : list doc_op) (annots : list (list Z)).
  Hypothesis R : Forall (fun op => doc_op_reads op resolved) ops.

  Lemma named_found id name a rest : named_field ops id name a rest -> exists calls d, resolved id = Some (IObj id 0 (VDict d)) /\
    is_dict (writer_doc Field_head Field_doc calls) (VDict d) /\
    (exists t, lookup (lit "T") d = Some t /\ read_textstring t = Some name) /\ attributes_entries (writer_doc Field_head Field_doc calls) a /\ rest calls.
  Proof using R.
    intros (calls & H1 & H2 & H3 & H4). field_call H2 is_textlike. cbn [option_map entry_or_none] in H2.
    destruct (found resolved ops R _ _ H1) as (i & E & v & -> & D). destruct (dict_is _ _ D) as [d ->].
    exists calls, d. split; [exact E|]. split; [exact D|]. split; [|split; [exact (attributes_of _ _ H3)|exact H4]].
    destruct (dict_lookup _ _ _ _ D H2) as (t & L & Q). exists t. split; [exact L|exact (text_found _ _ Q)].
  Qed.
  Lemma widget_found id : widget_written ops id -> exists d, resolved id = Some (IObj id 0 (VDict d)) /\ has_name d = false.
  Proof using R.
    intros [(calls & H1 & H2)|(calls & H1 & H2)]; [entries H2 Annotation_head Annotation_doc is_textlike|field_call H2 is_textlike; cbn [option_map entry_or_none] in H2];
      destruct (found resolved ops R _ _ H1) as (i & E & v & -> & D); destruct (dict_is _ _ D) as [d ->];
      exists d; (split; [exact E|]); unfold has_name; rewrite (dict_lookup_none _ _ _ D H2); reflexivity.
  Qed.
  Lemma field_named f : field_written ops f -> exists d, resolved (field_id f) = Some (IObj (field_id f) 0 (VDict d)) /\ has_name d = true.
  Proof using R.
    intro W. assert (exists name a rest, named_field ops (field_id f) name a rest) as (name & a & rest & N).
    { destruct f; cbn [field_written field_id] in *; [destruct W as (_ & W & _)|]; eexists _, _, _; exact W. }
    destruct (named_found _ _ _ _ N) as (xs & d & E & _ & (t & L & _) & _). exists d. split; [exact E|]. unfold has_name. rewrite L. reflexivity.
  Qed.
  Lemma widgets_found ids : Forall (widget_written ops) ids -> exists ds,
    all_of (map (object_dict resolved) (map (fun r => VRef r 0) ids)) = Some ds /\ existsb has_name ds = false.
  Proof using R.
    induction 1 as [|id ids H _ (ds & E & N)]; [exists []; split; reflexivity|]. destruct (widget_found id H) as (d & E' & N').
    exists (d :: ds). cbn [map all_of object_dict]. rewrite E', E. split; [reflexivity|]. cbn [existsb]. rewrite N'. exact N.
  Qed.
  Lemma ids_found ids : all_of (map read_id (map (fun r => VRef r 0) ids)) = Some ids.
  Proof using Type. induction ids as [|i ids IH]; [reflexivity|]. cbn [map all_of read_id]. rewrite IH. reflexivity. Qed.
  Lemma kids_named kids : kids <> [] -> (fix all l := match l with [] => True | f :: l => field_written ops f /\ all l end) kids -> exists ds,
    all_of (map (object_dict resolved) (map (fun r => VRef r 0) (map field_id kids))) = Some ds /\ existsb has_name ds = true.
  Proof using R.
    intros NE W.
    assert (A : exists ds, all_of (map (object_dict resolved) (map (fun r => VRef r 0) (map field_id kids))) = Some ds /\ (kids <> [] -> existsb has_name ds = true)).
    { clear NE. induction kids as [|f kids IH]; [exists []; split; [reflexivity|congruence]|]. destruct W as [W1 W2]. destruct (IH W2) as (ds & E & _).
      destruct (field_named f W1) as (d & E' & N'). exists (d :: ds). cbn [map all_of object_dict]. rewrite E', E. split; [reflexivity|].
      intros _. cbn [existsb]. rewrite N'. reflexivity. }
    destruct A as (ds & E & N). exists ds. split; [exact E|exact (N NE)].
  Qed.

  Lemma field_found : forall f names inherited n, field_written ops f -> (field_depth f <= n)%nat ->
    read_field resolved annots n names inherited (VRef (field_id f) 0) = Some (asked_fields annots names inherited f).
  Proof using R.
    fix IH 1. intros [id name a kids|id name a w] names inherited n W L; (destruct n as [|n]; [inversion L|]); cbn [field_depth field_id asked_fields field_written] in *.
    - destruct W as (NE & W & K). destruct (named_found _ _ _ _ W) as (calls & d & E & D & (t & L1 & T1) & A & W2).
      cbn [read_field read_id object_dict]. rewrite E. cbn [bind]. unfold optional. rewrite L1, T1. cbn [option_map bind].
      rewrite (attributes_found _ _ inherited a D A). cbn [bind].
      field_call W2 is_refs. cbn [option_map entry_or_none] in W2.
      destruct (dict_lookup _ _ _ _ D W2) as (v & L2 & vs & -> & Q). rewrite L2. apply refs_found in Q. subst vs.
      destruct (kids_named kids NE K) as (ds & Ed & N). rewrite Ed. cbn [bind]. rewrite N. apply le_S_n in L. clear - IH K L. induction kids as [|f kids IHk]; [reflexivity|].
      destruct K as [K1 K2]. cbn [map fold_right] in L. cbn [map concat_all flat_map].
      rewrite (IH f) by (exact K1 || (etransitivity; [apply Nat.le_max_l|exact L])). rewrite (IHk K2) by (etransitivity; [apply Nat.le_max_r|exact L]). reflexivity.
    - destruct (named_found _ _ _ _ W) as (calls & d & E & D & (t & L1 & T1) & A & W2).
      cbn [read_field read_id object_dict]. rewrite E. cbn [bind]. unfold optional. rewrite L1, T1. cbn [option_map bind].
      rewrite (attributes_found _ _ inherited a D A). cbn [bind]. destruct w as [| |ids]; destruct W2 as [W2 W3]; field_call W2 is_refs; cbn [option_map entry_or_none] in W2.
      + rewrite (dict_lookup_none _ _ _ D W2). unfold is_widget. apply annotation_entries in W3. rewrite (dict_lookup_none _ _ _ D W3). reflexivity.
      + rewrite (dict_lookup_none _ _ _ D W2). unfold is_widget. apply annotation_entries in W3. destruct (dict_lookup _ _ _ _ D W3) as (v & L2 & m & -> & Q). rewrite L2.
        assert (m = lit "Widget") as ->; [|reflexivity].
        revert Q. unfold AnnotationType_table. cbn [by_name]. repeat (destruct (bytes_eqb m _) eqn:Em; [intro Q; (discriminate Q || (apply bytes_eqb_spec in Em; exact Em))|clear Em]). discriminate.
      + destruct (dict_lookup _ _ _ _ D W2) as (v & L2 & vs & -> & Q). rewrite L2. apply refs_found in Q. subst vs.
        destruct (widgets_found ids W3) as (ds & Ed & N). rewrite Ed. cbn [bind]. rewrite N. rewrite ids_found. reflexivity.
  Qed.
  Lemma page_lists_found page l d : page_lists ops page l -> resolved page = Some (IObj page 0 (VDict d)) -> read_page_annots d = Some l.
  Proof using R.
    intros (calls & H1 & H2) E. destruct (found resolved ops R _ _ H1) as (i & E' & v & -> & D). rewrite E in E'. apply some_inj in E'.
    assert (v = VDict d) as -> by congruence. unfold read_page_annots. destruct H2 as [[-> H2]|H2].
    - entries H2 Page_head Page_doc is_refs. rewrite (dict_lookup_none _ _ _ D H2). reflexivity.
    - entries H2 Page_head Page_doc is_refs. destruct (dict_lookup _ _ _ _ D H2) as (v & L & vs & -> & Q). rewrite L. apply refs_found in Q. subst vs. apply ids_found.
  Qed.
End Walk.

(** A reader that starts from the trailer finds the fields in order, each with the parts of its full name, the type, flags, value, default
    appearance and alignment that it has or inherits, and its widgets with the pages they are on. *)
Theorem C72_form : forall decode ops cat file calls tree annots appearance quadding fields,
  finished_document decode ops cat file -> In (DocCatalog cat calls) ops ->
  pages_written ops calls tree -> Forall2 (page_lists ops) (it_pages tree) annots ->
  form_written ops calls appearance quadding fields ->
  exists depth, forall n, (depth <= n)%nat -> read_form decode n file = Some (asked_form annots appearance quadding fields).
Proof.
  intros decode ops cat file calls tree annots appearance quadding fields D I P An (fcalls & W1 & (W2 & W3 & W4) & W5).
  entries W1 Catalog_head Catalog_doc Form_reads. entries W2 Form_head Form_doc is_str. entries W3 Form_head Form_doc is_Quadding. entries W4 Form_head Form_doc is_refs.
  destruct (document_facts _ _ _ _ D) as [X _]. destruct (catalog_found _ _ _ _ _ D I) as (c & C1 & C2).
  destruct (pages_found _ _ _ _ _ _ D I P) as (ds & F & E). exists (it_depth tree + fold_right Nat.max 0 (map field_depth fields))%nat. intros n Hn.
  unfold read_form. rewrite E by lia. cbn [bind].
  assert (Y : all_of (map (fun p => read_page_annots (snd p)) ds) = Some annots).
  { clear - F An X. revert annots An. induction F as [|id e ids ds [_ F1] F IH]; intros annots An; inversion An as [|? l ? ls A1 A2]; subst; [reflexivity|].
    cbn [map all_of]. rewrite (page_lists_found _ _ X _ _ _ A1 F1). rewrite (IH ls A2). reflexivity. }
  rewrite Y. cbn [bind]. rewrite C1. cbn [bind]. unfold required at 1. destruct (dict_lookup _ _ _ _ C2 W1) as (v & L & Q). rewrite L. cbn [bind].
  destruct (dict_is _ _ Q) as [form ->]. cbn [object_dict bind].
  rewrite (present_found _ _ _ _ read_string appearance Q W2);
    [|destruct appearance; [|exact Logic.I]; intros v Qv; unfold is_str in Qv; subst v; split; [discriminate|reflexivity]]. cbn [bind].
  rewrite (present_found _ _ _ _ read_quadding quadding Q W3);
    [|destruct quadding; [|exact Logic.I]; intros v (m & -> & Qv); split; [discriminate|exact Qv]]. cbn [bind].
  unfold required. destruct (dict_lookup _ _ _ _ Q W4) as (v & L2 & vs & -> & Qf). rewrite L2. cbn [bind]. apply refs_found in Qf. subst vs.
  unfold asked_form. assert (Hd : (fold_right Nat.max 0 (map field_depth fields) <= n)%nat) by lia. clear - W5 Hd X.
  induction W5 as [|f fields H W5 IH]; [reflexivity|]. cbn [map fold_right] in Hd. cbn [map concat_all flat_map].
  rewrite (field_found _ ops annots X f) by (exact H || lia). rewrite IH by lia. reflexivity.
Qed.

(** ** A concrete case *)
Definition form_catalog : Catalog_calls := [
  Typed (Catalog_pages 2);
  Typed (Catalog_form [Typed (Form_default_appearance (lit "/F 9 Tf")); Typed (Form_fields [10; 20])])].
Definition form_sample : list doc_op := [
  DocTyped 2 (Ck_pages [Typed (Pages_kids [3; 4])]);
  DocTyped 3 (Ck_page [Typed (Page_parent 2)]);
  DocTyped 4 (Ck_page [Typed (Page_annotations [11; 21; 22])]);
  DocTyped 10 (Ck_form_field [Typed (Field_partial_name [97]); Typed (Field_field_type FieldType_Text); Typed (Field_text_value (TextPlain [118]));
    Typed (Field_field_flags [FieldFlags_Multiline; FieldFlags_ReadOnly]); Typed (Field_children [11; 12])]);
  DocTyped 11 (Ck_form_field [Typed (Field_parent 10); Typed (Field_partial_name [98; 960]); Typed (Field_text_value (TextPlain [128512]));
    Typed (Field_vartext_quadding Quadding_Right); Typed (Field_into_annotation [Typed (Annotation_rect (mkRect f32_zero f32_zero f32_zero f32_zero))])]);
  DocTyped 12 (Ck_form_field [Typed (Field_parent 10); Typed (Field_partial_name [99]); Typed (Field_field_type FieldType_Choice);
    Typed (Field_field_flags []); Typed (Field_choice_value None)]);
  DocTyped 20 (Ck_form_field [Typed (Field_partial_name [114]); Typed (Field_field_type FieldType_Button);
    Typed (Field_field_flags [FieldFlags_Radio]); Typed (Field_radio_value (lit "one")); Typed (Field_children [21; 22])]);
  DocTyped 21 (Ck_form_field [Typed (Field_parent 20); Typed (Field_into_annotation [])]);
  DocTyped 22 (Ck_annotation [Typed (Annotation_subtype AnnotationType_Widget); Typed (Annotation_parent 20)]);
  DocCatalog 1 form_catalog].
Definition form_fields : list field := [
  FieldNode 10 [97] (mkAsked (Some FieldType_Text) (Some [FieldFlags_Multiline; FieldFlags_ReadOnly]) (Some (AskText [118])) None None) [
    FieldLeaf 11 [98; 960] (mkAsked None None (Some (AskText [128512])) None (Some Quadding_Right)) Merged;
    FieldLeaf 12 [99] (mkAsked (Some FieldType_Choice) (Some []) (Some AskNull) None None) NoWidget];
  FieldLeaf 20 [114] (mkAsked (Some FieldType_Button) (Some [FieldFlags_Radio]) (Some (AskName (lit "one"))) None None) (Separate [21; 22])].
Definition form_found : list field_read := [
  mkFieldRead [[97]; [98; 960]] (mkAttributes (Some FieldType_Text) [1; 13] (Some (ValueText [128512])) (Some (lit "/F 9 Tf")) (Some Quadding_Right)) [(11, Some 1%nat)];
  mkFieldRead [[97]; [99]] (mkAttributes (Some FieldType_Choice) [] (Some (ValueText [118])) (Some (lit "/F 9 Tf")) None) [];
  mkFieldRead [[114]] (mkAttributes (Some FieldType_Button) [16] (Some (ValueName (lit "one"))) (Some (lit "/F 9 Tf")) None) [(21, Some 1%nat); (22, Some 1%nat)]].
Example C72_case : let catalog := form_catalog in
  pages_written form_sample catalog (ItNode 2 [ItPage 3; ItPage 4]) /\ Forall2 (page_lists form_sample) [3; 4] [[]; [11; 21; 22]] /\
  form_written form_sample catalog (Some (lit "/F 9 Tf")) None form_fields /\
  asked_form [[]; [11; 21; 22]] (Some (lit "/F 9 Tf")) None form_fields = form_found.
Proof.
  split; [|split; [|split; [|reflexivity]]].
  - split; [reflexivity|]. split; [eexists; split; [cbn [form_sample In]; tauto|reflexivity]|].
    split; [eexists; cbn [form_sample In]; tauto|]. split; [eexists; cbn [form_sample In]; tauto|exact I].
  - constructor; [|constructor; [|constructor]]; eexists; (split; [cbn [form_sample In]; tauto|]); [left; split; reflexivity|right; reflexivity].
  - eexists. split; [reflexivity|]. split; [split; [reflexivity|split; reflexivity]|].
    apply Forall_cons; [|apply Forall_cons; [|apply Forall_nil]].
    + split; [discriminate|]. split.
      * eexists. split; [cbn [form_sample In]; tauto|]. split; [reflexivity|]. split; [|reflexivity].
        split; [reflexivity|]. split; [reflexivity|]. split; [exists (Some (Field_text_value (TextPlain [118]))); split; reflexivity|]. split; reflexivity.
      * split; [|split; [|exact I]]; (eexists; split; [cbn [form_sample In]; tauto|]; split; [reflexivity|]; split; [|split; reflexivity]).
        -- split; [reflexivity|]. split; [reflexivity|]. split; [exists (Some (Field_text_value (TextPlain [128512]))); split; reflexivity|]. split; reflexivity.
        -- split; [reflexivity|]. split; [reflexivity|]. split; [exists (Some (Field_choice_value None)); split; reflexivity|]. split; reflexivity.
    + eexists. split; [cbn [form_sample In]; tauto|]. split; [reflexivity|]. split.
      * split; [reflexivity|]. split; [reflexivity|]. split; [exists (Some (Field_radio_value (lit "one"))); split; reflexivity|]. split; reflexivity.
      * split; [reflexivity|]. apply Forall_cons; [|apply Forall_cons; [|apply Forall_nil]].
        -- right. eexists. split; [cbn [form_sample In]; tauto|reflexivity].
        -- left. eexists. split; [cbn [form_sample In]; tauto|reflexivity].
Qed.
(** And the file is really read so. *)
Example C72_file : exists file, finished_document no_filter form_sample 1 file /\ read_form no_filter 2 file = Some form_found.
Proof.
  assert (X : match doc_run form_sample (pdf_with_settings true) with
              | Some p => match finish p with Some f => (blen f <=? 10 ^ 10, read_form no_filter 2 f) | None => (false, None) end
              | None => (false, None) end = (true, Some form_found)) by (vm_compute; reflexivity).
  destruct (doc_run form_sample (pdf_with_settings true)) as [p|] eqn:R; [|discriminate].
  destruct (finish p) as [file|] eqn:F; [|discriminate]. exists file.
  split; [apply (finished_table _ _ _ _ true p); [|exact R|exact F| |apply Z.leb_le; exact (f_equal fst X)|reflexivity]|].
  - repeat (apply Forall_cons; [cbn [doc_op_ok op_typed]; repeat split|]); apply Forall_nil.
  - unfold ids_below; repeat constructor.
  - exact (f_equal snd X).
Qed.

Print Assumptions C72_form.
