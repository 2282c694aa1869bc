(** Properties of typed writers: annotations, actions, renditions and destinations. *)

From Coq Require Import ZArith List Bool.
From Verif Require ModelContent ModelCmap.
From Verif Require Import Bytes ModelFloat ModelBuf ModelObject ModelColor ModelSmall ModelPdf ModelTw ModelEnums ModelRoles ModelTwArgs ModelTwFiles ModelTwGraphics ModelTwAnnot ModelChunk SpecLex SpecObj SpecText SpecMeans SpecPdf SpecTyped SpecColor SpecSmall SpecTw SpecEnums SpecRoles SpecTwArgs SpecTwFiles SpecTwGraphics SpecTwAnnot SpecChunk ProofTyped ProofColor ProofTw ProofEnums ProofTwArgs ProofTwFiles ProofTwGraphics ProofTwAnnot.
Import ListNotations.
Local Open Scope Z_scope.

(** ** Destination *)

Theorem C51_destination : forall calls, Destination_ok calls = true -> reads (Destination_obj calls) (Destination_reads calls).
Proof. intros cs H. apply good_reads. apply good_Destination. exact H. Qed.
Example destination_case : Destination_ok Destination_sample = true.
Proof. vm_compute. reflexivity. Qed.

(** ** Fields *)

Theorem C51_fields : forall calls, Fields_ok calls = true -> reads (Fields_obj calls) (Fields_reads calls).
Proof. intros cs H. apply good_reads. apply good_Fields. exact H. Qed.
Example fields_case : Fields_ok Fields_sample = true.
Proof. vm_compute. reflexivity. Qed.

(** ** MediaPermissions *)

Theorem C51_media_permissions : forall calls, MediaPermissions_ok calls = true -> reads (MediaPermissions_obj calls) (MediaPermissions_reads calls).
Proof. intros cs H. apply good_reads. apply good_MediaPermissions. exact H. Qed.
Example media_permissions_case : MediaPermissions_ok MediaPermissions_sample = true.
Proof. vm_compute. reflexivity. Qed.

(** ** MediaPlayParams *)

Theorem C51_media_play_params : forall calls, MediaPlayParams_ok calls = true -> reads (MediaPlayParams_obj calls) (MediaPlayParams_reads calls).
Proof. intros cs H. apply good_reads. apply good_MediaPlayParams. exact H. Qed.
Example media_play_params_case : MediaPlayParams_ok MediaPlayParams_sample = true.
Proof. vm_compute. reflexivity. Qed.

(** ** MediaClip *)

Theorem C51_media_clip : forall calls, MediaClip_ok calls = true -> reads (MediaClip_obj calls) (MediaClip_reads calls).
Proof. intros cs H. apply good_reads. apply good_MediaClip. exact H. Qed.
Example media_clip_case : MediaClip_ok MediaClip_sample = true.
Proof. vm_compute. reflexivity. Qed.

(** ** Rendition *)

Theorem C51_rendition : forall calls, Rendition_ok calls = true -> reads (Rendition_obj calls) (Rendition_reads calls).
Proof. intros cs H. apply good_reads. apply good_Rendition. exact H. Qed.
Example rendition_case : Rendition_ok Rendition_sample = true.
Proof. vm_compute. reflexivity. Qed.

(** ** Action *)

Theorem C51_action : forall calls, Action_ok calls = true -> reads (Action_obj calls) (Action_reads calls).
Proof. intros cs H. apply good_reads. apply good_Action. exact H. Qed.
Example action_case : Action_ok Action_sample = true.
Proof. vm_compute. reflexivity. Qed.

(** ** AdditionalActions *)

Theorem C48_additional_actions : forall calls, AdditionalActions_ok calls = true -> reads (AdditionalActions_obj calls) (AdditionalActions_reads calls).
Proof. intros cs H. apply good_reads. apply good_AdditionalActions. exact H. Qed.
Example additional_actions_case : AdditionalActions_ok AdditionalActions_sample = true.
Proof. vm_compute. reflexivity. Qed.

(** ** Appearance *)

Theorem C51_appearance : forall calls, Appearance_ok calls = true -> reads (Appearance_obj calls) (Appearance_reads calls).
Proof. intros cs H. apply good_reads. apply good_Appearance. exact H. Qed.
Example appearance_case : Appearance_ok Appearance_sample = true.
Proof. vm_compute. reflexivity. Qed.

(** ** IconFit *)

Theorem C51_icon_fit : forall calls, IconFit_ok calls = true -> reads (IconFit_obj calls) (IconFit_reads calls).
Proof. intros cs H. apply good_reads. apply good_IconFit. exact H. Qed.
Example icon_fit_case : IconFit_ok IconFit_sample = true.
Proof. vm_compute. reflexivity. Qed.

(** ** AppearanceCharacteristics *)

Theorem C51_appearance_characteristics : forall calls, AppearanceCharacteristics_ok calls = true -> reads (AppearanceCharacteristics_obj calls) (AppearanceCharacteristics_reads calls).
Proof. intros cs H. apply good_reads. apply good_AppearanceCharacteristics. exact H. Qed.
Example appearance_characteristics_case : AppearanceCharacteristics_ok AppearanceCharacteristics_sample = true.
Proof. vm_compute. reflexivity. Qed.

(** ** BorderStyle *)

Theorem C51_border_style : forall calls, BorderStyle_ok calls = true -> reads (BorderStyle_obj calls) (BorderStyle_reads calls).
Proof. intros cs H. apply good_reads. apply good_BorderStyle. exact H. Qed.
Example border_style_case : BorderStyle_ok BorderStyle_sample = true.
Proof. vm_compute. reflexivity. Qed.

(** ** Annotation *)

Theorem C51_annotation : forall calls, Annotation_ok calls = true -> reads (Annotation_obj calls) (Annotation_reads calls).
Proof. intros cs H. apply good_reads. apply good_Annotation. exact H. Qed.
Example annotation_case : Annotation_ok Annotation_sample = true.
Proof. vm_compute. reflexivity. Qed.

(** ** Deviations *)

(** C48 is false of one trigger: the documentation (and ISO 32000, table 197) give the key of the event "the page
    containing the annotation is closed" as [PC]; the entry is written as [PV]. *)
Theorem C48_page_close_refuted : forall action,
  Action_ok action = true ->
  reads (AdditionalActions_obj [Typed (AdditionalActions_annot_page_close action)])
        (fun v => ~ is_dict [(lit "PC", Action_reads action)] v).
Proof.
  intros a H. eapply reads_weaken.
  - apply C48_additional_actions. unfold AdditionalActions_ok. cbn [forallb raw_ok AdditionalActions_call_ok]. rewrite H. reflexivity.
  - intros v M. apply (dict_conflict (lit "PV") (lit "PC") (Action_reads a) _ [] _ v); [discriminate|exact M].
Qed.

(** The same key is written for another event, so that both cannot be used together. *)
Theorem C48_page_close_collides : forall a,
  AdditionalActions_entries (AdditionalActions_annot_page_close a) =
  AdditionalActions_entries (AdditionalActions_annot_page_visible a).
Proof. reflexivity. Qed.

(** The object whose additional actions a trigger belongs to. A field and its widget annotation may be one
    dictionary, so that the triggers of form fields and of annotations share a dictionary. *)
Inductive aa_owner := AaAnnotation | AaPage | AaCatalog.
Definition aa_owner_of (c : AdditionalActions_call) : aa_owner :=
  match c with
  | AdditionalActions_annot_curser_enter _ => AaAnnotation
  | AdditionalActions_annot_cursor_exit _ => AaAnnotation
  | AdditionalActions_annot_mouse_press _ => AaAnnotation
  | AdditionalActions_annot_mouse_release _ => AaAnnotation
  | AdditionalActions_annot_page_open _ => AaAnnotation
  | AdditionalActions_annot_page_close _ => AaAnnotation
  | AdditionalActions_annot_page_visible _ => AaAnnotation
  | AdditionalActions_annot_page_invisible _ => AaAnnotation
  | AdditionalActions_widget_focus _ => AaAnnotation
  | AdditionalActions_widget_focus_loss _ => AaAnnotation
  | AdditionalActions_page_open _ => AaPage
  | AdditionalActions_page_close _ => AaPage
  | AdditionalActions_form_calculate_partial _ => AaAnnotation
  | AdditionalActions_form_format _ => AaAnnotation
  | AdditionalActions_form_validate _ => AaAnnotation
  | AdditionalActions_form_calculate _ => AaAnnotation
  | AdditionalActions_cat_before_close _ => AaCatalog
  | AdditionalActions_cat_before_save _ => AaCatalog
  | AdditionalActions_cat_after_save _ => AaCatalog
  | AdditionalActions_cat_before_print _ => AaCatalog
  | AdditionalActions_cat_after_print _ => AaCatalog
  end.
(** The event, numbered in the order of the methods, without the action. *)
Definition aa_event (c : AdditionalActions_call) : nat :=
  match c with
  | AdditionalActions_annot_curser_enter _ => 0
  | AdditionalActions_annot_cursor_exit _ => 1
  | AdditionalActions_annot_mouse_press _ => 2
  | AdditionalActions_annot_mouse_release _ => 3
  | AdditionalActions_annot_page_open _ => 4
  | AdditionalActions_annot_page_close _ => 5
  | AdditionalActions_annot_page_visible _ => 6
  | AdditionalActions_annot_page_invisible _ => 7
  | AdditionalActions_widget_focus _ => 8
  | AdditionalActions_widget_focus_loss _ => 9
  | AdditionalActions_page_open _ => 10
  | AdditionalActions_page_close _ => 11
  | AdditionalActions_form_calculate_partial _ => 12
  | AdditionalActions_form_format _ => 13
  | AdditionalActions_form_validate _ => 14
  | AdditionalActions_form_calculate _ => 15
  | AdditionalActions_cat_before_close _ => 16
  | AdditionalActions_cat_before_save _ => 17
  | AdditionalActions_cat_after_save _ => 18
  | AdditionalActions_cat_before_print _ => 19
  | AdditionalActions_cat_after_print _ => 20
  end%nat.

(** Two setters that may be used on the same object write the same key only if they stand for the same event, or if
    they are [annot_page_close] (5) and [annot_page_visible] (6). Every setter writes exactly one key. *)
Theorem C48_distinct_keys : forall a b ka kb,
  aa_owner_of a = aa_owner_of b ->
  map fst (AdditionalActions_entries a) = [ka] -> map fst (AdditionalActions_entries b) = [kb] ->
  (ka = kb <-> aa_event a = aa_event b \/ (aa_event a = 5 /\ aa_event b = 6)%nat \/ (aa_event a = 6 /\ aa_event b = 5)%nat).
Proof.
  intros a b ka kb O A B.
  destruct a, b; try discriminate O; clear O; cbn in A, B;
    apply (f_equal (fun l => hd [] l)) in A; apply (f_equal (fun l => hd [] l)) in B; cbn in A, B; subst ka kb;
    cbn [aa_event]; split; intro H; try discriminate H; try reflexivity; auto;
    try (destruct H as [H|[[H1 H2]|[H1 H2]]]; congruence).
Qed.

Theorem C48_one_key : forall a, exists k v, AdditionalActions_entries a = [(k, v)].
Proof. destruct a; do 2 eexists; reflexivity. Qed.

Example C48_distinct_case : forall x y, exists ka kb,
  map fst (AdditionalActions_entries (AdditionalActions_annot_page_open x)) = [ka] /\
  map fst (AdditionalActions_entries (AdditionalActions_form_calculate y)) = [kb] /\ ka <> kb.
Proof. intros. do 2 eexists. split; [reflexivity|]. split; [reflexivity|]. discriminate. Qed.

(** The components of [border_color_cymk] and [background_color_cymk] are written in the order of the parameters,
    cyan, yellow, magenta, black: not in the order of DeviceCMYK. *)
Theorem C51_cymk_refuted : exists c y m k s v,
  forallb real_ok [c; y; m; k] = true /\
  inner (write_obj (AppearanceCharacteristics_obj [Typed (AppearanceCharacteristics_border_color_cymk c y m k)])
                   (obj_direct 0 false false) buf_new) = s /\
  parse_object s = Some v /\ ~ is_dict [(lit "BC", is_reals [c; m; y; k])] v.
Proof.
  exists f32_zero, (FFin false 8388608 (-23)), f32_zero, f32_zero, (lit "<</BC[0 1 0 0]>>").
  exists (VDict [(lit "BC", VArr [VInt 0; VInt 1; VInt 0; VInt 0])]).
  split; [vm_compute; reflexivity|]. split; [vm_compute; reflexivity|]. split; [vm_compute; reflexivity|].
  intros (d & E & F). injection E as <-. inversion F as [|? ? ? ? [_ A] _]; subst.
  cbn [snd] in A. destruct A as (vs & E & G). injection E as <-.
  inversion G as [|? ? ? ? _ G2]; subst. inversion G2 as [|? ? ? ? R _]; subst. inversion R; subst.
  match goal with K : rounds_to _ _ _ |- _ => destruct K as (_ & _ & _ & Z) end. destruct (Z (FFin false 8388608 (-23)) eq_refl eq_refl) as [L _]. vm_compute in L. contradiction L. reflexivity.
Qed.

Print Assumptions C51_destination.
Print Assumptions C51_fields.
Print Assumptions C51_media_permissions.
Print Assumptions C51_media_play_params.
Print Assumptions C51_media_clip.
Print Assumptions C51_rendition.
Print Assumptions C51_action.
Print Assumptions C48_additional_actions.
Print Assumptions C51_appearance.
Print Assumptions C51_icon_fit.
Print Assumptions C51_appearance_characteristics.
Print Assumptions C51_border_style.
Print Assumptions C51_annotation.
Print Assumptions C48_page_close_refuted.
Print Assumptions C48_page_close_collides.
Print Assumptions C48_distinct_keys.
Print Assumptions C48_one_key.
Print Assumptions C51_cymk_refuted.
