(** Proofs about renamed calls: they write the renamed objects.  Generated by gen/gen_rename.py. *)

From Coq Require Import ZArith List Bool Lia.
From Verif Require ModelContent ModelCmap.
From Verif Require Import Bytes ModelFloat ModelBuf ModelObject ModelChunk ModelColor ModelSmall ModelPdf ModelTw ModelEnums ModelRoles ModelTwArgs
  ModelTwFiles ModelTwGraphics ModelTwAnnot ModelTwForms ModelTwAttr ModelTwXObj ModelTwFonts ModelTwDoc ModelFontDesc ModelDoc
  SpecLex SpecObj SpecText SpecMeans SpecRenum SpecChunk SpecFile SpecPdf SpecTyped SpecColor SpecSmall SpecTw SpecEnums SpecRoles SpecTwArgs
  SpecTwFiles SpecTwGraphics SpecTwAnnot SpecTwForms SpecTwAttr SpecTwXObj SpecTwFonts SpecTwDoc SpecFontDesc SpecDoc SpecRename
  ProofBasic ProofTree ProofTyped.
Import ListNotations.
Local Open Scope Z_scope.

(** The renaming gives references for references. *)
Definition keeps (g : Z -> Z) : Prop := forall r, ref_ok r = true -> ref_ok (g r) = true.

(** ** Objects *)

Lemma ren_refs g l : map_refs g (refs l) = refs (map g l).
Proof. unfold refs. cbn [map_refs]. rewrite !map_map. reflexivity. Qed.
Lemma map_same {A B} (f : A -> B) (h : B -> B) l : (forall a, h (f a) = f a) -> map h (map f l) = map f l.
Proof. intro H. rewrite map_map. apply map_ext. exact H. Qed.
Lemma ren_reals g l : map_refs g (reals l) = reals l.
Proof. unfold reals. cbn [map_refs]. f_equal. apply map_same. reflexivity. Qed.
Lemma ren_ints g l : map_refs g (ints l) = ints l.
Proof. unfold ints. cbn [map_refs]. f_equal. apply map_same. reflexivity. Qed.
Lemma ren_names g l : map_refs g (names l) = names l.
Proof. unfold names. cbn [map_refs]. f_equal. apply map_same. reflexivity. Qed.
Lemma ren_bools g l : map_refs g (bools l) = bools l.
Proof. unfold bools. cbn [map_refs]. f_equal. apply map_same. reflexivity. Qed.
Lemma ren_arr_same {A} g (f : A -> obj) l : (forall a, map_refs g (f a) = f a) -> map_refs g (arr_of f l) = arr_of f l.
Proof. intro H. unfold arr_of. cbn [map_refs]. f_equal. apply map_same. exact H. Qed.
Lemma ren_arr {A} g (f : A -> obj) h l : (forall a, f (h a) = map_refs g (f a)) -> arr_of f (map h l) = map_refs g (arr_of f l).
Proof. intro H. unfold arr_of. cbn [map_refs]. rewrite !map_map. f_equal. apply map_ext. exact H. Qed.
Lemma ren_dict_of {A} g (f : A -> obj) h l : (forall a, f (h a) = map_refs g (f a)) -> dict_of f (ren_dict h l) = map_refs g (dict_of f l).
Proof. intro H. unfold dict_of, ren_dict. cbn [map_refs]. rewrite !map_map. f_equal. apply map_ext. intro e. cbn [fst snd]. rewrite H. reflexivity. Qed.
Lemma ren_ODict g l : ODict (map_entries g l) = map_refs g (ODict l).
Proof. reflexivity. Qed.
Lemma ren_AppearanceEntry_obj g c : AppearanceEntry_obj (ren_AppearanceEntry g c) = map_refs g (AppearanceEntry_obj c).
Proof. destruct c; [reflexivity|]. apply ren_dict_of. reflexivity. Qed.
Lemma ren_OPrim g p : OPrim (ren_prim g p) = map_refs g (OPrim p).
Proof. destruct p; reflexivity. Qed.
Lemma ren_pairs {K} g (k : K -> obj) (es : list (K * prim)) : (forall a, map_refs g (k a) = k a) ->
  flat_map (fun e => [k (fst e); OPrim (snd e)]) (map (fun e => (fst e, ren_prim g (snd e))) es) =
  map (map_refs g) (flat_map (fun e => [k (fst e); OPrim (snd e)]) es).
Proof. intro H. induction es as [|e es IH]; [reflexivity|]. cbn [flat_map map app fst snd]. rewrite IH, ren_OPrim, H. reflexivity. Qed.
Lemma ren_name_entry g c : name_tree_entry (ren_name_tree g c) = (fst (name_tree_entry c), map_refs g (snd (name_tree_entry c))).
Proof.
  destruct c as [l|es|a b]; cbn [name_tree_entry ren_name_tree fst snd]; [rewrite ren_refs; reflexivity| |rewrite ren_names; reflexivity].
  f_equal. cbn [map_refs]. f_equal. apply (ren_pairs g (fun k => OPrim (PStr k))). reflexivity.
Qed.
Lemma ren_name_tree_obj g cs : name_tree_obj (map (ren_name_tree g) cs) = map_refs g (name_tree_obj cs).
Proof. unfold name_tree_obj. cbn [map_refs]. rewrite !map_map. f_equal. apply map_ext. apply ren_name_entry. Qed.
Lemma ren_number_entry g c : number_tree_entry (ren_number_tree g c) = (fst (number_tree_entry c), map_refs g (snd (number_tree_entry c))).
Proof.
  destruct c as [l|es|a b]; cbn [number_tree_entry ren_number_tree fst snd]; [rewrite ren_refs; reflexivity| |rewrite ren_ints; reflexivity].
  f_equal. cbn [map_refs]. f_equal. apply (ren_pairs g (fun k => OPrim (PInt k))). reflexivity.
Qed.
Lemma ren_number_tree_obj g cs : number_tree_obj (map (ren_number_tree g) cs) = map_refs g (number_tree_obj cs).
Proof. unfold number_tree_obj. cbn [map_refs]. rewrite !map_map. f_equal. apply map_ext. apply ren_number_entry. Qed.
Lemma ren_diff g cs : map_refs g (diff_obj cs) = diff_obj cs.
Proof.
  unfold diff_obj. cbn [map_refs]. f_equal. induction cs as [|c cs IH]; [reflexivity|]. cbn [flat_map]. rewrite map_app, IH. f_equal.
  unfold diff_items. cbn [map map_refs]. f_equal. apply map_same. reflexivity.
Qed.
Lemma ren_width g cs : map_refs g (width_obj cs) = width_obj cs.
Proof.
  unfold width_obj. cbn [map_refs]. f_equal. induction cs as [|c cs IH]; [reflexivity|]. cbn [flat_map]. rewrite map_app, IH. f_equal.
  destruct c; [|reflexivity]. cbn [width_items map]. rewrite ren_reals. reflexivity.
Qed.

Lemma ren_text g t : map_refs g (OPrim (text_prim t)) = OPrim (text_prim t).
Proof. destruct t; reflexivity. Qed.
Lemma ren_text_or_null g t : map_refs g (text_or_null t) = text_or_null t.
Proof. destruct t; reflexivity. Qed.
Lemma ren_LineHeight g t : map_refs g (LineHeight_obj t) = LineHeight_obj t.
Proof. destruct t; reflexivity. Qed.
Lemma ren_GlyphOrientationVertical g t : map_refs g (GlyphOrientationVertical_obj t) = GlyphOrientationVertical_obj t.
Proof. destruct t; reflexivity. Qed.
Lemma ren_TransitionAngle g t : map_refs g (TransitionAngle_obj t) = TransitionAngle_obj t.
Proof. destruct t; reflexivity. Qed.
Lemma ren_TrackSizes g t : map_refs g (TrackSizes_obj t) = TrackSizes_obj t.
Proof. destruct t; [reflexivity|]. apply ren_reals. Qed.

Lemma ren_sides_reals g t : map_refs g (sides_reals t) = sides_reals t.
Proof. unfold sides_reals, sides_map_primitive. destruct (is_uniform _ t); [reflexivity|]. cbn [map_refs]. rewrite map_same by reflexivity. reflexivity. Qed.
Lemma ren_sides_styles g t : map_refs g (sides_styles t) = sides_styles t.
Proof. unfold sides_styles, sides_map_primitive. destruct (is_uniform _ t); [reflexivity|]. cbn [map_refs]. rewrite map_same by reflexivity. reflexivity. Qed.
Lemma ren_sides_colors g t : map_refs g (sides_colors t) = sides_colors t.
Proof.
  unfold sides_colors, sides_iter. destruct (is_uniform _ t); cbn [map_refs]; rewrite ?map_map; [reflexivity|].
  f_equal. apply map_ext. intro c. cbn [map_refs]. rewrite !map_map. reflexivity.
Qed.

Lemma ren_border g h v w d : map (map_refs g) (border_items h v w d) = border_items h v w d.
Proof. destruct d; [|reflexivity]. cbn [border_items map map_refs app]. do 3 f_equal. apply f_equal2; [apply ren_reals|reflexivity]. Qed.

(** ** Color spaces *)

Lemma all_some_ren {A B} (f : A -> option B) h k l : (forall a, In a l -> f (h a) = option_map k (f a)) ->
  all_some f (map h l) = option_map (map k) (all_some f l).
Proof.
  induction l as [|a l IH]; intro H; [reflexivity|]. cbn [map all_some]. rewrite H by (left; reflexivity).
  rewrite IH by (intros b Hb; apply H; right; exact Hb). destruct (f a); [|reflexivity]. cbn [option_map]. destruct (all_some f l); reflexivity.
Qed.
Lemma run_parts_ren {S} (step : S -> part -> option S) g l : (forall s p, step s (ren_part g p) = step s p) ->
  (forall p, In p l -> part_obj (ren_part g p) = option_map (map_refs g) (part_obj p)) -> forall s,
  run_parts step part_obj s (map (ren_part g) l) = option_map (map (map_refs g)) (run_parts step part_obj s l).
Proof.
  intro HS. induction l as [|p l IH]; intros H s; [reflexivity|]. cbn [map run_parts]. rewrite HS. destruct (step s p) as [s'|]; [|reflexivity].
  rewrite H by (left; reflexivity). destruct (part_obj p) as [o|]; [|reflexivity]. cbn [option_map].
  rewrite IH by (intros q Hq; apply H; right; exact Hq). destruct (run_parts step part_obj s' l); reflexivity.
Qed.
Lemma ren_stitch_obj g l : stitch_obj (map (ren_stitch g) l) = map_refs g (stitch_obj l).
Proof.
  unfold stitch_obj. cbn [map_refs map fst snd]. f_equal. f_equal. rewrite !map_map. apply map_ext. intros []; cbn [ren_stitch stitch_entry fst snd];
    rewrite ?ren_reals, ?ren_refs; reflexivity.
Qed.
Lemma ren_exp_obj g l : map_refs g (exp_obj l) = exp_obj l.
Proof.
  unfold exp_obj. cbn [map_refs map fst snd]. f_equal. f_equal. rewrite !map_map. apply map_ext. intros []; cbn [exp_entry fst snd];
    rewrite ?ren_reals; reflexivity.
Qed.
Lemma ren_mix_obj g l : map_entries g (map mix_entry l) = map mix_entry l.
Proof.
  unfold map_entries. apply map_same. intros []; cbn [mix_entry fst snd]; rewrite ?ren_names; unfold real_dict; cbn [map_refs]; rewrite ?map_map;
    reflexivity.
Qed.
Lemma ren_opt_pair {A} g k (f : A -> obj) o : (forall a, map_refs g (f a) = f a) -> map_entries g (opt_pair k f o) = opt_pair k f o.
Proof. intro H. destruct o; [|reflexivity]. cbn [opt_pair map_entries map fst snd]. rewrite H. reflexivity. Qed.
Lemma map_entries_app g a b : map_entries g (a ++ b) = map_entries g a ++ map_entries g b.
Proof. apply map_app. Qed.

Ltac ren_fixed := cbn [map_refs map fst snd]; repeat f_equal;
  fold (map_entries) in *; rewrite ?map_app; cbn [map fst snd]; rewrite ?ren_reals.
Fixpoint ren_cs_obj g c : cs_obj (ren_cs g c) = option_map (map_refs g) (cs_obj c)
with ren_part_obj g p : part_obj (ren_part g p) = option_map (map_refs g) (part_obj p)
with ren_attr_entry g a : attr_entry (ren_attr g a) = option_map (fun e => (fst e, map_refs g (snd e))) (attr_entry a)
with ren_proc_entry g p : proc_entry (ren_proc g p) = option_map (fun e => (fst e, map_refs g (snd e))) (proc_entry p).
Proof.
  - assert (X : forall {S} (step : S -> part -> option S) l s, (forall s p, step s (ren_part g p) = step s p) ->
      run_parts step part_obj s (map (ren_part g) l) = option_map (map (map_refs g)) (run_parts step part_obj s l)).
    { intros S step l s HS. revert s. induction l as [|p l IH]; intro s; [reflexivity|]. cbn [map run_parts]. rewrite HS. destruct (step s p) as [s'|]; [|reflexivity].
      rewrite (ren_part_obj g p). destruct (part_obj p) as [o|]; [|reflexivity]. cbn [option_map]. rewrite IH. destruct (run_parts step part_obj s' l); reflexivity. }
    assert (Y : forall n l, OArray [OPrim (PName n); ODict (map_entries g l)] = map_refs g (OArray [OPrim (PName n); ODict l])) by reflexivity.
    destruct c as [w b ga m|w b ga|w b r|r| | | |n l|ns l|base hival t|base]; try reflexivity.
    + cbn [ren_cs cs_obj option_map]. rewrite <- Y, !map_entries_app, !ren_opt_pair by (intro; apply ren_reals).
      cbn [map_entries map fst snd]. rewrite ren_reals. reflexivity.
    + cbn [ren_cs cs_obj option_map]. rewrite <- Y, !map_entries_app, !ren_opt_pair by (intro; first [reflexivity|apply ren_reals]).
      cbn [map_entries map fst snd]. rewrite ren_reals. reflexivity.
    + cbn [ren_cs cs_obj option_map]. rewrite <- Y, !map_entries_app, !ren_opt_pair by (intro; first [reflexivity|apply ren_reals]).
      cbn [map_entries map fst snd]. rewrite ren_reals. reflexivity.
    + cbn [ren_cs cs_obj]. rewrite X by (intros s []; reflexivity). destruct (run_parts sep_step part_obj sep_start l); reflexivity.
    + cbn [ren_cs cs_obj]. rewrite X by (intros s []; reflexivity). destruct (run_parts devn_step part_obj devn_start l); [|reflexivity].
      cbn [option_map map_refs map]. do 4 f_equal. change (names ns = map_refs g (names ns)). rewrite ren_names. reflexivity.
  - destruct p as [d|c|r|l|l|r|l]; try reflexivity.
    + exact (ren_cs_obj g c).
    + cbn [ren_part part_obj option_map]. rewrite ren_exp_obj. reflexivity.
    + cbn [ren_part part_obj option_map]. rewrite ren_stitch_obj. reflexivity.
    + cbn [ren_part part_obj].
      assert (X : all_some attr_entry (map (ren_attr g) l) = option_map (map_entries g) (all_some attr_entry l)).
      { induction l as [|a l IH]; [reflexivity|]. cbn [map all_some]. rewrite (ren_attr_entry g a). destruct (attr_entry a); [|reflexivity].
        cbn [option_map]. rewrite IH. destruct (all_some attr_entry l); reflexivity. }
      rewrite X. destruct (all_some attr_entry l); reflexivity.
  - destruct a as [n|l|l|l]; [reflexivity| | |].
    + cbn [ren_attr attr_entry option_map fst snd map_refs]. do 3 f_equal. unfold ren_dict. rewrite !map_map. reflexivity.
    + cbn [ren_attr attr_entry].
      assert (X : all_some proc_entry (map (ren_proc g) l) = option_map (map_entries g) (all_some proc_entry l)).
      { induction l as [|a l IH]; [reflexivity|]. cbn [map all_some]. rewrite (ren_proc_entry g a). destruct (proc_entry a); [|reflexivity].
        cbn [option_map]. rewrite IH. destruct (all_some proc_entry l); reflexivity. }
      rewrite X. destruct (all_some proc_entry l); reflexivity.
    + cbn [ren_attr attr_entry option_map fst snd]. rewrite <- ren_ODict, ren_mix_obj. reflexivity.
  - destruct p as [n|c|l]; [reflexivity| |].
    + cbn [ren_proc proc_entry]. rewrite (ren_cs_obj g c). destruct (cs_obj c); reflexivity.
    + cbn [ren_proc proc_entry option_map fst snd]. rewrite ren_names. reflexivity.
Qed.
Lemma ren_icc_entry g c : icc_entry (ren_icc g c) = option_map (fun e => (fst e, map_refs g (snd e))) (icc_entry c).
Proof.
  destruct c as [n|c|n|l|r]; cbn [ren_icc icc_entry]; try reflexivity.
  - destruct (_ || _); reflexivity.
  - rewrite ren_cs_obj. destruct (cs_obj c); reflexivity.
  - cbn [option_map fst snd]. rewrite ren_reals. reflexivity.
Qed.

(** ** Font descriptors *)

Fixpoint ren_fd_entries g c : fd_entries (ren_fd g c) = map_entries g (fd_entries c)
with ren_ov_entries g c : ov_entries (ren_ov g c) = map_entries g (ov_entries c).
Proof.
  - destruct c; try reflexivity. cbn [ren_fd fd_entries map_entries map fst snd]. do 2 f_equal. cbn [map_refs]. f_equal.
    induction calls as [|c l IH]; [reflexivity|]. cbn [map flat_map]. rewrite (ren_ov_entries g c), IH. unfold map_entries. rewrite map_app. reflexivity.
  - assert (X : forall calls, ODict (fd_header ++ flat_map fd_entries (map (ren_fd g) calls)) = map_refs g (ODict (fd_header ++ flat_map fd_entries calls))).
    { intro calls. rewrite <- ren_ODict, map_entries_app. do 2 f_equal. induction calls as [|c0 l IH]; [reflexivity|]. cbn [map flat_map].
      rewrite (ren_fd_entries g c0), IH, map_entries_app. reflexivity. }
    destruct c; cbn [ren_ov ov_entries map_entries map fst snd]; try reflexivity; rewrite X; reflexivity.
Qed.
Lemma flat_ren {A B} (f : A -> list B) h k l : (forall a, f (h a) = map k (f a)) -> flat_map f (map h l) = map k (flat_map f l).
Proof. intro H. induction l as [|a l IH]; [reflexivity|]. cbn [map flat_map]. rewrite H, IH, map_app. reflexivity. Qed.
Lemma ren_fd_obj g calls : fd_obj (map (ren_fd g) calls) = map_refs g (fd_obj calls).
Proof. unfold fd_obj. rewrite <- ren_ODict, map_entries_app. do 2 f_equal. apply flat_ren. apply ren_fd_entries. Qed.

(** ** Writers *)

Lemma ren_raw_entries {C} g (f : C -> list (bytes * obj)) h c : (forall c, f (h c) = map_entries g (f c)) ->
  raw_entries f (ren_raw g h c) = map_entries g (raw_entries f c).
Proof. intro H. destruct c; [apply H|reflexivity]. Qed.
Lemma ren_writer {C} g head (f : C -> list (bytes * obj)) h cs : map_entries g head = head -> (forall c, f (h c) = map_entries g (f c)) ->
  dict_writer head f (map (ren_raw g h) cs) = map_refs g (dict_writer head f cs).
Proof.
  intros E H. unfold dict_writer. rewrite <- ren_ODict, map_entries_app, E. do 2 f_equal. apply flat_ren. intro a. apply ren_raw_entries. exact H.
Qed.
Lemma ren_writer_noraw {C} g head (f : C -> list (bytes * obj)) h cs : map_entries g head = head -> (forall c, f (h c) = map_entries g (f c)) ->
  dict_writer head f (map Typed (map h cs)) = map_refs g (dict_writer head f (map Typed cs)).
Proof.
  intros E H. rewrite <- (ren_writer g head f h) by assumption. rewrite !map_map. reflexivity.
Qed.
Lemma ren_array {C} g (f : C -> list obj) h cs : (forall c, f (h c) = map (map_refs g) (f c)) ->
  array_writer f (map (ren_item g h) cs) = map_refs g (array_writer f cs).
Proof. intro H. unfold array_writer. cbn [map_refs]. f_equal. apply flat_ren. intros []; [apply H|reflexivity]. Qed.
Lemma concat_entries g l : concat (map (map_entries g) l) = map_entries g (concat l).
Proof. unfold map_entries. rewrite concat_map. reflexivity. Qed.
Lemma ren_list_opt {C} g head (f : C -> option (list (bytes * obj))) h cs : map_entries g head = head -> (forall c, f (h c) = option_map (map_entries g) (f c)) ->
  writer_list_opt head f (map (ren_raw g h) cs) = option_map (map_entries g) (writer_list_opt head f cs).
Proof.
  intros E H. unfold writer_list_opt. rewrite (all_some_ren _ _ (map_entries g)) by (intros [] _; [apply H|reflexivity]).
  destruct (all_some _ cs); [|reflexivity]. cbn [option_map]. rewrite concat_entries, map_entries_app, E. reflexivity.
Qed.
Lemma ren_writer_opt {C} g head (f : C -> option (list (bytes * obj))) h cs : map_entries g head = head -> (forall c, f (h c) = option_map (map_entries g) (f c)) ->
  dict_writer_opt head f (map (ren_raw g h) cs) = option_map (map_refs g) (dict_writer_opt head f cs).
Proof.
  intros E H. unfold dict_writer_opt. rewrite (all_some_ren _ _ (map_entries g)) by (intros [] _; [apply H|reflexivity]).
  destruct (all_some _ cs); [|reflexivity]. cbn [option_map]. rewrite concat_entries, <- ren_ODict, map_entries_app, E. reflexivity.
Qed.
Lemma ren_writer_opt_noraw {C} g head (f : C -> option (list (bytes * obj))) h cs : map_entries g head = head -> (forall c, f (h c) = option_map (map_entries g) (f c)) ->
  dict_writer_opt head f (map Typed (map h cs)) = option_map (map_refs g) (dict_writer_opt head f (map Typed cs)).
Proof. intros E H. rewrite <- (ren_writer_opt g head f h) by assumption. rewrite !map_map. reflexivity. Qed.
Lemma ren_stream_writer {S C} g (fs : S -> option (list (bytes * obj))) head (f : C -> option (list (bytes * obj))) hs h cs :
  map_entries g head = head -> (forall c, fs (hs c) = option_map (map_entries g) (fs c)) -> (forall c, f (h c) = option_map (map_entries g) (f c)) ->
  stream_writer fs head f (map (ren_stream g hs h) cs) = option_map (map_entries g) (stream_writer fs head f cs).
Proof.
  intros E HS H. unfold stream_writer. rewrite (all_some_ren _ _ (map_entries g)) by (intros [] _; [apply H|apply HS|reflexivity]).
  destruct (all_some _ cs); [|reflexivity]. cbn [option_map]. rewrite concat_entries, map_entries_app, E. reflexivity.
Qed.
Lemma ren_writer_list {C} g head (f : C -> list (bytes * obj)) h cs : map_entries g head = head -> (forall c, f (h c) = map_entries g (f c)) ->
  writer_list head f (map (ren_raw g h) cs) = map_entries g (writer_list head f cs).
Proof. intros E H. unfold writer_list. rewrite map_entries_app, E. f_equal. apply flat_ren. intro a. apply ren_raw_entries. exact H. Qed.
Lemma ren_sub g k o : sub_entry k (option_map (map_refs g) o) = option_map (map_entries g) (sub_entry k o).
Proof. destruct o; reflexivity. Qed.

(** ** Conditions *)

Lemma keeps_refs g l : keeps g -> forallb ref_ok l = true -> forallb ref_ok (map g l) = true.
Proof. intro G. rewrite !forallb_forall. intros H x I. apply in_map_iff in I as (y & <- & I). apply G. apply H. exact I. Qed.
Lemma map_ok {A B} (f : A -> B) ok ok' l : (forall a, ok a = true -> ok' (f a) = true) -> forallb ok l = true -> forallb ok' (map f l) = true.
Proof. intro G. rewrite !forallb_forall. intros H x I. apply in_map_iff in I as (y & <- & I). apply G. apply H. exact I. Qed.
Lemma ren_dict_ok {A} (f : A -> A) ok l : (forall a, ok a = true -> ok (f a) = true) -> dict_ok ok l = true -> dict_ok ok (ren_dict f l) = true.
Proof.
  intro G. unfold dict_ok, ren_dict. apply map_ok. intros e H. cbn [fst snd]. apply andb_true_iff in H as [H1 H2]. rewrite H1. apply G. exact H2.
Qed.
Lemma map_refs_names g : forall o, names_nonempty (map_refs g o) = names_nonempty o.
Proof.
  fix IH 1. intros [p|l|l]; [destruct p; reflexivity| |]; cbn [map_refs names_nonempty].
  - induction l as [|a l IHl]; [reflexivity|]. cbn [map forallb]. rewrite IH, IHl. reflexivity.
  - induction l as [|a l IHl]; [reflexivity|]. cbn [map forallb fst snd]. rewrite IH, IHl. reflexivity.
Qed.
Lemma map_refs_fine g : keeps g -> forall o, obj_ok o = true -> obj_ok (map_refs g o) = true.
Proof.
  intro G. fix IH 1. intros [p|l|l]; [destruct p; try exact (fun H => H); exact (G r)| |]; cbn [map_refs obj_ok].
  - induction l as [|a l IHl]; [reflexivity|]. cbn [map forallb]. intro H. apply andb_true_iff in H as [H1 H2]. rewrite (IH _ H1), (IHl H2). reflexivity.
  - induction l as [|a l IHl]; [reflexivity|]. cbn [map forallb fst snd]. intro H. apply andb_true_iff in H as [H1 H2].
    rewrite (IH _ H1), (IHl H2). reflexivity.
Qed.
Lemma map_refs_arg g o : keeps g -> obj_arg_ok o = true -> obj_arg_ok (map_refs g o) = true.
Proof. intros G H. unfold obj_arg_ok in *. apply andb_true_iff in H as [H1 H2]. rewrite map_refs_names, H2, (map_refs_fine g G _ H1). reflexivity. Qed.
Lemma ren_raws_ok {C} g (h : C -> C) ok cs : keeps g -> (forall c, ok c = true -> ok (h c) = true) ->
  forallb (raw_ok ok) cs = true -> forallb (raw_ok ok) (map (ren_raw g h) cs) = true.
Proof.
  intros G H. apply map_ok. intros [c|k o]; cbn [raw_ok ren_raw]; [apply H|]. intro E. apply andb_true_iff in E as [E1 E2].
  rewrite E1, (map_refs_arg g o G E2). reflexivity.
Qed.
Lemma ren_noraw_ok {C} (h : C -> C) ok cs : (forall c, ok c = true -> ok (h c) = true) ->
  forallb (raw_ok ok) (map Typed cs) = true -> forallb (raw_ok ok) (map Typed (map h cs)) = true.
Proof. intros H E. rewrite map_map. revert E. rewrite !forallb_forall. intros E x I. apply in_map_iff in I as (y & <- & I). apply H. apply (E (Typed y)). apply in_map. exact I. Qed.
Lemma ren_items_ok {C} g (h : C -> C) ok cs : keeps g -> (forall c, ok c = true -> ok (h c) = true) ->
  forallb (item_ok ok) cs = true -> forallb (item_ok ok) (map (ren_item g h) cs) = true.
Proof. intros G H. apply map_ok. intros [c|o]; cbn [item_ok ren_item]; [apply H|]. intro E. apply map_refs_arg; assumption. Qed.
Lemma ren_streams_ok {S C} g (hs : S -> S) (h : C -> C) sok ok cs : keeps g -> (forall c, sok c = true -> sok (hs c) = true) -> (forall c, ok c = true -> ok (h c) = true) ->
  forallb (stream_ok sok ok) cs = true -> forallb (stream_ok sok ok) (map (ren_stream g hs h) cs) = true.
Proof.
  intros G HS H. apply map_ok. intros [c|s|k o]; cbn [stream_ok ren_stream]; [apply H|apply HS|]. intro E. apply andb_true_iff in E as [E1 E2].
  rewrite E1, (map_refs_arg g o G E2). reflexivity.
Qed.
Lemma ren_prim_ok g p : keeps g -> prim_ok p = true -> prim_ok (ren_prim g p) = true.
Proof. intro G. destruct p; try exact (fun H => H). apply G. Qed.
Lemma ren_AppearanceEntry_ok g c : keeps g -> AppearanceEntry_ok c = true -> AppearanceEntry_ok (ren_AppearanceEntry g c) = true.
Proof. intro G. destruct c; cbn [AppearanceEntry_ok ren_AppearanceEntry]; [apply G|]. apply ren_dict_ok. apply G. Qed.
Lemma ren_value_ok g p : keeps g -> value_ok p = true -> value_ok (ren_prim g p) = true.
Proof. intros G H. unfold value_ok in *. apply andb_true_iff in H as [H1 H2]. rewrite (ren_prim_ok g p G H1). destruct p; exact H2 || reflexivity. Qed.
Lemma ren_name_tree_ok g c : keeps g -> name_tree_ok c = true -> name_tree_ok (ren_name_tree g c) = true.
Proof.
  intro G. destruct c; cbn [name_tree_ok ren_name_tree]; [apply keeps_refs; exact G| |exact (fun H => H)].
  apply map_ok. intros e. cbn [snd]. apply ren_value_ok. exact G.
Qed.
Lemma ren_number_tree_ok g c : keeps g -> number_tree_ok c = true -> number_tree_ok (ren_number_tree g c) = true.
Proof.
  intro G. destruct c; cbn [number_tree_ok ren_number_tree]; [apply keeps_refs; exact G| |exact (fun H => H)].
  apply map_ok. intros e. cbn [fst snd]. intro H. apply andb_true_iff in H as [H1 H2]. rewrite H1. apply ren_value_ok; assumption.
Qed.
Lemma ren_stitch_ok g c : keeps g -> stitch_ok c = true -> stitch_ok (ren_stitch g c) = true.
Proof. intro G. destruct c; try exact (fun H => H). apply keeps_refs. exact G. Qed.
Lemma ren_name_trees_ok g l : keeps g -> forallb name_tree_ok l = true -> forallb name_tree_ok (map (ren_name_tree g) l) = true.
Proof. intro G. apply map_ok. intro a. apply ren_name_tree_ok. exact G. Qed.
Lemma ren_number_trees_ok g l : keeps g -> forallb number_tree_ok l = true -> forallb number_tree_ok (map (ren_number_tree g) l) = true.
Proof. intro G. apply map_ok. intro a. apply ren_number_tree_ok. exact G. Qed.
Lemma ren_dicts_ok g l : keeps g -> forallb (fun d => obj_arg_ok (ODict d)) l = true -> forallb (fun d => obj_arg_ok (ODict d)) (map (map_entries g) l) = true.
Proof. intro G. apply map_ok. intros d H. exact (map_refs_arg g (ODict d) G H). Qed.
Lemma ren_entries_arg g d : keeps g -> obj_arg_ok (ODict d) = true -> obj_arg_ok (ODict (map_entries g d)) = true.
Proof. intro G. exact (map_refs_arg g (ODict d) G). Qed.
Section Ok.
  Variables (g : Z -> Z) (G : keeps g).
  Fixpoint ren_cs_ok c : cs_ok c = true -> cs_ok (ren_cs g c) = true
  with ren_part_ok p : part_ok p = true -> part_ok (ren_part g p) = true
  with ren_attr_ok a : attr_ok a = true -> attr_ok (ren_attr g a) = true
  with ren_proc_ok p : proc_ok p = true -> proc_ok (ren_proc g p) = true.
  Proof using G.
    - assert (X : forall l, forallb (fun p => part_ok p) l = true -> forallb (fun p => part_ok p) (map (ren_part g) l) = true).
      { induction l as [|p l IH]; [reflexivity|]. cbn [map forallb]. intro H. apply andb_true_iff in H as [H1 H2]. rewrite (ren_part_ok p H1), (IH H2). reflexivity. }
      destruct c as [w b ga m|w b ga|w b r|r| | | |n l|ns l|base hival t|base]; try exact (fun H => H); cbn [ren_cs cs_ok].
      + apply G.
      + intro H. apply andb_true_iff in H as [H1 H2]. rewrite H1. exact (X l H2).
      + intro H. apply andb_true_iff in H as [H1 H2]. rewrite H1. exact (X l H2).
    - destruct p as [d|c|r|l|l|r|l]; try exact (fun H => H); cbn [ren_part part_ok].
      + exact (ren_cs_ok c).
      + apply G.
      + apply map_ok. intro a. apply ren_stitch_ok. exact G.
      + apply G.
      + induction l as [|p l IH]; [reflexivity|]. cbn [map forallb]. intro H. apply andb_true_iff in H as [H1 H2]. rewrite (ren_attr_ok p H1), (IH H2). reflexivity.
    - destruct a as [n|l|l|l]; try exact (fun H => H); cbn [ren_attr attr_ok].
      + apply map_ok. intros e H. cbn [fst snd]. apply andb_true_iff in H as [H1 H2]. rewrite H1. exact (ren_entries_arg g _ G H2).
      + induction l as [|p l IH]; [reflexivity|]. cbn [map forallb]. intro H. apply andb_true_iff in H as [H1 H2]. rewrite (ren_proc_ok p H1), (IH H2). reflexivity.
    - destruct p as [n|c|l]; try exact (fun H => H). exact (ren_cs_ok c).
  Qed.
  Lemma ren_icc_ok c : icc_ok c = true -> icc_ok (ren_icc g c) = true.
  Proof using G. destruct c; try exact (fun H => H); cbn [ren_icc icc_ok]; [apply ren_cs_ok|apply G]. Qed.
  Fixpoint ren_fd_ok c : fd_call_ok c = true -> fd_call_ok (ren_fd g c) = true
  with ren_ov_ok c : ov_call_ok c = true -> ov_call_ok (ren_ov g c) = true.
  Proof using G.
    - destruct c; try exact (fun H => H); cbn [ren_fd fd_call_ok]; try apply G.
      + induction calls as [|p l IH]; [reflexivity|]. cbn [map forallb]. intro H. apply andb_true_iff in H as [H1 H2]. rewrite (ren_ov_ok p H1), (IH H2). reflexivity.
      + intro H. apply andb_true_iff in H as [H1 H2]. rewrite H1. exact (map_refs_arg g _ G H2).
    - assert (X : forall l, forallb fd_call_ok l = true -> forallb fd_call_ok (map (ren_fd g) l) = true).
      { induction l as [|p l IH]; [reflexivity|]. cbn [map forallb]. intro H. apply andb_true_iff in H as [H1 H2]. rewrite (ren_fd_ok p H1), (IH H2). reflexivity. }
      destruct c; cbn [ren_ov ov_call_ok].
      + intro H. apply andb_true_iff in H as [H1 H2]. rewrite H1. exact (X _ H2).
      + intro H. apply andb_true_iff in H as [H1 H2]. rewrite H1. exact (G _ H2).
      + apply X.
      + apply G.
      + intro H. apply andb_true_iff in H as [H1 H2]. rewrite H1. exact (map_refs_arg g _ G H2).
  Qed.
End Ok.

(** ** Tactics *)

#[export] Hint Rewrite ren_refs ren_reals ren_ints ren_names ren_bools ren_diff ren_width ren_text ren_text_or_null ren_sides_reals ren_sides_styles ren_sides_colors ren_LineHeight ren_GlyphOrientationVertical ren_TransitionAngle ren_TrackSizes : renm.
#[export] Hint Rewrite ren_cs_obj ren_AppearanceEntry_obj ren_name_tree_obj ren_number_tree_obj ren_ODict ren_sub : ren.
#[export] Hint Extern 1 (ref_ok (_ _) = true) => match goal with G : keeps _ |- _ => apply G end : renok.
#[export] Hint Resolve keeps_refs ren_AppearanceEntry_ok ren_name_trees_ok ren_number_trees_ok ren_dicts_ok ren_entries_arg ren_cs_ok map_refs_arg : renok.
#[export] Hint Extern 2 (forallb ?f (map _ _) = true) => apply (map_ok _ f f) : renok.
#[export] Hint Extern 2 (dict_ok _ (ren_dict _ _) = true) => apply ren_dict_ok : renok.
Ltac ren_simple :=
  first [ reflexivity
        | symmetry; autorewrite with renm; reflexivity
        | autorewrite with ren; reflexivity
        | apply ren_arr; intro; ren_simple
        | apply ren_dict_of; intro; ren_simple
        | symmetry; apply ren_arr_same; intro; reflexivity ].
Ltac ren_obj :=
  first [ ren_simple
        | lazymatch goal with
          | |- OArray _ = map_refs _ (OArray _) => cbn [map_refs map]; apply f_equal; ren_list
          | |- ODict _ = map_refs _ (ODict _) => cbn [map_refs map fst snd]; apply f_equal; ren_list
          end
        | cbn [map_refs map fst snd]; rewrite ?map_map; reflexivity
        | match goal with |- context [text_prim ?t] => destruct t; reflexivity end ]
with ren_list :=
  lazymatch goal with
  | |- _ :: _ = _ :: _ => apply f_equal2; [first [reflexivity|apply f_equal2; [reflexivity|ren_obj]|ren_obj]|ren_list]
  | |- [] = [] => reflexivity
  | |- map _ _ = map _ (map _ _) => rewrite !map_map; apply map_ext; intro; ren_obj
  | |- border_items _ _ _ _ = _ => symmetry; apply ren_border
  | |- _ => idtac
  end.
Ltac ren_call := try reflexivity; cbn [map_entries map fst snd app]; ren_list; try reflexivity; try (apply ren_writer_list; [reflexivity|solve [auto with renl]]).
Ltac ren_call_opt := try reflexivity; autorewrite with ren; try reflexivity;
  repeat match goal with |- context [if ?b then _ else _] => destruct b end; try reflexivity; cbn [option_map map_entries map fst snd app]; try (apply f_equal; ren_list); try reflexivity; try (match goal with m : PageMode |- _ => destruct m; reflexivity end).
Ltac ren_ok := try exact (fun H => H); intro;
  repeat match goal with H : _ && _ = true |- _ => apply andb_true_iff in H; destruct H end;
  repeat match goal with |- _ && _ = true => apply andb_true_iff; split end; try assumption; auto with renok.

