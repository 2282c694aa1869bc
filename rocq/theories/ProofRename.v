(** Proofs about renamed calls: they write the renamed objects.  Generated by gen/gen_rename.py. *)

From Coq Require Import ZArith List Bool Lia.
From Verif Require ModelContent ModelCmap.
From Verif Require Import Bytes ModelFloat ModelBuf ModelObject ModelChunk ModelColor ModelSmall ModelPdf ModelTw ModelEnums ModelRoles ModelTwArgs
  ModelTwFiles ModelTwGraphics ModelTwAnnot ModelTwForms ModelTwAttr ModelTwXObj ModelTwFonts ModelTwDoc ModelFontDesc ModelDoc
  SpecLex SpecObj SpecText SpecMeans SpecRenum SpecChunk SpecFile SpecPdf SpecTyped SpecColor SpecSmall SpecTw SpecEnums SpecRoles SpecTwArgs
  SpecTwFiles SpecTwGraphics SpecTwAnnot SpecTwForms SpecTwAttr SpecTwXObj SpecTwFonts SpecTwDoc SpecFontDesc SpecDoc SpecRename
  ProofBasic ProofTree ProofTyped.
Import ListNotations.
Local Open Scope Z_scope.

(** The renaming gives references for references. *)
Definition keeps (g : Z -> Z) : Prop := forall r, ref_ok r = true -> ref_ok (g r) = true.

(** ** Objects *)

Lemma ren_refs g l : map_refs g (refs l) = refs (map g l).
Proof. unfold refs. cbn [map_refs]. rewrite !map_map. reflexivity. Qed.
Lemma map_same {A B} (f : A -> B) (h : B -> B) l : (forall a, h (f a) = f a) -> map h (map f l) = map f l.
Proof. intro H. rewrite map_map. apply map_ext. exact H. Qed.
Lemma ren_reals g l : map_refs g (reals l) = reals l.
Proof. unfold reals. cbn [map_refs]. f_equal. apply map_same. reflexivity. Qed.
Lemma ren_ints g l : map_refs g (ints l) = ints l.
Proof. unfold ints. cbn [map_refs]. f_equal. apply map_same. reflexivity. Qed.
Lemma ren_names g l : map_refs g (names l) = names l.
Proof. unfold names. cbn [map_refs]. f_equal. apply map_same. reflexivity. Qed.
Lemma ren_bools g l : map_refs g (bools l) = bools l.
Proof. unfold bools. cbn [map_refs]. f_equal. apply map_same. reflexivity. Qed.
Lemma ren_arr_same {A} g (f : A -> obj) l : (forall a, map_refs g (f a) = f a) -> map_refs g (arr_of f l) = arr_of f l.
Proof. intro H. unfold arr_of. cbn [map_refs]. f_equal. apply map_same. exact H. Qed.
Lemma ren_arr {A} g (f : A -> obj) h l : (forall a, f (h a) = map_refs g (f a)) -> arr_of f (map h l) = map_refs g (arr_of f l).
Proof. intro H. unfold arr_of. cbn [map_refs]. rewrite !map_map. f_equal. apply map_ext. exact H. Qed.
Lemma ren_dict_of {A} g (f : A -> obj) h l : (forall a, f (h a) = map_refs g (f a)) -> dict_of f (ren_dict h l) = map_refs g (dict_of f l).
Proof. intro H. unfold dict_of, ren_dict. cbn [map_refs]. rewrite !map_map. f_equal. apply map_ext. intro e. cbn [fst snd]. rewrite H. reflexivity. Qed.
Lemma ren_ODict g l : ODict (map_entries g l) = map_refs g (ODict l).
Proof. reflexivity. Qed.
Lemma ren_AppearanceEntry_obj g c : AppearanceEntry_obj (ren_AppearanceEntry g c) = map_refs g (AppearanceEntry_obj c).
Proof. destruct c; [reflexivity|]. apply ren_dict_of. reflexivity. Qed.
Lemma ren_OPrim g p : OPrim (ren_prim g p) = map_refs g (OPrim p).
Proof. destruct p; reflexivity. Qed.
Lemma ren_pairs {K} g (k : K -> obj) (es : list (K * prim)) : (forall a, map_refs g (k a) = k a) ->
  flat_map (fun e => [k (fst e); OPrim (snd e)]) (map (fun e => (fst e, ren_prim g (snd e))) es) =
  map (map_refs g) (flat_map (fun e => [k (fst e); OPrim (snd e)]) es).
Proof. intro H. induction es as [|e es IH]; [reflexivity|]. cbn [flat_map map app fst snd]. rewrite IH, ren_OPrim, H. reflexivity. Qed.
Lemma ren_name_entry g c : name_tree_entry (ren_name_tree g c) = (fst (name_tree_entry c), map_refs g (snd (name_tree_entry c))).
Proof.
  destruct c as [l|es|a b]; cbn [name_tree_entry ren_name_tree fst snd]; [rewrite ren_refs; reflexivity| |rewrite ren_names; reflexivity].
  f_equal. cbn [map_refs]. f_equal. apply (ren_pairs g (fun k => OPrim (PStr k))). reflexivity.
Qed.
Lemma ren_name_tree_obj g cs : name_tree_obj (map (ren_name_tree g) cs) = map_refs g (name_tree_obj cs).
Proof. unfold name_tree_obj. cbn [map_refs]. rewrite !map_map. f_equal. apply map_ext. apply ren_name_entry. Qed.
Lemma ren_number_entry g c : number_tree_entry (ren_number_tree g c) = (fst (number_tree_entry c), map_refs g (snd (number_tree_entry c))).
Proof.
  destruct c as [l|es|a b]; cbn [number_tree_entry ren_number_tree fst snd]; [rewrite ren_refs; reflexivity| |rewrite ren_ints; reflexivity].
  f_equal. cbn [map_refs]. f_equal. apply (ren_pairs g (fun k => OPrim (PInt k))). reflexivity.
Qed.
Lemma ren_number_tree_obj g cs : number_tree_obj (map (ren_number_tree g) cs) = map_refs g (number_tree_obj cs).
Proof. unfold number_tree_obj. cbn [map_refs]. rewrite !map_map. f_equal. apply map_ext. apply ren_number_entry. Qed.
Lemma ren_diff g cs : map_refs g (diff_obj cs) = diff_obj cs.
Proof.
  unfold diff_obj. cbn [map_refs]. f_equal. induction cs as [|c cs IH]; [reflexivity|]. cbn [flat_map]. rewrite map_app, IH. f_equal.
  unfold diff_items. cbn [map map_refs]. f_equal. apply map_same. reflexivity.
Qed.
Lemma ren_width g cs : map_refs g (width_obj cs) = width_obj cs.
Proof.
  unfold width_obj. cbn [map_refs]. f_equal. induction cs as [|c cs IH]; [reflexivity|]. cbn [flat_map]. rewrite map_app, IH. f_equal.
  destruct c; [|reflexivity]. cbn [width_items map]. rewrite ren_reals. reflexivity.
Qed.

Lemma ren_text g t : map_refs g (OPrim (text_prim t)) = OPrim (text_prim t).
Proof. destruct t; reflexivity. Qed.
Lemma ren_text_or_null g t : map_refs g (text_or_null t) = text_or_null t.
Proof. destruct t; reflexivity. Qed.
Lemma ren_LineHeight g t : map_refs g (LineHeight_obj t) = LineHeight_obj t.
Proof. destruct t; reflexivity. Qed.
Lemma ren_GlyphOrientationVertical g t : map_refs g (GlyphOrientationVertical_obj t) = GlyphOrientationVertical_obj t.
Proof. destruct t; reflexivity. Qed.
Lemma ren_TransitionAngle g t : map_refs g (TransitionAngle_obj t) = TransitionAngle_obj t.
Proof. destruct t; reflexivity. Qed.
Lemma ren_TrackSizes g t : map_refs g (TrackSizes_obj t) = TrackSizes_obj t.
Proof. destruct t; [reflexivity|]. apply ren_reals. Qed.

Lemma ren_sides_reals g t : map_refs g (sides_reals t) = sides_reals t.
Proof. unfold sides_reals, sides_map_primitive. destruct (is_uniform _ t); [reflexivity|]. cbn [map_refs]. rewrite map_same by reflexivity. reflexivity. Qed.
Lemma ren_sides_styles g t : map_refs g (sides_styles t) = sides_styles t.
Proof. unfold sides_styles, sides_map_primitive. destruct (is_uniform _ t); [reflexivity|]. cbn [map_refs]. rewrite map_same by reflexivity. reflexivity. Qed.
Lemma ren_sides_colors g t : map_refs g (sides_colors t) = sides_colors t.
Proof.
  unfold sides_colors, sides_iter. destruct (is_uniform _ t); cbn [map_refs]; rewrite ?map_map; [reflexivity|].
  f_equal. apply map_ext. intro c. cbn [map_refs]. rewrite !map_map. reflexivity.
Qed.

Lemma ren_border g h v w d : map (map_refs g) (border_items h v w d) = border_items h v w d.
Proof. destruct d; [|reflexivity]. cbn [border_items map map_refs app]. do 3 f_equal. apply f_equal2; [apply ren_reals|reflexivity]. Qed.

(** ** Color spaces *)

Lemma all_some_ren {A B} (f : A -> option B) h k l : (forall a, In a l -> f (h a) = option_map k (f a)) ->
  all_some f (map h l) = option_map (map k) (all_some f l).
Proof.
  induction l as [|a l IH]; intro H; [reflexivity|]. cbn [map all_some]. rewrite H by (left; reflexivity).
  rewrite IH by (intros b Hb; apply H; right; exact Hb). destruct (f a); [|reflexivity]. cbn [option_map]. destruct (all_some f l); reflexivity.
Qed.
Lemma run_parts_ren {S} (step : S -> part -> option S) g l : (forall s p, step s (ren_part g p) = step s p) ->
  (forall p, In p l -> part_obj (ren_part g p) = option_map (map_refs g) (part_obj p)) -> forall s,
  run_parts step part_obj s (map (ren_part g) l) = option_map (map (map_refs g)) (run_parts step part_obj s l).
Proof.
  intro HS. induction l as [|p l IH]; intros H s; [reflexivity|]. cbn [map run_parts]. rewrite HS. destruct (step s p) as [s'|]; [|reflexivity].
  rewrite H by (left; reflexivity). destruct (part_obj p) as [o|]; [|reflexivity]. cbn [option_map].
  rewrite IH by (intros q Hq; apply H; right; exact Hq). destruct (run_parts step part_obj s' l); reflexivity.
Qed.
Lemma ren_stitch_obj g l : stitch_obj (map (ren_stitch g) l) = map_refs g (stitch_obj l).
Proof.
  unfold stitch_obj. cbn [map_refs map fst snd]. f_equal. f_equal. rewrite !map_map. apply map_ext. intros []; cbn [ren_stitch stitch_entry fst snd];
    rewrite ?ren_reals, ?ren_refs; reflexivity.
Qed.
Lemma ren_exp_obj g l : map_refs g (exp_obj l) = exp_obj l.
Proof.
  unfold exp_obj. cbn [map_refs map fst snd]. f_equal. f_equal. rewrite !map_map. apply map_ext. intros []; cbn [exp_entry fst snd];
    rewrite ?ren_reals; reflexivity.
Qed.
Lemma ren_mix_obj g l : map_entries g (map mix_entry l) = map mix_entry l.
Proof.
  unfold map_entries. apply map_same. intros []; cbn [mix_entry fst snd]; rewrite ?ren_names; unfold real_dict; cbn [map_refs]; rewrite ?map_map;
    reflexivity.
Qed.
Lemma ren_opt_pair {A} g k (f : A -> obj) o : (forall a, map_refs g (f a) = f a) -> map_entries g (opt_pair k f o) = opt_pair k f o.
Proof. intro H. destruct o; [|reflexivity]. cbn [opt_pair map_entries map fst snd]. rewrite H. reflexivity. Qed.
Lemma map_entries_app g a b : map_entries g (a ++ b) = map_entries g a ++ map_entries g b.
Proof. apply map_app. Qed.

Ltac ren_fixed := cbn [map_refs map fst snd]; repeat f_equal;
  fold (map_entries) in *; rewrite ?map_app; cbn [map fst snd]; rewrite ?ren_reals.
Fixpoint ren_cs_obj g c : cs_obj (ren_cs g c) = option_map (map_refs g) (cs_obj c)
with ren_part_obj g p : part_obj (ren_part g p) = option_map (map_refs g) (part_obj p)
with ren_attr_entry g a : attr_entry (ren_attr g a) = option_map (fun e => (fst e, map_refs g (snd e))) (attr_entry a)
with ren_proc_entry g p : proc_entry (ren_proc g p) = option_map (fun e => (fst e, map_refs g (snd e))) (proc_entry p).
Proof.
  - assert (X : forall {S} (step : S -> part -> option S) l s, (forall s p, step s (ren_part g p) = step s p) ->
      run_parts step part_obj s (map (ren_part g) l) = option_map (map (map_refs g)) (run_parts step part_obj s l)).
    { intros S step l s HS. revert s. induction l as [|p l IH]; intro s; [reflexivity|]. cbn [map run_parts]. rewrite HS. destruct (step s p) as [s'|]; [|reflexivity].
      rewrite (ren_part_obj g p). destruct (part_obj p) as [o|]; [|reflexivity]. cbn [option_map]. rewrite IH. destruct (run_parts step part_obj s' l); reflexivity. }
    assert (Y : forall n l, OArray [OPrim (PName n); ODict (map_entries g l)] = map_refs g (OArray [OPrim (PName n); ODict l])) by reflexivity.
    destruct c as [w b ga m|w b ga|w b r|r| | | |n l|ns l|base hival t|base]; try reflexivity.
    + cbn [ren_cs cs_obj option_map]. rewrite <- Y, !map_entries_app, !ren_opt_pair by (intro; apply ren_reals).
      cbn [map_entries map fst snd]. rewrite ren_reals. reflexivity.
    + cbn [ren_cs cs_obj option_map]. rewrite <- Y, !map_entries_app, !ren_opt_pair by (intro; first [reflexivity|apply ren_reals]).
      cbn [map_entries map fst snd]. rewrite ren_reals. reflexivity.
    + cbn [ren_cs cs_obj option_map]. rewrite <- Y, !map_entries_app, !ren_opt_pair by (intro; first [reflexivity|apply ren_reals]).
      cbn [map_entries map fst snd]. rewrite ren_reals. reflexivity.
    + cbn [ren_cs cs_obj]. rewrite X by (intros s []; reflexivity). destruct (run_parts sep_step part_obj sep_start l); reflexivity.
    + cbn [ren_cs cs_obj]. rewrite X by (intros s []; reflexivity). destruct (run_parts devn_step part_obj devn_start l); [|reflexivity].
      cbn [option_map map_refs map]. do 4 f_equal. change (names ns = map_refs g (names ns)). rewrite ren_names. reflexivity.
  - destruct p as [d|c|r|l|l|r|l]; try reflexivity.
    + exact (ren_cs_obj g c).
    + cbn [ren_part part_obj option_map]. rewrite ren_exp_obj. reflexivity.
    + cbn [ren_part part_obj option_map]. rewrite ren_stitch_obj. reflexivity.
    + cbn [ren_part part_obj].
      assert (X : all_some attr_entry (map (ren_attr g) l) = option_map (map_entries g) (all_some attr_entry l)).
      { induction l as [|a l IH]; [reflexivity|]. cbn [map all_some]. rewrite (ren_attr_entry g a). destruct (attr_entry a); [|reflexivity].
        cbn [option_map]. rewrite IH. destruct (all_some attr_entry l); reflexivity. }
      rewrite X. destruct (all_some attr_entry l); reflexivity.
  - destruct a as [n|l|l|l]; [reflexivity| | |].
    + cbn [ren_attr attr_entry option_map fst snd map_refs]. do 3 f_equal. unfold ren_dict. rewrite !map_map. reflexivity.
    + cbn [ren_attr attr_entry].
      assert (X : all_some proc_entry (map (ren_proc g) l) = option_map (map_entries g) (all_some proc_entry l)).
      { induction l as [|a l IH]; [reflexivity|]. cbn [map all_some]. rewrite (ren_proc_entry g a). destruct (proc_entry a); [|reflexivity].
        cbn [option_map]. rewrite IH. destruct (all_some proc_entry l); reflexivity. }
      rewrite X. destruct (all_some proc_entry l); reflexivity.
    + cbn [ren_attr attr_entry option_map fst snd]. rewrite <- ren_ODict, ren_mix_obj. reflexivity.
  - destruct p as [n|c|l]; [reflexivity| |].
    + cbn [ren_proc proc_entry]. rewrite (ren_cs_obj g c). destruct (cs_obj c); reflexivity.
    + cbn [ren_proc proc_entry option_map fst snd]. rewrite ren_names. reflexivity.
Qed.
Lemma ren_icc_entry g c : icc_entry (ren_icc g c) = option_map (fun e => (fst e, map_refs g (snd e))) (icc_entry c).
Proof.
  destruct c as [n|c|n|l|r]; cbn [ren_icc icc_entry]; try reflexivity.
  - destruct (_ || _); reflexivity.
  - rewrite ren_cs_obj. destruct (cs_obj c); reflexivity.
  - cbn [option_map fst snd]. rewrite ren_reals. reflexivity.
Qed.

(** ** Font descriptors *)

Fixpoint ren_fd_entries g c : fd_entries (ren_fd g c) = map_entries g (fd_entries c)
with ren_ov_entries g c : ov_entries (ren_ov g c) = map_entries g (ov_entries c).
Proof.
  - destruct c; try reflexivity. cbn [ren_fd fd_entries map_entries map fst snd]. do 2 f_equal. cbn [map_refs]. f_equal.
    induction calls as [|c l IH]; [reflexivity|]. cbn [map flat_map]. rewrite (ren_ov_entries g c), IH. unfold map_entries. rewrite map_app. reflexivity.
  - assert (X : forall calls, ODict (fd_header ++ flat_map fd_entries (map (ren_fd g) calls)) = map_refs g (ODict (fd_header ++ flat_map fd_entries calls))).
    { intro calls. rewrite <- ren_ODict, map_entries_app. do 2 f_equal. induction calls as [|c0 l IH]; [reflexivity|]. cbn [map flat_map].
      rewrite (ren_fd_entries g c0), IH, map_entries_app. reflexivity. }
    destruct c; cbn [ren_ov ov_entries map_entries map fst snd]; try reflexivity; rewrite X; reflexivity.
Qed.
Lemma flat_ren {A B} (f : A -> list B) h k l : (forall a, f (h a) = map k (f a)) -> flat_map f (map h l) = map k (flat_map f l).
Proof. intro H. induction l as [|a l IH]; [reflexivity|]. cbn [map flat_map]. rewrite H, IH, map_app. reflexivity. Qed.
Lemma ren_fd_obj g calls : fd_obj (map (ren_fd g) calls) = map_refs g (fd_obj calls).
Proof. unfold fd_obj. rewrite <- ren_ODict, map_entries_app. do 2 f_equal. apply flat_ren. apply ren_fd_entries. Qed.

(** ** Writers *)

Lemma ren_raw_entries {C} g (f : C -> list (bytes * obj)) h c : (forall c, f (h c) = map_entries g (f c)) ->
  raw_entries f (ren_raw g h c) = map_entries g (raw_entries f c).
Proof. intro H. destruct c; [apply H|reflexivity]. Qed.
Lemma ren_writer {C} g head (f : C -> list (bytes * obj)) h cs : map_entries g head = head -> (forall c, f (h c) = map_entries g (f c)) ->
  dict_writer head f (map (ren_raw g h) cs) = map_refs g (dict_writer head f cs).
Proof.
  intros E H. unfold dict_writer. rewrite <- ren_ODict, map_entries_app, E. do 2 f_equal. apply flat_ren. intro a. apply ren_raw_entries. exact H.
Qed.
Lemma ren_writer_noraw {C} g head (f : C -> list (bytes * obj)) h cs : map_entries g head = head -> (forall c, f (h c) = map_entries g (f c)) ->
  dict_writer head f (map Typed (map h cs)) = map_refs g (dict_writer head f (map Typed cs)).
Proof.
  intros E H. rewrite <- (ren_writer g head f h) by assumption. rewrite !map_map. reflexivity.
Qed.
Lemma ren_array {C} g (f : C -> list obj) h cs : (forall c, f (h c) = map (map_refs g) (f c)) ->
  array_writer f (map (ren_item g h) cs) = map_refs g (array_writer f cs).
Proof. intro H. unfold array_writer. cbn [map_refs]. f_equal. apply flat_ren. intros []; [apply H|reflexivity]. Qed.
Lemma concat_entries g l : concat (map (map_entries g) l) = map_entries g (concat l).
Proof. unfold map_entries. rewrite concat_map. reflexivity. Qed.
Lemma ren_list_opt {C} g head (f : C -> option (list (bytes * obj))) h cs : map_entries g head = head -> (forall c, f (h c) = option_map (map_entries g) (f c)) ->
  writer_list_opt head f (map (ren_raw g h) cs) = option_map (map_entries g) (writer_list_opt head f cs).
Proof.
  intros E H. unfold writer_list_opt. rewrite (all_some_ren _ _ (map_entries g)) by (intros [] _; [apply H|reflexivity]).
  destruct (all_some _ cs); [|reflexivity]. cbn [option_map]. rewrite concat_entries, map_entries_app, E. reflexivity.
Qed.
Lemma ren_writer_opt {C} g head (f : C -> option (list (bytes * obj))) h cs : map_entries g head = head -> (forall c, f (h c) = option_map (map_entries g) (f c)) ->
  dict_writer_opt head f (map (ren_raw g h) cs) = option_map (map_refs g) (dict_writer_opt head f cs).
Proof.
  intros E H. unfold dict_writer_opt. rewrite (all_some_ren _ _ (map_entries g)) by (intros [] _; [apply H|reflexivity]).
  destruct (all_some _ cs); [|reflexivity]. cbn [option_map]. rewrite concat_entries, <- ren_ODict, map_entries_app, E. reflexivity.
Qed.
Lemma ren_writer_opt_noraw {C} g head (f : C -> option (list (bytes * obj))) h cs : map_entries g head = head -> (forall c, f (h c) = option_map (map_entries g) (f c)) ->
  dict_writer_opt head f (map Typed (map h cs)) = option_map (map_refs g) (dict_writer_opt head f (map Typed cs)).
Proof. intros E H. rewrite <- (ren_writer_opt g head f h) by assumption. rewrite !map_map. reflexivity. Qed.
Lemma ren_stream_writer {S C} g (fs : S -> option (list (bytes * obj))) head (f : C -> option (list (bytes * obj))) hs h cs :
  map_entries g head = head -> (forall c, fs (hs c) = option_map (map_entries g) (fs c)) -> (forall c, f (h c) = option_map (map_entries g) (f c)) ->
  stream_writer fs head f (map (ren_stream g hs h) cs) = option_map (map_entries g) (stream_writer fs head f cs).
Proof.
  intros E HS H. unfold stream_writer. rewrite (all_some_ren _ _ (map_entries g)) by (intros [] _; [apply H|apply HS|reflexivity]).
  destruct (all_some _ cs); [|reflexivity]. cbn [option_map]. rewrite concat_entries, map_entries_app, E. reflexivity.
Qed.
Lemma ren_writer_list {C} g head (f : C -> list (bytes * obj)) h cs : map_entries g head = head -> (forall c, f (h c) = map_entries g (f c)) ->
  writer_list head f (map (ren_raw g h) cs) = map_entries g (writer_list head f cs).
Proof. intros E H. unfold writer_list. rewrite map_entries_app, E. f_equal. apply flat_ren. intro a. apply ren_raw_entries. exact H. Qed.
Lemma ren_sub g k o : sub_entry k (option_map (map_refs g) o) = option_map (map_entries g) (sub_entry k o).
Proof. destruct o; reflexivity. Qed.

(** ** Conditions *)

Lemma keeps_refs g l : keeps g -> forallb ref_ok l = true -> forallb ref_ok (map g l) = true.
Proof. intro G. rewrite !forallb_forall. intros H x I. apply in_map_iff in I as (y & <- & I). apply G. apply H. exact I. Qed.
Lemma map_ok {A B} (f : A -> B) ok ok' l : (forall a, ok a = true -> ok' (f a) = true) -> forallb ok l = true -> forallb ok' (map f l) = true.
Proof. intro G. rewrite !forallb_forall. intros H x I. apply in_map_iff in I as (y & <- & I). apply G. apply H. exact I. Qed.
Lemma ren_dict_ok {A} (f : A -> A) ok l : (forall a, ok a = true -> ok (f a) = true) -> dict_ok ok l = true -> dict_ok ok (ren_dict f l) = true.
Proof.
  intro G. unfold dict_ok, ren_dict. apply map_ok. intros e H. cbn [fst snd]. apply andb_true_iff in H as [H1 H2]. rewrite H1. apply G. exact H2.
Qed.
Lemma map_refs_names g : forall o, names_nonempty (map_refs g o) = names_nonempty o.
Proof.
  fix IH 1. intros [p|l|l]; [destruct p; reflexivity| |]; cbn [map_refs names_nonempty].
  - induction l as [|a l IHl]; [reflexivity|]. cbn [map forallb]. rewrite IH, IHl. reflexivity.
  - induction l as [|a l IHl]; [reflexivity|]. cbn [map forallb fst snd]. rewrite IH, IHl. reflexivity.
Qed.
Lemma map_refs_fine g : keeps g -> forall o, obj_ok o = true -> obj_ok (map_refs g o) = true.
Proof.
  intro G. fix IH 1. intros [p|l|l]; [destruct p; try exact (fun H => H); exact (G r)| |]; cbn [map_refs obj_ok].
  - induction l as [|a l IHl]; [reflexivity|]. cbn [map forallb]. intro H. apply andb_true_iff in H as [H1 H2]. rewrite (IH _ H1), (IHl H2). reflexivity.
  - induction l as [|a l IHl]; [reflexivity|]. cbn [map forallb fst snd]. intro H. apply andb_true_iff in H as [H1 H2].
    rewrite (IH _ H1), (IHl H2). reflexivity.
Qed.
Lemma map_refs_arg g o : keeps g -> obj_arg_ok o = true -> obj_arg_ok (map_refs g o) = true.
Proof. intros G H. unfold obj_arg_ok in *. apply andb_true_iff in H as [H1 H2]. rewrite map_refs_names, H2, (map_refs_fine g G _ H1). reflexivity. Qed.
Lemma ren_raws_ok {C} g (h : C -> C) ok cs : keeps g -> (forall c, ok c = true -> ok (h c) = true) ->
  forallb (raw_ok ok) cs = true -> forallb (raw_ok ok) (map (ren_raw g h) cs) = true.
Proof.
  intros G H. apply map_ok. intros [c|k o]; cbn [raw_ok ren_raw]; [apply H|]. intro E. apply andb_true_iff in E as [E1 E2].
  rewrite E1, (map_refs_arg g o G E2). reflexivity.
Qed.
Lemma ren_noraw_ok {C} (h : C -> C) ok cs : (forall c, ok c = true -> ok (h c) = true) ->
  forallb (raw_ok ok) (map Typed cs) = true -> forallb (raw_ok ok) (map Typed (map h cs)) = true.
Proof. intros H E. rewrite map_map. revert E. rewrite !forallb_forall. intros E x I. apply in_map_iff in I as (y & <- & I). apply H. apply (E (Typed y)). apply in_map. exact I. Qed.
Lemma ren_items_ok {C} g (h : C -> C) ok cs : keeps g -> (forall c, ok c = true -> ok (h c) = true) ->
  forallb (item_ok ok) cs = true -> forallb (item_ok ok) (map (ren_item g h) cs) = true.
Proof. intros G H. apply map_ok. intros [c|o]; cbn [item_ok ren_item]; [apply H|]. intro E. apply map_refs_arg; assumption. Qed.
Lemma ren_streams_ok {S C} g (hs : S -> S) (h : C -> C) sok ok cs : keeps g -> (forall c, sok c = true -> sok (hs c) = true) -> (forall c, ok c = true -> ok (h c) = true) ->
  forallb (stream_ok sok ok) cs = true -> forallb (stream_ok sok ok) (map (ren_stream g hs h) cs) = true.
Proof.
  intros G HS H. apply map_ok. intros [c|s|k o]; cbn [stream_ok ren_stream]; [apply H|apply HS|]. intro E. apply andb_true_iff in E as [E1 E2].
  rewrite E1, (map_refs_arg g o G E2). reflexivity.
Qed.
Lemma ren_prim_ok g p : keeps g -> prim_ok p = true -> prim_ok (ren_prim g p) = true.
Proof. intro G. destruct p; try exact (fun H => H). apply G. Qed.
Lemma ren_AppearanceEntry_ok g c : keeps g -> AppearanceEntry_ok c = true -> AppearanceEntry_ok (ren_AppearanceEntry g c) = true.
Proof. intro G. destruct c; cbn [AppearanceEntry_ok ren_AppearanceEntry]; [apply G|]. apply ren_dict_ok. apply G. Qed.
Lemma ren_value_ok g p : keeps g -> value_ok p = true -> value_ok (ren_prim g p) = true.
Proof. intros G H. unfold value_ok in *. apply andb_true_iff in H as [H1 H2]. rewrite (ren_prim_ok g p G H1). destruct p; exact H2 || reflexivity. Qed.
Lemma ren_name_tree_ok g c : keeps g -> name_tree_ok c = true -> name_tree_ok (ren_name_tree g c) = true.
Proof.
  intro G. destruct c; cbn [name_tree_ok ren_name_tree]; [apply keeps_refs; exact G| |exact (fun H => H)].
  apply map_ok. intros e. cbn [snd]. apply ren_value_ok. exact G.
Qed.
Lemma ren_number_tree_ok g c : keeps g -> number_tree_ok c = true -> number_tree_ok (ren_number_tree g c) = true.
Proof.
  intro G. destruct c; cbn [number_tree_ok ren_number_tree]; [apply keeps_refs; exact G| |exact (fun H => H)].
  apply map_ok. intros e. cbn [fst snd]. intro H. apply andb_true_iff in H as [H1 H2]. rewrite H1. apply ren_value_ok; assumption.
Qed.
Lemma ren_stitch_ok g c : keeps g -> stitch_ok c = true -> stitch_ok (ren_stitch g c) = true.
Proof. intro G. destruct c; try exact (fun H => H). apply keeps_refs. exact G. Qed.
Lemma ren_name_trees_ok g l : keeps g -> forallb name_tree_ok l = true -> forallb name_tree_ok (map (ren_name_tree g) l) = true.
Proof. intro G. apply map_ok. intro a. apply ren_name_tree_ok. exact G. Qed.
Lemma ren_number_trees_ok g l : keeps g -> forallb number_tree_ok l = true -> forallb number_tree_ok (map (ren_number_tree g) l) = true.
Proof. intro G. apply map_ok. intro a. apply ren_number_tree_ok. exact G. Qed.
Lemma ren_dicts_ok g l : keeps g -> forallb (fun d => obj_arg_ok (ODict d)) l = true -> forallb (fun d => obj_arg_ok (ODict d)) (map (map_entries g) l) = true.
Proof. intro G. apply map_ok. intros d H. exact (map_refs_arg g (ODict d) G H). Qed.
Lemma ren_entries_arg g d : keeps g -> obj_arg_ok (ODict d) = true -> obj_arg_ok (ODict (map_entries g d)) = true.
Proof. intro G. exact (map_refs_arg g (ODict d) G). Qed.
Section Ok.
  Variables (g : Z -> Z) (G : keeps g).
  Fixpoint ren_cs_ok c : cs_ok c = true -> cs_ok (ren_cs g c) = true
  with ren_part_ok p : part_ok p = true -> part_ok (ren_part g p) = true
  with ren_attr_ok a : attr_ok a = true -> attr_ok (ren_attr g a) = true
  with ren_proc_ok p : proc_ok p = true -> proc_ok (ren_proc g p) = true.
  Proof using G.
    - assert (X : forall l, forallb (fun p => part_ok p) l = true -> forallb (fun p => part_ok p) (map (ren_part g) l) = true).
      { induction l as [|p l IH]; [reflexivity|]. cbn [map forallb]. intro H. apply andb_true_iff in H as [H1 H2]. rewrite (ren_part_ok p H1), (IH H2). reflexivity. }
      destruct c as [w b ga m|w b ga|w b r|r| | | |n l|ns l|base hival t|base]; try exact (fun H => H); cbn [ren_cs cs_ok].
      + apply G.
      + intro H. apply andb_true_iff in H as [H1 H2]. rewrite H1. exact (X l H2).
      + intro H. apply andb_true_iff in H as [H1 H2]. rewrite H1. exact (X l H2).
    - destruct p as [d|c|r|l|l|r|l]; try exact (fun H => H); cbn [ren_part part_ok].
      + exact (ren_cs_ok c).
      + apply G.
      + apply map_ok. intro a. apply ren_stitch_ok. exact G.
      + apply G.
      + induction l as [|p l IH]; [reflexivity|]. cbn [map forallb]. intro H. apply andb_true_iff in H as [H1 H2]. rewrite (ren_attr_ok p H1), (IH H2). reflexivity.
    - destruct a as [n|l|l|l]; try exact (fun H => H); cbn [ren_attr attr_ok].
      + apply map_ok. intros e H. cbn [fst snd]. apply andb_true_iff in H as [H1 H2]. rewrite H1. exact (ren_entries_arg g _ G H2).
      + induction l as [|p l IH]; [reflexivity|]. cbn [map forallb]. intro H. apply andb_true_iff in H as [H1 H2]. rewrite (ren_proc_ok p H1), (IH H2). reflexivity.
    - destruct p as [n|c|l]; try exact (fun H => H). exact (ren_cs_ok c).
  Qed.
  Lemma ren_icc_ok c : icc_ok c = true -> icc_ok (ren_icc g c) = true.
  Proof using G. destruct c; try exact (fun H => H); cbn [ren_icc icc_ok]; [apply ren_cs_ok|apply G]. Qed.
  Fixpoint ren_fd_ok c : fd_call_ok c = true -> fd_call_ok (ren_fd g c) = true
  with ren_ov_ok c : ov_call_ok c = true -> ov_call_ok (ren_ov g c) = true.
  Proof using G.
    - destruct c; try exact (fun H => H); cbn [ren_fd fd_call_ok]; try apply G.
      + induction calls as [|p l IH]; [reflexivity|]. cbn [map forallb]. intro H. apply andb_true_iff in H as [H1 H2]. rewrite (ren_ov_ok p H1), (IH H2). reflexivity.
      + intro H. apply andb_true_iff in H as [H1 H2]. rewrite H1. exact (map_refs_arg g _ G H2).
    - assert (X : forall l, forallb fd_call_ok l = true -> forallb fd_call_ok (map (ren_fd g) l) = true).
      { induction l as [|p l IH]; [reflexivity|]. cbn [map forallb]. intro H. apply andb_true_iff in H as [H1 H2]. rewrite (ren_fd_ok p H1), (IH H2). reflexivity. }
      destruct c; cbn [ren_ov ov_call_ok].
      + intro H. apply andb_true_iff in H as [H1 H2]. rewrite H1. exact (X _ H2).
      + intro H. apply andb_true_iff in H as [H1 H2]. rewrite H1. exact (G _ H2).
      + apply X.
      + apply G.
      + intro H. apply andb_true_iff in H as [H1 H2]. rewrite H1. exact (map_refs_arg g _ G H2).
  Qed.
End Ok.

(** ** Tactics *)

#[export] Hint Rewrite ren_refs ren_reals ren_ints ren_names ren_bools ren_diff ren_width ren_text ren_text_or_null ren_sides_reals ren_sides_styles ren_sides_colors ren_LineHeight ren_GlyphOrientationVertical ren_TransitionAngle ren_TrackSizes : renm.
#[export] Hint Rewrite ren_cs_obj ren_AppearanceEntry_obj ren_name_tree_obj ren_number_tree_obj ren_ODict ren_sub : ren.
#[export] Hint Extern 1 (ref_ok (_ _) = true) => match goal with G : keeps _ |- _ => apply G end : renok.
#[export] Hint Resolve keeps_refs ren_AppearanceEntry_ok ren_name_trees_ok ren_number_trees_ok ren_dicts_ok ren_entries_arg ren_cs_ok map_refs_arg : renok.
#[export] Hint Extern 2 (forallb ?f (map _ _) = true) => apply (map_ok _ f f) : renok.
#[export] Hint Extern 2 (dict_ok _ (ren_dict _ _) = true) => apply ren_dict_ok : renok.
Ltac ren_simple :=
  first [ reflexivity
        | symmetry; autorewrite with renm; reflexivity
        | autorewrite with ren; reflexivity
        | apply ren_arr; intro; ren_simple
        | apply ren_dict_of; intro; ren_simple
        | symmetry; apply ren_arr_same; intro; reflexivity ].
Ltac ren_obj :=
  first [ ren_simple
        | lazymatch goal with
          | |- OArray _ = map_refs _ (OArray _) => cbn [map_refs map]; apply f_equal; ren_list
          | |- ODict _ = map_refs _ (ODict _) => cbn [map_refs map fst snd]; apply f_equal; ren_list
          end
        | cbn [map_refs map fst snd]; rewrite ?map_map; reflexivity
        | match goal with |- context [text_prim ?t] => destruct t; reflexivity end ]
with ren_list :=
  lazymatch goal with
  | |- _ :: _ = _ :: _ => apply f_equal2; [first [reflexivity|apply f_equal2; [reflexivity|ren_obj]|ren_obj]|ren_list]
  | |- [] = [] => reflexivity
  | |- map _ _ = map _ (map _ _) => rewrite !map_map; apply map_ext; intro; ren_obj
  | |- border_items _ _ _ _ = _ => symmetry; apply ren_border
  | |- _ => idtac
  end.
Ltac ren_call := try reflexivity; cbn [map_entries map fst snd app]; ren_list; try reflexivity; try (apply ren_writer_list; [reflexivity|solve [auto with renl]]).
Ltac ren_call_opt := try reflexivity; autorewrite with ren; try reflexivity;
  repeat match goal with |- context [if ?b then _ else _] => destruct b end; try reflexivity; cbn [option_map map_entries map fst snd app]; try (apply f_equal; ren_list); try reflexivity; try (match goal with m : PageMode |- _ => destruct m; reflexivity end).
Ltac ren_ok := try exact (fun H => H); intro;
  repeat match goal with H : _ && _ = true |- _ => apply andb_true_iff in H; destruct H end;
  repeat match goal with |- _ && _ = true => apply andb_true_iff; split end; try assumption; auto with renok.

Lemma DecodeParms_ren_entries g c : DecodeParms_entries (DecodeParms_ren_call g c) = option_map (map_entries g) (DecodeParms_entries c).
Proof. destruct c; cbn [DecodeParms_entries DecodeParms_ren_call]; ren_call_opt. Qed.
Lemma DecodeParms_ren_obj g cs : DecodeParms_obj (DecodeParms_ren g cs) = option_map (map_refs g) (DecodeParms_obj cs).
Proof. apply ren_writer_opt; [reflexivity|apply DecodeParms_ren_entries]. Qed.
#[export] Hint Rewrite DecodeParms_ren_obj : ren.
Lemma DecodeParms_ren_call_ok g c : keeps g -> DecodeParms_call_ok c = true -> DecodeParms_call_ok (DecodeParms_ren_call g c) = true.
Proof. intro G. destruct c; cbn [DecodeParms_call_ok DecodeParms_ren_call]; ren_ok. Qed.
Lemma DecodeParms_ren_ok g cs : keeps g -> DecodeParms_ok cs = true -> DecodeParms_ok (DecodeParms_ren g cs) = true.
Proof. intro G. apply ren_raws_ok; [exact G|intros c; apply DecodeParms_ren_call_ok; exact G]. Qed.
#[export] Hint Resolve DecodeParms_ren_ok : renok.

Lemma Stream_ren_entries g c : Stream_entries (Stream_ren_call g c) = option_map (map_entries g) (Stream_entries c).
Proof. destruct c; cbn [Stream_entries Stream_ren_call]; ren_call_opt. Qed.
Lemma Stream_ren_dict g cs : Stream_dict (Stream_ren g cs) = option_map (map_entries g) (Stream_dict cs).
Proof. apply ren_list_opt; [reflexivity|apply Stream_ren_entries]. Qed.
Lemma Stream_ren_call_ok g c : keeps g -> Stream_call_ok c = true -> Stream_call_ok (Stream_ren_call g c) = true.
Proof. intro G. destruct c; cbn [Stream_call_ok Stream_ren_call]; ren_ok. Qed.
Lemma Stream_ren_ok g cs : keeps g -> Stream_ok cs = true -> Stream_ok (Stream_ren g cs) = true.
Proof. intro G. apply ren_raws_ok; [exact G|intros c; apply Stream_ren_call_ok; exact G]. Qed.
#[export] Hint Resolve Stream_ren_ok : renok.

Lemma FileSpec_ren_entries g c : FileSpec_entries (FileSpec_ren_call g c) = map_entries g (FileSpec_entries c).
Proof. destruct c; cbn [FileSpec_entries FileSpec_ren_call]; ren_call. Qed.
#[export] Hint Resolve FileSpec_ren_entries : renl.
Lemma FileSpec_ren_obj g cs : FileSpec_obj (FileSpec_ren g cs) = map_refs g (FileSpec_obj cs).
Proof. apply ren_writer; [reflexivity|apply FileSpec_ren_entries]. Qed.
#[export] Hint Rewrite FileSpec_ren_obj : ren.
Lemma FileSpec_ren_call_ok g c : keeps g -> FileSpec_call_ok c = true -> FileSpec_call_ok (FileSpec_ren_call g c) = true.
Proof. intro G. destruct c; cbn [FileSpec_call_ok FileSpec_ren_call]; ren_ok. Qed.
Lemma FileSpec_ren_ok g cs : keeps g -> FileSpec_ok cs = true -> FileSpec_ok (FileSpec_ren g cs) = true.
Proof. intro G. apply ren_raws_ok; [exact G|intros c; apply FileSpec_ren_call_ok; exact G]. Qed.
#[export] Hint Resolve FileSpec_ren_ok : renok.

Lemma EmbeddingParams_ren_entries g c : EmbeddingParams_entries (EmbeddingParams_ren_call g c) = map_entries g (EmbeddingParams_entries c).
Proof. destruct c; cbn [EmbeddingParams_entries EmbeddingParams_ren_call]; ren_call. Qed.
#[export] Hint Resolve EmbeddingParams_ren_entries : renl.
Lemma EmbeddingParams_ren_obj g cs : EmbeddingParams_obj (EmbeddingParams_ren g cs) = map_refs g (EmbeddingParams_obj cs).
Proof. apply ren_writer; [reflexivity|apply EmbeddingParams_ren_entries]. Qed.
#[export] Hint Rewrite EmbeddingParams_ren_obj : ren.
Lemma EmbeddingParams_ren_call_ok g c : keeps g -> EmbeddingParams_call_ok c = true -> EmbeddingParams_call_ok (EmbeddingParams_ren_call g c) = true.
Proof. intro G. destruct c; cbn [EmbeddingParams_call_ok EmbeddingParams_ren_call]; ren_ok. Qed.
Lemma EmbeddingParams_ren_ok g cs : keeps g -> EmbeddingParams_ok cs = true -> EmbeddingParams_ok (EmbeddingParams_ren g cs) = true.
Proof. intro G. apply ren_raws_ok; [exact G|intros c; apply EmbeddingParams_ren_call_ok; exact G]. Qed.
#[export] Hint Resolve EmbeddingParams_ren_ok : renok.

Lemma EmbeddedFile_ren_entries g c : EmbeddedFile_entries (EmbeddedFile_ren_call g c) = option_map (map_entries g) (EmbeddedFile_entries c).
Proof. destruct c; cbn [EmbeddedFile_entries EmbeddedFile_ren_call]; ren_call_opt. Qed.
Lemma EmbeddedFile_ren_dict g cs : EmbeddedFile_dict (EmbeddedFile_ren g cs) = option_map (map_entries g) (EmbeddedFile_dict cs).
Proof. apply ren_stream_writer; [reflexivity|apply Stream_ren_entries|apply EmbeddedFile_ren_entries]. Qed.
Lemma EmbeddedFile_ren_call_ok g c : keeps g -> EmbeddedFile_call_ok c = true -> EmbeddedFile_call_ok (EmbeddedFile_ren_call g c) = true.
Proof. intro G. destruct c; cbn [EmbeddedFile_call_ok EmbeddedFile_ren_call]; ren_ok. Qed.
Lemma EmbeddedFile_ren_ok g cs : keeps g -> EmbeddedFile_ok cs = true -> EmbeddedFile_ok (EmbeddedFile_ren g cs) = true.
Proof. intro G. apply ren_streams_ok; [exact G|intros c; apply Stream_ren_call_ok; exact G|intros c; apply EmbeddedFile_ren_call_ok; exact G]. Qed.
#[export] Hint Resolve EmbeddedFile_ren_ok : renok.

Lemma Artifact_ren_entries g c : Artifact_entries (Artifact_ren_call g c) = map_entries g (Artifact_entries c).
Proof. destruct c; cbn [Artifact_entries Artifact_ren_call]; ren_call. Qed.
#[export] Hint Resolve Artifact_ren_entries : renl.
Lemma Artifact_ren_obj g cs : Artifact_obj (Artifact_ren g cs) = map_refs g (Artifact_obj cs).
Proof. apply ren_writer; [reflexivity|apply Artifact_ren_entries]. Qed.
#[export] Hint Rewrite Artifact_ren_obj : ren.
Lemma Artifact_ren_call_ok g c : keeps g -> Artifact_call_ok c = true -> Artifact_call_ok (Artifact_ren_call g c) = true.
Proof. intro G. destruct c; cbn [Artifact_call_ok Artifact_ren_call]; ren_ok. Qed.
Lemma Artifact_ren_ok g cs : keeps g -> Artifact_ok cs = true -> Artifact_ok (Artifact_ren g cs) = true.
Proof. intro G. apply ren_raws_ok; [exact G|intros c; apply Artifact_ren_call_ok; exact G]. Qed.
#[export] Hint Resolve Artifact_ren_ok : renok.

Lemma PropertyList_ren_entries g c : PropertyList_entries (PropertyList_ren_call g c) = map_entries g (PropertyList_entries c).
Proof. destruct c; cbn [PropertyList_entries PropertyList_ren_call]; ren_call. Qed.
#[export] Hint Resolve PropertyList_ren_entries : renl.
Lemma PropertyList_ren_obj g cs : PropertyList_obj (PropertyList_ren g cs) = map_refs g (PropertyList_obj cs).
Proof. apply ren_writer; [reflexivity|apply PropertyList_ren_entries]. Qed.
#[export] Hint Rewrite PropertyList_ren_obj : ren.
Lemma PropertyList_ren_call_ok g c : keeps g -> PropertyList_call_ok c = true -> PropertyList_call_ok (PropertyList_ren_call g c) = true.
Proof. intro G. destruct c; cbn [PropertyList_call_ok PropertyList_ren_call]; ren_ok. Qed.
Lemma PropertyList_ren_ok g cs : keeps g -> PropertyList_ok cs = true -> PropertyList_ok (PropertyList_ren g cs) = true.
Proof. intro G. apply ren_raws_ok; [exact G|intros c; apply PropertyList_ren_call_ok; exact G]. Qed.
#[export] Hint Resolve PropertyList_ren_ok : renok.

Lemma Resources_ren_entries g c : Resources_entries (Resources_ren_call g c) = map_entries g (Resources_entries c).
Proof. destruct c; cbn [Resources_entries Resources_ren_call]; ren_call. Qed.
#[export] Hint Resolve Resources_ren_entries : renl.
Lemma Resources_ren_obj g cs : Resources_obj (Resources_ren g cs) = map_refs g (Resources_obj cs).
Proof. apply ren_writer; [reflexivity|apply Resources_ren_entries]. Qed.
#[export] Hint Rewrite Resources_ren_obj : ren.
Lemma Resources_ren_call_ok g c : keeps g -> Resources_call_ok c = true -> Resources_call_ok (Resources_ren_call g c) = true.
Proof. intro G. destruct c; cbn [Resources_call_ok Resources_ren_call]; ren_ok. Qed.
Lemma Resources_ren_ok g cs : keeps g -> Resources_ok cs = true -> Resources_ok (Resources_ren g cs) = true.
Proof. intro G. apply ren_raws_ok; [exact G|intros c; apply Resources_ren_call_ok; exact G]. Qed.
#[export] Hint Resolve Resources_ren_ok : renok.

Lemma SoftMask_ren_entries g c : SoftMask_entries (SoftMask_ren_call g c) = map_entries g (SoftMask_entries c).
Proof. destruct c; cbn [SoftMask_entries SoftMask_ren_call]; ren_call. Qed.
#[export] Hint Resolve SoftMask_ren_entries : renl.
Lemma SoftMask_ren_obj g cs : SoftMask_obj (SoftMask_ren g cs) = map_refs g (SoftMask_obj cs).
Proof. apply ren_writer; [reflexivity|apply SoftMask_ren_entries]. Qed.
#[export] Hint Rewrite SoftMask_ren_obj : ren.
Lemma SoftMask_ren_call_ok g c : keeps g -> SoftMask_call_ok c = true -> SoftMask_call_ok (SoftMask_ren_call g c) = true.
Proof. intro G. destruct c; cbn [SoftMask_call_ok SoftMask_ren_call]; ren_ok. Qed.
Lemma SoftMask_ren_ok g cs : keeps g -> SoftMask_ok cs = true -> SoftMask_ok (SoftMask_ren g cs) = true.
Proof. intro G. apply ren_raws_ok; [exact G|intros c; apply SoftMask_ren_call_ok; exact G]. Qed.
#[export] Hint Resolve SoftMask_ren_ok : renok.

Lemma ExtGraphicsState_ren_entries g c : ExtGraphicsState_entries (ExtGraphicsState_ren_call g c) = map_entries g (ExtGraphicsState_entries c).
Proof. destruct c; cbn [ExtGraphicsState_entries ExtGraphicsState_ren_call]; ren_call. Qed.
#[export] Hint Resolve ExtGraphicsState_ren_entries : renl.
Lemma ExtGraphicsState_ren_obj g cs : ExtGraphicsState_obj (ExtGraphicsState_ren g cs) = map_refs g (ExtGraphicsState_obj cs).
Proof. apply ren_writer; [reflexivity|apply ExtGraphicsState_ren_entries]. Qed.
#[export] Hint Rewrite ExtGraphicsState_ren_obj : ren.
Lemma ExtGraphicsState_ren_call_ok g c : keeps g -> ExtGraphicsState_call_ok c = true -> ExtGraphicsState_call_ok (ExtGraphicsState_ren_call g c) = true.
Proof. intro G. destruct c; cbn [ExtGraphicsState_call_ok ExtGraphicsState_ren_call]; ren_ok. Qed.
Lemma ExtGraphicsState_ren_ok g cs : keeps g -> ExtGraphicsState_ok cs = true -> ExtGraphicsState_ok (ExtGraphicsState_ren g cs) = true.
Proof. intro G. apply ren_raws_ok; [exact G|intros c; apply ExtGraphicsState_ren_call_ok; exact G]. Qed.
#[export] Hint Resolve ExtGraphicsState_ren_ok : renok.

Lemma TilingPattern_ren_entries g c : TilingPattern_entries (TilingPattern_ren_call g c) = option_map (map_entries g) (TilingPattern_entries c).
Proof. destruct c; cbn [TilingPattern_entries TilingPattern_ren_call]; ren_call_opt. Qed.
Lemma TilingPattern_ren_dict g cs : TilingPattern_dict (TilingPattern_ren g cs) = option_map (map_entries g) (TilingPattern_dict cs).
Proof. apply ren_stream_writer; [reflexivity|apply Stream_ren_entries|apply TilingPattern_ren_entries]. Qed.
Lemma TilingPattern_ren_call_ok g c : keeps g -> TilingPattern_call_ok c = true -> TilingPattern_call_ok (TilingPattern_ren_call g c) = true.
Proof. intro G. destruct c; cbn [TilingPattern_call_ok TilingPattern_ren_call]; ren_ok. Qed.
Lemma TilingPattern_ren_ok g cs : keeps g -> TilingPattern_ok cs = true -> TilingPattern_ok (TilingPattern_ren g cs) = true.
Proof. intro G. apply ren_streams_ok; [exact G|intros c; apply Stream_ren_call_ok; exact G|intros c; apply TilingPattern_ren_call_ok; exact G]. Qed.
#[export] Hint Resolve TilingPattern_ren_ok : renok.

Lemma FunctionShading_ren_entries g c : FunctionShading_entries (FunctionShading_ren_call g c) = option_map (map_entries g) (FunctionShading_entries c).
Proof. destruct c; cbn [FunctionShading_entries FunctionShading_ren_call]; ren_call_opt. Qed.
Lemma FunctionShading_ren_obj g cs : FunctionShading_obj (FunctionShading_ren g cs) = option_map (map_refs g) (FunctionShading_obj cs).
Proof. apply ren_writer_opt; [reflexivity|apply FunctionShading_ren_entries]. Qed.
#[export] Hint Rewrite FunctionShading_ren_obj : ren.
Lemma FunctionShading_ren_call_ok g c : keeps g -> FunctionShading_call_ok c = true -> FunctionShading_call_ok (FunctionShading_ren_call g c) = true.
Proof. intro G. destruct c; cbn [FunctionShading_call_ok FunctionShading_ren_call]; ren_ok. Qed.
Lemma FunctionShading_ren_ok g cs : keeps g -> FunctionShading_ok cs = true -> FunctionShading_ok (FunctionShading_ren g cs) = true.
Proof. intro G. apply ren_raws_ok; [exact G|intros c; apply FunctionShading_ren_call_ok; exact G]. Qed.
#[export] Hint Resolve FunctionShading_ren_ok : renok.

Lemma ShadingPattern_ren_entries g c : ShadingPattern_entries (ShadingPattern_ren_call g c) = option_map (map_entries g) (ShadingPattern_entries c).
Proof. destruct c; cbn [ShadingPattern_entries ShadingPattern_ren_call]; ren_call_opt. Qed.
Lemma ShadingPattern_ren_obj g cs : ShadingPattern_obj (ShadingPattern_ren g cs) = option_map (map_refs g) (ShadingPattern_obj cs).
Proof. apply ren_writer_opt; [reflexivity|apply ShadingPattern_ren_entries]. Qed.
#[export] Hint Rewrite ShadingPattern_ren_obj : ren.
Lemma ShadingPattern_ren_call_ok g c : keeps g -> ShadingPattern_call_ok c = true -> ShadingPattern_call_ok (ShadingPattern_ren_call g c) = true.
Proof. intro G. destruct c; cbn [ShadingPattern_call_ok ShadingPattern_ren_call]; ren_ok. Qed.
Lemma ShadingPattern_ren_ok g cs : keeps g -> ShadingPattern_ok cs = true -> ShadingPattern_ok (ShadingPattern_ren g cs) = true.
Proof. intro G. apply ren_raws_ok; [exact G|intros c; apply ShadingPattern_ren_call_ok; exact G]. Qed.
#[export] Hint Resolve ShadingPattern_ren_ok : renok.

Lemma StreamShading_ren_entries g c : StreamShading_entries (StreamShading_ren_call g c) = option_map (map_entries g) (StreamShading_entries c).
Proof. destruct c; cbn [StreamShading_entries StreamShading_ren_call]; ren_call_opt. Qed.
Lemma StreamShading_ren_dict g cs : StreamShading_dict (StreamShading_ren g cs) = option_map (map_entries g) (StreamShading_dict cs).
Proof. apply ren_stream_writer; [reflexivity|apply Stream_ren_entries|apply StreamShading_ren_entries]. Qed.
Lemma StreamShading_ren_call_ok g c : keeps g -> StreamShading_call_ok c = true -> StreamShading_call_ok (StreamShading_ren_call g c) = true.
Proof. intro G. destruct c; cbn [StreamShading_call_ok StreamShading_ren_call]; ren_ok. Qed.
Lemma StreamShading_ren_ok g cs : keeps g -> StreamShading_ok cs = true -> StreamShading_ok (StreamShading_ren g cs) = true.
Proof. intro G. apply ren_streams_ok; [exact G|intros c; apply Stream_ren_call_ok; exact G|intros c; apply StreamShading_ren_call_ok; exact G]. Qed.
#[export] Hint Resolve StreamShading_ren_ok : renok.

Lemma SeparationInfo_ren_entries g c : SeparationInfo_entries (SeparationInfo_ren_call g c) = option_map (map_entries g) (SeparationInfo_entries c).
Proof. destruct c; cbn [SeparationInfo_entries SeparationInfo_ren_call]; ren_call_opt. Qed.
Lemma SeparationInfo_ren_obj g cs : SeparationInfo_obj (SeparationInfo_ren g cs) = option_map (map_refs g) (SeparationInfo_obj cs).
Proof. apply ren_writer_opt_noraw; [reflexivity|apply SeparationInfo_ren_entries]. Qed.
#[export] Hint Rewrite SeparationInfo_ren_obj : ren.
Lemma SeparationInfo_ren_call_ok g c : keeps g -> SeparationInfo_call_ok c = true -> SeparationInfo_call_ok (SeparationInfo_ren_call g c) = true.
Proof. intro G. destruct c; cbn [SeparationInfo_call_ok SeparationInfo_ren_call]; ren_ok. Qed.
Lemma SeparationInfo_ren_ok g cs : keeps g -> SeparationInfo_ok cs = true -> SeparationInfo_ok (SeparationInfo_ren g cs) = true.
Proof. intro G. apply ren_noraw_ok; intros c; apply SeparationInfo_ren_call_ok; exact G. Qed.
#[export] Hint Resolve SeparationInfo_ren_ok : renok.

Lemma OutputIntent_ren_entries g c : OutputIntent_entries (OutputIntent_ren_call g c) = map_entries g (OutputIntent_entries c).
Proof. destruct c; cbn [OutputIntent_entries OutputIntent_ren_call]; ren_call. Qed.
#[export] Hint Resolve OutputIntent_ren_entries : renl.
Lemma OutputIntent_ren_obj g cs : OutputIntent_obj (OutputIntent_ren g cs) = map_refs g (OutputIntent_obj cs).
Proof. apply ren_writer_noraw; [reflexivity|apply OutputIntent_ren_entries]. Qed.
#[export] Hint Rewrite OutputIntent_ren_obj : ren.
Lemma OutputIntent_ren_call_ok g c : keeps g -> OutputIntent_call_ok c = true -> OutputIntent_call_ok (OutputIntent_ren_call g c) = true.
Proof. intro G. destruct c; cbn [OutputIntent_call_ok OutputIntent_ren_call]; ren_ok. Qed.
Lemma OutputIntent_ren_ok g cs : keeps g -> OutputIntent_ok cs = true -> OutputIntent_ok (OutputIntent_ren g cs) = true.
Proof. intro G. apply ren_noraw_ok; intros c; apply OutputIntent_ren_call_ok; exact G. Qed.
#[export] Hint Resolve OutputIntent_ren_ok : renok.

Lemma Group_ren_entries g c : Group_entries (Group_ren_call g c) = option_map (map_entries g) (Group_entries c).
Proof. destruct c; cbn [Group_entries Group_ren_call]; ren_call_opt. Qed.
Lemma Group_ren_obj g cs : Group_obj (Group_ren g cs) = option_map (map_refs g) (Group_obj cs).
Proof. apply ren_writer_opt; [reflexivity|apply Group_ren_entries]. Qed.
#[export] Hint Rewrite Group_ren_obj : ren.
Lemma Group_ren_call_ok g c : keeps g -> Group_call_ok c = true -> Group_call_ok (Group_ren_call g c) = true.
Proof. intro G. destruct c; cbn [Group_call_ok Group_ren_call]; ren_ok. Qed.
Lemma Group_ren_ok g cs : keeps g -> Group_ok cs = true -> Group_ok (Group_ren g cs) = true.
Proof. intro G. apply ren_raws_ok; [exact G|intros c; apply Group_ren_call_ok; exact G]. Qed.
#[export] Hint Resolve Group_ren_ok : renok.

Lemma Destination_ren_items g c : Destination_items (Destination_ren_call g c) = map (map_refs g) (Destination_items c).
Proof. destruct c; cbn [Destination_items Destination_ren_call]; ren_call. Qed.
Lemma Destination_ren_obj g cs : Destination_obj (Destination_ren g cs) = map_refs g (Destination_obj cs).
Proof. apply ren_array. apply Destination_ren_items. Qed.
#[export] Hint Rewrite Destination_ren_obj : ren.
Lemma Destination_ren_call_ok g c : keeps g -> Destination_call_ok c = true -> Destination_call_ok (Destination_ren_call g c) = true.
Proof. intro G. destruct c; cbn [Destination_call_ok Destination_ren_call]; ren_ok. Qed.
Lemma Destination_ren_ok g cs : keeps g -> Destination_ok cs = true -> Destination_ok (Destination_ren g cs) = true.
Proof. intro G. apply ren_items_ok; [exact G|intros c; apply Destination_ren_call_ok; exact G]. Qed.
#[export] Hint Resolve Destination_ren_ok : renok.

Lemma Fields_ren_items g c : Fields_items (Fields_ren_call g c) = map (map_refs g) (Fields_items c).
Proof. destruct c; cbn [Fields_items Fields_ren_call]; ren_call. Qed.
Lemma Fields_ren_obj g cs : Fields_obj (Fields_ren g cs) = map_refs g (Fields_obj cs).
Proof. apply ren_array. apply Fields_ren_items. Qed.
#[export] Hint Rewrite Fields_ren_obj : ren.
Lemma Fields_ren_call_ok g c : keeps g -> Fields_call_ok c = true -> Fields_call_ok (Fields_ren_call g c) = true.
Proof. intro G. destruct c; cbn [Fields_call_ok Fields_ren_call]; ren_ok. Qed.
Lemma Fields_ren_ok g cs : keeps g -> Fields_ok cs = true -> Fields_ok (Fields_ren g cs) = true.
Proof. intro G. apply ren_items_ok; [exact G|intros c; apply Fields_ren_call_ok; exact G]. Qed.
#[export] Hint Resolve Fields_ren_ok : renok.

Lemma MediaPermissions_ren_entries g c : MediaPermissions_entries (MediaPermissions_ren_call g c) = map_entries g (MediaPermissions_entries c).
Proof. destruct c; cbn [MediaPermissions_entries MediaPermissions_ren_call]; ren_call. Qed.
#[export] Hint Resolve MediaPermissions_ren_entries : renl.
Lemma MediaPermissions_ren_obj g cs : MediaPermissions_obj (MediaPermissions_ren g cs) = map_refs g (MediaPermissions_obj cs).
Proof. apply ren_writer; [reflexivity|apply MediaPermissions_ren_entries]. Qed.
#[export] Hint Rewrite MediaPermissions_ren_obj : ren.
Lemma MediaPermissions_ren_call_ok g c : keeps g -> MediaPermissions_call_ok c = true -> MediaPermissions_call_ok (MediaPermissions_ren_call g c) = true.
Proof. intro G. destruct c; cbn [MediaPermissions_call_ok MediaPermissions_ren_call]; ren_ok. Qed.
Lemma MediaPermissions_ren_ok g cs : keeps g -> MediaPermissions_ok cs = true -> MediaPermissions_ok (MediaPermissions_ren g cs) = true.
Proof. intro G. apply ren_raws_ok; [exact G|intros c; apply MediaPermissions_ren_call_ok; exact G]. Qed.
#[export] Hint Resolve MediaPermissions_ren_ok : renok.

Lemma MediaPlayParams_ren_entries g c : MediaPlayParams_entries (MediaPlayParams_ren_call g c) = map_entries g (MediaPlayParams_entries c).
Proof. destruct c; cbn [MediaPlayParams_entries MediaPlayParams_ren_call]; ren_call. Qed.
#[export] Hint Resolve MediaPlayParams_ren_entries : renl.
Lemma MediaPlayParams_ren_obj g cs : MediaPlayParams_obj (MediaPlayParams_ren g cs) = map_refs g (MediaPlayParams_obj cs).
Proof. apply ren_writer; [reflexivity|apply MediaPlayParams_ren_entries]. Qed.
#[export] Hint Rewrite MediaPlayParams_ren_obj : ren.
Lemma MediaPlayParams_ren_call_ok g c : keeps g -> MediaPlayParams_call_ok c = true -> MediaPlayParams_call_ok (MediaPlayParams_ren_call g c) = true.
Proof. intro G. destruct c; cbn [MediaPlayParams_call_ok MediaPlayParams_ren_call]; ren_ok. Qed.
Lemma MediaPlayParams_ren_ok g cs : keeps g -> MediaPlayParams_ok cs = true -> MediaPlayParams_ok (MediaPlayParams_ren g cs) = true.
Proof. intro G. apply ren_raws_ok; [exact G|intros c; apply MediaPlayParams_ren_call_ok; exact G]. Qed.
#[export] Hint Resolve MediaPlayParams_ren_ok : renok.

Lemma MediaClip_ren_entries g c : MediaClip_entries (MediaClip_ren_call g c) = map_entries g (MediaClip_entries c).
Proof. destruct c; cbn [MediaClip_entries MediaClip_ren_call]; ren_call. Qed.
#[export] Hint Resolve MediaClip_ren_entries : renl.
Lemma MediaClip_ren_obj g cs : MediaClip_obj (MediaClip_ren g cs) = map_refs g (MediaClip_obj cs).
Proof. apply ren_writer; [reflexivity|apply MediaClip_ren_entries]. Qed.
#[export] Hint Rewrite MediaClip_ren_obj : ren.
Lemma MediaClip_ren_call_ok g c : keeps g -> MediaClip_call_ok c = true -> MediaClip_call_ok (MediaClip_ren_call g c) = true.
Proof. intro G. destruct c; cbn [MediaClip_call_ok MediaClip_ren_call]; ren_ok. Qed.
Lemma MediaClip_ren_ok g cs : keeps g -> MediaClip_ok cs = true -> MediaClip_ok (MediaClip_ren g cs) = true.
Proof. intro G. apply ren_raws_ok; [exact G|intros c; apply MediaClip_ren_call_ok; exact G]. Qed.
#[export] Hint Resolve MediaClip_ren_ok : renok.

Lemma Rendition_ren_entries g c : Rendition_entries (Rendition_ren_call g c) = map_entries g (Rendition_entries c).
Proof. destruct c; cbn [Rendition_entries Rendition_ren_call]; ren_call. Qed.
#[export] Hint Resolve Rendition_ren_entries : renl.
Lemma Rendition_ren_obj g cs : Rendition_obj (Rendition_ren g cs) = map_refs g (Rendition_obj cs).
Proof. apply ren_writer; [reflexivity|apply Rendition_ren_entries]. Qed.
#[export] Hint Rewrite Rendition_ren_obj : ren.
Lemma Rendition_ren_call_ok g c : keeps g -> Rendition_call_ok c = true -> Rendition_call_ok (Rendition_ren_call g c) = true.
Proof. intro G. destruct c; cbn [Rendition_call_ok Rendition_ren_call]; ren_ok. Qed.
Lemma Rendition_ren_ok g cs : keeps g -> Rendition_ok cs = true -> Rendition_ok (Rendition_ren g cs) = true.
Proof. intro G. apply ren_raws_ok; [exact G|intros c; apply Rendition_ren_call_ok; exact G]. Qed.
#[export] Hint Resolve Rendition_ren_ok : renok.

Lemma Action_ren_entries g c : Action_entries (Action_ren_call g c) = map_entries g (Action_entries c).
Proof. destruct c; cbn [Action_entries Action_ren_call]; ren_call. Qed.
#[export] Hint Resolve Action_ren_entries : renl.
Lemma Action_ren_obj g cs : Action_obj (Action_ren g cs) = map_refs g (Action_obj cs).
Proof. apply ren_writer; [reflexivity|apply Action_ren_entries]. Qed.
#[export] Hint Rewrite Action_ren_obj : ren.
Lemma Action_ren_call_ok g c : keeps g -> Action_call_ok c = true -> Action_call_ok (Action_ren_call g c) = true.
Proof. intro G. destruct c; cbn [Action_call_ok Action_ren_call]; ren_ok. Qed.
Lemma Action_ren_ok g cs : keeps g -> Action_ok cs = true -> Action_ok (Action_ren g cs) = true.
Proof. intro G. apply ren_raws_ok; [exact G|intros c; apply Action_ren_call_ok; exact G]. Qed.
#[export] Hint Resolve Action_ren_ok : renok.

Lemma AdditionalActions_ren_entries g c : AdditionalActions_entries (AdditionalActions_ren_call g c) = map_entries g (AdditionalActions_entries c).
Proof. destruct c; cbn [AdditionalActions_entries AdditionalActions_ren_call]; ren_call. Qed.
#[export] Hint Resolve AdditionalActions_ren_entries : renl.
Lemma AdditionalActions_ren_obj g cs : AdditionalActions_obj (AdditionalActions_ren g cs) = map_refs g (AdditionalActions_obj cs).
Proof. apply ren_writer; [reflexivity|apply AdditionalActions_ren_entries]. Qed.
#[export] Hint Rewrite AdditionalActions_ren_obj : ren.
Lemma AdditionalActions_ren_call_ok g c : keeps g -> AdditionalActions_call_ok c = true -> AdditionalActions_call_ok (AdditionalActions_ren_call g c) = true.
Proof. intro G. destruct c; cbn [AdditionalActions_call_ok AdditionalActions_ren_call]; ren_ok. Qed.
Lemma AdditionalActions_ren_ok g cs : keeps g -> AdditionalActions_ok cs = true -> AdditionalActions_ok (AdditionalActions_ren g cs) = true.
Proof. intro G. apply ren_raws_ok; [exact G|intros c; apply AdditionalActions_ren_call_ok; exact G]. Qed.
#[export] Hint Resolve AdditionalActions_ren_ok : renok.

Lemma Appearance_ren_entries g c : Appearance_entries (Appearance_ren_call g c) = map_entries g (Appearance_entries c).
Proof. destruct c; cbn [Appearance_entries Appearance_ren_call]; ren_call. Qed.
#[export] Hint Resolve Appearance_ren_entries : renl.
Lemma Appearance_ren_obj g cs : Appearance_obj (Appearance_ren g cs) = map_refs g (Appearance_obj cs).
Proof. apply ren_writer; [reflexivity|apply Appearance_ren_entries]. Qed.
#[export] Hint Rewrite Appearance_ren_obj : ren.
Lemma Appearance_ren_call_ok g c : keeps g -> Appearance_call_ok c = true -> Appearance_call_ok (Appearance_ren_call g c) = true.
Proof. intro G. destruct c; cbn [Appearance_call_ok Appearance_ren_call]; ren_ok. Qed.
Lemma Appearance_ren_ok g cs : keeps g -> Appearance_ok cs = true -> Appearance_ok (Appearance_ren g cs) = true.
Proof. intro G. apply ren_raws_ok; [exact G|intros c; apply Appearance_ren_call_ok; exact G]. Qed.
#[export] Hint Resolve Appearance_ren_ok : renok.

Lemma IconFit_ren_entries g c : IconFit_entries (IconFit_ren_call g c) = map_entries g (IconFit_entries c).
Proof. destruct c; cbn [IconFit_entries IconFit_ren_call]; ren_call. Qed.
#[export] Hint Resolve IconFit_ren_entries : renl.
Lemma IconFit_ren_obj g cs : IconFit_obj (IconFit_ren g cs) = map_refs g (IconFit_obj cs).
Proof. apply ren_writer; [reflexivity|apply IconFit_ren_entries]. Qed.
#[export] Hint Rewrite IconFit_ren_obj : ren.
Lemma IconFit_ren_call_ok g c : keeps g -> IconFit_call_ok c = true -> IconFit_call_ok (IconFit_ren_call g c) = true.
Proof. intro G. destruct c; cbn [IconFit_call_ok IconFit_ren_call]; ren_ok. Qed.
Lemma IconFit_ren_ok g cs : keeps g -> IconFit_ok cs = true -> IconFit_ok (IconFit_ren g cs) = true.
Proof. intro G. apply ren_raws_ok; [exact G|intros c; apply IconFit_ren_call_ok; exact G]. Qed.
#[export] Hint Resolve IconFit_ren_ok : renok.

Lemma AppearanceCharacteristics_ren_entries g c : AppearanceCharacteristics_entries (AppearanceCharacteristics_ren_call g c) = map_entries g (AppearanceCharacteristics_entries c).
Proof. destruct c; cbn [AppearanceCharacteristics_entries AppearanceCharacteristics_ren_call]; ren_call. Qed.
#[export] Hint Resolve AppearanceCharacteristics_ren_entries : renl.
Lemma AppearanceCharacteristics_ren_obj g cs : AppearanceCharacteristics_obj (AppearanceCharacteristics_ren g cs) = map_refs g (AppearanceCharacteristics_obj cs).
Proof. apply ren_writer; [reflexivity|apply AppearanceCharacteristics_ren_entries]. Qed.
#[export] Hint Rewrite AppearanceCharacteristics_ren_obj : ren.
Lemma AppearanceCharacteristics_ren_call_ok g c : keeps g -> AppearanceCharacteristics_call_ok c = true -> AppearanceCharacteristics_call_ok (AppearanceCharacteristics_ren_call g c) = true.
Proof. intro G. destruct c; cbn [AppearanceCharacteristics_call_ok AppearanceCharacteristics_ren_call]; ren_ok. Qed.
Lemma AppearanceCharacteristics_ren_ok g cs : keeps g -> AppearanceCharacteristics_ok cs = true -> AppearanceCharacteristics_ok (AppearanceCharacteristics_ren g cs) = true.
Proof. intro G. apply ren_raws_ok; [exact G|intros c; apply AppearanceCharacteristics_ren_call_ok; exact G]. Qed.
#[export] Hint Resolve AppearanceCharacteristics_ren_ok : renok.

Lemma BorderStyle_ren_entries g c : BorderStyle_entries (BorderStyle_ren_call g c) = map_entries g (BorderStyle_entries c).
Proof. destruct c; cbn [BorderStyle_entries BorderStyle_ren_call]; ren_call. Qed.
#[export] Hint Resolve BorderStyle_ren_entries : renl.
Lemma BorderStyle_ren_obj g cs : BorderStyle_obj (BorderStyle_ren g cs) = map_refs g (BorderStyle_obj cs).
Proof. apply ren_writer; [reflexivity|apply BorderStyle_ren_entries]. Qed.
#[export] Hint Rewrite BorderStyle_ren_obj : ren.
Lemma BorderStyle_ren_call_ok g c : keeps g -> BorderStyle_call_ok c = true -> BorderStyle_call_ok (BorderStyle_ren_call g c) = true.
Proof. intro G. destruct c; cbn [BorderStyle_call_ok BorderStyle_ren_call]; ren_ok. Qed.
Lemma BorderStyle_ren_ok g cs : keeps g -> BorderStyle_ok cs = true -> BorderStyle_ok (BorderStyle_ren g cs) = true.
Proof. intro G. apply ren_raws_ok; [exact G|intros c; apply BorderStyle_ren_call_ok; exact G]. Qed.
#[export] Hint Resolve BorderStyle_ren_ok : renok.

Lemma Annotation_ren_entries g c : Annotation_entries (Annotation_ren_call g c) = map_entries g (Annotation_entries c).
Proof. destruct c; cbn [Annotation_entries Annotation_ren_call]; ren_call. Qed.
#[export] Hint Resolve Annotation_ren_entries : renl.
Lemma Annotation_ren_obj g cs : Annotation_obj (Annotation_ren g cs) = map_refs g (Annotation_obj cs).
Proof. apply ren_writer; [reflexivity|apply Annotation_ren_entries]. Qed.
#[export] Hint Rewrite Annotation_ren_obj : ren.
Lemma Annotation_ren_call_ok g c : keeps g -> Annotation_call_ok c = true -> Annotation_call_ok (Annotation_ren_call g c) = true.
Proof. intro G. destruct c; cbn [Annotation_call_ok Annotation_ren_call]; ren_ok. Qed.
Lemma Annotation_ren_ok g cs : keeps g -> Annotation_ok cs = true -> Annotation_ok (Annotation_ren g cs) = true.
Proof. intro G. apply ren_raws_ok; [exact G|intros c; apply Annotation_ren_call_ok; exact G]. Qed.
#[export] Hint Resolve Annotation_ren_ok : renok.

Lemma ChoiceOptions_ren_items g c : ChoiceOptions_items (ChoiceOptions_ren_call g c) = map (map_refs g) (ChoiceOptions_items c).
Proof. destruct c; cbn [ChoiceOptions_items ChoiceOptions_ren_call]; ren_call. Qed.
Lemma ChoiceOptions_ren_obj g cs : ChoiceOptions_obj (ChoiceOptions_ren g cs) = map_refs g (ChoiceOptions_obj cs).
Proof. apply ren_array. apply ChoiceOptions_ren_items. Qed.
#[export] Hint Rewrite ChoiceOptions_ren_obj : ren.
Lemma ChoiceOptions_ren_call_ok g c : keeps g -> ChoiceOptions_call_ok c = true -> ChoiceOptions_call_ok (ChoiceOptions_ren_call g c) = true.
Proof. intro G. destruct c; cbn [ChoiceOptions_call_ok ChoiceOptions_ren_call]; ren_ok. Qed.
Lemma ChoiceOptions_ren_ok g cs : keeps g -> ChoiceOptions_ok cs = true -> ChoiceOptions_ok (ChoiceOptions_ren g cs) = true.
Proof. intro G. apply ren_items_ok; [exact G|intros c; apply ChoiceOptions_ren_call_ok; exact G]. Qed.
#[export] Hint Resolve ChoiceOptions_ren_ok : renok.

Lemma SignatureFieldLock_ren_entries g c : SignatureFieldLock_entries (SignatureFieldLock_ren_call g c) = map_entries g (SignatureFieldLock_entries c).
Proof. destruct c; cbn [SignatureFieldLock_entries SignatureFieldLock_ren_call]; ren_call. Qed.
#[export] Hint Resolve SignatureFieldLock_ren_entries : renl.
Lemma SignatureFieldLock_ren_obj g cs : SignatureFieldLock_obj (SignatureFieldLock_ren g cs) = map_refs g (SignatureFieldLock_obj cs).
Proof. apply ren_writer; [reflexivity|apply SignatureFieldLock_ren_entries]. Qed.
#[export] Hint Rewrite SignatureFieldLock_ren_obj : ren.
Lemma SignatureFieldLock_ren_call_ok g c : keeps g -> SignatureFieldLock_call_ok c = true -> SignatureFieldLock_call_ok (SignatureFieldLock_ren_call g c) = true.
Proof. intro G. destruct c; cbn [SignatureFieldLock_call_ok SignatureFieldLock_ren_call]; ren_ok. Qed.
Lemma SignatureFieldLock_ren_ok g cs : keeps g -> SignatureFieldLock_ok cs = true -> SignatureFieldLock_ok (SignatureFieldLock_ren g cs) = true.
Proof. intro G. apply ren_raws_ok; [exact G|intros c; apply SignatureFieldLock_ren_call_ok; exact G]. Qed.
#[export] Hint Resolve SignatureFieldLock_ren_ok : renok.

Lemma SignatureModificationDetectionPrevention_ren_entries g c : SignatureModificationDetectionPrevention_entries (SignatureModificationDetectionPrevention_ren_call g c) = map_entries g (SignatureModificationDetectionPrevention_entries c).
Proof. destruct c; cbn [SignatureModificationDetectionPrevention_entries SignatureModificationDetectionPrevention_ren_call]; ren_call. Qed.
#[export] Hint Resolve SignatureModificationDetectionPrevention_ren_entries : renl.
Lemma SignatureModificationDetectionPrevention_ren_obj g cs : SignatureModificationDetectionPrevention_obj (SignatureModificationDetectionPrevention_ren g cs) = map_refs g (SignatureModificationDetectionPrevention_obj cs).
Proof. apply ren_writer; [reflexivity|apply SignatureModificationDetectionPrevention_ren_entries]. Qed.
#[export] Hint Rewrite SignatureModificationDetectionPrevention_ren_obj : ren.
Lemma SignatureModificationDetectionPrevention_ren_call_ok g c : keeps g -> SignatureModificationDetectionPrevention_call_ok c = true -> SignatureModificationDetectionPrevention_call_ok (SignatureModificationDetectionPrevention_ren_call g c) = true.
Proof. intro G. destruct c; cbn [SignatureModificationDetectionPrevention_call_ok SignatureModificationDetectionPrevention_ren_call]; ren_ok. Qed.
Lemma SignatureModificationDetectionPrevention_ren_ok g cs : keeps g -> SignatureModificationDetectionPrevention_ok cs = true -> SignatureModificationDetectionPrevention_ok (SignatureModificationDetectionPrevention_ren g cs) = true.
Proof. intro G. apply ren_raws_ok; [exact G|intros c; apply SignatureModificationDetectionPrevention_ren_call_ok; exact G]. Qed.
#[export] Hint Resolve SignatureModificationDetectionPrevention_ren_ok : renok.

Lemma SignatureTimeStamp_ren_entries g c : SignatureTimeStamp_entries (SignatureTimeStamp_ren_call g c) = map_entries g (SignatureTimeStamp_entries c).
Proof. destruct c; cbn [SignatureTimeStamp_entries SignatureTimeStamp_ren_call]; ren_call. Qed.
#[export] Hint Resolve SignatureTimeStamp_ren_entries : renl.
Lemma SignatureTimeStamp_ren_obj g cs : SignatureTimeStamp_obj (SignatureTimeStamp_ren g cs) = map_refs g (SignatureTimeStamp_obj cs).
Proof. apply ren_writer; [reflexivity|apply SignatureTimeStamp_ren_entries]. Qed.
#[export] Hint Rewrite SignatureTimeStamp_ren_obj : ren.
Lemma SignatureTimeStamp_ren_call_ok g c : keeps g -> SignatureTimeStamp_call_ok c = true -> SignatureTimeStamp_call_ok (SignatureTimeStamp_ren_call g c) = true.
Proof. intro G. destruct c; cbn [SignatureTimeStamp_call_ok SignatureTimeStamp_ren_call]; ren_ok. Qed.
Lemma SignatureTimeStamp_ren_ok g cs : keeps g -> SignatureTimeStamp_ok cs = true -> SignatureTimeStamp_ok (SignatureTimeStamp_ren g cs) = true.
Proof. intro G. apply ren_raws_ok; [exact G|intros c; apply SignatureTimeStamp_ren_call_ok; exact G]. Qed.
#[export] Hint Resolve SignatureTimeStamp_ren_ok : renok.

Lemma CertificateSeedValue_ren_entries g c : CertificateSeedValue_entries (CertificateSeedValue_ren_call g c) = map_entries g (CertificateSeedValue_entries c).
Proof. destruct c; cbn [CertificateSeedValue_entries CertificateSeedValue_ren_call]; ren_call. Qed.
#[export] Hint Resolve CertificateSeedValue_ren_entries : renl.
Lemma CertificateSeedValue_ren_obj g cs : CertificateSeedValue_obj (CertificateSeedValue_ren g cs) = map_refs g (CertificateSeedValue_obj cs).
Proof. apply ren_writer; [reflexivity|apply CertificateSeedValue_ren_entries]. Qed.
#[export] Hint Rewrite CertificateSeedValue_ren_obj : ren.
Lemma CertificateSeedValue_ren_call_ok g c : keeps g -> CertificateSeedValue_call_ok c = true -> CertificateSeedValue_call_ok (CertificateSeedValue_ren_call g c) = true.
Proof. intro G. destruct c; cbn [CertificateSeedValue_call_ok CertificateSeedValue_ren_call]; ren_ok. Qed.
Lemma CertificateSeedValue_ren_ok g cs : keeps g -> CertificateSeedValue_ok cs = true -> CertificateSeedValue_ok (CertificateSeedValue_ren g cs) = true.
Proof. intro G. apply ren_raws_ok; [exact G|intros c; apply CertificateSeedValue_ren_call_ok; exact G]. Qed.
#[export] Hint Resolve CertificateSeedValue_ren_ok : renok.

Lemma SignatureSeedValue_ren_entries g c : SignatureSeedValue_entries (SignatureSeedValue_ren_call g c) = map_entries g (SignatureSeedValue_entries c).
Proof. destruct c; cbn [SignatureSeedValue_entries SignatureSeedValue_ren_call]; ren_call. Qed.
#[export] Hint Resolve SignatureSeedValue_ren_entries : renl.
Lemma SignatureSeedValue_ren_obj g cs : SignatureSeedValue_obj (SignatureSeedValue_ren g cs) = map_refs g (SignatureSeedValue_obj cs).
Proof. apply ren_writer; [reflexivity|apply SignatureSeedValue_ren_entries]. Qed.
#[export] Hint Rewrite SignatureSeedValue_ren_obj : ren.
Lemma SignatureSeedValue_ren_call_ok g c : keeps g -> SignatureSeedValue_call_ok c = true -> SignatureSeedValue_call_ok (SignatureSeedValue_ren_call g c) = true.
Proof. intro G. destruct c; cbn [SignatureSeedValue_call_ok SignatureSeedValue_ren_call]; ren_ok. Qed.
Lemma SignatureSeedValue_ren_ok g cs : keeps g -> SignatureSeedValue_ok cs = true -> SignatureSeedValue_ok (SignatureSeedValue_ren g cs) = true.
Proof. intro G. apply ren_raws_ok; [exact G|intros c; apply SignatureSeedValue_ren_call_ok; exact G]. Qed.
#[export] Hint Resolve SignatureSeedValue_ren_ok : renok.

Lemma Field_ren_entries g c : Field_entries (Field_ren_call g c) = map_entries g (Field_entries c).
Proof. destruct c; cbn [Field_entries Field_ren_call]; ren_call. Qed.
#[export] Hint Resolve Field_ren_entries : renl.
Lemma Field_ren_obj g cs : Field_obj (Field_ren g cs) = map_refs g (Field_obj cs).
Proof. apply ren_writer; [reflexivity|apply Field_ren_entries]. Qed.
#[export] Hint Rewrite Field_ren_obj : ren.
Lemma Field_ren_call_ok g c : keeps g -> Field_call_ok c = true -> Field_call_ok (Field_ren_call g c) = true.
Proof. intro G. destruct c; cbn [Field_call_ok Field_ren_call]; ren_ok. Qed.
Lemma Field_ren_ok g cs : keeps g -> Field_ok cs = true -> Field_ok (Field_ren g cs) = true.
Proof. intro G. apply ren_raws_ok; [exact G|intros c; apply Field_ren_call_ok; exact G]. Qed.
#[export] Hint Resolve Field_ren_ok : renok.

Lemma Form_ren_entries g c : Form_entries (Form_ren_call g c) = map_entries g (Form_entries c).
Proof. destruct c; cbn [Form_entries Form_ren_call]; ren_call. Qed.
#[export] Hint Resolve Form_ren_entries : renl.
Lemma Form_ren_obj g cs : Form_obj (Form_ren g cs) = map_refs g (Form_obj cs).
Proof. apply ren_writer; [reflexivity|apply Form_ren_entries]. Qed.
#[export] Hint Rewrite Form_ren_obj : ren.
Lemma Form_ren_call_ok g c : keeps g -> Form_call_ok c = true -> Form_call_ok (Form_ren_call g c) = true.
Proof. intro G. destruct c; cbn [Form_call_ok Form_ren_call]; ren_ok. Qed.
Lemma Form_ren_ok g cs : keeps g -> Form_ok cs = true -> Form_ok (Form_ren g cs) = true.
Proof. intro G. apply ren_raws_ok; [exact G|intros c; apply Form_ren_call_ok; exact G]. Qed.
#[export] Hint Resolve Form_ren_ok : renok.

Lemma UserProperty_ren_entries g c : UserProperty_entries (UserProperty_ren_call g c) = map_entries g (UserProperty_entries c).
Proof. destruct c; cbn [UserProperty_entries UserProperty_ren_call]; ren_call. Qed.
#[export] Hint Resolve UserProperty_ren_entries : renl.
Lemma UserProperty_ren_obj g cs : UserProperty_obj (UserProperty_ren g cs) = map_refs g (UserProperty_obj cs).
Proof. apply ren_writer; [reflexivity|apply UserProperty_ren_entries]. Qed.
#[export] Hint Rewrite UserProperty_ren_obj : ren.
Lemma UserProperty_ren_call_ok g c : keeps g -> UserProperty_call_ok c = true -> UserProperty_call_ok (UserProperty_ren_call g c) = true.
Proof. intro G. destruct c; cbn [UserProperty_call_ok UserProperty_ren_call]; ren_ok. Qed.
Lemma UserProperty_ren_ok g cs : keeps g -> UserProperty_ok cs = true -> UserProperty_ok (UserProperty_ren g cs) = true.
Proof. intro G. apply ren_raws_ok; [exact G|intros c; apply UserProperty_ren_call_ok; exact G]. Qed.
#[export] Hint Resolve UserProperty_ren_ok : renok.

Lemma LayoutAttributes_ren_entries g c : LayoutAttributes_entries (LayoutAttributes_ren_call g c) = map_entries g (LayoutAttributes_entries c).
Proof. destruct c; cbn [LayoutAttributes_entries LayoutAttributes_ren_call]; ren_call. Qed.
#[export] Hint Resolve LayoutAttributes_ren_entries : renl.
Lemma LayoutAttributes_ren_obj g cs : LayoutAttributes_obj (LayoutAttributes_ren g cs) = map_refs g (LayoutAttributes_obj cs).
Proof. apply ren_writer; [reflexivity|apply LayoutAttributes_ren_entries]. Qed.
#[export] Hint Rewrite LayoutAttributes_ren_obj : ren.
Lemma LayoutAttributes_ren_call_ok g c : keeps g -> LayoutAttributes_call_ok c = true -> LayoutAttributes_call_ok (LayoutAttributes_ren_call g c) = true.
Proof. intro G. destruct c; cbn [LayoutAttributes_call_ok LayoutAttributes_ren_call]; ren_ok. Qed.
Lemma LayoutAttributes_ren_ok g cs : keeps g -> LayoutAttributes_ok cs = true -> LayoutAttributes_ok (LayoutAttributes_ren g cs) = true.
Proof. intro G. apply ren_raws_ok; [exact G|intros c; apply LayoutAttributes_ren_call_ok; exact G]. Qed.
#[export] Hint Resolve LayoutAttributes_ren_ok : renok.

Lemma ListAttributes_ren_entries g c : ListAttributes_entries (ListAttributes_ren_call g c) = map_entries g (ListAttributes_entries c).
Proof. destruct c; cbn [ListAttributes_entries ListAttributes_ren_call]; ren_call. Qed.
#[export] Hint Resolve ListAttributes_ren_entries : renl.
Lemma ListAttributes_ren_obj g cs : ListAttributes_obj (ListAttributes_ren g cs) = map_refs g (ListAttributes_obj cs).
Proof. apply ren_writer; [reflexivity|apply ListAttributes_ren_entries]. Qed.
#[export] Hint Rewrite ListAttributes_ren_obj : ren.
Lemma ListAttributes_ren_call_ok g c : keeps g -> ListAttributes_call_ok c = true -> ListAttributes_call_ok (ListAttributes_ren_call g c) = true.
Proof. intro G. destruct c; cbn [ListAttributes_call_ok ListAttributes_ren_call]; ren_ok. Qed.
Lemma ListAttributes_ren_ok g cs : keeps g -> ListAttributes_ok cs = true -> ListAttributes_ok (ListAttributes_ren g cs) = true.
Proof. intro G. apply ren_raws_ok; [exact G|intros c; apply ListAttributes_ren_call_ok; exact G]. Qed.
#[export] Hint Resolve ListAttributes_ren_ok : renok.

Lemma FieldAttributes_ren_entries g c : FieldAttributes_entries (FieldAttributes_ren_call g c) = map_entries g (FieldAttributes_entries c).
Proof. destruct c; cbn [FieldAttributes_entries FieldAttributes_ren_call]; ren_call. Qed.
#[export] Hint Resolve FieldAttributes_ren_entries : renl.
Lemma FieldAttributes_ren_obj g cs : FieldAttributes_obj (FieldAttributes_ren g cs) = map_refs g (FieldAttributes_obj cs).
Proof. apply ren_writer; [reflexivity|apply FieldAttributes_ren_entries]. Qed.
#[export] Hint Rewrite FieldAttributes_ren_obj : ren.
Lemma FieldAttributes_ren_call_ok g c : keeps g -> FieldAttributes_call_ok c = true -> FieldAttributes_call_ok (FieldAttributes_ren_call g c) = true.
Proof. intro G. destruct c; cbn [FieldAttributes_call_ok FieldAttributes_ren_call]; ren_ok. Qed.
Lemma FieldAttributes_ren_ok g cs : keeps g -> FieldAttributes_ok cs = true -> FieldAttributes_ok (FieldAttributes_ren g cs) = true.
Proof. intro G. apply ren_raws_ok; [exact G|intros c; apply FieldAttributes_ren_call_ok; exact G]. Qed.
#[export] Hint Resolve FieldAttributes_ren_ok : renok.

Lemma TableAttributes_ren_entries g c : TableAttributes_entries (TableAttributes_ren_call g c) = map_entries g (TableAttributes_entries c).
Proof. destruct c; cbn [TableAttributes_entries TableAttributes_ren_call]; ren_call. Qed.
#[export] Hint Resolve TableAttributes_ren_entries : renl.
Lemma TableAttributes_ren_obj g cs : TableAttributes_obj (TableAttributes_ren g cs) = map_refs g (TableAttributes_obj cs).
Proof. apply ren_writer; [reflexivity|apply TableAttributes_ren_entries]. Qed.
#[export] Hint Rewrite TableAttributes_ren_obj : ren.
Lemma TableAttributes_ren_call_ok g c : keeps g -> TableAttributes_call_ok c = true -> TableAttributes_call_ok (TableAttributes_ren_call g c) = true.
Proof. intro G. destruct c; cbn [TableAttributes_call_ok TableAttributes_ren_call]; ren_ok. Qed.
Lemma TableAttributes_ren_ok g cs : keeps g -> TableAttributes_ok cs = true -> TableAttributes_ok (TableAttributes_ren g cs) = true.
Proof. intro G. apply ren_raws_ok; [exact G|intros c; apply TableAttributes_ren_call_ok; exact G]. Qed.
#[export] Hint Resolve TableAttributes_ren_ok : renok.

Lemma ArtifactAttributes_ren_entries g c : ArtifactAttributes_entries (ArtifactAttributes_ren_call g c) = map_entries g (ArtifactAttributes_entries c).
Proof. destruct c; cbn [ArtifactAttributes_entries ArtifactAttributes_ren_call]; ren_call. Qed.
#[export] Hint Resolve ArtifactAttributes_ren_entries : renl.
Lemma ArtifactAttributes_ren_obj g cs : ArtifactAttributes_obj (ArtifactAttributes_ren g cs) = map_refs g (ArtifactAttributes_obj cs).
Proof. apply ren_writer; [reflexivity|apply ArtifactAttributes_ren_entries]. Qed.
#[export] Hint Rewrite ArtifactAttributes_ren_obj : ren.
Lemma ArtifactAttributes_ren_call_ok g c : keeps g -> ArtifactAttributes_call_ok c = true -> ArtifactAttributes_call_ok (ArtifactAttributes_ren_call g c) = true.
Proof. intro G. destruct c; cbn [ArtifactAttributes_call_ok ArtifactAttributes_ren_call]; ren_ok. Qed.
Lemma ArtifactAttributes_ren_ok g cs : keeps g -> ArtifactAttributes_ok cs = true -> ArtifactAttributes_ok (ArtifactAttributes_ren g cs) = true.
Proof. intro G. apply ren_raws_ok; [exact G|intros c; apply ArtifactAttributes_ren_call_ok; exact G]. Qed.
#[export] Hint Resolve ArtifactAttributes_ren_ok : renok.

Lemma FENoteAttributes_ren_entries g c : FENoteAttributes_entries (FENoteAttributes_ren_call g c) = map_entries g (FENoteAttributes_entries c).
Proof. destruct c; cbn [FENoteAttributes_entries FENoteAttributes_ren_call]; ren_call. Qed.
#[export] Hint Resolve FENoteAttributes_ren_entries : renl.
Lemma FENoteAttributes_ren_obj g cs : FENoteAttributes_obj (FENoteAttributes_ren g cs) = map_refs g (FENoteAttributes_obj cs).
Proof. apply ren_writer; [reflexivity|apply FENoteAttributes_ren_entries]. Qed.
#[export] Hint Rewrite FENoteAttributes_ren_obj : ren.
Lemma FENoteAttributes_ren_call_ok g c : keeps g -> FENoteAttributes_call_ok c = true -> FENoteAttributes_call_ok (FENoteAttributes_ren_call g c) = true.
Proof. intro G. destruct c; cbn [FENoteAttributes_call_ok FENoteAttributes_ren_call]; ren_ok. Qed.
Lemma FENoteAttributes_ren_ok g cs : keeps g -> FENoteAttributes_ok cs = true -> FENoteAttributes_ok (FENoteAttributes_ren g cs) = true.
Proof. intro G. apply ren_raws_ok; [exact G|intros c; apply FENoteAttributes_ren_call_ok; exact G]. Qed.
#[export] Hint Resolve FENoteAttributes_ren_ok : renok.

Lemma Attributes_ren_entries g c : Attributes_entries (Attributes_ren_call g c) = map_entries g (Attributes_entries c).
Proof. destruct c; cbn [Attributes_entries Attributes_ren_call]; ren_call. Qed.
#[export] Hint Resolve Attributes_ren_entries : renl.
Lemma Attributes_ren_obj g cs : Attributes_obj (Attributes_ren g cs) = map_refs g (Attributes_obj cs).
Proof. apply ren_writer; [reflexivity|apply Attributes_ren_entries]. Qed.
#[export] Hint Rewrite Attributes_ren_obj : ren.
Lemma Attributes_ren_call_ok g c : keeps g -> Attributes_call_ok c = true -> Attributes_call_ok (Attributes_ren_call g c) = true.
Proof. intro G. destruct c; cbn [Attributes_call_ok Attributes_ren_call]; ren_ok. Qed.
Lemma Attributes_ren_ok g cs : keeps g -> Attributes_ok cs = true -> Attributes_ok (Attributes_ren g cs) = true.
Proof. intro G. apply ren_raws_ok; [exact G|intros c; apply Attributes_ren_call_ok; exact G]. Qed.
#[export] Hint Resolve Attributes_ren_ok : renok.

Lemma MarkedRef_ren_entries g c : MarkedRef_entries (MarkedRef_ren_call g c) = map_entries g (MarkedRef_entries c).
Proof. destruct c; cbn [MarkedRef_entries MarkedRef_ren_call]; ren_call. Qed.
#[export] Hint Resolve MarkedRef_ren_entries : renl.
Lemma MarkedRef_ren_obj g cs : MarkedRef_obj (MarkedRef_ren g cs) = map_refs g (MarkedRef_obj cs).
Proof. apply ren_writer; [reflexivity|apply MarkedRef_ren_entries]. Qed.
#[export] Hint Rewrite MarkedRef_ren_obj : ren.
Lemma MarkedRef_ren_call_ok g c : keeps g -> MarkedRef_call_ok c = true -> MarkedRef_call_ok (MarkedRef_ren_call g c) = true.
Proof. intro G. destruct c; cbn [MarkedRef_call_ok MarkedRef_ren_call]; ren_ok. Qed.
Lemma MarkedRef_ren_ok g cs : keeps g -> MarkedRef_ok cs = true -> MarkedRef_ok (MarkedRef_ren g cs) = true.
Proof. intro G. apply ren_raws_ok; [exact G|intros c; apply MarkedRef_ren_call_ok; exact G]. Qed.
#[export] Hint Resolve MarkedRef_ren_ok : renok.

Lemma ObjectRef_ren_entries g c : ObjectRef_entries (ObjectRef_ren_call g c) = map_entries g (ObjectRef_entries c).
Proof. destruct c; cbn [ObjectRef_entries ObjectRef_ren_call]; ren_call. Qed.
#[export] Hint Resolve ObjectRef_ren_entries : renl.
Lemma ObjectRef_ren_obj g cs : ObjectRef_obj (ObjectRef_ren g cs) = map_refs g (ObjectRef_obj cs).
Proof. apply ren_writer; [reflexivity|apply ObjectRef_ren_entries]. Qed.
#[export] Hint Rewrite ObjectRef_ren_obj : ren.
Lemma ObjectRef_ren_call_ok g c : keeps g -> ObjectRef_call_ok c = true -> ObjectRef_call_ok (ObjectRef_ren_call g c) = true.
Proof. intro G. destruct c; cbn [ObjectRef_call_ok ObjectRef_ren_call]; ren_ok. Qed.
Lemma ObjectRef_ren_ok g cs : keeps g -> ObjectRef_ok cs = true -> ObjectRef_ok (ObjectRef_ren g cs) = true.
Proof. intro G. apply ren_raws_ok; [exact G|intros c; apply ObjectRef_ren_call_ok; exact G]. Qed.
#[export] Hint Resolve ObjectRef_ren_ok : renok.

Lemma StructChildren_ren_items g c : StructChildren_items (StructChildren_ren_call g c) = map (map_refs g) (StructChildren_items c).
Proof. destruct c; cbn [StructChildren_items StructChildren_ren_call]; ren_call. Qed.
Lemma StructChildren_ren_obj g cs : StructChildren_obj (StructChildren_ren g cs) = map_refs g (StructChildren_obj cs).
Proof. apply ren_array. apply StructChildren_ren_items. Qed.
#[export] Hint Rewrite StructChildren_ren_obj : ren.
Lemma StructChildren_ren_call_ok g c : keeps g -> StructChildren_call_ok c = true -> StructChildren_call_ok (StructChildren_ren_call g c) = true.
Proof. intro G. destruct c; cbn [StructChildren_call_ok StructChildren_ren_call]; ren_ok. Qed.
Lemma StructChildren_ren_ok g cs : keeps g -> StructChildren_ok cs = true -> StructChildren_ok (StructChildren_ren g cs) = true.
Proof. intro G. apply ren_items_ok; [exact G|intros c; apply StructChildren_ren_call_ok; exact G]. Qed.
#[export] Hint Resolve StructChildren_ren_ok : renok.

Lemma StructElement_ren_entries g c : StructElement_entries (StructElement_ren_call g c) = map_entries g (StructElement_entries c).
Proof. destruct c; cbn [StructElement_entries StructElement_ren_call]; ren_call. Qed.
#[export] Hint Resolve StructElement_ren_entries : renl.
Lemma StructElement_ren_obj g cs : StructElement_obj (StructElement_ren g cs) = map_refs g (StructElement_obj cs).
Proof. apply ren_writer; [reflexivity|apply StructElement_ren_entries]. Qed.
#[export] Hint Rewrite StructElement_ren_obj : ren.
Lemma StructElement_ren_call_ok g c : keeps g -> StructElement_call_ok c = true -> StructElement_call_ok (StructElement_ren_call g c) = true.
Proof. intro G. destruct c; cbn [StructElement_call_ok StructElement_ren_call]; ren_ok. Qed.
Lemma StructElement_ren_ok g cs : keeps g -> StructElement_ok cs = true -> StructElement_ok (StructElement_ren g cs) = true.
Proof. intro G. apply ren_raws_ok; [exact G|intros c; apply StructElement_ren_call_ok; exact G]. Qed.
#[export] Hint Resolve StructElement_ren_ok : renok.

Lemma RoleMap_ren_entries g c : RoleMap_entries (RoleMap_ren_call g c) = map_entries g (RoleMap_entries c).
Proof. destruct c; cbn [RoleMap_entries RoleMap_ren_call]; ren_call. Qed.
#[export] Hint Resolve RoleMap_ren_entries : renl.
Lemma RoleMap_ren_obj g cs : RoleMap_obj (RoleMap_ren g cs) = map_refs g (RoleMap_obj cs).
Proof. apply ren_writer_noraw; [reflexivity|apply RoleMap_ren_entries]. Qed.
#[export] Hint Rewrite RoleMap_ren_obj : ren.
Lemma RoleMap_ren_call_ok g c : keeps g -> RoleMap_call_ok c = true -> RoleMap_call_ok (RoleMap_ren_call g c) = true.
Proof. intro G. destruct c; cbn [RoleMap_call_ok RoleMap_ren_call]; ren_ok. Qed.
Lemma RoleMap_ren_ok g cs : keeps g -> RoleMap_ok cs = true -> RoleMap_ok (RoleMap_ren g cs) = true.
Proof. intro G. apply ren_noraw_ok; intros c; apply RoleMap_ren_call_ok; exact G. Qed.
#[export] Hint Resolve RoleMap_ren_ok : renok.

Lemma ClassMap_ren_entries g c : ClassMap_entries (ClassMap_ren_call g c) = map_entries g (ClassMap_entries c).
Proof. destruct c; cbn [ClassMap_entries ClassMap_ren_call]; ren_call. Qed.
#[export] Hint Resolve ClassMap_ren_entries : renl.
Lemma ClassMap_ren_obj g cs : ClassMap_obj (ClassMap_ren g cs) = map_refs g (ClassMap_obj cs).
Proof. apply ren_writer; [reflexivity|apply ClassMap_ren_entries]. Qed.
#[export] Hint Rewrite ClassMap_ren_obj : ren.
Lemma ClassMap_ren_call_ok g c : keeps g -> ClassMap_call_ok c = true -> ClassMap_call_ok (ClassMap_ren_call g c) = true.
Proof. intro G. destruct c; cbn [ClassMap_call_ok ClassMap_ren_call]; ren_ok. Qed.
Lemma ClassMap_ren_ok g cs : keeps g -> ClassMap_ok cs = true -> ClassMap_ok (ClassMap_ren g cs) = true.
Proof. intro G. apply ren_raws_ok; [exact G|intros c; apply ClassMap_ren_call_ok; exact G]. Qed.
#[export] Hint Resolve ClassMap_ren_ok : renok.

Lemma NamespaceRoleMap_ren_entries g c : NamespaceRoleMap_entries (NamespaceRoleMap_ren_call g c) = map_entries g (NamespaceRoleMap_entries c).
Proof. destruct c; cbn [NamespaceRoleMap_entries NamespaceRoleMap_ren_call]; ren_call. Qed.
#[export] Hint Resolve NamespaceRoleMap_ren_entries : renl.
Lemma NamespaceRoleMap_ren_obj g cs : NamespaceRoleMap_obj (NamespaceRoleMap_ren g cs) = map_refs g (NamespaceRoleMap_obj cs).
Proof. apply ren_writer; [reflexivity|apply NamespaceRoleMap_ren_entries]. Qed.
#[export] Hint Rewrite NamespaceRoleMap_ren_obj : ren.
Lemma NamespaceRoleMap_ren_call_ok g c : keeps g -> NamespaceRoleMap_call_ok c = true -> NamespaceRoleMap_call_ok (NamespaceRoleMap_ren_call g c) = true.
Proof. intro G. destruct c; cbn [NamespaceRoleMap_call_ok NamespaceRoleMap_ren_call]; ren_ok. Qed.
Lemma NamespaceRoleMap_ren_ok g cs : keeps g -> NamespaceRoleMap_ok cs = true -> NamespaceRoleMap_ok (NamespaceRoleMap_ren g cs) = true.
Proof. intro G. apply ren_raws_ok; [exact G|intros c; apply NamespaceRoleMap_ren_call_ok; exact G]. Qed.
#[export] Hint Resolve NamespaceRoleMap_ren_ok : renok.

Lemma Namespace_ren_entries g c : Namespace_entries (Namespace_ren_call g c) = map_entries g (Namespace_entries c).
Proof. destruct c; cbn [Namespace_entries Namespace_ren_call]; ren_call. Qed.
#[export] Hint Resolve Namespace_ren_entries : renl.
Lemma Namespace_ren_obj g cs : Namespace_obj (Namespace_ren g cs) = map_refs g (Namespace_obj cs).
Proof. apply ren_writer; [reflexivity|apply Namespace_ren_entries]. Qed.
#[export] Hint Rewrite Namespace_ren_obj : ren.
Lemma Namespace_ren_call_ok g c : keeps g -> Namespace_call_ok c = true -> Namespace_call_ok (Namespace_ren_call g c) = true.
Proof. intro G. destruct c; cbn [Namespace_call_ok Namespace_ren_call]; ren_ok. Qed.
Lemma Namespace_ren_ok g cs : keeps g -> Namespace_ok cs = true -> Namespace_ok (Namespace_ren g cs) = true.
Proof. intro G. apply ren_raws_ok; [exact G|intros c; apply Namespace_ren_call_ok; exact G]. Qed.
#[export] Hint Resolve Namespace_ren_ok : renok.

Lemma StructTreeRoot_ren_entries g c : StructTreeRoot_entries (StructTreeRoot_ren_call g c) = map_entries g (StructTreeRoot_entries c).
Proof. destruct c; cbn [StructTreeRoot_entries StructTreeRoot_ren_call]; ren_call. Qed.
#[export] Hint Resolve StructTreeRoot_ren_entries : renl.
Lemma StructTreeRoot_ren_obj g cs : StructTreeRoot_obj (StructTreeRoot_ren g cs) = map_refs g (StructTreeRoot_obj cs).
Proof. apply ren_writer; [reflexivity|apply StructTreeRoot_ren_entries]. Qed.
#[export] Hint Rewrite StructTreeRoot_ren_obj : ren.
Lemma StructTreeRoot_ren_call_ok g c : keeps g -> StructTreeRoot_call_ok c = true -> StructTreeRoot_call_ok (StructTreeRoot_ren_call g c) = true.
Proof. intro G. destruct c; cbn [StructTreeRoot_call_ok StructTreeRoot_ren_call]; ren_ok. Qed.
Lemma StructTreeRoot_ren_ok g cs : keeps g -> StructTreeRoot_ok cs = true -> StructTreeRoot_ok (StructTreeRoot_ren g cs) = true.
Proof. intro G. apply ren_raws_ok; [exact G|intros c; apply StructTreeRoot_ren_call_ok; exact G]. Qed.
#[export] Hint Resolve StructTreeRoot_ren_ok : renok.

Lemma MarkInfo_ren_entries g c : MarkInfo_entries (MarkInfo_ren_call g c) = map_entries g (MarkInfo_entries c).
Proof. destruct c; cbn [MarkInfo_entries MarkInfo_ren_call]; ren_call. Qed.
#[export] Hint Resolve MarkInfo_ren_entries : renl.
Lemma MarkInfo_ren_obj g cs : MarkInfo_obj (MarkInfo_ren g cs) = map_refs g (MarkInfo_obj cs).
Proof. apply ren_writer; [reflexivity|apply MarkInfo_ren_entries]. Qed.
#[export] Hint Rewrite MarkInfo_ren_obj : ren.
Lemma MarkInfo_ren_call_ok g c : keeps g -> MarkInfo_call_ok c = true -> MarkInfo_call_ok (MarkInfo_ren_call g c) = true.
Proof. intro G. destruct c; cbn [MarkInfo_call_ok MarkInfo_ren_call]; ren_ok. Qed.
Lemma MarkInfo_ren_ok g cs : keeps g -> MarkInfo_ok cs = true -> MarkInfo_ok (MarkInfo_ren g cs) = true.
Proof. intro G. apply ren_raws_ok; [exact G|intros c; apply MarkInfo_ren_call_ok; exact G]. Qed.
#[export] Hint Resolve MarkInfo_ren_ok : renok.

Lemma Reference_ren_entries g c : Reference_entries (Reference_ren_call g c) = map_entries g (Reference_entries c).
Proof. destruct c; cbn [Reference_entries Reference_ren_call]; ren_call. Qed.
#[export] Hint Resolve Reference_ren_entries : renl.
Lemma Reference_ren_obj g cs : Reference_obj (Reference_ren g cs) = map_refs g (Reference_obj cs).
Proof. apply ren_writer; [reflexivity|apply Reference_ren_entries]. Qed.
#[export] Hint Rewrite Reference_ren_obj : ren.
Lemma Reference_ren_call_ok g c : keeps g -> Reference_call_ok c = true -> Reference_call_ok (Reference_ren_call g c) = true.
Proof. intro G. destruct c; cbn [Reference_call_ok Reference_ren_call]; ren_ok. Qed.
Lemma Reference_ren_ok g cs : keeps g -> Reference_ok cs = true -> Reference_ok (Reference_ren g cs) = true.
Proof. intro G. apply ren_raws_ok; [exact G|intros c; apply Reference_ren_call_ok; exact G]. Qed.
#[export] Hint Resolve Reference_ren_ok : renok.

Lemma ImageXObject_ren_entries g c : ImageXObject_entries (ImageXObject_ren_call g c) = option_map (map_entries g) (ImageXObject_entries c).
Proof. destruct c; cbn [ImageXObject_entries ImageXObject_ren_call]; ren_call_opt. Qed.
Lemma ImageXObject_ren_dict g cs : ImageXObject_dict (ImageXObject_ren g cs) = option_map (map_entries g) (ImageXObject_dict cs).
Proof. apply ren_stream_writer; [reflexivity|apply Stream_ren_entries|apply ImageXObject_ren_entries]. Qed.
Lemma ImageXObject_ren_call_ok g c : keeps g -> ImageXObject_call_ok c = true -> ImageXObject_call_ok (ImageXObject_ren_call g c) = true.
Proof. intro G. destruct c; cbn [ImageXObject_call_ok ImageXObject_ren_call]; ren_ok. Qed.
Lemma ImageXObject_ren_ok g cs : keeps g -> ImageXObject_ok cs = true -> ImageXObject_ok (ImageXObject_ren g cs) = true.
Proof. intro G. apply ren_streams_ok; [exact G|intros c; apply Stream_ren_call_ok; exact G|intros c; apply ImageXObject_ren_call_ok; exact G]. Qed.
#[export] Hint Resolve ImageXObject_ren_ok : renok.

Lemma FormXObject_ren_entries g c : FormXObject_entries (FormXObject_ren_call g c) = option_map (map_entries g) (FormXObject_entries c).
Proof. destruct c; cbn [FormXObject_entries FormXObject_ren_call]; ren_call_opt. Qed.
Lemma FormXObject_ren_dict g cs : FormXObject_dict (FormXObject_ren g cs) = option_map (map_entries g) (FormXObject_dict cs).
Proof. apply ren_stream_writer; [reflexivity|apply Stream_ren_entries|apply FormXObject_ren_entries]. Qed.
Lemma FormXObject_ren_call_ok g c : keeps g -> FormXObject_call_ok c = true -> FormXObject_call_ok (FormXObject_ren_call g c) = true.
Proof. intro G. destruct c; cbn [FormXObject_call_ok FormXObject_ren_call]; ren_ok. Qed.
Lemma FormXObject_ren_ok g cs : keeps g -> FormXObject_ok cs = true -> FormXObject_ok (FormXObject_ren g cs) = true.
Proof. intro G. apply ren_streams_ok; [exact G|intros c; apply Stream_ren_call_ok; exact G|intros c; apply FormXObject_ren_call_ok; exact G]. Qed.
#[export] Hint Resolve FormXObject_ren_ok : renok.

Lemma SampledFunction_ren_entries g c : SampledFunction_entries (SampledFunction_ren_call g c) = option_map (map_entries g) (SampledFunction_entries c).
Proof. destruct c; cbn [SampledFunction_entries SampledFunction_ren_call]; ren_call_opt. Qed.
Lemma SampledFunction_ren_dict g cs : SampledFunction_dict (SampledFunction_ren g cs) = option_map (map_entries g) (SampledFunction_dict cs).
Proof. apply ren_stream_writer; [reflexivity|apply Stream_ren_entries|apply SampledFunction_ren_entries]. Qed.
Lemma SampledFunction_ren_call_ok g c : keeps g -> SampledFunction_call_ok c = true -> SampledFunction_call_ok (SampledFunction_ren_call g c) = true.
Proof. intro G. destruct c; cbn [SampledFunction_call_ok SampledFunction_ren_call]; ren_ok. Qed.
Lemma SampledFunction_ren_ok g cs : keeps g -> SampledFunction_ok cs = true -> SampledFunction_ok (SampledFunction_ren g cs) = true.
Proof. intro G. apply ren_streams_ok; [exact G|intros c; apply Stream_ren_call_ok; exact G|intros c; apply SampledFunction_ren_call_ok; exact G]. Qed.
#[export] Hint Resolve SampledFunction_ren_ok : renok.

Lemma ExponentialFunction_ren_entries g c : ExponentialFunction_entries (ExponentialFunction_ren_call g c) = map_entries g (ExponentialFunction_entries c).
Proof. destruct c; cbn [ExponentialFunction_entries ExponentialFunction_ren_call]; ren_call. Qed.
#[export] Hint Resolve ExponentialFunction_ren_entries : renl.
Lemma ExponentialFunction_ren_obj g cs : ExponentialFunction_obj (ExponentialFunction_ren g cs) = map_refs g (ExponentialFunction_obj cs).
Proof. apply ren_writer; [reflexivity|apply ExponentialFunction_ren_entries]. Qed.
#[export] Hint Rewrite ExponentialFunction_ren_obj : ren.
Lemma ExponentialFunction_ren_call_ok g c : keeps g -> ExponentialFunction_call_ok c = true -> ExponentialFunction_call_ok (ExponentialFunction_ren_call g c) = true.
Proof. intro G. destruct c; cbn [ExponentialFunction_call_ok ExponentialFunction_ren_call]; ren_ok. Qed.
Lemma ExponentialFunction_ren_ok g cs : keeps g -> ExponentialFunction_ok cs = true -> ExponentialFunction_ok (ExponentialFunction_ren g cs) = true.
Proof. intro G. apply ren_raws_ok; [exact G|intros c; apply ExponentialFunction_ren_call_ok; exact G]. Qed.
#[export] Hint Resolve ExponentialFunction_ren_ok : renok.

Lemma StitchingFunction_ren_entries g c : StitchingFunction_entries (StitchingFunction_ren_call g c) = map_entries g (StitchingFunction_entries c).
Proof. destruct c; cbn [StitchingFunction_entries StitchingFunction_ren_call]; ren_call. Qed.
#[export] Hint Resolve StitchingFunction_ren_entries : renl.
Lemma StitchingFunction_ren_obj g cs : StitchingFunction_obj (StitchingFunction_ren g cs) = map_refs g (StitchingFunction_obj cs).
Proof. apply ren_writer; [reflexivity|apply StitchingFunction_ren_entries]. Qed.
#[export] Hint Rewrite StitchingFunction_ren_obj : ren.
Lemma StitchingFunction_ren_call_ok g c : keeps g -> StitchingFunction_call_ok c = true -> StitchingFunction_call_ok (StitchingFunction_ren_call g c) = true.
Proof. intro G. destruct c; cbn [StitchingFunction_call_ok StitchingFunction_ren_call]; ren_ok. Qed.
Lemma StitchingFunction_ren_ok g cs : keeps g -> StitchingFunction_ok cs = true -> StitchingFunction_ok (StitchingFunction_ren g cs) = true.
Proof. intro G. apply ren_raws_ok; [exact G|intros c; apply StitchingFunction_ren_call_ok; exact G]. Qed.
#[export] Hint Resolve StitchingFunction_ren_ok : renok.

Lemma PostScriptFunction_ren_entries g c : PostScriptFunction_entries (PostScriptFunction_ren_call g c) = option_map (map_entries g) (PostScriptFunction_entries c).
Proof. destruct c; cbn [PostScriptFunction_entries PostScriptFunction_ren_call]; ren_call_opt. Qed.
Lemma PostScriptFunction_ren_dict g cs : PostScriptFunction_dict (PostScriptFunction_ren g cs) = option_map (map_entries g) (PostScriptFunction_dict cs).
Proof. apply ren_stream_writer; [reflexivity|apply Stream_ren_entries|apply PostScriptFunction_ren_entries]. Qed.
Lemma PostScriptFunction_ren_call_ok g c : keeps g -> PostScriptFunction_call_ok c = true -> PostScriptFunction_call_ok (PostScriptFunction_ren_call g c) = true.
Proof. intro G. destruct c; cbn [PostScriptFunction_call_ok PostScriptFunction_ren_call]; ren_ok. Qed.
Lemma PostScriptFunction_ren_ok g cs : keeps g -> PostScriptFunction_ok cs = true -> PostScriptFunction_ok (PostScriptFunction_ren g cs) = true.
Proof. intro G. apply ren_streams_ok; [exact G|intros c; apply Stream_ren_call_ok; exact G|intros c; apply PostScriptFunction_ren_call_ok; exact G]. Qed.
#[export] Hint Resolve PostScriptFunction_ren_ok : renok.

Lemma Metadata_ren_entries g c : Metadata_entries (Metadata_ren_call g c) = option_map (map_entries g) (Metadata_entries c).
Proof. destruct c; cbn [Metadata_entries Metadata_ren_call]; ren_call_opt. Qed.
Lemma Metadata_ren_dict g cs : Metadata_dict (Metadata_ren g cs) = option_map (map_entries g) (Metadata_dict cs).
Proof. apply ren_stream_writer; [reflexivity|apply Stream_ren_entries|apply Metadata_ren_entries]. Qed.
Lemma Metadata_ren_call_ok g c : keeps g -> Metadata_call_ok c = true -> Metadata_call_ok (Metadata_ren_call g c) = true.
Proof. intro G. destruct c; cbn [Metadata_call_ok Metadata_ren_call]; ren_ok. Qed.
Lemma Metadata_ren_ok g cs : keeps g -> Metadata_ok cs = true -> Metadata_ok (Metadata_ren g cs) = true.
Proof. intro G. apply ren_streams_ok; [exact G|intros c; apply Stream_ren_call_ok; exact G|intros c; apply Metadata_ren_call_ok; exact G]. Qed.
#[export] Hint Resolve Metadata_ren_ok : renok.

Lemma Encoding_ren_entries g c : Encoding_entries (Encoding_ren_call g c) = map_entries g (Encoding_entries c).
Proof. destruct c; cbn [Encoding_entries Encoding_ren_call]; ren_call. Qed.
#[export] Hint Resolve Encoding_ren_entries : renl.
Lemma Encoding_ren_obj g cs : Encoding_obj (Encoding_ren g cs) = map_refs g (Encoding_obj cs).
Proof. apply ren_writer; [reflexivity|apply Encoding_ren_entries]. Qed.
#[export] Hint Rewrite Encoding_ren_obj : ren.
Lemma Encoding_ren_call_ok g c : keeps g -> Encoding_call_ok c = true -> Encoding_call_ok (Encoding_ren_call g c) = true.
Proof. intro G. destruct c; cbn [Encoding_call_ok Encoding_ren_call]; ren_ok. Qed.
Lemma Encoding_ren_ok g cs : keeps g -> Encoding_ok cs = true -> Encoding_ok (Encoding_ren g cs) = true.
Proof. intro G. apply ren_raws_ok; [exact G|intros c; apply Encoding_ren_call_ok; exact G]. Qed.
#[export] Hint Resolve Encoding_ren_ok : renok.

Lemma Type1Font_ren_entries g c : Type1Font_entries (Type1Font_ren_call g c) = map_entries g (Type1Font_entries c).
Proof. destruct c; cbn [Type1Font_entries Type1Font_ren_call]; ren_call. Qed.
#[export] Hint Resolve Type1Font_ren_entries : renl.
Lemma Type1Font_ren_obj g cs : Type1Font_obj (Type1Font_ren g cs) = map_refs g (Type1Font_obj cs).
Proof. apply ren_writer; [reflexivity|apply Type1Font_ren_entries]. Qed.
#[export] Hint Rewrite Type1Font_ren_obj : ren.
Lemma Type1Font_ren_call_ok g c : keeps g -> Type1Font_call_ok c = true -> Type1Font_call_ok (Type1Font_ren_call g c) = true.
Proof. intro G. destruct c; cbn [Type1Font_call_ok Type1Font_ren_call]; ren_ok. Qed.
Lemma Type1Font_ren_ok g cs : keeps g -> Type1Font_ok cs = true -> Type1Font_ok (Type1Font_ren g cs) = true.
Proof. intro G. apply ren_raws_ok; [exact G|intros c; apply Type1Font_ren_call_ok; exact G]. Qed.
#[export] Hint Resolve Type1Font_ren_ok : renok.

Lemma Type3Font_ren_entries g c : Type3Font_entries (Type3Font_ren_call g c) = map_entries g (Type3Font_entries c).
Proof. destruct c; cbn [Type3Font_entries Type3Font_ren_call]; ren_call. Qed.
#[export] Hint Resolve Type3Font_ren_entries : renl.
Lemma Type3Font_ren_obj g cs : Type3Font_obj (Type3Font_ren g cs) = map_refs g (Type3Font_obj cs).
Proof. apply ren_writer; [reflexivity|apply Type3Font_ren_entries]. Qed.
#[export] Hint Rewrite Type3Font_ren_obj : ren.
Lemma Type3Font_ren_call_ok g c : keeps g -> Type3Font_call_ok c = true -> Type3Font_call_ok (Type3Font_ren_call g c) = true.
Proof. intro G. destruct c; cbn [Type3Font_call_ok Type3Font_ren_call]; ren_ok. Qed.
Lemma Type3Font_ren_ok g cs : keeps g -> Type3Font_ok cs = true -> Type3Font_ok (Type3Font_ren g cs) = true.
Proof. intro G. apply ren_raws_ok; [exact G|intros c; apply Type3Font_ren_call_ok; exact G]. Qed.
#[export] Hint Resolve Type3Font_ren_ok : renok.

Lemma Type0Font_ren_entries g c : Type0Font_entries (Type0Font_ren_call g c) = map_entries g (Type0Font_entries c).
Proof. destruct c; cbn [Type0Font_entries Type0Font_ren_call]; ren_call. Qed.
#[export] Hint Resolve Type0Font_ren_entries : renl.
Lemma Type0Font_ren_obj g cs : Type0Font_obj (Type0Font_ren g cs) = map_refs g (Type0Font_obj cs).
Proof. apply ren_writer; [reflexivity|apply Type0Font_ren_entries]. Qed.
#[export] Hint Rewrite Type0Font_ren_obj : ren.
Lemma Type0Font_ren_call_ok g c : keeps g -> Type0Font_call_ok c = true -> Type0Font_call_ok (Type0Font_ren_call g c) = true.
Proof. intro G. destruct c; cbn [Type0Font_call_ok Type0Font_ren_call]; ren_ok. Qed.
Lemma Type0Font_ren_ok g cs : keeps g -> Type0Font_ok cs = true -> Type0Font_ok (Type0Font_ren g cs) = true.
Proof. intro G. apply ren_raws_ok; [exact G|intros c; apply Type0Font_ren_call_ok; exact G]. Qed.
#[export] Hint Resolve Type0Font_ren_ok : renok.

Lemma CidFont_ren_entries g c : CidFont_entries (CidFont_ren_call g c) = map_entries g (CidFont_entries c).
Proof. destruct c; cbn [CidFont_entries CidFont_ren_call]; ren_call. Qed.
#[export] Hint Resolve CidFont_ren_entries : renl.
Lemma CidFont_ren_obj g cs : CidFont_obj (CidFont_ren g cs) = map_refs g (CidFont_obj cs).
Proof. apply ren_writer; [reflexivity|apply CidFont_ren_entries]. Qed.
#[export] Hint Rewrite CidFont_ren_obj : ren.
Lemma CidFont_ren_call_ok g c : keeps g -> CidFont_call_ok c = true -> CidFont_call_ok (CidFont_ren_call g c) = true.
Proof. intro G. destruct c; cbn [CidFont_call_ok CidFont_ren_call]; ren_ok. Qed.
Lemma CidFont_ren_ok g cs : keeps g -> CidFont_ok cs = true -> CidFont_ok (CidFont_ren g cs) = true.
Proof. intro G. apply ren_raws_ok; [exact G|intros c; apply CidFont_ren_call_ok; exact G]. Qed.
#[export] Hint Resolve CidFont_ren_ok : renok.

Lemma Cmap_ren_entries g c : Cmap_entries (Cmap_ren_call g c) = option_map (map_entries g) (Cmap_entries c).
Proof. destruct c; cbn [Cmap_entries Cmap_ren_call]; ren_call_opt. Qed.
Lemma Cmap_ren_dict g cs : Cmap_dict (Cmap_ren g cs) = option_map (map_entries g) (Cmap_dict cs).
Proof. apply ren_stream_writer; [reflexivity|apply Stream_ren_entries|apply Cmap_ren_entries]. Qed.
Lemma Cmap_ren_call_ok g c : keeps g -> Cmap_call_ok c = true -> Cmap_call_ok (Cmap_ren_call g c) = true.
Proof. intro G. destruct c; cbn [Cmap_call_ok Cmap_ren_call]; ren_ok. Qed.
Lemma Cmap_ren_ok g cs : keeps g -> Cmap_ok cs = true -> Cmap_ok (Cmap_ren g cs) = true.
Proof. intro G. apply ren_streams_ok; [exact G|intros c; apply Stream_ren_call_ok; exact G|intros c; apply Cmap_ren_call_ok; exact G]. Qed.
#[export] Hint Resolve Cmap_ren_ok : renok.

Lemma DeveloperExtension_ren_entries g c : DeveloperExtension_entries (DeveloperExtension_ren_call g c) = map_entries g (DeveloperExtension_entries c).
Proof. destruct c; cbn [DeveloperExtension_entries DeveloperExtension_ren_call]; ren_call. Qed.
#[export] Hint Resolve DeveloperExtension_ren_entries : renl.
Lemma DeveloperExtension_ren_obj g cs : DeveloperExtension_obj (DeveloperExtension_ren g cs) = map_refs g (DeveloperExtension_obj cs).
Proof. apply ren_writer; [reflexivity|apply DeveloperExtension_ren_entries]. Qed.
#[export] Hint Rewrite DeveloperExtension_ren_obj : ren.
Lemma DeveloperExtension_ren_call_ok g c : keeps g -> DeveloperExtension_call_ok c = true -> DeveloperExtension_call_ok (DeveloperExtension_ren_call g c) = true.
Proof. intro G. destruct c; cbn [DeveloperExtension_call_ok DeveloperExtension_ren_call]; ren_ok. Qed.
Lemma DeveloperExtension_ren_ok g cs : keeps g -> DeveloperExtension_ok cs = true -> DeveloperExtension_ok (DeveloperExtension_ren g cs) = true.
Proof. intro G. apply ren_raws_ok; [exact G|intros c; apply DeveloperExtension_ren_call_ok; exact G]. Qed.
#[export] Hint Resolve DeveloperExtension_ren_ok : renok.

Lemma ViewerPreferences_ren_entries g c : ViewerPreferences_entries (ViewerPreferences_ren_call g c) = option_map (map_entries g) (ViewerPreferences_entries c).
Proof. destruct c; cbn [ViewerPreferences_entries ViewerPreferences_ren_call]; ren_call_opt. Qed.
Lemma ViewerPreferences_ren_obj g cs : ViewerPreferences_obj (ViewerPreferences_ren g cs) = option_map (map_refs g) (ViewerPreferences_obj cs).
Proof. apply ren_writer_opt; [reflexivity|apply ViewerPreferences_ren_entries]. Qed.
#[export] Hint Rewrite ViewerPreferences_ren_obj : ren.
Lemma ViewerPreferences_ren_call_ok g c : keeps g -> ViewerPreferences_call_ok c = true -> ViewerPreferences_call_ok (ViewerPreferences_ren_call g c) = true.
Proof. intro G. destruct c; cbn [ViewerPreferences_call_ok ViewerPreferences_ren_call]; ren_ok. Qed.
Lemma ViewerPreferences_ren_ok g cs : keeps g -> ViewerPreferences_ok cs = true -> ViewerPreferences_ok (ViewerPreferences_ren g cs) = true.
Proof. intro G. apply ren_raws_ok; [exact G|intros c; apply ViewerPreferences_ren_call_ok; exact G]. Qed.
#[export] Hint Resolve ViewerPreferences_ren_ok : renok.

Lemma PageLabel_ren_entries g c : PageLabel_entries (PageLabel_ren_call g c) = map_entries g (PageLabel_entries c).
Proof. destruct c; cbn [PageLabel_entries PageLabel_ren_call]; ren_call. Qed.
#[export] Hint Resolve PageLabel_ren_entries : renl.
Lemma PageLabel_ren_obj g cs : PageLabel_obj (PageLabel_ren g cs) = map_refs g (PageLabel_obj cs).
Proof. apply ren_writer; [reflexivity|apply PageLabel_ren_entries]. Qed.
#[export] Hint Rewrite PageLabel_ren_obj : ren.
Lemma PageLabel_ren_call_ok g c : keeps g -> PageLabel_call_ok c = true -> PageLabel_call_ok (PageLabel_ren_call g c) = true.
Proof. intro G. destruct c; cbn [PageLabel_call_ok PageLabel_ren_call]; ren_ok. Qed.
Lemma PageLabel_ren_ok g cs : keeps g -> PageLabel_ok cs = true -> PageLabel_ok (PageLabel_ren g cs) = true.
Proof. intro G. apply ren_raws_ok; [exact G|intros c; apply PageLabel_ren_call_ok; exact G]. Qed.
#[export] Hint Resolve PageLabel_ren_ok : renok.

Lemma DocumentInfo_ren_entries g c : DocumentInfo_entries (DocumentInfo_ren_call g c) = map_entries g (DocumentInfo_entries c).
Proof. destruct c; cbn [DocumentInfo_entries DocumentInfo_ren_call]; ren_call. Qed.
#[export] Hint Resolve DocumentInfo_ren_entries : renl.
Lemma DocumentInfo_ren_obj g cs : DocumentInfo_obj (DocumentInfo_ren g cs) = map_refs g (DocumentInfo_obj cs).
Proof. apply ren_writer; [reflexivity|apply DocumentInfo_ren_entries]. Qed.
#[export] Hint Rewrite DocumentInfo_ren_obj : ren.
Lemma DocumentInfo_ren_call_ok g c : keeps g -> DocumentInfo_call_ok c = true -> DocumentInfo_call_ok (DocumentInfo_ren_call g c) = true.
Proof. intro G. destruct c; cbn [DocumentInfo_call_ok DocumentInfo_ren_call]; ren_ok. Qed.
Lemma DocumentInfo_ren_ok g cs : keeps g -> DocumentInfo_ok cs = true -> DocumentInfo_ok (DocumentInfo_ren g cs) = true.
Proof. intro G. apply ren_raws_ok; [exact G|intros c; apply DocumentInfo_ren_call_ok; exact G]. Qed.
#[export] Hint Resolve DocumentInfo_ren_ok : renok.

Lemma Transition_ren_entries g c : Transition_entries (Transition_ren_call g c) = map_entries g (Transition_entries c).
Proof. destruct c; cbn [Transition_entries Transition_ren_call]; ren_call. Qed.
#[export] Hint Resolve Transition_ren_entries : renl.
Lemma Transition_ren_obj g cs : Transition_obj (Transition_ren g cs) = map_refs g (Transition_obj cs).
Proof. apply ren_writer; [reflexivity|apply Transition_ren_entries]. Qed.
#[export] Hint Rewrite Transition_ren_obj : ren.
Lemma Transition_ren_call_ok g c : keeps g -> Transition_call_ok c = true -> Transition_call_ok (Transition_ren_call g c) = true.
Proof. intro G. destruct c; cbn [Transition_call_ok Transition_ren_call]; ren_ok. Qed.
Lemma Transition_ren_ok g cs : keeps g -> Transition_ok cs = true -> Transition_ok (Transition_ren g cs) = true.
Proof. intro G. apply ren_raws_ok; [exact G|intros c; apply Transition_ren_call_ok; exact G]. Qed.
#[export] Hint Resolve Transition_ren_ok : renok.

Lemma Names_ren_entries g c : Names_entries (Names_ren_call g c) = map_entries g (Names_entries c).
Proof. destruct c; cbn [Names_entries Names_ren_call]; ren_call. Qed.
#[export] Hint Resolve Names_ren_entries : renl.
Lemma Names_ren_obj g cs : Names_obj (Names_ren g cs) = map_refs g (Names_obj cs).
Proof. apply ren_writer; [reflexivity|apply Names_ren_entries]. Qed.
#[export] Hint Rewrite Names_ren_obj : ren.
Lemma Names_ren_call_ok g c : keeps g -> Names_call_ok c = true -> Names_call_ok (Names_ren_call g c) = true.
Proof. intro G. destruct c; cbn [Names_call_ok Names_ren_call]; ren_ok. Qed.
Lemma Names_ren_ok g cs : keeps g -> Names_ok cs = true -> Names_ok (Names_ren g cs) = true.
Proof. intro G. apply ren_raws_ok; [exact G|intros c; apply Names_ren_call_ok; exact G]. Qed.
#[export] Hint Resolve Names_ren_ok : renok.

Lemma Pages_ren_entries g c : Pages_entries (Pages_ren_call g c) = map_entries g (Pages_entries c).
Proof. destruct c; cbn [Pages_entries Pages_ren_call]; ren_call. Qed.
#[export] Hint Resolve Pages_ren_entries : renl.
Lemma Pages_ren_obj g cs : Pages_obj (Pages_ren g cs) = map_refs g (Pages_obj cs).
Proof. apply ren_writer; [reflexivity|apply Pages_ren_entries]. Qed.
#[export] Hint Rewrite Pages_ren_obj : ren.
Lemma Pages_ren_call_ok g c : keeps g -> Pages_call_ok c = true -> Pages_call_ok (Pages_ren_call g c) = true.
Proof. intro G. destruct c; cbn [Pages_call_ok Pages_ren_call]; ren_ok. Qed.
Lemma Pages_ren_ok g cs : keeps g -> Pages_ok cs = true -> Pages_ok (Pages_ren g cs) = true.
Proof. intro G. apply ren_raws_ok; [exact G|intros c; apply Pages_ren_call_ok; exact G]. Qed.
#[export] Hint Resolve Pages_ren_ok : renok.

Lemma Page_ren_entries g c : Page_entries (Page_ren_call g c) = option_map (map_entries g) (Page_entries c).
Proof. destruct c; cbn [Page_entries Page_ren_call]; ren_call_opt. Qed.
Lemma Page_ren_obj g cs : Page_obj (Page_ren g cs) = option_map (map_refs g) (Page_obj cs).
Proof. apply ren_writer_opt; [reflexivity|apply Page_ren_entries]. Qed.
#[export] Hint Rewrite Page_ren_obj : ren.
Lemma Page_ren_call_ok g c : keeps g -> Page_call_ok c = true -> Page_call_ok (Page_ren_call g c) = true.
Proof. intro G. destruct c; cbn [Page_call_ok Page_ren_call]; ren_ok. Qed.
Lemma Page_ren_ok g cs : keeps g -> Page_ok cs = true -> Page_ok (Page_ren g cs) = true.
Proof. intro G. apply ren_raws_ok; [exact G|intros c; apply Page_ren_call_ok; exact G]. Qed.
#[export] Hint Resolve Page_ren_ok : renok.

Lemma Outline_ren_entries g c : Outline_entries (Outline_ren_call g c) = option_map (map_entries g) (Outline_entries c).
Proof. destruct c; cbn [Outline_entries Outline_ren_call]; ren_call_opt. Qed.
Lemma Outline_ren_obj g cs : Outline_obj (Outline_ren g cs) = option_map (map_refs g) (Outline_obj cs).
Proof. apply ren_writer_opt; [reflexivity|apply Outline_ren_entries]. Qed.
#[export] Hint Rewrite Outline_ren_obj : ren.
Lemma Outline_ren_call_ok g c : keeps g -> Outline_call_ok c = true -> Outline_call_ok (Outline_ren_call g c) = true.
Proof. intro G. destruct c; cbn [Outline_call_ok Outline_ren_call]; ren_ok. Qed.
Lemma Outline_ren_ok g cs : keeps g -> Outline_ok cs = true -> Outline_ok (Outline_ren g cs) = true.
Proof. intro G. apply ren_raws_ok; [exact G|intros c; apply Outline_ren_call_ok; exact G]. Qed.
#[export] Hint Resolve Outline_ren_ok : renok.

Lemma OutlineItem_ren_entries g c : OutlineItem_entries (OutlineItem_ren_call g c) = map_entries g (OutlineItem_entries c).
Proof. destruct c; cbn [OutlineItem_entries OutlineItem_ren_call]; ren_call. Qed.
#[export] Hint Resolve OutlineItem_ren_entries : renl.
Lemma OutlineItem_ren_obj g cs : OutlineItem_obj (OutlineItem_ren g cs) = map_refs g (OutlineItem_obj cs).
Proof. apply ren_writer; [reflexivity|apply OutlineItem_ren_entries]. Qed.
#[export] Hint Rewrite OutlineItem_ren_obj : ren.
Lemma OutlineItem_ren_call_ok g c : keeps g -> OutlineItem_call_ok c = true -> OutlineItem_call_ok (OutlineItem_ren_call g c) = true.
Proof. intro G. destruct c; cbn [OutlineItem_call_ok OutlineItem_ren_call]; ren_ok. Qed.
Lemma OutlineItem_ren_ok g cs : keeps g -> OutlineItem_ok cs = true -> OutlineItem_ok (OutlineItem_ren g cs) = true.
Proof. intro G. apply ren_raws_ok; [exact G|intros c; apply OutlineItem_ren_call_ok; exact G]. Qed.
#[export] Hint Resolve OutlineItem_ren_ok : renok.

Lemma Catalog_ren_entries g c : Catalog_entries (Catalog_ren_call g c) = option_map (map_entries g) (Catalog_entries c).
Proof. destruct c; cbn [Catalog_entries Catalog_ren_call]; ren_call_opt. Qed.
Lemma Catalog_ren_obj g cs : Catalog_obj (Catalog_ren g cs) = option_map (map_refs g) (Catalog_obj cs).
Proof. apply ren_writer_opt; [reflexivity|apply Catalog_ren_entries]. Qed.
#[export] Hint Rewrite Catalog_ren_obj : ren.
Lemma Catalog_ren_call_ok g c : keeps g -> Catalog_call_ok c = true -> Catalog_call_ok (Catalog_ren_call g c) = true.
Proof. intro G. destruct c; cbn [Catalog_call_ok Catalog_ren_call]; ren_ok. Qed.
Lemma Catalog_ren_ok g cs : keeps g -> Catalog_ok cs = true -> Catalog_ok (Catalog_ren g cs) = true.
Proof. intro G. apply ren_raws_ok; [exact G|intros c; apply Catalog_ren_call_ok; exact G]. Qed.
#[export] Hint Resolve Catalog_ren_ok : renok.

(** ** Typed constructors *)

Lemma icc_ren_dict g cs : icc_dict (map (ren_stream g (Stream_ren_call g) (ren_icc g)) cs) = option_map (map_entries g) (icc_dict cs).
Proof.
  apply ren_stream_writer; [reflexivity|apply Stream_ren_entries|]. intro c. rewrite ren_icc_entry. destruct (icc_entry c); reflexivity.
Qed.
Lemma destinations_ren g calls : dict_of Destination_obj (ren_dict (Destination_ren g) calls) = map_refs g (dict_of Destination_obj calls).
Proof. apply ren_dict_of. apply Destination_ren_obj. Qed.
(** The renamed call writes the renamed object; it panics if and only if the call does. *)
Lemma chunk_call_ren_body g c : chunk_call_body (chunk_call_ren g c) = option_map (map_body g) (chunk_call_body c).
Proof.
  destruct c; cbn [chunk_call_body chunk_call_ren].
  all: try (rewrite ?ren_name_tree_obj, ?ren_number_tree_obj, ?destinations_ren, ?ren_fd_obj; autorewrite with ren; reflexivity).
  all: try (autorewrite with ren; match goal with |- option_map _ (option_map _ ?x) = _ => destruct x; reflexivity end).
  all: match goal with |- option_map _ ?x = option_map _ (option_map _ ?y) => replace x with (option_map (map_entries g) y);
    [destruct y; reflexivity|symmetry; first [apply icc_ren_dict|apply Stream_ren_dict|apply EmbeddedFile_ren_dict|apply Metadata_ren_dict|apply ImageXObject_ren_dict
     |apply FormXObject_ren_dict|apply Cmap_ren_dict|apply StreamShading_ren_dict|apply TilingPattern_ren_dict|apply SampledFunction_ren_dict|apply PostScriptFunction_ren_dict]] end.
Qed.
Lemma chunk_call_ren_ok g c : keeps g -> chunk_call_ok c = true -> chunk_call_ok (chunk_call_ren g c) = true.
Proof.
  intro G. destruct c; cbn [chunk_call_ok chunk_call_ren]; try solve [auto with renok].
  - apply map_ok. apply ren_fd_ok. exact G.
  - apply ren_streams_ok; [exact G|intro; apply Stream_ren_call_ok; exact G|apply ren_icc_ok; exact G].
Qed.
