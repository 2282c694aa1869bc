(** Properties C41, C45, C46, C47: per-side attributes, references, name and number trees,
    encoding differences and CID widths. *)

From Coq Require Import ZArith List Lia Bool ZifyBool.
From Verif Require Import Bytes ModelFloat ModelBuf ModelObject ModelColor ModelSmall SpecLex SpecObj SpecText SpecMeans SpecTyped
  SpecColor SpecSmall ProofBasic ProofFloat ProofTyped ProofColor ProofSmall.
Import ListNotations.
Local Open Scope Z_scope.

(** ** C41 *)

Definition sides_forall {T} (p : T -> bool) (s : sides T) : bool :=
  p (s_before s) && p (s_after s) && p (s_start s) && p (s_end s).

Lemma sides_reals_fm : forall s, sides_forall real_ok s = true ->
  fine (sides_reals s) = true /\ (forall v, means (sides_reals s) v ->
  (fun v =>
    (exists a b c d, read_scalar_sides v = Some (a, b, c, d) /\
       real_means (s_before s) a /\ real_means (s_after s) b /\ real_means (s_start s) c /\ real_means (s_end s) d) /\
    (is_array_value v = false <->
     f32_eqb (s_before s) (s_after s) = true /\ f32_eqb (s_before s) (s_start s) = true /\
     f32_eqb (s_before s) (s_end s) = true)) v).
Proof.
  intros s K. unfold sides_forall in K. apply andb_true_iff in K as [K K4]. apply andb_true_iff in K as [K K3].
  apply andb_true_iff in K as [K1 K2]. split.
  - unfold sides_reals, sides_map_primitive. destruct (is_uniform f32_eqb s); [rewrite fine_real; exact K1|].
    cbn [sides_array map]. rewrite fine_array. cbn [forallb]. rewrite !fine_real, K1, K2, K3, K4. reflexivity.
  - intros v M. unfold sides_reals, sides_map_primitive in M. destruct (is_uniform f32_eqb s) eqn:U.
    + unfold is_uniform in U. apply andb_true_iff in U as [U U3]. apply andb_true_iff in U as [U1 U2].
      apply m_real in M. destruct (real_means_scalar _ _ M) as [N _]. split.
      * exists v, v, v, v. split; [destruct v; try reflexivity; discriminate|].
        split; [exact M|]. split; [|split]; eapply real_means_eqb; eassumption.
      * rewrite N. split; auto.
    + cbn [sides_array map] in M. apply means_arr4 in M as (a & b & c & d & -> & M1 & M2 & M3 & M4).
      apply m_real in M1. apply m_real in M2. apply m_real in M3. apply m_real in M4. split.
      * exists a, b, c, d. split; [reflexivity|auto].
      * split; [discriminate|]. intros (U1 & U2 & U3). unfold is_uniform in U. rewrite U1, U2, U3 in U. discriminate.
Qed.

(** Thickness and padding: the reader gets the number of every side back, and one single
    value is written exactly if the four numbers are equal. *)
Theorem C41_numbers : forall s, sides_forall real_ok s = true ->
  reads (sides_reals s) (fun v =>
    (exists a b c d, read_scalar_sides v = Some (a, b, c, d) /\
       real_means (s_before s) a /\ real_means (s_after s) b /\ real_means (s_start s) c /\ real_means (s_end s) d) /\
    (is_array_value v = false <->
     f32_eqb (s_before s) (s_after s) = true /\ f32_eqb (s_before s) (s_start s) = true /\
     f32_eqb (s_before s) (s_end s) = true)).
Proof. intros s K. destruct (sides_reals_fm s K). apply reads_fine; assumption. Qed.

Lemma sides_colors_fm : forall s, sides_forall (fun c => forallb real_ok (l3 c)) s = true ->
  fine (sides_colors s) = true /\ (forall v, means (sides_colors s) v ->
  (fun v =>
    exists a b c d, read_color_sides v = Some (a, b, c, d) /\
      is_reals (l3 (s_before s)) a /\ is_reals (l3 (s_after s)) b /\
      is_reals (l3 (s_start s)) c /\ is_reals (l3 (s_end s)) d) v).
Proof.
  intros s K. unfold sides_forall in K. apply andb_true_iff in K as [K K4]. apply andb_true_iff in K as [K K3].
  apply andb_true_iff in K as [K1 K2].
  assert (E : forall c : f3, OArray (map OPrim (map PReal (l3 c))) = reals (l3 c)).
  { intro c. unfold reals. rewrite map_map. reflexivity. }
  split.
  - unfold sides_colors, sides_iter. destruct (is_uniform f3_eqb s); [rewrite E, fine_reals; exact K1|].
    cbn [sides_array map]. rewrite !E, fine_array. cbn [forallb]. rewrite !fine_reals, K1, K2, K3, K4. reflexivity.
  - intros v M. unfold sides_colors, sides_iter in M. destruct (is_uniform f3_eqb s) eqn:U.
    + rewrite E in M. apply m_reals in M.
      assert (T : forall w, forallb real_ok (l3 w) = true -> f3_eqb (s_before s) w = true -> is_reals (l3 w) v).
      { intros w Kw Ew. destruct M as (vs & -> & F). exists vs. split; [reflexivity|].
        destruct (s_before s) as [[b1 b2] b3], w as [[w1 w2] w3]. cbn [l3 f3_eqb forallb] in *.
        apply andb_true_iff in Kw as [? Kw]. apply andb_true_iff in Kw as [? Kw]. apply andb_true_iff in Kw as [? _].
        apply andb_true_iff in Ew as [Ew ?]. apply andb_true_iff in Ew as [? ?].
        inversion F as [|? ? ? ? R1 F1]; subst. inversion F1 as [|? ? ? ? R2 F2]; subst. inversion F2 as [|? ? ? ? R3 F3]; subst. inversion F3; subst.
        repeat (apply Forall2_cons; [eapply real_means_eqb; eassumption|]). constructor. }
      unfold is_uniform in U. apply andb_true_iff in U as [U U3]. apply andb_true_iff in U as [U1 U2].
      exists v, v, v, v. split.
      * destruct M as (vs & -> & F). destruct (s_before s) as [[b1 b2] b3]. cbn [l3] in F.
        inversion F as [|? ? ? ? R1 F1]; subst. inversion F1 as [|? ? ? ? R2 F2]; subst. inversion F2 as [|? ? ? ? R3 F3]; subst. inversion F3; subst. reflexivity.
      * split; [exact M|]. auto.
    + cbn [sides_array map] in M. rewrite !E in M. apply means_arr4 in M as (a & b & c & d & -> & M1 & M2 & M3 & M4).
      exists a, b, c, d. split; [reflexivity|]. split; [|split; [|split]]; apply m_reals; assumption.
Qed.

(** Border colours. *)
Theorem C41_colors : forall s, sides_forall (fun c => forallb real_ok (in_order3 c)) s = true ->
  reads (sides_colors s) (fun v =>
    exists a b c d, read_color_sides v = Some (a, b, c, d) /\
      is_reals (in_order3 (s_before s)) a /\ is_reals (in_order3 (s_after s)) b /\
      is_reals (in_order3 (s_start s)) c /\ is_reals (in_order3 (s_end s)) d).
Proof. intros s K. destruct (sides_colors_fm s K). apply reads_fine; assumption. Qed.

Lemma border_style_eqb_spec a b : border_style_eqb a b = true <-> a = b.
Proof. destruct a, b; cbn; split; congruence. Qed.

Lemma sides_styles_fm : forall s,
  fine (sides_styles s) = true /\ (forall v, means (sides_styles s) v ->
  (fun v =>
    (exists a b c d, read_scalar_sides v = Some (a, b, c, d) /\
       a = VName (iso_border_style (s_before s)) /\ b = VName (iso_border_style (s_after s)) /\
       c = VName (iso_border_style (s_start s)) /\ d = VName (iso_border_style (s_end s))) /\
    (is_array_value v = false <-> s_before s = s_after s /\ s_before s = s_start s /\ s_before s = s_end s)) v).
Proof.
  intro s.
  assert (E : forall b, border_style_name b = iso_border_style b) by (intros []; reflexivity).
  split.
  - unfold sides_styles, sides_map_primitive. destruct (is_uniform border_style_eqb s).
    + destruct (s_before s); reflexivity.
    + cbn [sides_array map]. rewrite fine_array. cbn [forallb]. rewrite !fine_name.
      destruct (s_before s), (s_after s), (s_start s), (s_end s); reflexivity.
  - intros v M. unfold sides_styles, sides_map_primitive in M. destruct (is_uniform border_style_eqb s) eqn:U.
    + unfold is_uniform in U. rewrite !andb_true_iff, !border_style_eqb_spec in U. destruct U as [[U1 U2] U3].
      apply m_name in M. unfold is_name in M. rewrite E in M. subst v. split; [|split; [auto|reflexivity]].
      exists (VName (iso_border_style (s_before s))), (VName (iso_border_style (s_before s))),
        (VName (iso_border_style (s_before s))), (VName (iso_border_style (s_before s))).
      rewrite <- U1, <- U2, <- U3. repeat split.
    + cbn [sides_array map] in M. apply means_arr4 in M as (a & b & c & d & -> & M1 & M2 & M3 & M4).
      apply m_name in M1. apply m_name in M2. apply m_name in M3. apply m_name in M4. rewrite E in M1, M2, M3, M4. split.
      * exists a, b, c, d. split; [reflexivity|auto].
      * split; [discriminate|]. intros (U1 & U2 & U3).
        assert (X : is_uniform border_style_eqb s = true).
        { unfold is_uniform. rewrite !andb_true_iff, !border_style_eqb_spec. auto. }
        congruence.
Qed.

(** Border styles. *)
Theorem C41_styles : forall s,
  reads (sides_styles s) (fun v =>
    (exists a b c d, read_scalar_sides v = Some (a, b, c, d) /\
       a = VName (iso_border_style (s_before s)) /\ b = VName (iso_border_style (s_after s)) /\
       c = VName (iso_border_style (s_start s)) /\ d = VName (iso_border_style (s_end s))) /\
    (is_array_value v = false <-> s_before s = s_after s /\ s_before s = s_start s /\ s_before s = s_end s)).
Proof. intros s . destruct (sides_styles_fm s ). apply reads_fine; assumption. Qed.

(** The constructors place their arguments. *)
Theorem C41_constructors : forall (T : Type) (a b c d : T),
  sides_array (sides_new a b c d) = [a; b; c; d] /\
  sides_array (sides_from_array (a, b, c, d)) = [a; b; c; d] /\
  sides_array (sides_uniform a) = [a; a; a; a].
Proof. repeat split. Qed.

Example C41_case :
  let one := FFin false 8388608 (-23) in
  sides_forall real_ok (mkSides f32_zero one f32_zero (FFin true 0 (-149))) = true /\
  inner (write_obj (sides_reals (mkSides f32_zero one f32_zero f32_zero)) (obj_direct 0 false false) buf_new) = lit "[0 1 0 0]" /\
  inner (write_obj (sides_reals (mkSides f32_zero f32_zero f32_zero (FFin true 0 (-149)))) (obj_direct 0 false false) buf_new) = lit "0" /\
  inner (write_obj (sides_styles (mkSides BsSolid BsSolid BsNone BsSolid)) (obj_direct 0 false false) buf_new) = lit "[/Solid/Solid/None/Solid]".
Proof. vm_compute. repeat split; reflexivity. Qed.

(** ** C45 *)

(** [n] bumps from a reference [r] succeed exactly if the reference after them is still in
    range, and then return r, r+1, ..., r+n-1. *)
Theorem C45_bump : forall n r, 0 < r <= i32_max ->
  (ref_bumps n r = None <-> i32_max < r + Z.of_nat n) /\
  (forall ids r', ref_bumps n r = Some (ids, r') ->
     List.length ids = n /\ NoDup ids /\ (forall i d, (i < n)%nat -> nth i ids d = r + Z.of_nat i) /\
     r' = r + Z.of_nat n /\ (forall x, In x ids -> 0 < x < r') /\ r' <= i32_max).
Proof.
  intros n r H. rewrite (bumps_spec n r H). destruct (Z.leb_spec (r + Z.of_nat n) i32_max) as [L|L].
  - split; [split; [discriminate|lia]|]. intros ids r' E. injection E as <- <-.
    split; [apply range_from_length|]. split; [apply range_from_nodup|].
    split; [intros i d Hi; apply range_from_nth; exact Hi|]. split; [reflexivity|]. split; [|exact L].
    intros x Hx. apply range_from_in in Hx. lia.
  - split; [split; [lia|reflexivity]|]. intros ids r' E. discriminate.
Qed.

(** [Ref::new] accepts exactly the positive numbers, [get] returns them. *)
Theorem C45_new : forall id, in_i32 id = true -> (ref_new id <> None <-> 0 < id) /\ (forall r, ref_new id = Some r -> r = id).
Proof.
  intros id _. unfold ref_new. destruct (Z.ltb_spec 0 id) as [L|L].
  - split; [split; [intros _; exact L|discriminate]|]. intros r E. congruence.
  - split; [split; [intro E; contradiction E; reflexivity|lia]|]. intros r E. discriminate.
Qed.

(** The id [i32::MAX] is a valid reference, but bumping it panics instead of returning it. *)
Theorem C45_last_id_refuted : ref_new i32_max = Some i32_max /\ ref_bump i32_max = None.
Proof. vm_compute. split; reflexivity. Qed.

Example C45_case : ref_bumps 3 7 = Some ([7; 8; 9], 10).
Proof. reflexivity. Qed.

(** ** C46 *)

Lemma name_tree_fm : forall calls, forallb name_tree_ok calls = true ->
  fine (name_tree_obj calls) = true /\ (forall v, means (name_tree_obj calls) v ->
  (is_dict (map name_tree_reads calls)) v).
Proof.
  intros calls K. split.
  - unfold name_tree_obj. rewrite fine_dict, forallb_map. revert K. apply forallb_impl.
    intros [l|es|a b]; cbn [name_tree_ok name_tree_entry fst snd]; intro H; apply andb_true_iff; (split; [reflexivity|]).
    + rewrite fine_refs. exact H.
    + rewrite fine_array. clear - H. induction es as [|[k p] es IH]; [reflexivity|]. cbn [flat_map app forallb fst snd] in *.
      apply andb_true_iff in H as [H1 H2]. rewrite IH by exact H2. unfold value_ok in H1.
      change (fine (OPrim (PStr k))) with true. unfold fine at 1. cbn [obj_ok names_nonempty]. rewrite H1. reflexivity.
    + rewrite fine_names. cbn [forallb]. apply andb_true_iff in H as [-> ->]. reflexivity.
  - intros v M. revert M. apply means_dict. apply means_map_dict.
    intros [l|es|a b]; (split; [reflexivity|]); cbn [name_tree_entry name_tree_reads snd].
    + apply m_refs.
    + intros v' M. inversion M as [| | | | | | | | | | |? vs F|]; subst.
      destruct (name_pairs_read es vs F) as (ps & E & G). exists vs, ps. auto.
    + intros v'. apply means_array. repeat constructor; apply m_name.
Qed.

Theorem C46_name_tree : forall calls, forallb name_tree_ok calls = true ->
  reads (name_tree_obj calls) (is_dict (map name_tree_reads calls)).
Proof. intros calls K. destruct (name_tree_fm calls K). apply reads_fine; assumption. Qed.

Lemma number_tree_fm : forall calls, forallb number_tree_ok calls = true ->
  fine (number_tree_obj calls) = true /\ (forall v, means (number_tree_obj calls) v ->
  (is_dict (map number_tree_reads calls)) v).
Proof.
  intros calls K. split.
  - unfold number_tree_obj. rewrite fine_dict, forallb_map. revert K. apply forallb_impl.
    intros [l|es|a b]; cbn [number_tree_ok number_tree_entry fst snd]; intro H; apply andb_true_iff; (split; [reflexivity|]).
    + rewrite fine_refs. exact H.
    + rewrite fine_array. clear - H. induction es as [|[k p] es IH]; [reflexivity|]. cbn [flat_map app forallb fst snd] in *.
      apply andb_true_iff in H as [H1 H2]. apply andb_true_iff in H1 as [H0 H1]. rewrite IH by exact H2. unfold value_ok in H1.
      rewrite fine_int, H0. unfold fine at 1. cbn [obj_ok names_nonempty]. rewrite H1. reflexivity.
    + rewrite fine_ints. cbn [forallb]. apply andb_true_iff in H as [-> ->]. reflexivity.
  - intros v M. revert M. apply means_dict. apply means_map_dict.
    intros [l|es|a b]; (split; [reflexivity|]); cbn [number_tree_entry number_tree_reads snd].
    + apply m_refs.
    + intros v' M. inversion M as [| | | | | | | | | | |? vs F|]; subst.
      destruct (number_pairs_read es vs F) as (ps & E & G). exists vs, ps. auto.
    + intros v'. apply means_array. repeat constructor; apply m_int.
Qed.

Theorem C46_number_tree : forall calls, forallb number_tree_ok calls = true ->
  reads (number_tree_obj calls) (is_dict (map number_tree_reads calls)).
Proof. intros calls K. destruct (number_tree_fm calls K). apply reads_fine; assumption. Qed.

(** ISO 32000 wants strings as the limits of a name tree node; the API writes names, so no
    reader that follows the table can use them. *)
Theorem C46_name_limits_refuted : forall a b, name_ok a = true -> name_ok b = true ->
  reads (snd (name_tree_entry (NtLimits a b))) (fun v => read_name_limits v = None).
Proof.
  intros a b Ha Hb. apply reads_fine.
  - cbn [name_tree_entry snd]. rewrite fine_names. cbn [forallb]. rewrite Ha, Hb. reflexivity.
  - intros v M. cbn [name_tree_entry snd] in M. apply m_names in M as (vs & -> & F).
    inversion F as [|? x ? ? E1 F1]; subst. inversion F1 as [|? y ? ? E2 F2]; subst. inversion F2; subst.
    rewrite E1. reflexivity.
Qed.

Example C46_case :
  let calls := [NtNames [(lit "a", PRef 3); (lit "b)", PText [960])]; NtLimits (lit "a") (lit "b)")] in
  forallb name_tree_ok calls = true /\
  inner (write_obj (name_tree_obj calls) (obj_direct 0 false false) buf_new) =
    lit "<</Names[(a)3 0 R(b\))<FEFF03C0>]/Limits[/a/b#29]>>".
Proof. vm_compute. split; reflexivity. Qed.

(** ** C47 *)

Lemma differences_fm : forall calls, forallb diff_ok calls = true ->
  fine (diff_obj calls) = true /\ (forall v, means (diff_obj calls) v ->
  (fun v => exists vs, v = VArr vs /\
    read_differences None vs = Some (flat_map (fun c => numbered (fst c) (snd c)) calls)) v).
Proof.
  intros calls K. split.
  - unfold diff_obj. rewrite fine_array. induction calls as [|[c ns] l IH]; [reflexivity|].
    cbn [flat_map forallb] in *. apply andb_true_iff in K as [K1 K2]. rewrite forallb_app, IH by exact K2.
    unfold diff_ok in K1. cbn [fst snd] in K1. apply andb_true_iff in K1 as [K1 K3].
    unfold diff_items. cbn [fst snd forallb]. rewrite fine_int, forallb_map.
    rewrite (forallb_ext' _ name_ok) by (intro; apply fine_name). rewrite K3.
    replace (in_i32 c) with true; [reflexivity|]. symmetry. unfold in_i32, i32_min, i32_max. lia.
  - intros v M. inversion M as [| | | | | | | | | | |? vs F|]; subst. exists vs. split; [reflexivity|].
    apply diff_read. exact F.
Qed.

Theorem C47_differences : forall calls, forallb diff_ok calls = true ->
  reads (diff_obj calls) (fun v => exists vs, v = VArr vs /\
    read_differences None vs = Some (flat_map (fun c => numbered (fst c) (snd c)) calls)).
Proof. intros calls K. destruct (differences_fm calls K). apply reads_fine; assumption. Qed.

Lemma widths_fm : forall calls, forallb width_ok calls = true ->
  fine (width_obj calls) = true /\ (forall v, means (width_obj calls) v ->
  (fun v => exists vs ps, v = VArr vs /\ read_widths vs = Some ps /\
    Forall2 same_assignment (flat_map asked_widths calls) ps) v).
Proof.
  intros calls K. split.
  - unfold width_obj. rewrite fine_array. induction calls as [|c l IH]; [reflexivity|].
    cbn [flat_map forallb] in *. apply andb_true_iff in K as [K1 K2]. rewrite forallb_app, IH by exact K2.
    destruct c as [s ws|f la w]; cbn [width_ok width_items forallb] in *.
    + apply andb_true_iff in K1 as [K1 K3]. rewrite fine_int, fine_reals, K3.
      replace (in_i32 s) with true; [reflexivity|]. symmetry. unfold in_i32, i32_min, i32_max. lia.
    + apply andb_true_iff in K1 as [K1 K3]. rewrite !fine_int, fine_real, K3.
      replace (in_i32 f) with true; [replace (in_i32 la) with true; [reflexivity|]|]; symmetry; unfold in_i32, i32_min, i32_max; lia.
  - intros v M. inversion M as [| | | | | | | | | | |? vs F|]; subst.
    destruct (widths_read calls vs F) as (ps & E & G). exists vs, ps. auto.
Qed.

Theorem C47_widths : forall calls, forallb width_ok calls = true ->
  reads (width_obj calls) (fun v => exists vs ps, v = VArr vs /\ read_widths vs = Some ps /\
    Forall2 same_assignment (flat_map asked_widths calls) ps).
Proof. intros calls K. destruct (widths_fm calls K). apply reads_fine; assumption. Qed.

Example C47_case :
  let half := FFin false 8388608 (-24) in
  forallb width_ok [WConsecutive 3 [half; f32_zero]; WSame 10 12 half] = true /\
  inner (write_obj (width_obj [WConsecutive 3 [half; f32_zero]; WSame 10 12 half]) (obj_direct 0 false false) buf_new) =
    lit "[3[0.5 0]10 12 0.5]" /\
  flat_map asked_widths [WConsecutive 3 [half; f32_zero]; WSame 10 12 half] =
    [(3, half); (4, f32_zero); (10, half); (11, half); (12, half)] /\
  inner (write_obj (diff_obj [(65, [lit "alpha"; lit "beta"]); (200, [lit "a b"])]) (obj_direct 0 false false) buf_new) =
    lit "[65/alpha/beta 200/a#20b]".
Proof. vm_compute. repeat split; reflexivity. Qed.

Print Assumptions C41_numbers.
Print Assumptions C41_colors.
Print Assumptions C41_styles.
Print Assumptions C41_constructors.
Print Assumptions C45_bump.
Print Assumptions C45_new.
Print Assumptions C45_last_id_refuted.
Print Assumptions C46_name_tree.
Print Assumptions C46_number_tree.
Print Assumptions C46_name_limits_refuted.
Print Assumptions C47_differences.
Print Assumptions C47_widths.
