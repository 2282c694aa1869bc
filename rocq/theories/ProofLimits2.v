(** Limits, field by field. *)

From Coq Require Import ZArith List Lia Bool Arith ZifyBool.
From Verif Require Import Bytes ModelFloat ModelBuf ModelObject SpecLex SpecObj SpecText SpecMeans SpecLimits
  ProofBasic ProofText ProofFloat ProofFloat2 ProofObj ProofParse ProofTree ProofLimits.
Import ListNotations.
Local Open Scope Z_scope.

Definition mx (l : list Z) : Z := fold_right Z.max 0 l.

Lemma mx_nonneg l : 0 <= mx l.
Proof. induction l as [|a l IH]; [reflexivity|]. cbn [mx fold_right]; fold (mx l); lia. Qed.
Lemma mx_app a b : mx (a ++ b) = Z.max (mx a) (mx b).
Proof.
  induction a as [|x a IH]; [pose proof (mx_nonneg b); cbn [app]; change (mx []) with 0; lia|].
  cbn [app mx fold_right] in *. fold (mx (a ++ b)) (mx a). rewrite IH. lia.
Qed.
Lemma at_least_mx l : forall z, 0 <= z -> at_least z l = Z.max z (mx l).
Proof.
  unfold at_least. induction l as [|x l IH]; intros z Hz; cbn [fold_left mx fold_right].
  - lia.
  - fold (mx l). rewrite IH by lia. lia.
Qed.

Section Component.
  Variables (pr : limits -> Z) (sz : obj -> list Z).
  Hypothesis Hmerge : forall a b, lok a -> lok b -> pr (merge a b) = Z.max (pr a) (pr b).
  Hypothesis H0 : pr limits0 = 0.
  Hypothesis Hprim : forall q, prim_real_valid q = true -> pr (prim_lim q) = mx (sz (OPrim q)).
  Hypothesis Harr : forall l, mx (sz (OArray l)) = Z.max (mx (flat_map sz l)) (pr (array_lim (Z.of_nat (List.length l)))).
  Hypothesis Hdict : forall l, mx (sz (ODict l)) =
    Z.max (fold_right (fun e a => Z.max (Z.max (pr (name_lim (blen (fst e)))) (mx (sz (snd e)))) a) 0 l)
          (pr (dict_lim (Z.of_nat (List.length l)))).

  Lemma component o : reals_valid o = true -> pr (obj_lim o) = mx (sz o).
  Proof using All.
    induction o as [q|l IH|l IH] using obj_ind'; intro Hv.
    - apply Hprim. exact Hv.
    - cbn [reals_valid] in Hv. rewrite obj_lim_array, Harr.
      assert (G : lok (items_lim l) /\ pr (items_lim l) = mx (flat_map sz l)).
      { induction IH as [|x l H1 H2 IHl]; [split; [apply limits0_ok|exact H0]|].
        cbn [flat_map forallb] in *. apply andb_true_iff in Hv. destruct Hv as [V1 V2].
        destruct (tree_limits x V1) as [O1 _]. destruct (IHl V2) as [A B].
        rewrite items_lim_cons. split; [apply merge_ok; assumption|].
        rewrite Hmerge, H1, B, mx_app by assumption. reflexivity. }
      destruct G as [G1 G2]. rewrite Hmerge, G2 by (assumption || (apply array_lim_ok; lia)). reflexivity.
    - cbn [reals_valid] in Hv. rewrite obj_lim_dict, Hdict.
      assert (G : lok (entries_lim l) /\ pr (entries_lim l) =
        fold_right (fun e a => Z.max (Z.max (pr (name_lim (blen (fst e)))) (mx (sz (snd e)))) a) 0 l).
      { induction IH as [|[k v] l H1 H2 IHl]; [split; [apply limits0_ok|exact H0]|].
        cbn [fold_right forallb fst snd] in *. apply andb_true_iff in Hv. destruct Hv as [V1 V2].
        destruct (tree_limits v V1) as [O1 _]. pose proof (name_lim_ok _ (blen_nonneg k)) as Hn.
        destruct (IHl V2) as [A B]. pose proof (merge_ok _ _ Hn O1).
        rewrite entries_lim_cons. split; [apply merge_ok; assumption|].
        rewrite Hmerge, B, Hmerge, H1 by assumption. reflexivity. }
      destruct G as [G1 G2]. rewrite Hmerge, G2 by (assumption || (apply dict_lim_ok; lia)). reflexivity.
  Qed.
End Component.

(** ** Reals that are integers *)

Lemma real_as_int_spec v : f32_valid v = true ->
  match real_as_int v with
  | Some z => f32_eqb (f32_of_i32 (f32_as_i32 v)) v = true /\ f32_as_i32 v = z /\ i32_min <= z <= i32_max
  | None => f32_eqb (f32_of_i32 (f32_as_i32 v)) v = false
  end.
Proof.
  intro Hv. unfold real_as_int.
  destruct (f32_finite v && (f32_units v mod 2 ^ 149 =? 0) &&
     ((i32_min <=? f32_units v / 2 ^ 149) && (f32_units v / 2 ^ 149 <=? 2 ^ 31))) eqn:E.
  - rewrite !andb_true_iff in E. destruct E as [[Hf Hm] [Hl Hh]].
    apply Z.eqb_eq in Hm. apply Z.leb_le in Hl, Hh.
    assert (Hu : f32_units v = f32_units v / 2 ^ 149 * 2 ^ 149).
    { rewrite Z.mul_comm. pose proof (Z.div_mod (f32_units v) (2 ^ 149) ltac:(discriminate)) as D. rewrite Hm, Z.add_0_r in D. exact D. }
    set (z := f32_units v / 2 ^ 149) in *. clearbody z.
    destruct (Z.eq_dec z (2 ^ 31)) as [Ez|Ez].
    + subst z. assert (v = FFin false (2 ^ 23) 8) as ->.
      { apply rank_inj; [|reflexivity|].
        - unfold limit_real. rewrite Hv. destruct v as [|s|s m e]; [discriminate|discriminate|].
          destruct s; [|reflexivity]. exfalso. unfold f32_units in Hu. apply valid_fin in Hv.
          pose proof (pow2_pos (e + 149) ltac:(lia)). assert (0 < 2 ^ 31 * 2 ^ 149) by reflexivity.
          set (a := 2 ^ 31 * 2 ^ 149) in *. set (b := 2 ^ (e + 149)) in *. clearbody a b. nia.
        - destruct v as [|s|s m e]; [discriminate|discriminate|]. cbn [rank]. rewrite Hu. vm_compute. reflexivity. }
      vm_compute. repeat split; congruence.
    + assert (Hz : i32_min <= z <= i32_max) by (unfold i32_max, i32_min in *; lia).
      rewrite Z.min_r by lia.
      pose proof (shortcut_int v z Hv (conj Hf Hu) Hz). pose proof (as_i32_int v z Hv (conj Hf Hu) Hz). auto.
  - destruct (f32_eqb (f32_of_i32 (f32_as_i32 v)) v) eqn:E2; [|reflexivity]. exfalso.
    destruct (shortcut_inv v Hv E2) as [[[Hf Hu] Hr]|[-> _]].
    + rewrite Hf, Hu in E. rewrite Z.mod_mul, Z.div_mul in E by discriminate. cbn [andb] in E.
      change (0 =? 0) with true in E. cbn [andb] in E. apply andb_false_iff in E. unfold i32_max in Hr. destruct E as [E|E]; apply Z.leb_gt in E; lia.
    + vm_compute in E. discriminate.
Qed.

Definition absz (z : Z) : Z := Z.max 0 (abs_i32 z).

Lemma float_lim_int v : f32_valid v = true -> l_int (float_lim v) = mx (map absz (real_ints v)).
Proof.
  intro Hv. pose proof (real_as_int_spec v Hv) as H. unfold float_lim, real_ints.
  destruct (real_as_int v) as [z|].
  - destruct H as [-> [-> _]]. cbn [int_lim l_int map mx fold_right]. unfold absz. lia.
  - rewrite H. reflexivity.
Qed.

Definition absr (v : f32) : Z := rank (f32_max f32_zero (f32_abs v)).

Lemma absr_nonneg v : f32_valid v = true -> 0 <= absr v.
Proof. intro H. apply rank_nonneg. apply zero_max_limit. exact H. Qed.

Lemma float_lim_real v : f32_valid v = true -> rank (l_real (float_lim v)) = mx (map absr (real_reals v)).
Proof.
  intro Hv. pose proof (real_as_int_spec v Hv) as H. unfold float_lim, real_reals.
  destruct (real_as_int v) as [z|].
  - destruct H as [-> [-> _]]. reflexivity.
  - rewrite H. cbn [real_lim l_real map mx fold_right]. fold (absr v). pose proof (absr_nonneg v Hv). lia.
Qed.

(** ** The fields *)

Lemma merge_int a b : lok a -> lok b -> l_int (merge a b) = Z.max (l_int a) (l_int b).
Proof. intros. rewrite merge_fields by assumption. reflexivity. Qed.
Lemma merge_real a b : lok a -> lok b -> rank (l_real (merge a b)) = Z.max (rank (l_real a)) (rank (l_real b)).
Proof. intros Ha Hb. rewrite merge_fields by assumption. apply max_rank; [apply Ha|apply Hb]. Qed.
Lemma merge_name a b : lok a -> lok b -> l_name (merge a b) = Z.max (l_name a) (l_name b).
Proof. intros. rewrite merge_fields by assumption. reflexivity. Qed.
Lemma merge_str a b : lok a -> lok b -> l_str (merge a b) = Z.max (l_str a) (l_str b).
Proof. intros. rewrite merge_fields by assumption. reflexivity. Qed.
Lemma merge_array a b : lok a -> lok b -> l_array (merge a b) = Z.max (l_array a) (l_array b).
Proof. intros. rewrite merge_fields by assumption. reflexivity. Qed.
Lemma merge_dict a b : lok a -> lok b -> l_dict (merge a b) = Z.max (l_dict a) (l_dict b).
Proof. intros. rewrite merge_fields by assumption. reflexivity. Qed.

Lemma map_flat_map {A B C} (f : B -> C) (g : A -> list B) l : map f (flat_map g l) = flat_map (fun x => map f (g x)) l.
Proof. induction l as [|a l IH]; [reflexivity|]. cbn [flat_map]. rewrite map_app, IH. reflexivity. Qed.

Lemma mx_flat_map {A} (g : A -> list Z) l : mx (flat_map g l) = fold_right (fun e a => Z.max (mx (g e)) a) 0 l.
Proof. induction l as [|a l IH]; [reflexivity|]. cbn [flat_map fold_right]. rewrite mx_app, IH. reflexivity. Qed.

Lemma fold_max_ext {A} (f g : A -> Z) l : (forall x, f x = g x) ->
  fold_right (fun e a => Z.max (f e) a) 0 l = fold_right (fun e a => Z.max (g e) a) 0 l.
Proof. intro H. induction l as [|a l IH]; [reflexivity|]. cbn [fold_right]. rewrite IH, H. reflexivity. Qed.

Ltac rect_case V Hm Hf :=
  cbn [prim_real_valid] in V; rewrite !andb_true_iff in V; destruct V as [[[V1 V2] V3] V4];
  pose proof (float_lim_ok _ V1); pose proof (float_lim_ok _ V2); pose proof (float_lim_ok _ V3);
  pose proof (float_lim_ok _ V4); pose proof (array_lim_ok 4 ltac:(lia));
  cbn [prim_lim]; rewrite !Hm by auto 6 using merge_ok.

Lemma obj_lim_int o : reals_valid o = true -> l_int (obj_lim o) = mx (map absz (obj_ints o)).
Proof.
  intro Hv. apply (component l_int (fun o => map absz (obj_ints o))); try exact Hv.
  - exact merge_int.
  - reflexivity.
  - intros q V. destruct q; cbn [prim_lim obj_ints prim_ints map]; try reflexivity;
      try (cbn [int_lim l_int mx fold_right]; unfold absz; lia).
    + apply float_lim_int. exact V.
    + cbn [prim_real_valid] in V; rewrite !andb_true_iff in V; destruct V as [[[V1 V2] V3] V4].
      pose proof (float_lim_ok _ V1); pose proof (float_lim_ok _ V2); pose proof (float_lim_ok _ V3);
      pose proof (float_lim_ok _ V4); pose proof (array_lim_ok 4 ltac:(lia)).
      rewrite !merge_int by auto 6 using merge_ok. rewrite !float_lim_int by assumption.
      cbn [rect_sides flat_map]. rewrite !map_app, !mx_app. cbn [map array_lim l_int]. change (mx []) with 0.
      pose proof (mx_nonneg (map absz (real_ints (x1 r)))). lia.
  - intro l. cbn [obj_ints]. rewrite map_flat_map. cbn [array_lim l_int]. pose proof (mx_nonneg (flat_map (fun o => map absz (obj_ints o)) l)). lia.
  - intro l. cbn [obj_ints dict_lim l_int name_lim]. rewrite map_flat_map, mx_flat_map.
    assert (N : forall l, 0 <= fold_right (fun (e : bytes * obj) a => Z.max (mx (map absz (obj_ints (snd e)))) a) 0 l)
      by (clear; induction l; cbn [fold_right]; lia).
    rewrite Z.max_l by (clear; induction l as [|a l IH]; cbn [fold_right]; lia).
    apply fold_max_ext. intro e. pose proof (mx_nonneg (map absz (obj_ints (snd e)))). lia.
Qed.

Lemma obj_lim_real o : reals_valid o = true -> rank (l_real (obj_lim o)) = mx (map absr (obj_reals o)).
Proof.
  intro Hv. apply (component (fun l => rank (l_real l)) (fun o => map absr (obj_reals o))); try exact Hv.
  - exact merge_real.
  - reflexivity.
  - intros q V. destruct q; cbn [prim_lim obj_reals prim_reals map]; try reflexivity.
    + apply float_lim_real. exact V.
    + cbn [prim_real_valid] in V; rewrite !andb_true_iff in V; destruct V as [[[V1 V2] V3] V4].
      pose proof (float_lim_ok _ V1); pose proof (float_lim_ok _ V2); pose proof (float_lim_ok _ V3);
      pose proof (float_lim_ok _ V4); pose proof (array_lim_ok 4 ltac:(lia)).
      rewrite !merge_real by auto 6 using merge_ok. rewrite !float_lim_real by assumption.
      cbn [rect_sides flat_map]. rewrite !map_app, !mx_app. cbn [map array_lim l_real]. change (mx []) with 0.
      change (rank f32_zero) with 0. pose proof (mx_nonneg (map absr (real_reals (x1 r)))). lia.
  - intro l. cbn [obj_reals]. rewrite map_flat_map. cbn [array_lim l_real]. change (rank f32_zero) with 0. pose proof (mx_nonneg (flat_map (fun o => map absr (obj_reals o)) l)). lia.
  - intro l. cbn [obj_reals dict_lim l_real name_lim]. rewrite map_flat_map, mx_flat_map. change (rank f32_zero) with 0.
    rewrite Z.max_l by (clear; induction l as [|a l IH]; cbn [fold_right]; lia).
    apply fold_max_ext. intro e. pose proof (mx_nonneg (map absr (obj_reals (snd e)))). lia.
Qed.

Lemma obj_lim_name o : reals_valid o = true -> l_name (obj_lim o) = mx (obj_names o).
Proof.
  intro Hv. apply (component l_name obj_names); try exact Hv.
  - exact merge_name.
  - reflexivity.
  - intros q V. destruct q; cbn [prim_lim obj_names]; try reflexivity.
    + unfold float_lim. destruct (f32_eqb _ _); reflexivity.
    + cbn [name_lim l_name mx fold_right]. pose proof (blen_nonneg s). lia.
    + cbn [prim_real_valid] in V; rewrite !andb_true_iff in V; destruct V as [[[V1 V2] V3] V4].
      pose proof (float_lim_ok _ V1); pose proof (float_lim_ok _ V2); pose proof (float_lim_ok _ V3);
      pose proof (float_lim_ok _ V4); pose proof (array_lim_ok 4 ltac:(lia)).
      rewrite !merge_name by auto 6 using merge_ok. unfold float_lim. repeat destruct (f32_eqb _ _); reflexivity.
  - intro l. cbn [obj_names array_lim l_name]. pose proof (mx_nonneg (flat_map obj_names l)). lia.
  - intro l. cbn [obj_names dict_lim l_name name_lim]. rewrite mx_flat_map.
    rewrite Z.max_l by (clear; induction l as [|a l IH]; cbn [fold_right]; lia).
    apply fold_max_ext. intro e. reflexivity.
Qed.

Lemma obj_lim_arrays o : reals_valid o = true -> l_array (obj_lim o) = mx (obj_arrays o).
Proof.
  intro Hv. apply (component l_array obj_arrays); try exact Hv.
  - exact merge_array.
  - reflexivity.
  - intros q V. destruct q; cbn [prim_lim obj_arrays]; try reflexivity.
    + unfold float_lim. destruct (f32_eqb _ _); reflexivity.
    + cbn [prim_real_valid] in V; rewrite !andb_true_iff in V; destruct V as [[[V1 V2] V3] V4].
      pose proof (float_lim_ok _ V1); pose proof (float_lim_ok _ V2); pose proof (float_lim_ok _ V3);
      pose proof (float_lim_ok _ V4); pose proof (array_lim_ok 4 ltac:(lia)).
      rewrite !merge_array by auto 6 using merge_ok. unfold float_lim. repeat destruct (f32_eqb _ _); reflexivity.
  - intro l. cbn [obj_arrays array_lim l_array mx fold_right]. fold (mx (flat_map obj_arrays l)). lia.
  - intro l. cbn [obj_arrays dict_lim l_array name_lim]. rewrite mx_flat_map.
    rewrite Z.max_l by (clear; induction l as [|a l IH]; cbn [fold_right]; lia).
    apply fold_max_ext. intro e. pose proof (mx_nonneg (obj_arrays (snd e))). lia.
Qed.

Lemma obj_lim_dicts o : reals_valid o = true -> l_dict (obj_lim o) = mx (obj_dicts o).
Proof.
  intro Hv. apply (component l_dict obj_dicts); try exact Hv.
  - exact merge_dict.
  - reflexivity.
  - intros q V. destruct q; cbn [prim_lim obj_dicts]; try reflexivity.
    + unfold float_lim. destruct (f32_eqb _ _); reflexivity.
    + cbn [prim_real_valid] in V; rewrite !andb_true_iff in V; destruct V as [[[V1 V2] V3] V4].
      pose proof (float_lim_ok _ V1); pose proof (float_lim_ok _ V2); pose proof (float_lim_ok _ V3);
      pose proof (float_lim_ok _ V4); pose proof (array_lim_ok 4 ltac:(lia)).
      rewrite !merge_dict by auto 6 using merge_ok. unfold float_lim. repeat destruct (f32_eqb _ _); reflexivity.
  - intro l. cbn [obj_dicts array_lim l_dict]. pose proof (mx_nonneg (flat_map obj_dicts l)). lia.
  - intro l. cbn [obj_dicts dict_lim l_dict name_lim mx fold_right]. fold (mx (flat_map (fun e : bytes * obj => obj_dicts (snd e)) l)).
    rewrite mx_flat_map, Z.max_comm. f_equal.
    apply fold_max_ext. intro e. pose proof (mx_nonneg (obj_dicts (snd e))). lia.
Qed.

(** Strings, as lengths registered. *)
Fixpoint obj_strs (o : obj) : list Z :=
  match o with
  | OPrim (PStr s) => [blen s]
  | OPrim (PText t) => [blen (str_utf8 t)]
  | OPrim (PTextLang segs) => [lang_total segs]
  | OPrim _ => []
  | OArray l => flat_map obj_strs l
  | ODict l => flat_map (fun e => obj_strs (snd e)) l
  end.

Lemma obj_lim_str o : reals_valid o = true -> l_str (obj_lim o) = mx (obj_strs o).
Proof.
  intro Hv. apply (component l_str obj_strs); try exact Hv.
  - exact merge_str.
  - reflexivity.
  - intros q V. destruct q; cbn [prim_lim obj_strs]; try reflexivity.
    + unfold float_lim. destruct (f32_eqb _ _); reflexivity.
    + cbn [str_lim l_str mx fold_right]. pose proof (blen_nonneg s). lia.
    + cbn [str_lim l_str mx fold_right]. pose proof (blen_nonneg (str_utf8 t)). lia.
    + cbn [str_lim l_str mx fold_right]. pose proof (lang_total_nonneg segs). lia.
    + cbn [prim_real_valid] in V; rewrite !andb_true_iff in V; destruct V as [[[V1 V2] V3] V4].
      pose proof (float_lim_ok _ V1); pose proof (float_lim_ok _ V2); pose proof (float_lim_ok _ V3);
      pose proof (float_lim_ok _ V4); pose proof (array_lim_ok 4 ltac:(lia)).
      rewrite !merge_str by auto 6 using merge_ok. unfold float_lim. repeat destruct (f32_eqb _ _); reflexivity.
  - intro l. cbn [obj_strs array_lim l_str]. pose proof (mx_nonneg (flat_map obj_strs l)). lia.
  - intro l. cbn [obj_strs dict_lim l_str name_lim]. rewrite mx_flat_map.
    rewrite Z.max_l by (clear; induction l as [|a l IH]; cbn [fold_right]; lia).
    apply fold_max_ext. intro e. pose proof (mx_nonneg (obj_strs (snd e))). lia.
Qed.

Lemma plain_is_text t : printable_ascii t = true -> is_plain_text t = true.
Proof.
  unfold is_plain_text, printable_ascii, str_utf8. induction t as [|c t IH]; [reflexivity|]. cbn [forallb flat_map].
  intro H. apply andb_true_iff in H. destruct H as [H1 H2]. rewrite forallb_app, IH by assumption.
  rewrite andb_true_r. apply andb_true_iff in H1. destruct H1 as [A B]. apply Z.leb_le in A, B.
  unfold utf8. destruct (c <? 128) eqn:E; [|lia]. cbn [forallb]. rewrite bz_zb by lia. lia.
Qed.

Lemma num_val_strings w : val_strings (num_val w) = [].
Proof. unfold num_val. destruct (num_tok w); reflexivity. Qed.

(** For plain strings the registered lengths are the lengths a reader sees. *)
Lemma plain_strings o : strings_plain o = true -> val_strings (obj_val o) = obj_strs o.
Proof.
  induction o as [q|l IH|l IH] using obj_ind'; intro H.
  - destruct q; cbn [obj_val obj_strs strings_plain val_strings] in *; try reflexivity; try discriminate.
    + apply num_val_strings.
    + unfold text_str. rewrite plain_is_text by assumption. reflexivity.
    + cbn [flat_map]. rewrite !num_val_strings. reflexivity.
  - cbn [obj_val obj_strs strings_plain val_strings] in *. induction IH as [|x l H1 H2 IHl]; [reflexivity|].
    cbn [map flat_map forallb] in *. apply andb_true_iff in H. destruct H as [A B]. rewrite H1, IHl by assumption. reflexivity.
  - cbn [obj_val obj_strs strings_plain val_strings] in *. induction IH as [|x l H1 H2 IHl]; [reflexivity|].
    cbn [map flat_map forallb fst snd] in *. apply andb_true_iff in H. destruct H as [A B]. rewrite H1, IHl by assumption. reflexivity.
Qed.

Lemma absz_abs z : in_i32 z = true -> z <> i32_min -> absz z = Z.abs z.
Proof.
  unfold in_i32. intros H Hn. apply andb_true_iff in H. destruct H as [A B]. apply Z.leb_le in A, B.
  unfold absz, abs_i32. rewrite wrap_id; [lia|]. unfold i32_min, i32_max in *. lia.
Qed.

Lemma absz_ints l : forallb in_i32 l = true -> no_i32_min l = true -> map absz l = map Z.abs l.
Proof.
  intros H1 H2. apply map_ext_in. intros z Hz. unfold no_i32_min in H2. rewrite forallb_forall in H1, H2.
  apply absz_abs; [apply H1; exact Hz|]. specialize (H2 z Hz). apply negb_true_iff, Z.eqb_neq in H2. exact H2.
Qed.

(** The maximum of reals as a fold. *)
Lemma fold_reals l : forallb f32_valid l = true -> forall r, limit_real r = true ->
  limit_real (fold_left f32_max (map f32_abs l) r) = true /\
  rank (fold_left f32_max (map f32_abs l) r) = Z.max (rank r) (mx (map absr l)).
Proof.
  induction l as [|v l IH]; intros Hv r Hr; cbn [map fold_left mx fold_right].
  - split; [exact Hr|]. pose proof (rank_nonneg r Hr). lia.
  - cbn [forallb] in Hv. apply andb_true_iff in Hv. destruct Hv as [V1 V2]. fold (mx (map absr l)).
    assert (K : limit_real (f32_max r (f32_abs v)) = true /\ rank (f32_max r (f32_abs v)) = Z.max (rank r) (absr v)).
    { pose proof (rank_nonneg r Hr). unfold absr. destruct v as [|s|s m e].
      - cbn [f32_abs]. assert (f32_max r FNan = r) as -> by (destruct r; [discriminate| |]; reflexivity).
        split; [exact Hr|]. change (rank (f32_max f32_zero FNan)) with 0. lia.
      - pose proof (abs_limit (FInf s) V1 ltac:(discriminate)) as Ha. pose proof (rank_nonneg _ Ha).
        split; [apply max_limit; assumption|]. rewrite !max_rank by (assumption || reflexivity). change (rank f32_zero) with 0. lia.
      - pose proof (abs_limit (FFin s m e) V1 ltac:(discriminate)) as Ha. pose proof (rank_nonneg _ Ha).
        split; [apply max_limit; assumption|]. rewrite !max_rank by (assumption || reflexivity). change (rank f32_zero) with 0. lia. }
    destruct K as [K1 K2]. destruct (IH V2 _ K1) as [A B]. split; [exact A|]. rewrite B, K2. lia.
Qed.

Lemma obj_reals_valid o : reals_valid o = true -> forallb f32_valid (obj_reals o) = true.
Proof.
  assert (R : forall v, f32_valid v = true -> forallb f32_valid (real_reals v) = true).
  { intros v Hv. unfold real_reals. destruct (real_as_int v); [reflexivity|]. cbn [forallb]. rewrite Hv. reflexivity. }
  induction o as [q|l IH|l IH] using obj_ind'; intro H.
  - destruct q; cbn [obj_reals prim_reals reals_valid prim_real_valid] in *; try reflexivity; [apply R; assumption|].
    rewrite !andb_true_iff in H. destruct H as [[[V1 V2] V3] V4]. cbn [rect_sides flat_map].
    rewrite !forallb_app, !R by assumption. reflexivity.
  - cbn [obj_reals reals_valid] in *. induction IH as [|x l H1 H2 IHl]; [reflexivity|].
    cbn [flat_map forallb] in *. apply andb_true_iff in H. destruct H as [A B]. rewrite forallb_app, H1, IHl by assumption. reflexivity.
  - cbn [obj_reals reals_valid] in *. induction IH as [|x l H1 H2 IHl]; [reflexivity|].
    cbn [flat_map forallb snd] in *. apply andb_true_iff in H. destruct H as [A B]. rewrite forallb_app, H1, IHl by assumption. reflexivity.
Qed.
