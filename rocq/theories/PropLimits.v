(** Properties C20..C22: limits. *)

From Coq Require Import ZArith List Lia Bool ZifyBool ZifyNat Permutation.
From Verif Require Import Bytes ModelFloat ModelBuf ModelObject ModelRenumber ModelChunk SpecLex SpecObj SpecText SpecMeans
  SpecRenum SpecChunk SpecLimits ProofBasic ProofText ProofObj ProofParse ProofTree ProofChunk ProofChunk2
  ProofLimits ProofLimits2 ProofLimits3 PropChunk.
Import ListNotations.
Local Open Scope Z_scope.

(** ** C20 *)

(** Writing any tree with any writer into any buffer: every limit becomes the maximum of
    its old value and the sizes of everything in the tree. *)
Theorem C20_tree_limits_exact : forall o w b,
  obj_typed o = true -> limits_ok (lims b) = true ->
  forallb in_i32 (obj_ints o) = true -> no_i32_min (obj_ints o) = true ->
  let before := lims b in
  let after := lims (write_obj o w b) in
  l_int after = at_least (l_int before) (map Z.abs (obj_ints o)) /\
  l_real after = fold_left f32_max (map f32_abs (obj_reals o)) (l_real before) /\
  l_name after = at_least (l_name before) (obj_names o) /\
  l_array after = at_least (l_array before) (obj_arrays o) /\
  l_dict after = at_least (l_dict before) (obj_dicts o).
Proof.
  intros o w b Ht Hb Hi Hm. cbv zeta. apply limits_ok_iff in Hb. apply typed_valid in Ht.
  destruct (tree_limits o Ht) as [L1 L2]. rewrite L2 by exact Hb.
  rewrite merge_int, merge_name, merge_array, merge_dict by assumption.
  rewrite obj_lim_int, obj_lim_name, obj_lim_arrays, obj_lim_dicts by assumption.
  rewrite absz_ints by assumption.
  destruct Hb as [B1 B2 B3 B4 B5 B6].
  rewrite !at_least_mx by lia. repeat split.
  destruct (fold_reals (obj_reals o) (obj_reals_valid o Ht) (l_real (lims b)) B2) as [R1 R2].
  assert (Hb : lok (lims b)) by (constructor; assumption).
  apply rank_inj; [apply merge_ok; assumption|exact R1|].
  rewrite merge_real, obj_lim_real by assumption. rewrite R2. reflexivity.
Qed.

(** The string limit, in terms of what a reader finds (plain strings; for the others see C22). *)
Theorem C20_string_limit_exact : forall o pretty indent v,
  obj_ok o = true -> obj_typed o = true -> (pretty = true \/ separable o = true) -> strings_plain o = true ->
  parse_object (inner (write_obj o (obj_direct indent pretty false) buf_new)) = Some v ->
  l_str (lims (write_obj o (obj_direct indent pretty false) buf_new)) = at_least 0 (val_strings v).
Proof.
  intros o p i v Hok Ht Hs Hp Hv. rewrite write_obj_inner in Hv. cbn [obj_direct o_pad o_indirect o_pretty o_indent pad_if buf_new inner app end_bytes] in Hv.
  rewrite app_nil_r in Hv. rewrite out_object in Hv; [|exact Hok|unfold sep_ok; apply orb_true_iff; exact Hs].
  injection Hv as <-. apply typed_valid in Ht. destruct (tree_limits o Ht) as [L1 L2].
  rewrite L2 by (apply limits0_ok). rewrite merge_str by (assumption || apply limits0_ok).
  rewrite obj_lim_str, at_least_mx by (assumption || lia). rewrite plain_strings by exact Hp. reflexivity.
Qed.

(** Chunks: after a history of objects, streams and extensions, the limits are exactly the
    maxima over all items (ids included, and the /Length of streams). *)
Lemma all_lim_component pr (Hm : forall a b, lok a -> lok b -> pr (merge a b) = Z.max (pr a) (pr b)) (H0 : pr limits0 = 0)
  (sz : item -> list Z) l : forallb item_typed l = true -> (forall it, In it l -> pr (item_lim it) = mx (sz it)) ->
  pr (all_lim l) = mx (flat_map sz l).
Proof.
  induction l as [|it l IH]; intros Ht H; [exact H0|]. cbn [forallb] in Ht. apply andb_true_iff in Ht. destruct Ht as [A B].
  change (all_lim (it :: l)) with (merge (item_lim it) (all_lim l)).
  rewrite Hm by (apply item_lim_ok; exact A) || (apply all_lim_ok; exact B). cbn [flat_map]. rewrite mx_app, IH, H;
    [reflexivity|left; reflexivity|exact B|intros x Hx; apply H; right; exact Hx].
Qed.

Lemma item_component pr (Hm : forall a b, lok a -> lok b -> pr (merge a b) = Z.max (pr a) (pr b)) (H0 : forall z, pr (int_lim z) = 0)
  (sz : obj -> list Z) (Hs : forall o, reals_valid o = true -> pr (obj_lim o) = mx (sz o)) it :
  item_typed it = true -> pr (item_lim it) = mx (item_sizes sz it).
Proof.
  intro H. unfold item_typed in H. apply andb_true_iff in H. destruct H as [_ H]. unfold item_lim, item_sizes.
  rewrite Hm; [|apply int_lim_ok|apply body_lim_ok, H]. rewrite H0, Hs by (apply body_obj_valid, H).
  pose proof (mx_nonneg (sz (body_obj (snd it)))). lia.
Qed.

Theorem C20_chunk_limits_exact : forall h c,
  hist_typed h -> plain_hist h -> run h = Some c ->
  forallb in_i32 (flat_map item_ints (hist_items h)) = true -> no_i32_min (flat_map item_ints (hist_items h)) = true ->
  l_int (chunk_limits c) = at_least 0 (map Z.abs (flat_map item_ints (hist_items h))) /\
  l_name (chunk_limits c) = at_least 0 (flat_map (item_sizes obj_names) (hist_items h)) /\
  l_array (chunk_limits c) = at_least 0 (flat_map (item_sizes obj_arrays) (hist_items h)) /\
  l_dict (chunk_limits c) = at_least 0 (flat_map (item_sizes obj_dicts) (hist_items h)) /\
  l_real (chunk_limits c) =
    fold_left f32_max (map f32_abs (flat_map (fun it => obj_reals (body_obj (snd it))) (hist_items h))) f32_zero.
Proof.
  intros h c Ht Hp Hc Hi Hm. rewrite (run_exact h Ht Hp c Hc). pose proof (items_typed h Ht) as Tt.
  rewrite !at_least_mx by lia. rewrite !(Z.max_r 0) by apply mx_nonneg.
  assert (Hin : forall it, In it (hist_items h) -> item_typed it = true) by (apply forallb_forall; exact Tt).
  repeat split.
  - rewrite <- absz_ints by assumption. rewrite map_flat_map.
    apply (all_lim_component l_int merge_int eq_refl (fun it => map absz (item_ints it))); [exact Tt|].
    intros it Hit. specialize (Hin it Hit). unfold item_typed in Hin. apply andb_true_iff in Hin. destruct Hin as [_ Hb].
    unfold item_lim, item_ints. rewrite merge_int by (apply int_lim_ok || apply body_lim_ok, Hb).
    rewrite obj_lim_int by (apply body_obj_valid, Hb). cbn [map mx fold_right int_lim l_int]. reflexivity.
  - apply (all_lim_component l_name merge_name eq_refl); [exact Tt|]. intros it Hit.
    apply (item_component l_name merge_name (fun _ => eq_refl) obj_names obj_lim_name). auto.
  - apply (all_lim_component l_array merge_array eq_refl); [exact Tt|]. intros it Hit.
    apply (item_component l_array merge_array (fun _ => eq_refl) obj_arrays obj_lim_arrays). auto.
  - apply (all_lim_component l_dict merge_dict eq_refl); [exact Tt|]. intros it Hit.
    apply (item_component l_dict merge_dict (fun _ => eq_refl) obj_dicts obj_lim_dicts). auto.
  - assert (Hv : forallb f32_valid (flat_map (fun it => obj_reals (body_obj (snd it))) (hist_items h)) = true).
    { apply forallb_forall. intros v Hv. apply in_flat_map in Hv. destruct Hv as (it & I1 & I2). specialize (Hin it I1).
      unfold item_typed in Hin. apply andb_true_iff in Hin. destruct Hin as [_ Hb].
      pose proof (obj_reals_valid _ (body_obj_valid _ Hb)) as R. rewrite forallb_forall in R. apply R. exact I2. }
    destruct (fold_reals _ Hv f32_zero eq_refl) as [R1 R2].
    apply rank_inj; [apply all_lim_ok; exact Tt|exact R1|]. rewrite R2. change (rank f32_zero) with 0. rewrite Z.max_r by apply mx_nonneg.
    rewrite map_flat_map.
    apply (all_lim_component (fun l => rank (l_real l)) merge_real eq_refl (fun it => map absr (obj_reals (body_obj (snd it))))); [exact Tt|].
    intros it Hit. apply (item_component (fun l => rank (l_real l)) merge_real (fun _ => eq_refl) (fun o => map absr (obj_reals o)) obj_lim_real). auto.
Qed.

(** With renumbering and merging of foreign limits they are still bounds. *)
Theorem C20_chunk_limits_bound : forall h c it,
  hist_typed h -> merges_ok h -> run h = Some c -> In it (hist_items h) ->
  (forall z, In z (item_ints it) -> in_i32 z = true -> z <> i32_min -> Z.abs z <= l_int (chunk_limits c)) /\
  (forall v, In v (obj_reals (body_obj (snd it))) -> v <> FNan -> f32_leb (f32_abs v) (l_real (chunk_limits c)) = true) /\
  (forall n, In n (item_sizes obj_names it) -> n <= l_name (chunk_limits c)) /\
  (forall n, In n (item_sizes obj_arrays it) -> n <= l_array (chunk_limits c)) /\
  (forall n, In n (item_sizes obj_dicts it) -> n <= l_dict (chunk_limits c)).
Proof.
  intros h c it Ht Hm Hc Hit. destruct (run_bounds h Ht Hm c Hc) as [Lc Hall].
  rewrite Forall_forall in Hall. destruct (Hall it Hit) as [Li Hle].
  pose proof (proj1 (forallb_forall _ _) (items_typed h Ht) it Hit) as Tt.
  apply le_iff in Hle; [|exact Li|exact Lc]. destruct Hle as (A & B & C & _ & D & E).
  assert (MX : forall n l, In n l -> n <= mx l).
  { clear. intros n l. induction l as [|a l IH]; intro H; [contradiction|]. cbn [mx fold_right]. fold (mx l).
    destruct H as [->|H]; [lia|]. specialize (IH H). lia. }
  pose proof Tt as Tb. unfold item_typed in Tb. apply andb_true_iff in Tb. destruct Tb as [_ Tb].
  split; [|split; [|split; [|split]]].
  - intros z Hz Hi Hn. rewrite <- (absz_abs z Hi Hn). etransitivity; [|exact A].
    unfold item_lim. rewrite merge_int by (apply int_lim_ok || apply body_lim_ok, Tb).
    rewrite obj_lim_int by (apply body_obj_valid, Tb). unfold item_ints in Hz. destruct Hz as [->|Hz].
    + cbn [int_lim l_int]. unfold absz. lia.
    + pose proof (MX (absz z) _ (in_map absz _ _ Hz)). lia.
  - intros v Hv Hn. pose proof (obj_reals_valid _ (body_obj_valid _ Tb)) as R. rewrite forallb_forall in R.
    pose proof (abs_limit v (R v Hv) Hn) as Lv. apply leb_rank; [exact Lv|apply Lc|].
    apply leb_rank in B; [|apply Li|apply Lc]. etransitivity; [|exact B].
    rewrite (item_component (fun l => rank (l_real l)) merge_real (fun _ => eq_refl) (fun o => map absr (obj_reals o)) obj_lim_real it Tt).
    assert (Ea : rank (f32_abs v) = absr v).
    { unfold absr. rewrite max_rank by (reflexivity || exact Lv). change (rank f32_zero) with 0.
      pose proof (rank_nonneg _ Lv). lia. }
    rewrite Ea. apply MX. apply (in_map absr). exact Hv.
  - intros n Hn. rewrite (item_component l_name merge_name (fun _ => eq_refl) obj_names obj_lim_name it Tt) in C. pose proof (MX n _ Hn). lia.
  - intros n Hn. rewrite (item_component l_array merge_array (fun _ => eq_refl) obj_arrays obj_lim_arrays it Tt) in D. pose proof (MX n _ Hn). lia.
  - intros n Hn. rewrite (item_component l_dict merge_dict (fun _ => eq_refl) obj_dicts obj_lim_dicts it Tt) in E. pose proof (MX n _ Hn). lia.
Qed.

Example C20_case :
  plain_hist example_src /\
  forallb in_i32 (flat_map item_ints (hist_items example_src)) = true /\
  no_i32_min (flat_map item_ints (hist_items example_src)) = true /\
  option_map (fun c => let l := chunk_limits c in (l_int l, l_name l, l_str l, l_array l, l_dict l)) (run example_src) = Some (15, 6, 5, 2, 3).
Proof. split; [exact I|]. vm_compute. repeat split; reflexivity. Qed.

(** ** C21 *)

Theorem C21_merge_commutative : forall a b, limits_ok a = true -> limits_ok b = true -> merge a b = merge b a.
Proof. intros a b Ha Hb. apply limits_ok_iff in Ha, Hb. apply merge_comm; assumption. Qed.
Theorem C21_merge_associative : forall a b c, limits_ok a = true -> limits_ok b = true -> limits_ok c = true ->
  merge a (merge b c) = merge (merge a b) c.
Proof. intros a b c Ha Hb Hc. apply limits_ok_iff in Ha, Hb, Hc. apply merge_assoc; assumption. Qed.
Theorem C21_merge_idempotent : forall a, limits_ok a = true -> merge a a = a.
Proof. intros a Ha. apply limits_ok_iff in Ha. apply merge_idem; assumption. Qed.
Theorem C21_merge_neutral : forall a, limits_ok a = true -> merge a limits0 = a /\ merge limits0 a = a.
Proof. intros a Ha. apply limits_ok_iff in Ha. split; [apply merge_0; assumption|apply le_0; assumption]. Qed.
Theorem C21_merge_closed : forall a b, limits_ok a = true -> limits_ok b = true -> limits_ok (merge a b) = true.
Proof. intros a b Ha Hb. apply limits_ok_iff. apply limits_ok_iff in Ha, Hb. apply merge_ok; assumption. Qed.

(** The least limits above both. *)
Theorem C21_merge_is_least_upper_bound : forall a b c,
  limits_ok a = true -> limits_ok b = true -> limits_ok c = true ->
  (limits_le (merge a b) c <-> limits_le a c /\ limits_le b c).
Proof.
  intros a b c Ha Hb Hc. apply limits_ok_iff in Ha, Hb, Hc.
  rewrite !le_iff by auto using merge_ok. split.
  - intro H. split; (apply (le_trans _ (merge a b)); [assumption|apply merge_ok; assumption|assumption| |exact H]);
      [apply le_l|apply le_r]; assumption.
  - intros [H1 H2]. apply le_lub; assumption.
Qed.

(** The order is a partial order, so this determines [merge]. *)
Theorem C21_order_antisymmetric : forall a b, limits_ok a = true -> limits_ok b = true ->
  limits_le a b -> limits_le b a -> a = b.
Proof.
  intros a b Ha Hb H1 H2. apply limits_ok_iff in Ha, Hb. apply le_iff in H1, H2; try assumption.
  rewrite <- H2. rewrite merge_comm by assumption. exact H1.
Qed.

(** Merging any number of limits in any order gives the same. *)
Theorem C21_merge_order_irrelevant : forall l l' a, limits_ok a = true -> forallb limits_ok l = true ->
  Permutation l l' -> fold_left merge l a = fold_left merge l' a.
Proof.
  intros l l' a Ha Hl HP. revert a Ha. induction HP as [|x l l' HP IH|x y l|l l' l'' HP1 IH1 HP2 IH2]; intros a Ha.
  - reflexivity.
  - cbn [forallb] in Hl. apply andb_true_iff in Hl. destruct Hl as [A B]. cbn [fold_left]. apply (IH B).
    apply C21_merge_closed; assumption.
  - cbn [forallb] in Hl. apply andb_true_iff in Hl. destruct Hl as [A B]. apply andb_true_iff in B. destruct B as [B C].
    cbn [fold_left]. rewrite <- !C21_merge_associative by assumption. rewrite (C21_merge_commutative y x) by assumption. reflexivity.
  - rewrite (IH1 Hl a Ha). apply IH2; [|exact Ha]. apply forallb_forall. intros x Hx. rewrite forallb_forall in Hl. apply Hl.
    eapply Permutation_in; [apply Permutation_sym; exact HP1|exact Hx].
Qed.

Example C21_case :
  let a := mkLimits 5 (FFin false 13421773 (-27)) 3 0 1 9 in
  let b := mkLimits 7 f32_zero 1 200 0 9 in
  limits_ok a = true /\ limits_ok b = true /\ merge a b = mkLimits 7 (FFin false 13421773 (-27)) 3 200 1 9.
Proof. vm_compute. repeat split; reflexivity. Qed.

(** ** C22 *)

(** Without i32::MIN and with plain strings nothing in the output exceeds the limits. *)
Theorem C22_plain_not_under_reported : forall o pretty indent v,
  obj_ok o = true -> obj_typed o = true -> (pretty = true \/ separable o = true) -> strings_plain o = true ->
  parse_object (inner (write_obj o (obj_direct indent pretty false) buf_new)) = Some v ->
  Forall (fun n => n <= l_str (lims (write_obj o (obj_direct indent pretty false) buf_new))) (val_strings v).
Proof.
  intros o p i v Hok Ht Hs Hp Hv. rewrite (C20_string_limit_exact o p i v Hok Ht Hs Hp Hv).
  apply Forall_forall. intros n Hn. rewrite at_least_mx by lia.
  induction (val_strings v) as [|a l IH]; [contradiction|]. cbn [mx fold_right]. fold (mx l).
  destruct Hn as [->|Hn]; [lia|]. specialize (IH Hn). lia.
Qed.

Lemma plain_printable t : forallb is_scalar t = true -> is_plain_text t = true -> printable_ascii t = true.
Proof.
  unfold is_plain_text, printable_ascii, str_utf8. induction t as [|c t IH]; [reflexivity|]. cbn [forallb flat_map].
  intros Hs H. apply andb_true_iff in Hs. destruct Hs as [S1 S2]. rewrite forallb_app in H. apply andb_true_iff in H.
  destruct H as [A B]. rewrite (IH S2 B), andb_true_r. unfold is_scalar in S1.
  unfold utf8 in A. destruct (c <? 128) eqn:E1.
  - cbn [forallb] in A. rewrite bz_zb in A by lia. lia.
  - exfalso. destruct (c <? 2048) eqn:E2; [|destruct (c <? 65536) eqn:E3]; cbn [forallb] in A;
      apply andb_true_iff in A; destruct A as [A _]; rewrite bz_zb in A by lia; lia.
Qed.

(** Refuted for every text that is not plain and has only characters below U+0800: the
    limit is below the length of the string in the file. *)
Theorem C22_text_under_reported_refuted : forall t pretty indent,
  forallb is_scalar t = true -> printable_ascii t = false -> forallb (fun c => c <? 2048) t = true ->
  exists s,
    parse_object (inner (write_obj (OPrim (PText t)) (obj_direct indent pretty false) buf_new)) = Some (VStr s) /\
    l_str (lims (write_obj (OPrim (PText t)) (obj_direct indent pretty false) buf_new)) < blen s.
Proof.
  intros t p i Hs Hpr Hl. assert (Hp : is_plain_text t = false).
  { destruct (is_plain_text t) eqn:E; [|reflexivity]. rewrite plain_printable in Hpr by assumption. discriminate. }
  exists (text_str t). split.
  - rewrite write_obj_inner. cbn [obj_direct o_pad o_indirect o_pretty o_indent pad_if buf_new inner app end_bytes].
    rewrite app_nil_r. rewrite out_object; [reflexivity|exact Hs|unfold sep_ok; apply orb_true_r].
  - destruct (tree_limits (OPrim (PText t)) eq_refl) as [L1 L2]. rewrite L2 by apply limits0_ok.
    rewrite merge_str by (assumption || apply limits0_ok). cbn [obj_lim prim_lim str_lim l_str].
    change (l_str (lims buf_new)) with 0.
    assert (U : blen (str_utf8 t) <= 2 * Z.of_nat (List.length t)).
    { clear - Hl. unfold str_utf8, blen. induction t as [|c t IH]; [cbn; lia|]. cbn [forallb] in Hl. apply andb_true_iff in Hl.
      destruct Hl as [A B]. specialize (IH B). cbn [flat_map List.length]. rewrite app_length.
      unfold utf8 at 1. rewrite A. destruct (c <? 128); cbn [List.length]; lia. }
    assert (V : blen (text_str t) = 2 + 2 * Z.of_nat (List.length t)).
    { unfold text_str. rewrite Hp. clear - Hl. unfold blen. cbn [List.length].
      induction t as [|c t IH]; [reflexivity|]. cbn [forallb] in Hl. apply andb_true_iff in Hl. destruct Hl as [A B]. specialize (IH B).
      cbn [flat_map List.length]. unfold utf16 at 1. destruct (c <? 65536) eqn:E; [|exfalso; apply Z.ltb_lt in A; apply Z.ltb_ge in E; lia].
      unfold unit_bytes in *. cbn [app flat_map List.length] in *. lia. }
    rewrite V. lia.
Qed.

Example C22_text_case : (* "e acute": 2 registered, 4 in the file *)
  forallb is_scalar [233] = true /\ printable_ascii [233] = false /\ forallb (fun c => c <? 2048) [233] = true.
Proof. vm_compute. repeat split; reflexivity. Qed.

(** Refuted for every date: nothing is registered. *)
Theorem C22_date_not_registered_refuted : forall d pretty indent, date_ok d = true ->
  exists s,
    parse_object (inner (write_obj (OPrim (PDate d)) (obj_direct indent pretty false) buf_new)) = Some (VStr s) /\
    l_str (lims (write_obj (OPrim (PDate d)) (obj_direct indent pretty false) buf_new)) = 0 /\ 2 <= blen s.
Proof.
  intros d p i Hd. eexists. split; [|split].
  - rewrite write_obj_inner. cbn [obj_direct o_pad o_indirect o_pretty o_indent pad_if buf_new inner app end_bytes].
    rewrite app_nil_r. rewrite out_object; [reflexivity|exact Hd|unfold sep_ok; apply orb_true_r].
  - destruct (tree_limits (OPrim (PDate d)) eq_refl) as [L1 L2]. rewrite L2 by apply limits0_ok.
    rewrite merge_str by (assumption || apply limits0_ok). reflexivity.
  - rewrite blen_app. pose proof (blen_nonneg (date_body d)). change (blen (lit "D:")) with 2. lia.
Qed.

(** Refuted for i32::MIN (release profile; the debug profile panics). *)
Theorem C22_int_min_refuted : forall w b, limits_ok (lims b) = true ->
  l_int (lims (write_obj (OPrim (PInt i32_min)) w b)) = l_int (lims b).
Proof.
  intros w b Hb. apply limits_ok_iff in Hb. destruct (tree_limits (OPrim (PInt i32_min)) eq_refl) as [L1 L2].
  rewrite L2 by exact Hb. rewrite merge_int by assumption. cbn [obj_lim prim_lim int_lim l_int].
  change (abs_i32 i32_min) with (-2147483648). destruct Hb as [B _ _ _ _ _]. lia.
Qed.

Print Assumptions C20_tree_limits_exact.
Print Assumptions C20_string_limit_exact.
Print Assumptions C20_chunk_limits_exact.
Print Assumptions C20_chunk_limits_bound.
Print Assumptions C21_merge_commutative.
Print Assumptions C21_merge_associative.
Print Assumptions C21_merge_idempotent.
Print Assumptions C21_merge_neutral.
Print Assumptions C21_merge_closed.
Print Assumptions C21_merge_is_least_upper_bound.
Print Assumptions C21_order_antisymmetric.
Print Assumptions C21_merge_order_irrelevant.
Print Assumptions C22_plain_not_under_reported.
Print Assumptions C22_text_under_reported_refuted.
Print Assumptions C22_date_not_registered_refuted.
Print Assumptions C22_int_min_refuted.
