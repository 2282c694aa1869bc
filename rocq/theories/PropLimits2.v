(** C20 and C22 for the string limit of all kinds of strings. *)

From Coq Require Import ZArith List Lia Bool ZifyBool ZifyNat.
From Verif Require Import Bytes ModelFloat ModelBuf ModelObject ModelRenumber ModelChunk SpecLex SpecObj SpecText SpecMeans
  SpecRenum SpecChunk SpecLimits ProofBasic ProofText ProofObj ProofParse ProofTree ProofChunk ProofChunk2
  ProofLimits ProofLimits2 ProofLimits3 PropChunk PropLimits.
Import ListNotations.
Local Open Scope Z_scope.

Lemma utf8_size_len c : Z.of_nat (List.length (utf8 c)) = utf8_size c.
Proof. unfold utf8, utf8_size. destruct (c <? 128), (c <? 2048), (c <? 65536); reflexivity. Qed.
Lemma text_size_len t : blen (str_utf8 t) = text_size t.
Proof.
  unfold blen, str_utf8, text_size. induction t as [|c t IH]; [reflexivity|]. cbn [flat_map map sum fold_right].
  rewrite app_length, Nat2Z.inj_add, utf8_size_len, IH. reflexivity.
Qed.
Lemma lang_total_size segs : lang_total segs = sum (map segment_size segs).
Proof.
  unfold lang_total. assert (G : forall n, fold_left (fun n seg => n + (blen (str_utf8 (snd seg)) + lang_len (fst seg) + 2)) segs n = n + sum (map segment_size segs)).
  { induction segs as [|s segs IH]; intro n; [cbn [fold_left map sum fold_right]; lia|]. cbn [fold_left map sum fold_right]. rewrite IH.
    rewrite text_size_len. unfold segment_size, code_size, lang_len. unfold sum. destruct (region (fst s)); lia. }
  rewrite G. lia.
Qed.
Lemma obj_strings_registered o : obj_strs o = obj_strings o.
Proof.
  induction o as [q|l IH|l IH] using obj_ind'.
  - destruct q; cbn [obj_strs obj_strings]; rewrite ?text_size_len, ?lang_total_size; reflexivity.
  - cbn [obj_strs obj_strings]. induction IH as [|x l H _ IHl]; [reflexivity|]. cbn [flat_map]. rewrite H, IHl. reflexivity.
  - cbn [obj_strs obj_strings]. induction IH as [|x l H _ IHl]; [reflexivity|]. cbn [flat_map]. rewrite H, IHl. reflexivity.
Qed.
Lemma obj_lim_strings o : reals_valid o = true -> l_str (obj_lim o) = mx (obj_strings o).
Proof. intro H. rewrite obj_lim_str by exact H. rewrite obj_strings_registered. reflexivity. Qed.

(** The string limit becomes the maximum of its old value and the string lengths that count. *)
Theorem C20_string_limit_of_text : forall o w b, obj_typed o = true -> limits_ok (lims b) = true ->
  l_str (lims (write_obj o w b)) = at_least (l_str (lims b)) (obj_strings o).
Proof.
  intros o w b Ht Hb. apply limits_ok_iff in Hb. apply typed_valid in Ht. destruct (tree_limits o Ht) as [L1 L2].
  rewrite L2 by exact Hb. rewrite merge_str by assumption. rewrite obj_lim_strings by exact Ht.
  destruct Hb as [B1 B2 B3 B4 B5 B6]. rewrite at_least_mx by lia. reflexivity.
Qed.
(** For chunks. *)
Theorem C20_chunk_string_limit : forall h c, hist_typed h -> plain_hist h -> run h = Some c ->
  l_str (chunk_limits c) = at_least 0 (flat_map (item_sizes obj_strings) (hist_items h)).
Proof.
  intros h c Ht Hp Hc. rewrite (run_exact h Ht Hp c Hc). pose proof (items_typed h Ht) as Tt.
  rewrite at_least_mx by lia. rewrite (Z.max_r 0) by apply mx_nonneg.
  apply (all_lim_component l_str merge_str eq_refl); [exact Tt|]. intros it Hit.
  apply (item_component l_str merge_str (fun _ => eq_refl) obj_strings obj_lim_strings).
  apply (proj1 (forallb_forall _ _) Tt). exact Hit.
Qed.
(** With renumbering and merging of foreign limits it is still a bound. *)
Theorem C20_chunk_string_bound : forall h c it n, hist_typed h -> merges_ok h -> run h = Some c -> In it (hist_items h) ->
  In n (item_sizes obj_strings it) -> n <= l_str (chunk_limits c).
Proof.
  intros h c it n Ht Hm Hc Hit Hn. destruct (run_bounds h Ht Hm c Hc) as [Lc Hall].
  rewrite Forall_forall in Hall. destruct (Hall it Hit) as [Li Hle].
  pose proof (proj1 (forallb_forall _ _) (items_typed h Ht) it Hit) as Tt.
  apply le_iff in Hle; [|exact Li|exact Lc]. destruct Hle as (_ & _ & _ & D & _ & _).
  rewrite (item_component l_str merge_str (fun _ => eq_refl) obj_strings obj_lim_strings it Tt) in D.
  etransitivity; [|exact D]. clear - Hn. induction (item_sizes obj_strings it) as [|a l IH]; [contradiction|].
  cbn [mx fold_right]. fold (mx l). destruct Hn as [->|Hn]; [lia|]. specialize (IH Hn). lia.
Qed.

(** ** Exactly which texts are under-reported *)
Lemma sum_cons a l : sum (a :: l) = a + sum l. Proof. reflexivity. Qed.
Lemma count_cons p c t : count p (c :: t) = (if p c then 1 else 0) + count p t.
Proof. unfold count. cbn [List.filter]. destruct (p c); cbn [List.length]; lia. Qed.
Lemma units_len t : forallb is_scalar t = true ->
  Z.of_nat (List.length (flat_map unit_bytes (flat_map utf16 t))) = text_size t + ascii_chars t - wide_chars t.
Proof.
  induction t as [|c t IH]; [reflexivity|]. cbn [forallb]. intro H. apply andb_true_iff in H. destruct H as [H1 H2]. specialize (IH H2).
  cbn [flat_map]. rewrite flat_map_app, app_length, Nat2Z.inj_add, IH. unfold text_size, ascii_chars, wide_chars in *.
  cbn [map]. rewrite sum_cons, !count_cons. unfold is_scalar in H1. unfold utf8_size, utf16.
  destruct (c <? 128) eqn:E1, (c <? 2048) eqn:E2, (c <? 65536) eqn:E3, (2048 <=? c) eqn:E4; cbn [andb flat_map unit_bytes app List.length]; lia.
Qed.

Lemma read_back_text o p i : obj_ok o = true -> separable o = true ->
  parse_object (inner (write_obj o (obj_direct i p false) buf_new)) = Some (obj_val o).
Proof.
  intros Hok Hs. rewrite write_obj_inner. cbn [obj_direct o_pad o_indirect o_pretty o_indent pad_if buf_new inner app end_bytes].
  rewrite app_nil_r. rewrite out_object; [reflexivity|exact Hok|unfold sep_ok; rewrite Hs; apply orb_true_r].
Qed.

(** A text string that is not printable ASCII is longer in the file than the limit says, unless it has at least two more characters
    between U+0800 and U+FFFF than ASCII characters. *)
Theorem C22_text_exact : forall t pretty indent, forallb is_scalar t = true -> printable_ascii t = false ->
  exists s,
    parse_object (inner (write_obj (OPrim (PText t)) (obj_direct indent pretty false) buf_new)) = Some (VStr s) /\
    (l_str (lims (write_obj (OPrim (PText t)) (obj_direct indent pretty false) buf_new)) < blen s <-> wide_chars t < ascii_chars t + 2).
Proof.
  intros t p i Hs Hpr. exists (text_str t). split; [apply (read_back_text (OPrim (PText t))); [exact Hs|reflexivity]|].
  rewrite C20_string_limit_of_text by reflexivity. cbn [obj_strings]. unfold at_least. cbn [fold_left].
  change (l_str (lims buf_new)) with 0.
  assert (Hp : is_plain_text t = false).
  { destruct (is_plain_text t) eqn:E; [|reflexivity]. rewrite plain_printable in Hpr by assumption. discriminate. }
  unfold text_str. rewrite Hp. unfold blen. cbn [List.length]. pose proof (units_len t Hs). pose proof (text_size_len t). pose proof (blen_nonneg (str_utf8 t)). lia.
Qed.
(** The same for text with language codes. *)
Theorem C22_text_lang_exact : forall segs pretty indent, obj_ok (OPrim (PTextLang segs)) = true ->
  exists s,
    parse_object (inner (write_obj (OPrim (PTextLang segs)) (obj_direct indent pretty false) buf_new)) = Some (VStr s) /\
    (l_str (lims (write_obj (OPrim (PTextLang segs)) (obj_direct indent pretty false) buf_new)) < blen s <->
     sum (map (fun seg => wide_chars (snd seg)) segs) < sum (map (fun seg => ascii_chars (snd seg) + code_size (fst seg) + 2) segs) + 2).
Proof.
  intros segs p i Hok. exists (lang_str segs). split; [apply (read_back_text (OPrim (PTextLang segs)) p i Hok eq_refl)|].
  rewrite C20_string_limit_of_text by reflexivity. cbn [obj_strings]. unfold at_least. cbn [fold_left].
  change (l_str (lims buf_new)) with 0. rewrite <- lang_total_size. pose proof (lang_total_nonneg segs) as N. rewrite lang_total_size in *.
  assert (E : blen (lang_str segs) = 2 + sum (map segment_size segs) - sum (map (fun seg => wide_chars (snd seg)) segs) +
    sum (map (fun seg => ascii_chars (snd seg) + code_size (fst seg) + 2) segs)).
  { unfold lang_str, blen. cbn [List.length]. rewrite !Nat2Z.inj_succ. clear N. cbn [obj_ok prim_ok] in Hok.
    induction segs as [|s segs IH]; [reflexivity|]. cbn [forallb] in Hok. apply andb_true_iff in Hok. destruct Hok as [H1 H2]. specialize (IH H2).
    apply andb_true_iff in H1. destruct H1 as [H1 _]. pose proof (units_len _ H1) as U.
    cbn [flat_map map]. rewrite !flat_map_app, app_length, Nat2Z.inj_add, !sum_cons.
    assert (V : Z.of_nat (List.length (flat_map unit_bytes (flat_map utf16 (seg_scalars s)))) =
      2 * (code_size (fst s) + 2) + Z.of_nat (List.length (flat_map unit_bytes (flat_map utf16 (snd s))))).
    { unfold seg_scalars, lang_scalars, code_size. destruct s as [[[a b] [[c d]|]] t]; cbn [fst snd lang region]; cbn [app flat_map];
        rewrite !utf16_bz; change (utf16 27) with [27]; cbn [app flat_map unit_bytes List.length]; lia. }
    unfold segment_size at 1. lia. }
  rewrite E. lia.
Qed.

(** "e acute" is under-reported, two CJK characters are not; three language codes alone are. *)
Example C22_exact_case :
  wide_chars [233] < ascii_chars [233] + 2 /\ printable_ascii [20013; 25991] = false /\ ascii_chars [20013; 25991] + 2 <= wide_chars [20013; 25991] /\ obj_ok (OPrim (PTextLang [(mkLang (x64, x65) None, [97; 98]); (mkLang (x65, x6e) (Some (x55, x53)), [20013])])) = true /\ obj_strings (ODict [(lit "A", OPrim (PText [233; 20013])); (lit "B", OPrim (PTextLang [(mkLang (x64, x65) None, [97; 98])]))]) = [5; 6].
Proof. vm_compute. repeat split; try reflexivity; discriminate. Qed.

Print Assumptions C20_string_limit_of_text.
Print Assumptions C20_chunk_string_limit.
Print Assumptions C20_chunk_string_bound.
Print Assumptions C22_text_exact.
Print Assumptions C22_text_lang_exact.
