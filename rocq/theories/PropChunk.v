(** Properties C15..C19: chunks, streams, offsets. *)

From Coq Require Import ZArith List Lia Bool ZifyBool ZifyNat.
From Verif Require Import Bytes ModelFloat ModelBuf ModelObject ModelRenumber ModelChunk SpecLex SpecObj SpecMeans
  SpecRenum SpecChunk SpecLimits ProofBasic ProofObj ProofParse ProofTree ProofRenum ProofRenumTree ProofChunk
  ProofChunkParse ProofChunk2 ProofLimits ProofLimits3.
Import ListNotations.
Local Open Scope Z_scope.

Lemma out_object p i o : obj_ok o = true -> sep_ok p o = true -> parse_object (out p i o) = Some (obj_val o).
Proof.
  intros Hok Hs. unfold parse_object, parse_objects. rewrite objects_objs by (cbn; lia).
  rewrite <- (app_nil_r (out p i o)). rewrite (out_parses p i o [] [] Hok Hs (or_intror I)).
  rewrite objs_end by reflexivity. reflexivity.
Qed.

(** ** C15 *)

(** The layout, for any data and entries whatsoever. *)
Theorem C15_stream_layout : forall id es data c c',
  chunk_stream id es data c = Some c' ->
  exists dict,
    chunk_bytes c' = chunk_bytes c ++ dec_i id ++ lit " 0 obj" ++ [x0a] ++ dict ++
      [x0a] ++ lit "stream" ++ [x0a] ++ data ++ [x0a] ++ lit "endstream" ++
      [x0a] ++ lit "endobj" ++ [x0a] ++ (if c_pretty c then [x0a] else []) /\
    (entries_readable es = true ->
     exists vs, parse_object dict = Some (VDict ((lit "Length", VInt (blen data)) :: vs)) /\
                means (ODict es) (VDict vs)).
Proof.
  intros id es data c c' H.
  set (c0 := mkChunk (c_buf c) [] (c_pretty c)).
  assert (H0 : exists c0', chunk_stream id es data c0 = Some c0' /\ chunk_bytes c0' = chunk_bytes c').
  { revert H. unfold chunk_stream, chunk_indirect, c0. cbn [c_buf c_pretty c_offsets].
    destruct (obj_indirect id (c_pretty c) (c_buf c)) as [w b]. cbn [c_buf c_pretty c_offsets].
    destruct (write_stream w es data b) as [b'|]; [|discriminate]. intro H. injection H as <-.
    eexists. split; reflexivity. }
  destruct H0 as (c0' & H0 & E).
  assert (Hh : holds (chunk_bytes c) [] c0) by (split; [cbn; rewrite app_nil_r; reflexivity|reflexivity]).
  destruct (stream_holds _ _ _ _ _ _ _ Hh H0) as [[Hb _] _].
  exists (out (c_pretty c) 0 (ODict (len_entry data :: es))). split.
  - rewrite <- E, Hb. cbn [app layout flat_map]. rewrite app_nil_r.
    unfold placed_bytes, item_bytes. cbn [pl_style pl_nl pl_item fst snd c0 c_pretty]. rewrite stream_body.
    rewrite <- !app_assoc. reflexivity.
  - intro Hr. assert (Hf : blen data <= i32_max) by (apply (stream_some_iff id es data c0); congruence).
    exists (map (fun e => (fst e, obj_val (snd e))) es).
    unfold entries_readable in Hr. apply andb_true_iff in Hr. destruct Hr as [R1 R2]. split.
    + rewrite out_object.
      * reflexivity.
      * cbn [obj_ok forallb len_entry snd prim_ok] in R1 |- *. rewrite R1, andb_true_r. unfold in_i32, i32_min, blen in *. apply andb_true_iff; split; lia.
      * unfold sep_ok. apply orb_true_iff. right. cbn [separable forallb len_entry fst snd]. exact R2.
    + pose proof (means_val (ODict es) R1) as M. exact M.
Qed.

(** Reading the stream back, whatever follows it. *)
Theorem C15_stream_reads_back : forall id es data c c',
  chunk_stream id es data c = Some c' -> entries_readable es = true ->
  exists s vs, chunk_bytes c' = chunk_bytes c ++ s /\ means (ODict es) (VDict vs) /\
    forall rest, exists ws, forallb is_ws ws = true /\
      parse_indirect (s ++ rest) =
        Some (IStream id 0 ((lit "Length", VInt (blen data)) :: vs) data, ws ++ rest).
Proof.
  intros id es data c c' H Hr.
  destruct (C15_stream_layout id es data c c' H) as (dict & Hb & _).
  set (c0 := mkChunk (c_buf c) [] (c_pretty c)).
  assert (H0 : exists c0', chunk_stream id es data c0 = Some c0' /\ chunk_bytes c0' = chunk_bytes c').
  { revert H. unfold chunk_stream, chunk_indirect, c0. cbn [c_buf c_pretty c_offsets].
    destruct (obj_indirect id (c_pretty c) (c_buf c)) as [w b]. cbn [c_buf c_pretty c_offsets].
    destruct (write_stream w es data b) as [b'|]; [|discriminate]. intro H. injection H as <-.
    eexists. split; reflexivity. }
  destruct H0 as (c0' & H0 & E).
  assert (Hh : holds (chunk_bytes c) [] c0) by (split; [cbn; rewrite app_nil_r; reflexivity|reflexivity]).
  destruct (stream_holds _ _ _ _ _ _ _ Hh H0) as [[Hb' _] _].
  assert (Hf : body_fits (BStream es data) = true).
  { cbn [body_fits]. apply Z.leb_le. apply (stream_some_iff id es data c0). congruence. }
  exists (item_bytes (c_pretty c) (c_pretty c) (id, BStream es data)), (map (fun e => (fst e, obj_val (snd e))) es).
  split; [|split].
  - rewrite <- E, Hb'. cbn [app layout flat_map]. rewrite app_nil_r. reflexivity.
  - unfold entries_readable in Hr. apply andb_true_iff in Hr. destruct Hr as [R1 R2].
    exact (means_val (ODict es) R1).
  - intro rest. exists ([x0a] ++ (if c_pretty c then [x0a] else [])). split; [destruct (c_pretty c); reflexivity|].
    pose proof (item_parses [] (c_pretty c) (c_pretty c) (id, BStream es data) rest eq_refl Hr Hf) as P.
    cbn [app] in P |- *. rewrite P. reflexivity.
Qed.

(** Data that looks like the end of the stream and of the object. *)
Example C15_case :
  entries_readable [(lit "N", OPrim (PInt 7))] = true /\
  option_map (fun c => parse_indirect (chunk_bytes c))
    (chunk_stream 3 [(lit "N", OPrim (PInt 7))] (lit "endstream" ++ [x0a] ++ lit "endobj 4 0 obj") (chunk_with_settings false)) =
  Some (Some (IStream 3 0 [(lit "Length", VInt 24); (lit "N", VInt 7)] (lit "endstream" ++ [x0a] ++ lit "endobj 4 0 obj"), [x0a])).
Proof. vm_compute. split; reflexivity. Qed.

(** ** C16 *)

Theorem C16_stream_panics_iff_oversized : forall id es data c,
  chunk_stream id es data c = None <-> i32_max < blen data.
Proof.
  intros id es data c. pose proof (stream_some_iff id es data c) as H. split.
  - intro E. destruct (Z_lt_le_dec i32_max (blen data)) as [L|L]; [exact L|]. apply H in L. contradiction.
  - intro L. destruct (chunk_stream id es data c) as [c'|] eqn:E; [|reflexivity].
    assert (blen data <= i32_max) by (apply H; congruence). lia.
Qed.

(** ... so a history of chunk operations panics exactly if it writes such a stream. *)
Theorem C16_history_panics_iff_oversized : forall h, hist_typed h ->
  (run h = None <-> exists id es data, In (id, BStream es data) (hist_items h) /\ i32_max < blen data).
Proof.
  intros h Ht. pose proof (run_holds h Ht) as R.
  assert (E : items_fit (hist_items h) = false <-> exists id es data, In (id, BStream es data) (hist_items h) /\ i32_max < blen data).
  { split.
    - intro F. unfold items_fit in F. apply not_true_iff_false in F.
      assert (X : exists x, In x (hist_items h) /\ body_fits (snd x) = false).
      { clear - F. induction (hist_items h) as [|x l IH]; [contradiction F; reflexivity|].
        cbn [forallb] in F. destruct (body_fits (snd x)) eqn:B.
        - destruct IH as (y & Y1 & Y2); [exact F|]. exists y. split; [right; exact Y1|exact Y2].
        - exists x. split; [left; reflexivity|exact B]. }
      destruct X as ([id [o|es data]] & X1 & X2); cbn [snd body_fits] in X2; [discriminate|].
      exists id, es, data. split; [exact X1|]. apply Z.leb_gt. exact X2.
    - intros (id & es & data & H1 & H2). apply not_true_iff_false. intro F. unfold items_fit in F.
      rewrite forallb_forall in F. specialize (F _ H1). cbn [snd body_fits] in F. apply Z.leb_le in F. lia. }
  rewrite <- E. destruct (items_fit (hist_items h)).
  - destruct R as (c & l & R & _). split; congruence.
  - split; congruence.
Qed.

(** ** C17 *)

Example C16_case :
  let h data := HExtend (HObject (HNew true) 1 (OPrim PNull)) (HStream (HNew false) 2 [] data) in
  (forall data, hist_typed (h data)) /\
  (exists c, run (h (lit "abc")) = Some c) /\
  (exists data, blen data = i32_max + 1 /\ run (h data) = None).
Proof.
  cbn zeta. assert (T : forall data, hist_typed (HExtend (HObject (HNew true) 1 (OPrim PNull)) (HStream (HNew false) 2 [] data)))
    by (intro data; repeat split; reflexivity).
  split; [exact T|]. split; [eexists; reflexivity|].
  exists (repeat x00 (Z.to_nat (i32_max + 1))).
  assert (L : blen (repeat x00 (Z.to_nat (i32_max + 1))) = i32_max + 1).
  { unfold blen. rewrite repeat_length. apply Z2Nat.id. unfold i32_max. lia. }
  split; [exact L|]. apply C16_history_panics_iff_oversized; [apply T|].
  eexists 2, [], _. split; [right; left; reflexivity|]. rewrite L. lia.
Qed.

(** The refs are the ids written, in order; the offsets ascend strictly. *)
Theorem C17_refs_in_order : forall h c, hist_typed h -> run h = Some c ->
  chunk_refs c = map fst (hist_items h).
Proof.
  intros h c Ht Hc. pose proof (run_holds h Ht) as R. rewrite (fits_of_run h c Ht Hc) in R.
  destruct R as (c' & l & R & [_ Ho] & Hl & _). assert (c' = c) by congruence. subst c'.
  unfold chunk_refs. rewrite Ho, offs_ids, <- Hl, map_map. reflexivity.
Qed.

Lemma placed_ne pl : 0 < blen (placed_bytes pl).
Proof.
  unfold placed_bytes, item_bytes. rewrite blen_app. pose proof (blen_nonneg (dec_i (fst (pl_item pl)))) as H.
  change (lit " 0 obj" ++ ?x) with (x20 :: (lit "0 obj" ++ x)). unfold blen in *. cbn [List.length]. lia.
Qed.

Theorem C17_offsets_ascend : forall h c i j a b, hist_typed h -> run h = Some c -> (i < j)%nat ->
  nth_error (map snd (c_offsets c)) i = Some a -> nth_error (map snd (c_offsets c)) j = Some b ->
  0 <= a < b /\ b < chunk_len c.
Proof.
  intros h c i j a b Ht Hc Hij Ha Hb. pose proof (run_holds h Ht) as R. rewrite (fits_of_run h c Ht Hc) in R.
  destruct R as (c' & l & R & [Hby Ho] & Hl & _). assert (c' = c) by congruence. subst c'.
  unfold chunk_len. rewrite Hby. rewrite Ho in Ha, Hb. cbn [app].
  assert (G : forall base l i a, nth_error (map snd (offs base l)) i = Some a -> base <= a < base + blen (layout l)).
  { clear. intros base l. revert base. induction l as [|pl l IH]; intros base i a H.
    - destruct i; discriminate.
    - cbn [layout flat_map]. fold (layout l). rewrite blen_app. pose proof (placed_ne pl).
      pose proof (blen_nonneg (layout l)). destruct i; cbn [offs map snd nth_error] in H.
      + injection H as <-. lia.
      + apply IH in H. lia. }
  assert (G2 : forall base l i j a b, (i < j)%nat -> nth_error (map snd (offs base l)) i = Some a ->
     nth_error (map snd (offs base l)) j = Some b -> a < b).
  { clear - G. intros base l. revert base. induction l as [|pl l IH]; intros base i j a b Hij Ha Hb.
    - destruct i; discriminate.
    - destruct j as [|j]; [lia|]. cbn [offs map snd nth_error] in Hb. destruct i as [|i]; cbn [offs map snd nth_error] in Ha.
      + injection Ha as <-. apply G in Hb. pose proof (placed_ne pl). lia.
      + apply (IH (base + blen (placed_bytes pl)) i j a b); [lia|assumption|assumption]. }
  split; [split|].
  - apply G in Ha. unfold blen in Ha. cbn in Ha. lia.
  - exact (G2 _ _ _ _ _ _ Hij Ha Hb).
  - apply G in Hb. unfold blen in Hb |- *. cbn in Hb. lia.
Qed.

(** At each recorded offset stands the object that was written under that id. *)
Theorem C17_offsets_point_at_objects : forall h c n id off it,
  hist_typed h -> run h = Some c ->
  nth_error (c_offsets c) n = Some (id, off) -> nth_error (hist_items h) n = Some it ->
  id = fst it /\
  exists before after, chunk_bytes c = before ++ dec_i id ++ lit " 0 obj" ++ [x0a] ++ after /\ blen before = off /\
    (item_readable it = true ->
     exists v rest, parse_indirect (skipn (Z.to_nat off) (chunk_bytes c)) = Some (v, rest) /\ item_means it v).
Proof.
  intros h c n id off it Ht Hc Hn Hi. pose proof (run_holds h Ht) as R. pose proof (fits_of_run h c Ht Hc) as Hf. rewrite Hf in R.
  destruct R as (c' & l & R & [Hby Ho] & Hl & _). assert (c' = c) by congruence. subst c'.
  rewrite Ho in Hn. rewrite <- Hl in Hi. rewrite Hby. cbn [app]. rewrite <- Hl in Hf. clear - Hn Hi Hf.
  assert (G : forall pfx, nth_error (offs (blen pfx) l) n = Some (id, off) ->
    exists a pl b, l = a ++ pl :: b /\ blen (pfx ++ layout a) = off /\ pl_item pl = it /\ id = fst it).
  { clear Hn Hf. revert n Hi. induction l as [|pl l IH]; intros n Hi pfx Hn.
    - destruct n; discriminate.
    - destruct n as [|n]; cbn [offs map nth_error] in Hn, Hi.
      + injection Hn as <- <-. injection Hi as <-. exists [], pl, l. cbn [layout flat_map app]. rewrite app_nil_r.
        repeat split; reflexivity.
      + rewrite <- blen_app in Hn. destruct (IH n Hi (pfx ++ placed_bytes pl) Hn) as (a & pl' & b & E & A & B & C).
        exists (pl :: a), pl', b. subst l. cbn [layout flat_map app]. fold (layout a). rewrite <- app_assoc in A.
        repeat split; assumption. }
  destruct (G [] Hn) as (a & pl & b & -> & A & B & C). cbn [app] in A. split; [exact C|].
  exists (layout a). rewrite layout_app. cbn [layout flat_map]. fold (layout a). fold (layout b).
  unfold placed_bytes at 1, item_bytes at 1. rewrite B.
  eexists. split; [rewrite C, <- !app_assoc; cbn [app]; reflexivity|]. split; [exact A|].
  intro Hr. unfold item_readable in Hr. apply andb_true_iff in Hr. destruct Hr as [_ Hr].
  rewrite <- A. rewrite skipn_blen. unfold placed_bytes. rewrite B.
  pose proof (item_parses [] (pl_style pl) (pl_nl pl) it (layout b) eq_refl Hr) as P. cbn [app] in P.
  rewrite P.
  - eexists _, _. split; [reflexivity|]. apply item_val_means. exact Hr.
  - rewrite map_app in Hf. cbn [map] in Hf. rewrite B in Hf. rewrite items_fit_app in Hf.
    apply andb_true_iff in Hf. destruct Hf as [_ Hf]. unfold items_fit in Hf. cbn [forallb] in Hf.
    apply andb_true_iff in Hf. apply Hf.
Qed.

(** A history in which every construct occurs. *)
Definition example_obj : obj :=
  ODict [(lit "R", OPrim (PRef 1)); (lit "S", OPrim (PStr (lit "1 0 R"))); (lit "K 0 R", OArray [OPrim (PRef 2); OPrim (PRef 1)])].
Definition example_src : hist :=
  HStream (HObject (HNew true) 1 example_obj) 2 [(lit "P", OPrim (PRef 1))] (lit "1 0 R" ++ [x0a] ++ lit "endstream").
Definition example_closure (t id : Z) : Z * Z := (1 + t mod 1000, t + 1).
Lemma example_closure_ok t id : id_ok (fst (example_closure t id)) = true.
Proof.
  unfold id_ok, example_closure. cbn [fst]. pose proof (Z.mod_pos_bound t 1000 ltac:(lia)).
  apply andb_true_iff. unfold i32_max. split; lia.
Qed.
Definition example_hist : hist :=
  HMerge (HExtend (HRenumber (HObject (HNew false) 9 (OPrim (PInt (-5)))) example_src Z example_closure 10)
                  (HObject (HNew true) 5 (OPrim (PText [65]))))
         limits0.

Example C17_case :
  hist_typed example_hist /\ hist_readable example_hist /\ merges_ok example_hist /\
  option_map c_offsets (run example_hist) = Some [(9, 0); (11, 18); (15, 94); (5, 174)].
Proof.
  split; [|split; [|split]]; [| | |vm_compute; reflexivity]; cbn; repeat split; try reflexivity.
  apply example_closure_ok.
Qed.

(** ** C18 *)

(** For any two chunks whatsoever. *)
Theorem C18_extend_concatenates : forall c other,
  chunk_bytes (chunk_extend other c) = chunk_bytes c ++ chunk_bytes other /\
  c_offsets (chunk_extend other c) =
    c_offsets c ++ map (fun e => (fst e, chunk_len c + snd e)) (c_offsets other) /\
  chunk_refs (chunk_extend other c) = chunk_refs c ++ chunk_refs other /\
  c_pretty (chunk_extend other c) = c_pretty c.
Proof.
  intros c other. split; [reflexivity|]. split; [reflexivity|]. split; [|reflexivity].
  unfold chunk_refs, chunk_extend. cbn [c_offsets]. rewrite map_app, map_map. reflexivity.
Qed.

(** The limits are the least ones above both (see C21). *)
Theorem C18_extend_limits : forall c other, limits_ok (chunk_limits c) = true -> limits_ok (chunk_limits other) = true ->
  let l := chunk_limits (chunk_extend other c) in
  l_int l = Z.max (l_int (chunk_limits c)) (l_int (chunk_limits other)) /\
  l_real l = f32_max (l_real (chunk_limits c)) (l_real (chunk_limits other)) /\
  l_name l = Z.max (l_name (chunk_limits c)) (l_name (chunk_limits other)) /\
  l_str l = Z.max (l_str (chunk_limits c)) (l_str (chunk_limits other)) /\
  l_array l = Z.max (l_array (chunk_limits c)) (l_array (chunk_limits other)) /\
  l_dict l = Z.max (l_dict (chunk_limits c)) (l_dict (chunk_limits other)).
Proof.
  intros c other Ha Hb. apply limits_ok_iff in Ha, Hb.
  change (chunk_limits (chunk_extend other c)) with (merge (chunk_limits c) (chunk_limits other)).
  cbv zeta. rewrite merge_fields by assumption. repeat split; reflexivity.
Qed.

(** Chunks that come from any history have such limits. *)
Theorem C18_limits_ok : forall h c, hist_typed h -> merges_ok h -> run h = Some c -> limits_ok (chunk_limits c) = true.
Proof. intros h c Ht Hm Hc. apply limits_ok_iff. apply (run_bounds h Ht Hm c Hc). Qed.

Theorem C18_extend_associative : forall a b c,
  limits_ok (chunk_limits a) = true -> limits_ok (chunk_limits b) = true -> limits_ok (chunk_limits c) = true ->
  chunk_extend c (chunk_extend b a) = chunk_extend (chunk_extend c b) a.
Proof.
  intros a b c Ha Hb Hc. apply limits_ok_iff in Ha, Hb, Hc. unfold chunk_extend. cbn [c_buf c_offsets c_pretty].
  f_equal.
  - unfold extend_buf. cbn [inner lims]. rewrite app_assoc. f_equal. symmetry. apply merge_assoc; assumption.
  - rewrite <- app_assoc. f_equal. rewrite map_app, map_map. f_equal. apply map_ext. intros [i o]. cbn [fst snd].
    unfold chunk_len, chunk_bytes. cbn [c_buf extend_buf inner]. rewrite blen_app. f_equal. lia.
Qed.

Theorem C18_empty_neutral : forall c p, limits_ok (chunk_limits c) = true ->
  chunk_extend (chunk_with_settings p) c = c /\
  chunk_extend c (chunk_with_settings p) = mkChunk (c_buf c) (c_offsets c) p.
Proof.
  intros c p Hc. apply limits_ok_iff in Hc. destruct c as [[i l] o q]. unfold chunk_limits in Hc. cbn [c_buf lims] in Hc.
  unfold chunk_extend, chunk_with_settings, extend_buf, buf_new. cbn [c_buf c_offsets c_pretty inner lims map].
  rewrite !app_nil_r. split.
  - rewrite merge_0 by exact Hc. reflexivity.
  - cbn [app]. f_equal; [f_equal; apply le_0; exact Hc|].
    induction o as [|[a b] o IH]; [reflexivity|]. cbn [map fst snd]. f_equal. exact IH.
Qed.

Example C18_case : option_map (fun c => limits_ok (chunk_limits c)) (run example_hist) = Some true /\
  option_map chunk_refs (run (HExtend example_src example_src)) = Some [1; 2; 1; 2].
Proof. vm_compute. split; reflexivity. Qed.

(** ** C19 *)

(** The bytes parse from first to last as the sequence of items. *)
Theorem C19_chunk_reads_back : forall h c, hist_typed h -> hist_readable h -> run h = Some c ->
  exists vs, Forall2 item_means (hist_items h) vs /\
    forall fuel, (List.length (hist_items h) <= fuel)%nat -> parse_body fuel (chunk_bytes c) = Some vs.
Proof.
  intros h c Ht Hr Hc. pose proof (run_holds h Ht) as R. pose proof (fits_of_run h c Ht Hc) as Hf. rewrite Hf in R.
  destruct R as (c' & l & R & [Hby Ho] & Hl & _). assert (c' = c) by congruence. subst c'.
  pose proof (items_readable h Ht Hr) as Hir.
  exists (map item_val (hist_items h)). split.
  - rewrite <- Hl in *. clear - Hir. induction (map pl_item l) as [|it k IH]; constructor; cbn [forallb] in Hir;
      apply andb_true_iff in Hir; destruct Hir as [A B]; [apply item_val_means; exact A|auto].
  - intros fuel Hfu. rewrite Hby. pose proof (body_parses l [] fuel eq_refl) as P. cbn [app] in P |- *. rewrite P.
    + rewrite <- Hl, map_map. reflexivity.
    + rewrite <- Hl in Hir, Hf. clear - Hir Hf. induction l as [|pl l IH]; [reflexivity|].
      unfold items_fit in *. cbn [map forallb] in *. apply andb_true_iff in Hir, Hf. destruct Hir as [A B], Hf as [C D].
      rewrite A, C. apply IH; assumption.
    + rewrite <- Hl, map_length in Hfu. exact Hfu.
Qed.

Example C19_case : option_map (fun c => option_map (@List.length _) (parse_body 4 (chunk_bytes c))) (run example_hist) = Some (Some 4%nat).
Proof. vm_compute. reflexivity. Qed.

Print Assumptions C15_stream_layout.
Print Assumptions C15_stream_reads_back.
Print Assumptions C16_stream_panics_iff_oversized.
Print Assumptions C16_history_panics_iff_oversized.
Print Assumptions C17_refs_in_order.
Print Assumptions C17_offsets_ascend.
Print Assumptions C17_offsets_point_at_objects.
Print Assumptions C18_extend_concatenates.
Print Assumptions C18_extend_limits.
Print Assumptions C18_limits_ok.
Print Assumptions C18_extend_associative.
Print Assumptions C18_empty_neutral.
Print Assumptions C19_chunk_reads_back.
