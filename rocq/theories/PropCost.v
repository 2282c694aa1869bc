(** C101: how large the output is. *)

From Coq Require Import ZArith List Lia Bool Permutation ZifyBool.
From Verif Require Import Bytes ModelFloat ModelBuf ModelObject ModelRenumber ModelChunk ModelPdf SpecLex SpecObj SpecMeans
  SpecRenum SpecChunk SpecFile SpecPdf SpecSame SpecOverflow ProofBasic ProofText ProofFloat2 ProofObj ProofParse ProofTree ProofRenum ProofXref ProofRenumTree ProofChunk
  ProofChunkParse ProofChunk2 ProofFile ProofFile2 ProofPdf ProofFile3 ProofFile4 PropChunk PropRenum PropPdf PropPdf2 ProofSame SpecCost ProofCost ProofCost2.
Import ListNotations.
Local Open Scope Z_scope.

(** ** Values *)

(** A value that is written into an array or a dictionary takes at most as many bytes as it costs, and one for the space in front of it. *)
Theorem C101_value : forall o indent pretty pad b, fits o = true -> 0 <= indent <= 255 ->
  blen (inner b) < blen (inner (write_obj o (obj_direct indent pretty pad) b)) <= blen (inner b) + 1 + cost pretty o.
Proof.
  intros o i pretty pd b F Hi. rewrite write_obj_inner. cbn [obj_direct o_pad o_pretty o_indent o_indirect end_bytes]. rewrite app_nil_r.
  pose proof (value_len pretty o i Hi F) as L. pose proof (out_ne pretty i o) as N.
  assert (0 < blen (out pretty i o)) by (destruct (out pretty i o); [congruence|unfold blen; cbn [List.length]; lia]).
  unfold pad_if. destruct pd; rewrite !blen_app.
  - pose proof (pad_le (last_byte (inner b)) o). pose proof (blen_nonneg (pad (last_byte (inner b)) o)). lia.
  - change (blen []) with 0. lia.
Qed.

(** The costs of primitive values are reached, for every length. *)
Theorem C101_attained : forall n,
  let written p := blen (inner (write_prim p buf_new)) in
  written (PStr (repeat x01 n)) = prim_cost (PStr (repeat x01 n)) /\
  written (PName (repeat x20 n)) = prim_cost (PName (repeat x20 n)) /\
  written (PText (repeat 128512 (S n))) = prim_cost (PText (repeat 128512 (S n))) /\
  written (PTextLang (repeat (mkLang (x64, x65) (Some (x44, x45)), repeat 128512 n) n)) =
    prim_cost (PTextLang (repeat (mkLang (x64, x65) (Some (x44, x45)), repeat 128512 n) n)) /\
  written (PReal (FFin true 1 (-149))) = prim_cost (PReal (FFin true 1 (-149))) /\
  written (PInt i32_min) = prim_cost (PInt i32_min) /\ written (PRef i32_max) = prim_cost (PRef i32_max) /\
  written (PBool false) = 5 /\ written PNull = 4 /\
  written (PDate (mkDate 9999 (Some 12) (Some 31) (Some 23) (Some 59) (Some 59) (Some (-23)) 59)) = 24.
Proof.
  intro n. cbv beta zeta. rewrite !write_prim_inner. cbn [buf_new inner app].
  assert (H8 : forall k, blen (hex_utf16 (repeat 128512 k)) = 8 * Z.of_nat k).
  { induction k as [|k IH]; [reflexivity|]. cbn [repeat]. unfold hex_utf16 in *. cbn [flat_map]. rewrite flat_map_app, blen_app, IH.
    change (blen (flat_map hex4 (utf16 128512))) with 8. lia. }
  split; [|split; [|split; [|split; [|split; [vm_compute; reflexivity|split; [vm_compute; reflexivity|split; [vm_compute; reflexivity|split; [reflexivity|split; [reflexivity|vm_compute; reflexivity]]]]]]]]].
  - cbn [prim_bytes prim_cost]. unfold str_bytes, size. rewrite repeat_length.
    assert (forallb (fun c => bz c <? 128) (repeat x01 n) = true) as -> by (induction n as [|n IH]; [reflexivity|exact IH]).
    rewrite !blen_app. change (blen [x28]) with 1. change (blen [x29]) with 1.
    assert (Q : forall w k, blen (str_literal w None (repeat x01 k)) = 4 * Z.of_nat k); [|rewrite Q; lia].
    intros w k. induction k as [|k IH]; [reflexivity|]. cbn [repeat str_literal]. change (str_byte w None x01) with (@None bool, x5c :: octal3 x01).
    cbv beta iota. rewrite blen_app, IH. change (blen (x5c :: octal3 x01)) with 4. lia.
  - cbn [prim_bytes prim_cost]. unfold name_bytes, size. rewrite repeat_length, blen_cons.
    assert (Q : forall k, blen (flat_map name_byte (repeat x20 k)) = 3 * Z.of_nat k); [|rewrite Q; lia].
    intros k. induction k as [|k IH]; [reflexivity|]. cbn [repeat flat_map]. rewrite blen_app, IH. change (blen (name_byte x20)) with 3. lia.
  - cbn [prim_bytes prim_cost]. unfold text_bytes, size. rewrite repeat_length. cbn [repeat str_utf8 flat_map].
    change (utf8 128512) with [xf0; x9f; x98; x80]. cbn [app forallb]. change ((32 <=? bz xf0) && (bz xf0 <=? 126)) with false. cbn [andb].
    rewrite !blen_app. change (blen text_header) with 5. change (blen text_footer) with 1.
    change (128512 :: repeat 128512 n) with (repeat 128512 (S n)). rewrite H8. lia.
  - cbn [prim_bytes prim_cost]. unfold text_lang_bytes. rewrite !blen_app. change (blen text_header) with 5. change (blen text_footer) with 1.
    set (g := (_, repeat 128512 n)).
    assert (G : blen (lang_code (fst g) ++ hex_utf16 (snd g)) = 24 + 8 * size (snd g)).
    { unfold g. cbn [fst snd]. rewrite blen_app, H8. unfold size. rewrite repeat_length. reflexivity. }
    assert (Q : forall k, blen (flat_map (fun seg => lang_code (fst seg) ++ hex_utf16 (snd seg)) (repeat g k)) = total (fun seg => 24 + 8 * size (snd seg)) (repeat g k)); [|rewrite Q; lia].
    induction k as [|k IH]; [reflexivity|]. cbn [repeat flat_map]. rewrite total_cons, blen_app, G, IH. reflexivity.
Qed.

(** ** Chunks *)

Lemma layout_len p l : uniform p l \/ p = true -> items_sound (map pl_item l) -> Forall (fun it => id_ok (fst it) = true) (map pl_item l) -> items_fit (map pl_item l) = true ->
  blen (layout l) <= total (item_cost p) (map pl_item l).
Proof.
  unfold items_sound, items_fit. induction l as [|pl l IH]; intros U S I F; [cbn; lia|]. cbn [map forallb] in *. rewrite total_cons.
  change (layout (pl :: l)) with (placed_bytes pl ++ layout l). rewrite blen_app.
  apply Forall_cons_iff in S, I. destruct S as [S1 S2], I as [I1 I2]. apply andb_true_iff in F. destruct F as [F1 F2].
  assert (U2 : uniform p l \/ p = true) by (destruct U as [U|U]; [left; inversion U; assumption|right; exact U]).
  specialize (IH U2 S2 I2 F2). pose proof (item_len (pl_style pl) (pl_nl pl) _ I1 S1 F1) as L. unfold placed_bytes.
  assert (item_cost (pl_style pl) (pl_item pl) <= item_cost p (pl_item pl)); [|lia].
  destruct U as [U| ->]; [apply Forall_inv in U; rewrite (proj1 U); lia|]. apply item_cost_mono.
Qed.

Lemma typed_ids l : forallb item_typed l = true -> Forall (fun it => id_ok (fst it) = true) l.
Proof. intro H. rewrite forallb_forall in H. apply Forall_forall. intros it Hi. specialize (H _ Hi). unfold item_typed in H. apply andb_true_iff in H. tauto. Qed.

(** Whatever a chunk was put together from - also from pretty and compact chunks, and from renumbered ones - it is not larger than its objects cost. *)
Theorem C101_chunk : forall h c, hist_typed h -> run h = Some c -> items_sound (hist_items h) ->
  chunk_len c <= total (item_cost true) (hist_items h) /\
  (hist_uniform false h -> chunk_len c <= total (item_cost false) (hist_items h)).
Proof.
  intros h c T R S. pose proof (run_holds h T) as H. destruct (items_fit (hist_items h)) eqn:F; [|congruence].
  pose proof (typed_ids _ (items_typed h T)) as I.
  destruct H as (c' & l & R' & [B _] & M & _). assert (c' = c) by congruence. subst c'. unfold chunk_len.
  split.
  - rewrite B. cbn [app]. rewrite <- M in *. apply layout_len; auto.
  - intro U. destruct (run_uniform false h T U c R) as (l2 & [B2 _] & M2 & U2 & _). rewrite B2. cbn [app]. rewrite <- M2 in *. apply layout_len; auto.
Qed.

(** Other numbers do not cost more. *)
Theorem C101_renumbered : forall T (f : T -> Z -> Z * T) p it t, item_cost p (fst (map_item_st f it t)) = item_cost p it.
Proof.
  intros T f p [id b] t. unfold map_item_st. cbn [fst snd]. destruct (f t id) as [id' t1]. destruct (map_body_st f b t1) as [b' t2] eqn:E. cbn [fst].
  unfold item_cost. cbn [snd]. f_equal. destruct b as [o|es d]; cbn [map_body_st] in E.
  - destruct (map_refs_st f o t1) as [o' t'] eqn:E'. injection E as <- <-. cbn [body_cost]. pose proof (cost_refs f p o t1) as Q. rewrite E' in Q. exact Q.
  - destruct (map_entries_st f es t1) as [es' t'] eqn:E'. injection E as <- <-. cbn [body_cost]. pose proof (cost_entries_refs f p es t1) as Q. rewrite E' in Q. cbn [fst] in Q.
    cbn [cost]. rewrite Q. reflexivity.
Qed.

(** ** Files *)

Lemma largest_max l n : Forall (fun i => 0 < i) l -> largest l n -> zmax l = n.
Proof.
  intros P [H1 [H2|[-> ->]]]; [|reflexivity]. pose proof (zmax_ge _ _ H2). rewrite Forall_forall in *. apply Z.le_antisymm; [|assumption].
  apply H1. apply zmax_in; [intros ->; destruct H2|]. intros i Hi. specialize (P _ Hi). lia.
Qed.

Theorem C101_pdf : forall pretty ops p, ops_typed ops -> pdf_run ops (pdf_with_settings pretty) = Some p -> items_sound (pdf_items ops) ->
  chunk_len (p_chunk p) <= 16 + total (item_cost true) (pdf_items ops) /\
  (pretty = false -> ops_uniform false ops -> chunk_len (p_chunk p) <= 16 + total (item_cost false) (pdf_items ops)).
Proof.
  intros pretty ops p HT HR S. pose proof (typed_ids _ (all_typed ops HT)) as I.
  destruct (reach _ _ _ HT HR) as (k & M & ((B & _) & _) & F). unfold chunk_len. split.
  - rewrite B, blen_app, header_of_length. rewrite <- M in *. pose proof (layout_len true k (or_intror eq_refl) S I F). lia.
  - intros -> U. destruct (run_uniform_pdf false ops HT U F) as (p2 & k2 & R2 & M2 & U2 & (B2 & _) & _). assert (p2 = p) by congruence. subst p2.
    rewrite B2, blen_app, header_of_length. rewrite <- M2 in *. pose proof (layout_len false k2 (or_introl U2) S I F). lia.
Qed.

Lemma trailer_cost pretty ops p N : ops_typed ops -> pdf_run ops (pdf_with_settings pretty) = Some p -> 0 < N <= i32_max ->
  forallb (fun e => fits (snd e)) (trailer_entries p N) = true /\
  total (fun e => line pretty + (1 + 3 * size (fst e)) + 1 + cost pretty (snd e)) (trailer_entries p N) <= 1121 + 4 * file_id_size ops.
Proof.
  intros HT HR HN. destruct (reach_trailer _ _ _ HT HR) as [A B]. destruct (reach _ _ _ HT HR) as (k & _ & (_ & _ & _ & _ & FI) & _).
  unfold file_id_size. rewrite <- FI. unfold trailer_entries, i32_max in *. split.
  - rewrite !forallb_app. cbn [forallb snd fits prim_fits]. unfold in_i32, i32_min, i32_max. 
    destruct (p_catalog p) as [i|]; [specialize (A _ eq_refl)|]; (destruct (p_info p) as [j|]; [specialize (B _ eq_refl)|]); destruct (p_file_id p) as [[x y]|];
      cbn [forallb snd fits prim_fits prim_typed andb]; unfold i32_max in *; lia.
  - rewrite !total_app.
    assert (L : line pretty <= 256) by (destruct pretty; cbn; lia).
    assert (T1 : total (fun e => line pretty + (1 + 3 * size (fst e)) + 1 + cost pretty (snd e)) [(lit "Size", OPrim (PInt N))] <= 281) by (unfold total; cbn [fold_right fst snd cost prim_cost]; change (size (lit "Size")) with 4; lia).
    assert (T2 : total (fun e => line pretty + (1 + 3 * size (fst e)) + 1 + cost pretty (snd e)) (match p_catalog p with Some id => [(lit "Root", OPrim (PRef id))] | None => [] end) <= 284).
    { destruct (p_catalog p); unfold total; cbn [fold_right fst snd cost prim_cost]; [change (size (lit "Root")) with 4|]; lia. }
    assert (T3 : total (fun e => line pretty + (1 + 3 * size (fst e)) + 1 + cost pretty (snd e)) (match p_info p with Some id => [(lit "Info", OPrim (PRef id))] | None => [] end) <= 284).
    { destruct (p_info p); unfold total; cbn [fold_right fst snd cost prim_cost]; [change (size (lit "Info")) with 4|]; lia. }
    assert (T4 : total (fun e => line pretty + (1 + 3 * size (fst e)) + 1 + cost pretty (snd e)) (match p_file_id p with Some (a, b) => [(lit "ID", OArray [OPrim (PStr a); OPrim (PStr b)])] | None => [] end)
                 <= 272 + 4 * match p_file_id p with Some (a, b) => size a + size b | None => 0 end).
    { destruct (p_file_id p) as [[x y]|]; unfold total; cbn [fold_right fst snd cost prim_cost]; [change (size (lit "ID")) with 2; unfold total; cbn [fold_right cost prim_cost]|]; lia. }
    lia.
Qed.

(** The table of a file takes 20 bytes for every number up to the largest one, whether it is used or not; what comes after it is small. *)
Theorem C101_table : forall pretty ops p file n, ops_typed ops -> pdf_run ops (pdf_with_settings pretty) = Some p -> finish p = Some file ->
  ids_below (pdf_ids ops) -> chunk_len (p_chunk p) <= 10 ^ 10 -> largest (pdf_ids ops) n ->
  chunk_len (p_chunk p) + 20 * (1 + n) <= blen file <= chunk_len (p_chunk p) + 20 * (1 + n) + 1440 + 4 * file_id_size ops.
Proof.
  intros pretty ops p file n HT HR HF HB HL HN.
  pose proof (reach_small _ _ _ HT HR HB) as SM. pose proof (reach_offsets _ _ _ HT HR) as Ho.
  rewrite finish_form in HF.
  destruct (ListDec.NoDup_dec Z.eq_dec (ids (c_offsets (p_chunk p)))) as [ND|ND]; [|rewrite write_offsets_dup in HF by exact ND; discriminate].
  destruct (xref_entries _ ND SM) as (es' & E & NP & EL' & EF').
  rewrite (reach_ids _ _ _ HT HR), (largest_max _ _ (reach_pos ops HT) HN) in *.
  rewrite E in HF. cbn [option_map fst snd] in HF. apply some_inj in HF. subst file.
  assert (L20' : blen (flat_map plain_entry es') = 20 * (1 + n)).
  { assert (FIT : entries_fit es').
    { pose proof (values_small _ _ _ (proj1 NP) EF') as V. unfold entries_fit. revert V. apply Forall_impl.
      intros [m g|o g]; cbn [entry_value entry_gen].
      - intros [V1 V2]. assert (i32_max < 10 ^ 10) by reflexivity. split; [lia|]. change (10 ^ 5) with 100000. destruct V2; subst; lia.
      - intros [(id & V1) ->]. apply (proj1 (in_sorted _ _)) in V1. unfold small_offsets in Ho. rewrite Forall_forall in Ho. specialize (Ho _ V1). cbn [snd] in Ho.
        unfold chunk_len in HL. fold (pdf_bytes p) in HL. split; [lia|]. change (10 ^ 5) with 100000. lia. }
    rewrite plain_length by exact FIT. lia. }
  destruct (trailer_cost pretty ops p (1 + n) HT HR NP) as [TF TC].
  destruct (reach _ _ _ HT HR) as (k & _ & (_ & PP & _) & _). rewrite PP.
  pose proof (value_len pretty (ODict (trailer_entries p (1 + n))) 0 ltac:(lia) TF) as TL. cbn [cost] in TL.
  assert (L : 0 <= line pretty <= 256) by (destruct pretty; cbn; lia).
  rewrite !blen_app, L20'. change (blen (lit "xref")) with 4. change (blen [x0a]) with 1. change (blen (lit "0 ")) with 2. change (blen (lit "trailer")) with 7.
  unfold chunk_len in *. fold (pdf_bytes p) in *. pose proof (nat_len (1 + n) ltac:(lia)) as NL. pose proof (blen_nonneg (dec_i (1 + n))).
  assert (TT : 0 <= blen (tail_bytes (blen (pdf_bytes p))) <= 27).
  { split; [apply blen_nonneg|]. unfold tail_bytes. rewrite !blen_app. change (blen (lit "startxref")) with 9. change (blen [x0a]) with 1. change (blen (lit "%%EOF")) with 5.
    pose proof (blen_nonneg (pdf_bytes p)). pose proof (digits_len (blen (pdf_bytes p)) 11 ltac:(assert (10 ^ 10 < 10 ^ Z.of_nat 11) by reflexivity; lia) ltac:(lia)). lia. }
  pose proof (blen_nonneg (out pretty 0 (ODict (trailer_entries p (1 + n))))). lia.
Qed.

(** All in all: what is written, 20 bytes for every number, and a constant. *)
Theorem C101_file : forall pretty ops p file n, ops_typed ops -> pdf_run ops (pdf_with_settings pretty) = Some p -> finish p = Some file ->
  ids_below (pdf_ids ops) -> items_sound (pdf_items ops) -> total (item_cost true) (pdf_items ops) < 10 ^ 10 - 16 -> largest (pdf_ids ops) n ->
  blen file <= total (item_cost true) (pdf_items ops) + 20 * (1 + n) + 1456 + 4 * file_id_size ops.
Proof.
  intros pretty ops p file n HT HR HF HB HS HC HN. destruct (C101_pdf pretty ops p HT HR HS) as [L _].
  pose proof (C101_table pretty ops p file n HT HR HF HB ltac:(lia) HN). lia.
Qed.

Lemma data_within p nl id es d : blen d <= blen (item_bytes p nl (id, BStream es d)).
Proof.
  unfold item_bytes. cbn [fst snd body_bytes]. rewrite !blen_app.
  repeat match goal with |- context [blen ?x] => lazymatch x with d => fail | _ => pose proof (blen_nonneg x); let v := fresh "v" in set (v := blen x) in *; clearbody v end end.
  lia.
Qed.

(** With a cross-reference stream a number takes three bytes and as many as are needed for the position of the stream. *)
Theorem C101_xref_stream : forall pretty ops p xref_id file n w, ops_typed ops -> pdf_run ops (pdf_with_settings pretty) = Some p ->
  id_ok xref_id = true -> ids_below (xref_id :: pdf_ids ops) -> finish_with_xref_stream p xref_id = Some file ->
  0 <= w <= 8 -> chunk_len (p_chunk p) < 256 ^ w -> largest (xref_id :: pdf_ids ops) n ->
  chunk_len (p_chunk p) + 4 * (1 + n) <= blen file <= chunk_len (p_chunk p) + (3 + w) * (1 + n) + 2400 + 4 * file_id_size ops.
Proof.
  intros pretty ops p xid file n w HT HR HX HB HF HW HL HN.
  pose proof (st_small pretty ops p xid HT HR HX HB) as SM.
  pose proof (reach_len _ _ _ HT HR) as RL. unfold chunk_len in *. fold (pdf_bytes p) in *.
  assert (P64 : 256 ^ w <= 256 ^ 8) by (apply Z.pow_le_mono_r; lia). assert (E64 : 256 ^ 8 = 2 ^ 64) by reflexivity.
  destruct (field_width_spec (blen (pdf_bytes p)) ltac:(lia)) as [W1 W2]. pose proof (field_width_lower (blen (pdf_bytes p)) ltac:(lia)) as W3.
  assert (WW : field_width (blen (pdf_bytes p)) <= w).
  { apply Z.nlt_ge. intro X. assert (256 ^ w <= 256 ^ (field_width (blen (pdf_bytes p)) - 1)) by (apply Z.pow_le_mono_r; lia). lia. }
  set (fw := field_width (blen (pdf_bytes p))) in *.
  assert (PN : Forall (fun i => 0 < i) (xid :: pdf_ids ops)) by (constructor; [unfold id_ok in HX; lia|apply reach_pos; exact HT]).
  assert (EN : zmax (ids (with_xref p xid)) = n) by (rewrite (zmax_perm _ _ (st_perm pretty ops p xid HT HR)); apply largest_max; assumption).
  unfold finish_with_xref_stream in HF. rewrite finish_stream_form in HF. cbn zeta in HF. fold fw in HF.
  change (c_offsets (p_chunk p) ++ [(xid, blen (pdf_bytes p))]) with (with_xref p xid) in HF.
  destruct (ListDec.NoDup_dec Z.eq_dec (ids (with_xref p xid))) as [ND|ND]; [|rewrite write_offsets_dup in HF by exact ND; discriminate].
  destruct (xref_entries _ ND SM) as (es & E & NP & EL & _). rewrite E in HF. cbv beta iota in HF. rewrite EN in *.
  destruct (blen (flat_map (stream_entry fw) es) <=? i32_max) eqn:LL; [|discriminate HF]. apply some_inj in HF. subst file.
  assert (DL : blen (flat_map (stream_entry fw) es) = (3 + fw) * (1 + n)).
  { rewrite <- EL. clear - W1. induction es as [|e es IH]; [cbn; lia|]. cbn [flat_map]. rewrite blen_app, IH. unfold blen at 1. rewrite stream_entry_length by lia. cbn [List.length]. lia. }
  destruct (reach _ _ _ HT HR) as (k & _ & (_ & PP & _) & _). rewrite PP.
  destruct (trailer_cost pretty ops p (1 + n) HT HR NP) as [TF TC].
  set (it := (xid, BStream _ _)).
  assert (SN : forallb (fun e => fits (snd e)) (stream_entries p None (1 + n) fw) = true).
  { unfold stream_entries. rewrite !forallb_app, TF. cbn [filter_entries forallb snd fits prim_fits prim_typed andb]. unfold in_i32, i32_min, i32_max. lia. }
  pose proof (item_len pretty pretty it HX SN LL) as IL.
  assert (IG : blen (flat_map (stream_entry fw) es) <= blen (item_bytes pretty pretty it)).
  { apply data_within. }
  assert (IC : item_cost pretty it <= 2310 + 4 * file_id_size ops + (3 + fw) * (1 + n)).
  { unfold it, item_cost. cbn [snd body_cost cost]. change (size (flat_map (stream_entry fw) es)) with (blen (flat_map (stream_entry fw) es)). rewrite DL.
    unfold stream_entries. rewrite !total_app. cbn [filter_entries].
    assert (L : 0 <= line pretty <= 256) by (destruct pretty; cbn; lia).
    assert (T1 : total (fun e => line pretty + (1 + 3 * size (fst e)) + 1 + cost pretty (snd e)) [(lit "Type", OPrim (PName (lit "XRef")))] <= 283).
    { unfold total. cbn [fold_right fst snd cost prim_cost]. change (size (lit "Type")) with 4. change (size (lit "XRef")) with 4. lia. }
    assert (T2 : total (fun e => line pretty + (1 + 3 * size (fst e)) + 1 + cost pretty (snd e)) [(lit "W", OArray [OPrim (PInt 1); OPrim (PInt fw); OPrim (PInt 2)])] <= 299).
    { unfold total. cbn [fold_right fst snd cost prim_cost]. change (size (lit "W")) with 1. unfold total. cbn [fold_right cost prim_cost]. lia. }
    change (total (fun e => line pretty + (1 + 3 * size (fst e)) + 1 + cost pretty (snd e)) []) with 0. lia. }
  assert (FW : 4 * (1 + n) <= (3 + fw) * (1 + n) <= (3 + w) * (1 + n)) by (split; apply Z.mul_le_mono_nonneg_r; lia).
  assert (TT : 0 <= blen (tail_bytes (blen (pdf_bytes p))) <= 36).
  { split; [apply blen_nonneg|]. unfold tail_bytes. rewrite !blen_app. change (blen (lit "startxref")) with 9. change (blen [x0a]) with 1. change (blen (lit "%%EOF")) with 5.
    pose proof (blen_nonneg (pdf_bytes p)). pose proof (digits_len (blen (pdf_bytes p)) 20 ltac:(assert (256 ^ 8 < 10 ^ Z.of_nat 20) by reflexivity; lia) ltac:(lia)). lia. }
  rewrite !blen_app. lia.
Qed.

(** ** An example *)

(** A large number makes a large file: one object, 2000020 bytes of table. *)
Definition sparse_ops : list pdf_op := [PdfObject 100000 (ODict [(lit "Key", OPrim (PReal (FFin true 1 (-149))))])].

Example C101_case :
  ops_typed sparse_ops /\ ids_below (pdf_ids sparse_ops) /\ items_sound (pdf_items sparse_ops) /\ largest (pdf_ids sparse_ops) 100000 /\
  total (item_cost false) (pdf_items sparse_ops) = 89 /\ total (item_cost true) (pdf_items sparse_ops) = 601 /\ ops_uniform false sparse_ops /\
  option_map (fun p => chunk_len (p_chunk p)) (pdf_run sparse_ops (pdf_with_settings false)) = Some 94.
Proof.
  split; [repeat constructor|]. split; [repeat constructor|]. split; [repeat constructor|]. split; [split; [apply Forall_forall; intros x [<-|[]]; apply Z.le_refl|left; left; reflexivity]|].
  split; [reflexivity|]. split; [reflexivity|]. split; [repeat constructor|]. vm_compute. reflexivity.
Qed.

Print Assumptions C101_value.
Print Assumptions C101_attained.
Print Assumptions C101_chunk.
Print Assumptions C101_renumbered.
Print Assumptions C101_pdf.
Print Assumptions C101_table.
Print Assumptions C101_file.
Print Assumptions C101_xref_stream.
