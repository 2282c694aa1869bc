(** Properties C23..C26, C29, C30: finished files with a cross-reference table. *)

From Coq Require Import ZArith List Lia Bool Permutation Sorted ZifyBool.
From Verif Require Import Bytes ModelFloat ModelBuf ModelObject ModelRenumber ModelChunk ModelPdf SpecLex SpecObj SpecMeans
  SpecRenum SpecChunk SpecFile SpecPdf SpecLimits ProofBasic ProofObj ProofParse ProofTree ProofRenum ProofXref ProofChunk ProofChunkParse ProofChunk2
  ProofFile ProofFile2 ProofPdf ProofFile3 ProofFile4 PropChunk.
Import ListNotations.
Local Open Scope Z_scope.

Lemma items_fit_in l it : items_fit l = true -> In it l -> body_fits (snd it) = true.
Proof. unfold items_fit. rewrite forallb_forall. intros H Hi. apply H. exact Hi. Qed.

Lemma parse_at pre st nl it post : body_readable (snd it) = true -> body_fits (snd it) = true ->
  exists r, parse_indirect (from (pre ++ item_bytes st nl it ++ post) (blen pre)) = Some (item_val it, r).
Proof.
  intros H1 H2. rewrite from_app. pose proof (item_parses [] st nl it post eq_refl H1 H2) as P. rewrite app_nil_l in P.
  rewrite P. eexists. reflexivity.
Qed.

Lemma item_val_id it : indirect_id (item_val it) = (fst it, 0).
Proof. destruct it as [id [o|es d]]; reflexivity. Qed.

Lemma blen_prefix a b : blen a <= blen (a ++ b).
Proof. rewrite blen_app. pose proof (blen_nonneg b). lia. Qed.

(** ** C23 *)

Theorem C23_table_entries : forall decode pretty ops p file,
  ops_typed ops -> pdf_run ops (pdf_with_settings pretty) = Some p -> finish p = Some file ->
  ids_below (pdf_ids ops) -> blen file <= 10 ^ 10 ->
  exists entries trailer, read_file decode file = Some (entries, trailer) /\
    map fst entries = zrange 0 (Z.to_nat (1 + zmax (pdf_ids ops))) /\
    (forall id, In id (pdf_ids ops) ->
       exists off, find_entry id entries = Some (XUsed off 0) /\ object_at file off id) /\
    (forall id, 0 <= id <= zmax (pdf_ids ops) -> ~ In id (pdf_ids ops) ->
       exists next gen, find_entry id entries = Some (XFree next gen)).
Proof.
  intros decode pretty ops p file HT HR HF HB HL.
  pose proof (reach_small _ _ _ HT HR HB) as SM. pose proof (reach_ids _ _ _ HT HR) as RI.
  assert (HL' : blen (pdf_bytes p) <= 10 ^ 10).
  { rewrite finish_form in HF. destruct (write_offsets _); [|discriminate]. cbn [option_map] in HF. apply some_inj in HF.
    rewrite <- HF, blen_app in HL. pose proof (blen_nonneg (lit "xref" ++ [x0a] ++ lit "0 " ++ dec_i (fst p0) ++ [x0a] ++ flat_map plain_entry (snd p0) ++ lit "trailer" ++ [x0a] ++
      out (c_pretty (p_chunk p)) 0 (ODict (trailer_entries p (fst p0))) ++ [x0a] ++ tail_bytes (blen (pdf_bytes p)))). lia. }
  destruct (plain_read decode p file HF SM (reach_trailer _ _ _ HT HR) (reach_offsets _ _ _ HT HR) HL')
    as (es & tail & ND & EL & EF & EB & _ & RD & _). cbn zeta in *.
  eexists. eexists. split; [exact RD|]. rewrite RI in *.
  split; [|split].
  - rewrite combine_ids by (rewrite map_length; reflexivity). f_equal. lia.
  - intros id Hid. rewrite <- RI in Hid. apply in_map_iff in Hid. destruct Hid as ([i off] & <- & Hid). cbn [fst].
    exists off. split.
    + rewrite <- RI in ND. refine (used_entry _ _ es ND SM eq_refl _ _ conv i off Hid); rewrite RI; assumption.
    + destruct (reach_offset _ _ _ HT HR i off Hid) as (pre & st & nl & it & post & E & L & _ & -> & Hit).
      rewrite EB, E, <- L. rewrite <- !app_assoc. apply item_object_at.
      pose proof (reach_pos _ HT) as P. rewrite Forall_forall in P. apply P. apply in_map. exact Hit.
  - intros id H1 H2. rewrite <- RI in H2, ND. destruct (free_entry _ (1 + zmax (ids (c_offsets (p_chunk p)))) es SM eq_refl ltac:(rewrite RI; assumption) ltac:(rewrite RI; assumption) conv id) as (n & E & _); [rewrite RI; lia|exact H2|].
    eexists. eexists. exact E.
Qed.

Theorem C23_every_object_is_found : forall decode pretty ops p file,
  ops_typed ops -> pdf_run ops (pdf_with_settings pretty) = Some p -> finish p = Some file ->
  ids_below (pdf_ids ops) -> blen file <= 10 ^ 10 ->
  (forall it, In it (pdf_items ops) -> body_readable (snd it) = true ->
     exists i, resolve decode file (fst it) = Some i /\ item_means it i) /\
  (forall id, ~ In id (pdf_ids ops) -> resolve decode file id = None).
Proof.
  intros decode pretty ops p file HT HR HF HB HL.
  pose proof (reach_small _ _ _ HT HR HB) as SM. pose proof (reach_ids _ _ _ HT HR) as RI.
  assert (HL' : blen (pdf_bytes p) <= 10 ^ 10).
  { rewrite finish_form in HF. destruct (write_offsets _); [|discriminate]. cbn [option_map] in HF. apply some_inj in HF.
    rewrite <- HF in HL. eapply Z.le_trans; [apply blen_prefix|exact HL]. }
  destruct (plain_read decode p file HF SM (reach_trailer _ _ _ HT HR) (reach_offsets _ _ _ HT HR) HL')
    as (es & tail & ND & EL & EF & EB & _ & RD & _). cbn zeta in *. split.
  - intros it Hit Hr. destruct (reach_item _ _ _ HT HR it Hit) as (pre & st & nl & post & E & Ho).
    unfold resolve. rewrite RD. rewrite (used_entry _ _ es ND SM eq_refl EL EF conv _ _ Ho). cbn [conv].
    destruct (reach _ _ _ HT HR) as (k & _ & _ & Fit).
    rewrite EB, E, <- !app_assoc. destruct (parse_at pre st nl it
      (post ++ lit "xref" ++ [x0a] ++ lit "0 " ++ dec_u (1 + zmax (ids (c_offsets (p_chunk p)))) ++ [x0a] ++ flat_map plain_entry es ++ lit "trailer" ++ tail) Hr (items_fit_in _ _ Fit Hit)) as (r & ->).
    rewrite item_val_id. cbn [fst snd]. rewrite !Z.eqb_refl. cbn [andb]. exists (item_val it). split; [reflexivity|]. apply item_val_means. exact Hr.
  - intros id Hid. unfold resolve. rewrite RD. rewrite <- RI in Hid.
    destruct (Z_lt_le_dec id 0) as [L|L]; [rewrite (outside_entry _ es EL conv) by lia; reflexivity|].
    destruct (Z_lt_le_dec id (1 + zmax (ids (c_offsets (p_chunk p))))) as [L'|L'].
    + destruct (free_entry _ _ es SM eq_refl EL EF conv id ltac:(lia) Hid) as (n & -> & _). reflexivity.
    + rewrite (outside_entry _ es EL conv) by lia. reflexivity.
Qed.

(** The table itself: one line [0 count], then exactly 20 bytes per entry. *)
Theorem C23_entry_size : forall pretty ops p file,
  ops_typed ops -> pdf_run ops (pdf_with_settings pretty) = Some p -> finish p = Some file ->
  ids_below (pdf_ids ops) -> blen file <= 10 ^ 10 ->
  exists body count table rest, file = body ++ lit "xref" ++ [x0a] ++ lit "0 " ++ count ++ [x0a] ++ table ++ lit "trailer" ++ rest /\
    startxref file = Some (blen body) /\
    digits_at count = Some (1 + zmax (pdf_ids ops), []) /\ blen table = 20 * (1 + zmax (pdf_ids ops)).
Proof.
  intros pretty ops p file HT HR HF HB HL.
  pose proof (reach_small _ _ _ HT HR HB) as SM. pose proof (reach_ids _ _ _ HT HR) as RI.
  assert (HL' : blen (pdf_bytes p) <= 10 ^ 10).
  { rewrite finish_form in HF. destruct (write_offsets _); [|discriminate]. cbn [option_map] in HF. apply some_inj in HF.
    rewrite <- HF in HL. eapply Z.le_trans; [apply blen_prefix|exact HL]. }
  destruct (plain_read no_filter p file HF SM (reach_trailer _ _ _ HT HR) (reach_offsets _ _ _ HT HR) HL')
    as (es & tail & ND & EL & EF & EB & TL & _ & SX). cbn zeta in *. rewrite RI in *.
  exists (pdf_bytes p), (dec_u (1 + zmax (pdf_ids ops))), (flat_map plain_entry es), tail.
  split; [exact EB|]. split; [exact SX|]. split; [|exact TL]. pose proof (zmax_nonneg (pdf_ids ops)).
  rewrite <- (app_nil_r (dec_u _)). apply digits_read; [lia|exact I].
Qed.

(** Objects written out of order and with gaps; an embedded file that looks like a PDF; an extended and a
    renumbered chunk. *)
Definition example_ops : list pdf_op :=
  [PdfObject 7 (ODict [(lit "Kids", OArray [OPrim (PRef 2); OPrim (PRef 1)])]);
   PdfVersion 2 0;
   PdfStream 2 [] (lit "1 0 obj" ++ [x0a] ++ lit "xref" ++ [x0a] ++ lit "startxref");
   PdfFileId (lit "ab", [x00; xff]);
   PdfExtend (HObject (HNew false) 4 (OPrim (PInt (-3))));
   PdfRenumber (HObject (HNew false) 4 (OPrim (PRef 4))) unit (fun t id => (if id =? 4 then 9 else 20, t)) tt;
   PdfInfo 3 [];
   PdfCatalog 1 [(lit "Pages", OPrim (PRef 7))]].

Example C23_case :
  pdf_ids example_ops = [7; 2; 4; 9; 3; 1] /\
  option_map (option_map (fun file => (read_file no_filter file, resolve no_filter file 9, resolve no_filter file 5)))
    (option_map finish (pdf_run example_ops (pdf_with_settings false))) =
  Some (Some
    (Some ([(0, XFree 5 65535); (1, XUsed 183 0); (2, XUsed 54 0); (3, XUsed 163 0); (4, XUsed 124 0); (5, XFree 6 0); (6, XFree 8 0); (7, XUsed 16 0); (8, XFree 0 0); (9, XUsed 142 0)],
           [(lit "Size", VInt 10); (lit "Root", VRef 1 0); (lit "Info", VRef 3 0); (lit "ID", VArr [VStr (lit "ab"); VStr [x00; xff]])]),
     Some (IObj 9 0 (VRef 9 0)), None)).
Proof. vm_compute. split; reflexivity. Qed.

Lemma example_ops_typed : ops_typed example_ops.
Proof.
  unfold ops_typed, example_ops. repeat apply Forall_cons; try apply Forall_nil; cbn [op_typed hist_typed]; try exact I.
  - vm_compute; reflexivity.
  - lia.
  - vm_compute; reflexivity.
  - split; [exact I|vm_compute; reflexivity].
  - split; [split; [exact I|vm_compute; reflexivity]|]. intros t id. destruct (id =? 4); vm_compute; reflexivity.
  - split; vm_compute; reflexivity.
  - split; vm_compute; reflexivity.
Qed.

Example C23_hypotheses : ops_typed example_ops /\ ids_below (pdf_ids example_ops) /\
  forallb (fun it => body_readable (snd it)) (pdf_items example_ops) = true.
Proof.
  split; [exact example_ops_typed|]. split; [unfold ids_below; repeat constructor|vm_compute; reflexivity].
Qed.

(** ** C24 *)

Theorem C24_free_list : forall decode pretty ops p file,
  ops_typed ops -> pdf_run ops (pdf_with_settings pretty) = Some p -> finish p = Some file ->
  ids_below (pdf_ids ops) -> blen file <= 10 ^ 10 ->
  exists entries trailer, read_file decode file = Some (entries, trailer) /\
    free_list entries = Some (free_ids (pdf_ids ops) (1 + zmax (pdf_ids ops))) /\
    forall id next gen, find_entry id entries = Some (XFree next gen) -> gen = if id =? 0 then 65535 else 0.
Proof.
  intros decode pretty ops p file HT HR HF HB HL.
  pose proof (reach_small _ _ _ HT HR HB) as SM. pose proof (reach_ids _ _ _ HT HR) as RI.
  assert (HL' : blen (pdf_bytes p) <= 10 ^ 10).
  { rewrite finish_form in HF. destruct (write_offsets _); [|discriminate]. cbn [option_map] in HF. apply some_inj in HF.
    rewrite <- HF in HL. eapply Z.le_trans; [apply blen_prefix|exact HL]. }
  destruct (plain_read decode p file HF SM (reach_trailer _ _ _ HT HR) (reach_offsets _ _ _ HT HR) HL')
    as (es & tail & ND & EL & EF & EB & _ & RD & _). cbn zeta in *.
  eexists. eexists. split; [exact RD|]. split.
  - rewrite <- RI. set (l := c_offsets (p_chunk p)) in *. set (N := 1 + zmax (ids l)) in *. pose proof (zmax_nonneg (ids l)) as Z0.
    unfold free_list. rewrite combine_length, map_length, zrange_length, Nat.min_id.
    rewrite (walk_spec (ids l) N (fun _ _ => True)); [unfold free_ids, unused; f_equal; f_equal; f_equal; lia|unfold N; lia| |unfold N; lia| |lia].
    + intros i Hi Hu. destruct (free_entry l N es SM eq_refl EL EF conv i Hi Hu) as (n & E & F & G).
      exists n, (if i =? 0 then 65535 else 0). auto.
    + intro X. unfold ids_small in SM. rewrite Forall_forall in SM. specialize (SM _ X). lia.
  - intros id next gen H. set (l := c_offsets (p_chunk p)) in *. set (N := 1 + zmax (ids l)) in *.
    destruct (Z_lt_le_dec id 0) as [L|L]; [rewrite (outside_entry N es EL conv) in H by lia; discriminate|].
    destruct (Z_lt_le_dec id N) as [L'|L']; [|rewrite (outside_entry N es EL conv) in H by lia; discriminate].
    destruct (in_dec Z.eq_dec id (ids l)) as [I|I].
    + apply in_map_iff in I. destruct I as ([i off] & <- & Hi). cbn [fst] in H. rewrite (used_entry l N es ND SM eq_refl EL EF conv i off Hi) in H. discriminate.
    + destruct (free_entry l N es SM eq_refl EL EF conv id ltac:(lia) I) as (n & E & _). rewrite E in H. cbn [conv] in H. congruence.
Qed.

(** The specification of the free ids: each unused id above 0 exactly once, in ascending order. *)
Theorem C24_free_ids_meaning : forall used n,
  (forall id, In id (free_ids used n) <-> 0 < id < n /\ ~ In id used) /\ StronglySorted Z.lt (free_ids used n).
Proof.
  intros used n. unfold free_ids. split.
  - intro id. rewrite filter_In, zrange_in, negb_true_iff. split.
    + intros [H1 H2]. split; [lia|]. intro I. apply zmem_spec in I. congruence.
    + intros [H1 H2]. split; [lia|]. destruct (zmem id used) eqn:E; [apply zmem_spec in E; contradiction|reflexivity].
  - generalize 1, (Z.to_nat (n - 1)). intros a m. revert a. induction m as [|m IH]; intro a; [constructor|].
    cbn [zrange List.filter]. destruct (negb (zmem a used)); [|apply IH]. constructor; [apply IH|].
    apply Forall_forall. intros x Hx. apply filter_In in Hx. destruct Hx as [Hx _]. apply zrange_in in Hx. lia.
Qed.

Example C24_case :
  option_map (option_map (fun file => option_map (fun x => free_list (fst x)) (read_file no_filter file)))
    (option_map finish (pdf_run example_ops (pdf_with_settings true))) = Some (Some (Some (Some [5; 6; 8]))).
Proof. vm_compute. reflexivity. Qed.

(** No objects at all: the table has the one entry of object 0. *)
Example C24_empty :
  option_map (option_map (fun file => option_map fst (read_file no_filter file)))
    (option_map finish (pdf_run [] (pdf_with_settings true))) = Some (Some (Some [(0, XFree 0 65535)])).
Proof. vm_compute. reflexivity. Qed.

(** ** C25 *)

Theorem C25_finish_panics_iff_duplicate : forall pretty ops p,
  ops_typed ops -> pdf_run ops (pdf_with_settings pretty) = Some p -> ids_below (pdf_ids ops) ->
  (finish p = None <-> ~ NoDup (pdf_ids ops)).
Proof.
  intros pretty ops p HT HR HB. pose proof (reach_ids _ _ _ HT HR) as RI. pose proof (reach_small _ _ _ HT HR HB) as SM.
  rewrite <- RI in *. rewrite finish_form. split.
  - intros H ND. destruct (xref_entries _ ND SM) as (es & E & _). rewrite E in H. discriminate.
  - intro ND. rewrite write_offsets_dup by exact ND. reflexivity.
Qed.

(** [NoDup] in elementary terms: some id was written twice. *)
Theorem C25_duplicate_meaning : forall l : list Z, ~ NoDup l <-> exists a b c id, l = a ++ id :: b ++ id :: c.
Proof.
  intro l. split.
  - induction l as [|x l IH]; intro H; [contradiction H; constructor|].
    destruct (in_dec Z.eq_dec x l) as [I|I].
    + apply in_split in I. destruct I as (b & c & ->). exists [], b, c, x. reflexivity.
    + destruct IH as (a & b & c & id & ->); [intro N; apply H; constructor; assumption|].
      exists (x :: a), b, c, id. reflexivity.
  - intros (a & b & c & id & ->) N. apply NoDup_remove_2 in N. apply N. apply in_or_app. right. apply in_or_app. right. left. reflexivity.
Qed.

Theorem C25_stream_panics_iff_duplicate : forall pretty ops p xref_id filter,
  ops_typed ops -> pdf_run ops (pdf_with_settings pretty) = Some p ->
  id_ok xref_id = true -> ids_below (xref_id :: pdf_ids ops) ->
  (forall data, blen (fst (filter data)) <= i32_max) ->
  (finish_with_xref_stream_and_filter p xref_id filter = None <-> ~ NoDup (xref_id :: pdf_ids ops)).
Proof.
  intros pretty ops p xid filter HT HR HX HB HD. pose proof (reach_ids _ _ _ HT HR) as RI.
  assert (HB' : ids_below (pdf_ids ops)) by (inversion HB; assumption). pose proof (reach_small _ _ _ HT HR HB') as SM.
  unfold finish_with_xref_stream_and_filter. rewrite finish_stream_form. cbn zeta. fold (with_xref p xid).
  assert (PM : Permutation (ids (with_xref p xid)) (xid :: pdf_ids ops)).
  { unfold with_xref, ids. rewrite map_app. cbn [map fst]. fold (ids (c_offsets (p_chunk p))). rewrite RI.
    apply Permutation_sym, Permutation_cons_append. }
  assert (SM' : ids_small (with_xref p xid)).
  { unfold ids_small, with_xref, ids. rewrite map_app. apply Forall_app. split; [exact SM|]. constructor; [|constructor].
    cbn [fst]. inversion HB; subst. unfold id_ok in HX. lia. }
  split.
  - intros H ND. assert (ND' : NoDup (ids (with_xref p xid))) by (eapply Permutation_NoDup; [apply Permutation_sym; exact PM|exact ND]).
    destruct (xref_entries _ ND' SM') as (es & E & _). rewrite E in H.
    specialize (HD (flat_map (stream_entry (field_width (blen (pdf_bytes p)))) es)).
    destruct (filter _) as [data f]. cbn [fst] in HD. destruct (Z.leb_spec (blen data) i32_max); [discriminate|lia].
  - intro ND. rewrite write_offsets_dup; [reflexivity|]. intro X. apply ND. eapply Permutation_NoDup; [exact PM|exact X].
Qed.

(** Without a filter: the data has at most 11 bytes per id. *)
Theorem C25_plain_stream_panics_iff_duplicate : forall pretty ops p xref_id,
  ops_typed ops -> pdf_run ops (pdf_with_settings pretty) = Some p ->
  id_ok xref_id = true -> ids_below (xref_id :: pdf_ids ops) -> blen (pdf_bytes p) < 2 ^ 64 ->
  11 * (1 + zmax (xref_id :: pdf_ids ops)) <= i32_max ->
  (finish_with_xref_stream p xref_id = None <-> ~ NoDup (xref_id :: pdf_ids ops)).
Proof.
  intros pretty ops p xid HT HR HX HB HS HD. pose proof (reach_ids _ _ _ HT HR) as RI.
  assert (HB' : ids_below (pdf_ids ops)) by (inversion HB; assumption). pose proof (reach_small _ _ _ HT HR HB') as SM.
  unfold finish_with_xref_stream. rewrite finish_stream_form. cbn zeta. fold (with_xref p xid).
  assert (PM : Permutation (ids (with_xref p xid)) (xid :: pdf_ids ops)).
  { unfold with_xref, ids. rewrite map_app. cbn [map fst]. fold (ids (c_offsets (p_chunk p))). rewrite RI.
    apply Permutation_sym, Permutation_cons_append. }
  assert (SM' : ids_small (with_xref p xid)).
  { unfold ids_small, with_xref, ids. rewrite map_app. apply Forall_app. split; [exact SM|]. constructor; [|constructor].
    cbn [fst]. inversion HB; subst. unfold id_ok in HX. lia. }
  split.
  - intros H ND. assert (ND' : NoDup (ids (with_xref p xid))) by (eapply Permutation_NoDup; [apply Permutation_sym; exact PM|exact ND]).
    destruct (xref_entries _ ND' SM') as (es & E & _ & EL & _). rewrite E in H.
    pose proof (reach_len _ _ _ HT HR) as RL.
    destruct (field_width_spec (blen (pdf_bytes p)) ltac:(lia)) as [W1 _]. set (w := field_width _) in *.
    assert (LD : blen (flat_map (stream_entry w) es) = (3 + w) * Z.of_nat (length es)).
    { clear - W1. induction es as [|e es IH]; [cbn; lia|]. cbn [flat_map length]. rewrite blen_app, IH.
      unfold blen. rewrite stream_entry_length by lia. lia. }
    rewrite (zmax_perm _ _ PM) in EL.
    destruct (Z.leb_spec (blen (flat_map (stream_entry w) es)) i32_max) as [_|L]; [discriminate|].
    rewrite LD, EL in L. pose proof (zmax_nonneg (xid :: pdf_ids ops)). nia.
  - intro ND. rewrite write_offsets_dup; [reflexivity|]. intro X. apply ND. eapply Permutation_NoDup; [exact PM|exact X].
Qed.

Example C25_case :
  option_map finish (pdf_run [PdfObject 1 (OPrim PNull); PdfObject 9 (OPrim PNull); PdfExtend (HObject (HNew true) 1 (OPrim PNull))] (pdf_with_settings true)) = Some None /\
  option_map (fun p => finish_with_xref_stream p 7) (pdf_run example_ops (pdf_with_settings true)) = Some None /\
  (exists p f, pdf_run example_ops (pdf_with_settings true) = Some p /\ finish p = Some f).
Proof.
  split; [vm_compute; reflexivity|]. split; [vm_compute; reflexivity|].
  destruct (pdf_run example_ops (pdf_with_settings true)) as [p|] eqn:E; [|vm_compute in E; discriminate].
  destruct (finish p) as [f|] eqn:F; [exists p, f; split; [reflexivity|exact F]|exfalso].
  pose proof (C25_finish_panics_iff_duplicate true example_ops p example_ops_typed E ltac:(unfold ids_below; repeat constructor)) as X.
  apply X in F. apply F. change (pdf_ids example_ops) with [7; 2; 4; 9; 3; 1].
  repeat (apply NoDup_cons; [cbn [In]; lia|]). apply NoDup_nil.
Qed.

(** ** C26 *)

Theorem C26_write_order_does_not_matter : forall p l,
  Permutation l (c_offsets (p_chunk p)) -> finish (with_offsets p l) = finish p.
Proof.
  intros p l H. rewrite !finish_form. unfold with_offsets, pdf_bytes, chunk_bytes. cbn [p_chunk c_offsets c_buf c_pretty].
  assert (E : write_offsets l = write_offsets (c_offsets (p_chunk p))).
  { unfold write_offsets. rewrite (sort_perm_eq _ _ H). reflexivity. }
  rewrite E. reflexivity.
Qed.

Theorem C26_write_order_stream : forall p l xref_id,
  Permutation l (c_offsets (p_chunk p)) ->
  finish_with_xref_stream (with_offsets p l) xref_id = finish_with_xref_stream p xref_id /\
  forall filter, finish_with_xref_stream_and_filter (with_offsets p l) xref_id filter =
                 finish_with_xref_stream_and_filter p xref_id filter.
Proof.
  intros p l xid H.
  assert (K : forall F, finish_stream_inner (with_offsets p l) xid F = finish_stream_inner p xid F).
  { intro F. rewrite !finish_stream_form. cbn zeta. unfold with_offsets, pdf_bytes, chunk_bytes. cbn [p_chunk c_offsets c_buf c_pretty].
    assert (E : forall q, write_offsets (l ++ q) = write_offsets (c_offsets (p_chunk p) ++ q)).
    { intro q. unfold write_offsets. rewrite (sort_perm_eq (l ++ q) (c_offsets (p_chunk p) ++ q)); [reflexivity|].
      apply Permutation_app_tail. exact H. }
    rewrite E. reflexivity. }
  split; [apply K|]. intro filter. apply K.
Qed.

(** At the level of calls: the same objects at the same offsets recorded in another order (here: the order of two
    chunks put together first or written one after the other) give the same file. *)
Example C26_case :
  Permutation [(3, 10); (1, 20); (2, 30)] [(1, 20); (2, 30); (3, 10)] /\
  write_offsets [(3, 10); (1, 20); (2, 30)] = Some (4, [Free 0 65535; Used 20 0; Used 30 0; Used 10 0]).
Proof.
  split; [|vm_compute; reflexivity].
  apply (Permutation_cons_append [(1, 20); (2, 30)] (3, 10)).
Qed.

Print Assumptions C23_table_entries.
Print Assumptions C23_every_object_is_found.
Print Assumptions C23_entry_size.
Print Assumptions C24_free_list.
Print Assumptions C25_finish_panics_iff_duplicate.
Print Assumptions C25_stream_panics_iff_duplicate.
Print Assumptions C26_write_order_does_not_matter.
