(** Property C78: a [Pdf] can be used wherever a [Chunk] can. *)

From Coq Require Import ZArith List Lia Bool Permutation Sorted ZifyBool.
From Verif Require Import Bytes ModelFloat ModelBuf ModelObject ModelRenumber ModelChunk ModelPdf ModelMerge SpecLex SpecObj SpecMeans
  SpecRenum SpecChunk SpecFile SpecPdf SpecLimits SpecMerge ProofBasic ProofObj ProofParse ProofTree ProofRenum ProofXref ProofChunk ProofChunkParse ProofChunk2
  ProofFile ProofFile2 ProofPdf ProofFile3 ProofFile4 ProofMerge PropChunk PropPdf PropPdf2.
Import ListNotations.
Local Open Scope Z_scope.

(** The chunk inside: the header, then exactly what the same calls write into a chunk. *)
Theorem C78_pdf_is_a_chunk : forall pretty ops p, ops_typed ops -> ops_merges_ok ops ->
  pdf_run ops (pdf_with_settings pretty) = Some p ->
  exists c, run (as_chunk pretty ops) = Some c /\
    chunk_bytes (p_chunk p) = header_of ops ++ chunk_bytes c /\
    c_offsets (p_chunk p) = map (fun e => (fst e, 16 + snd e)) (c_offsets c) /\
    chunk_refs (p_chunk p) = map fst (pdf_items ops) /\ chunk_limits (p_chunk p) = chunk_limits c.
Proof.
  intros pretty ops p Ht Hm R. destruct (twin pretty ops p Ht Hm R) as (c & k & Rc & [Cb Co] & [Pb Po] & M & _ & _ & L & _).
  exists c. split; [exact Rc|]. rewrite Pb, Po, Cb, Co, header_of_length. split; [reflexivity|]. split.
  - rewrite offs_shift. reflexivity.
  - split; [|exact L]. unfold chunk_refs. rewrite Po, offs_ids, <- M, map_map. reflexivity.
Qed.

(** Renumbering a [Pdf] is renumbering that chunk: the header and the settings of the file are not copied. *)
Theorem C78_renumber : forall pretty ops p T (f : T -> Z -> Z * T) s target, ops_typed ops -> ops_merges_ok ops ->
  pdf_run ops (pdf_with_settings pretty) = Some p ->
  exists c, run (as_chunk pretty ops) = Some c /\
    pdf_renumber_into f p target s = chunk_renumber_into f c target s /\
    pdf_renumber f p s = chunk_renumber f c s.
Proof.
  intros pretty ops p T f s tgt Ht Hm R. destruct (twin pretty ops p Ht Hm R) as (c & k & Rc & C & P & M & _ & _ & L & _).
  exists c. split; [exact Rc|].
  assert (It : forallb item_typed (map pl_item k) = true).
  { rewrite M, <- (as_chunk_items pretty). apply items_typed. apply as_chunk_typed. exact Ht. }
  split; refine (renumber_same f _ _ k _ _ _ s P C It L).
Qed.

(** Copying one document into another one ([pdf.renumber_into(&mut other, ..)]) is one more call on the other one, so that
    everything said about histories of calls applies. *)
Theorem C78_copy_is_a_call : forall pretty ops p pretty' ops' q T (f : T -> Z -> Z * T) s,
  ops_typed ops -> ops_merges_ok ops -> (forall t id, id_ok (fst (f t id)) = true) -> ops_typed ops' ->
  pdf_run ops (pdf_with_settings pretty) = Some p -> pdf_run ops' (pdf_with_settings pretty') = Some q ->
  let copied := ops' ++ [PdfRenumber (as_chunk pretty ops) T f s] in
  exists q' s', pdf_renumber_into_pdf f p q s = Some (q', s') /\ pdf_run copied (pdf_with_settings pretty') = Some q' /\
    ops_typed copied /\ pdf_items copied = pdf_items ops' ++ fst (thread (map_item_st f) (pdf_items ops) s).
Proof.
  intros pretty ops p pretty' ops' q T f s Ht Hm Hf Ht' R R'. cbn zeta.
  destruct (C78_renumber pretty ops p T f s (p_chunk q) Ht Hm R) as (c & Rc & E & _).
  assert (Tc : ops_typed (ops' ++ [PdfRenumber (as_chunk pretty ops) T f s])).
  { apply Forall_app. split; [exact Ht'|]. constructor; [|constructor]. split; [apply as_chunk_typed; exact Ht|exact Hf]. }
  pose proof (step_spec (PdfRenumber (as_chunk pretty ops) T f s) pretty' (Forall_inv (proj2 (proj1 (Forall_app _ _ _) Tc)))) as S.
  cbn [op_items] in S. rewrite map_items_fit in S.
  destruct (reach _ _ _ Ht' R') as (k' & M' & (H' & P' & _) & _).
  assert (F : items_fit (hist_items (as_chunk pretty ops)) = true) by (apply (fits_of_run _ c (as_chunk_typed pretty ops Ht) Rc)).
  rewrite F in S. destruct S as (k & Mk & S). rewrite <- hdr_edits in H'. destruct (S _ _ _ H' P') as (q' & E' & _).
  cbn [pdf_step] in E'. rewrite Rc in E'. unfold pdf_renumber_into_pdf. unfold pdf_renumber_into in E. rewrite E.
  destruct (chunk_renumber_into f c (p_chunk q) s) as [[d s']|] eqn:Ed; [|discriminate]. cbn [option_map fst snd] in *.
  apply ProofFile3.some_inj in E'. subst q'. eexists. exists s'. split; [reflexivity|]. split.
  - rewrite pdf_run_app, R'. cbn [pdf_run pdf_step]. rewrite Rc, Ed. reflexivity.
  - split; [exact Tc|]. rewrite pdf_items_snoc. cbn [op_items]. rewrite as_chunk_items. reflexivity.
Qed.

(** In particular the finished file has every object of the source under its new number. *)
Theorem C78_copied_objects_are_found : forall decode pretty ops p pretty' ops' q (f : Z -> Z) q' file it,
  ops_typed ops -> ops_merges_ok ops -> (forall id, id_ok (f id) = true) -> ops_typed ops' ->
  pdf_run ops (pdf_with_settings pretty) = Some p -> pdf_run ops' (pdf_with_settings pretty') = Some q ->
  pdf_renumber_into_pdf (fun (t : unit) id => (f id, t)) p q tt = Some (q', tt) -> finish q' = Some file -> blen file <= 10 ^ 10 ->
  ids_below (pdf_ids ops' ++ map (fun it => f (fst it)) (pdf_items ops)) ->
  (In it (pdf_items ops) -> body_readable (snd it) = true ->
     exists i, resolve decode file (f (fst it)) = Some i /\ item_means (map_item f it) i) /\
  (In it (pdf_items ops') -> body_readable (snd it) = true ->
     exists i, resolve decode file (fst it) = Some i /\ item_means it i).
Proof.
  intros decode pretty ops p pretty' ops' q f q' file it Ht Hm Hf Ht' R R' E F L B.
  destruct (C78_copy_is_a_call pretty ops p pretty' ops' q unit (fun t id => (f id, t)) tt Ht Hm ltac:(intros; apply Hf) Ht' R R')
    as (q2 & s2 & E2 & RC & TC & IC). rewrite E in E2. apply ProofFile3.some_inj in E2. injection E2 as <- <-.
  assert (P : forall t, thread (map_item_st (fun (t : unit) id => (f id, t))) (pdf_items ops) t = (map (map_item f) (pdf_items ops), t)).
  { intro t. apply map_items_pure. }
  rewrite P in IC. cbn [fst] in IC.
  assert (BI : ids_below (pdf_ids (ops' ++ [PdfRenumber (as_chunk pretty ops) unit (fun t id => (f id, t)) tt]))).
  { unfold pdf_ids at 1. rewrite IC, map_app, map_map. exact B. }
  destruct (C23_every_object_is_found decode pretty' _ q' file TC RC F BI L) as [A _]. rewrite IC in A. split.
  - intros Hi Hr. apply (A (map_item f it)).
    + apply in_or_app. right. apply in_map. exact Hi.
    + pose proof (map_items_readable (fun (t : unit) id => (f id, t)) (fun t id => Hf id) [it] tt) as Q. cbn [forallb] in Q.
      rewrite Hr in Q. rewrite map_items_pure in Q. cbn [map fst forallb] in Q. specialize (Q eq_refl).
      apply andb_true_iff in Q. apply Q.
  - intros Hi Hr. apply (A it); [|exact Hr]. apply in_or_app. left. exact Hi.
Qed.

(** ** Extending by a [Pdf] *)

(** The header goes along, and every offset is moved accordingly. *)
Theorem C78_extend : forall pretty ops p c0, ops_typed ops -> ops_merges_ok ops ->
  pdf_run ops (pdf_with_settings pretty) = Some p ->
  exists c, run (as_chunk pretty ops) = Some c /\
    chunk_bytes (extend_by_pdf p c0) = chunk_bytes c0 ++ header_of ops ++ chunk_bytes c /\
    c_offsets (extend_by_pdf p c0) = c_offsets c0 ++ map (fun e => (fst e, chunk_len c0 + 16 + snd e)) (c_offsets c) /\
    chunk_limits (extend_by_pdf p c0) = merge (chunk_limits c0) (chunk_limits c).
Proof.
  intros pretty ops p c0 Ht Hm R. destruct (C78_pdf_is_a_chunk pretty ops p Ht Hm R) as (c & Rc & B & O & _ & L).
  exists c. split; [exact Rc|]. unfold extend_by_pdf. destruct (C18_extend_concatenates c0 (p_chunk p)) as (A1 & A2 & _).
  rewrite A1, A2, B, O, map_map. split; [reflexivity|]. split.
  - f_equal. apply map_ext. intros [id off]. cbn [fst snd]. f_equal. lia.
  - unfold chunk_limits, chunk_extend, extend_buf in *. cbn [c_buf lims]. rewrite L. reflexivity.
Qed.

(** A document extended by another document and finished: its own catalog, and the objects of both. *)
Section Extended.
  Context (pretty pretty' : bool) (ops ops' : list pdf_op) (p q : pdf).
  Hypothesis Ht : ops_typed ops.
  Hypothesis R : pdf_run ops (pdf_with_settings pretty) = Some p.
  Hypothesis Ht' : ops_typed ops'.
  Hypothesis R' : pdf_run ops' (pdf_with_settings pretty') = Some q.
  Let m := pdf_extend_by_pdf p q.

  Lemma ext_bytes : pdf_bytes m = pdf_bytes q ++ pdf_bytes p.
  Proof using. apply C18_extend_concatenates. Qed.
  Lemma ext_offsets : c_offsets (p_chunk m) = c_offsets (p_chunk q) ++ map (fun e => (fst e, blen (pdf_bytes q) + snd e)) (c_offsets (p_chunk p)).
  Proof using. apply C18_extend_concatenates. Qed.
  Lemma ext_ids : ids (c_offsets (p_chunk m)) = pdf_ids ops' ++ pdf_ids ops.
  Proof using Ht R Ht' R'.
    unfold ids. rewrite ext_offsets, map_app, map_map. cbn [fst]. f_equal; [apply (reach_ids _ _ _ Ht' R')|].
    rewrite <- (reach_ids _ _ _ Ht R). reflexivity.
  Qed.
  Lemma ext_small : ids_below (pdf_ids ops' ++ pdf_ids ops) -> ids_small (c_offsets (p_chunk m)).
  Proof using Ht R Ht' R'.
    intro HB. unfold ids_small. rewrite ext_ids. unfold ids_below in HB. rewrite Forall_app in HB |- *. destruct HB as [B1 B2].
    pose proof (reach_small _ _ _ Ht' R' B1) as S1. pose proof (reach_small _ _ _ Ht R B2) as S2. unfold ids_small in S1, S2.
    rewrite (reach_ids _ _ _ Ht' R') in S1. rewrite (reach_ids _ _ _ Ht R) in S2. split; assumption.
  Qed.
  Lemma ext_trailer : trailer_ok m.
  Proof using Ht' R'. exact (reach_trailer _ _ _ Ht' R'). Qed.
  Lemma ext_small_offsets : small_offsets m.
  Proof using Ht R Ht' R'.
    unfold small_offsets. rewrite ext_offsets, ext_bytes. apply Forall_app. pose proof (reach_offsets _ _ _ Ht' R') as S1. pose proof (reach_offsets _ _ _ Ht R) as S2.
    unfold small_offsets in S1, S2. pose proof (blen_nonneg (pdf_bytes p)). pose proof (blen_nonneg (pdf_bytes q)). split.
    - eapply Forall_impl; [|exact S1]. intros e He. rewrite ?blen_app. cbv beta in He. lia.
    - apply Forall_map. eapply Forall_impl; [|exact S2]. intros e He. cbn [snd]. rewrite ?blen_app. cbv beta in He. lia.
  Qed.
  Lemma ext_item it : In it (pdf_items ops' ++ pdf_items ops) -> exists pre st nl post,
    pdf_bytes m = pre ++ item_bytes st nl it ++ post /\ In (fst it, blen pre) (c_offsets (p_chunk m)) /\ body_fits (snd it) = true.
  Proof using Ht R Ht' R'.
    intro Hit. rewrite ext_bytes, ext_offsets. apply in_app_or in Hit. destruct Hit as [Hit|Hit].
    - destruct (reach_item _ _ _ Ht' R' it Hit) as (pre & st & nl & post & E & Ho). destruct (reach _ _ _ Ht' R') as (k & _ & _ & Fit).
      exists pre, st, nl, (post ++ pdf_bytes p). rewrite E, <- !app_assoc. split; [reflexivity|].
      split; [apply in_or_app; left; exact Ho|apply (items_fit_in _ _ Fit Hit)].
    - destruct (reach_item _ _ _ Ht R it Hit) as (pre & st & nl & post & E & Ho). destruct (reach _ _ _ Ht R) as (k & _ & _ & Fit).
      exists (pdf_bytes q ++ pre), st, nl, post. rewrite E, blen_app, <- !app_assoc. split; [reflexivity|].
      split; [|apply (items_fit_in _ _ Fit Hit)]. apply in_or_app. right.
      apply (in_map (fun e => (fst e, blen (pdf_bytes q) + snd e)) _ _ Ho).
  Qed.
End Extended.

Theorem C78_extended_documents : forall decode pretty ops p pretty' ops' q file,
  ops_typed ops -> pdf_run ops (pdf_with_settings pretty) = Some p ->
  ops_typed ops' -> pdf_run ops' (pdf_with_settings pretty') = Some q ->
  ids_below (pdf_ids ops' ++ pdf_ids ops) ->
  finish (pdf_extend_by_pdf p q) = Some file -> blen file <= 10 ^ 10 ->
  (forall it, In it (pdf_items ops' ++ pdf_items ops) -> body_readable (snd it) = true ->
     exists i, resolve decode file (fst it) = Some i /\ item_means it i) /\
  (forall id, ~ In id (pdf_ids ops' ++ pdf_ids ops) -> resolve decode file id = None) /\
  exists entries trailer, read_file decode file = Some (entries, trailer) /\
    forall k, k <> lit "Size" -> lookup k trailer = trailer_value ops' k.
Proof.
  intros decode pretty ops p pretty' ops' q file Ht R Ht' R' HB HF HL.
  pose proof (ext_ids pretty pretty' ops ops' p q Ht R Ht' R') as RI.
  pose proof (ext_small pretty pretty' ops ops' p q Ht R Ht' R' HB) as SM.
  pose proof (ext_item pretty pretty' ops ops' p q Ht R Ht' R') as Hitem.
  pose proof (ext_trailer pretty' ops' p q Ht' R') as TR.
  pose proof (ext_small_offsets pretty pretty' ops ops' p q Ht R Ht' R') as SO.
  set (m := pdf_extend_by_pdf p q) in *.
  assert (HL' : blen (pdf_bytes m) <= 10 ^ 10).
  { rewrite finish_form in HF. destruct (write_offsets _); [|discriminate]. cbn [option_map] in HF. apply ProofFile3.some_inj in HF.
    rewrite <- HF in HL. eapply Z.le_trans; [apply blen_prefix|exact HL]. }
  destruct (plain_read decode m file HF SM TR SO HL') as (es & tail & ND & EL & EF & EB & _ & RD & _). cbn zeta in *.
  split; [|split].
  - intros it Hit Hr. destruct (Hitem it Hit) as (pre & st & nl & post & E & Ho & Fit).
    unfold resolve. rewrite RD. rewrite (used_entry _ _ es ND SM eq_refl EL EF conv _ _ Ho). cbn [conv].
    rewrite EB, E, <- !app_assoc. destruct (parse_at pre st nl it
      (post ++ lit "xref" ++ [x0a] ++ lit "0 " ++ dec_u (1 + zmax (ids (c_offsets (p_chunk m)))) ++ [x0a] ++ flat_map plain_entry es ++ lit "trailer" ++ tail) Hr Fit) as (r & ->).
    rewrite item_val_id. cbn [fst snd]. rewrite !Z.eqb_refl. cbn [andb]. exists (item_val it). split; [reflexivity|]. apply item_val_means. exact Hr.
  - intros id Hid. unfold resolve. rewrite RD. rewrite <- RI in Hid.
    destruct (Z_lt_le_dec id 0) as [L|L]; [rewrite (outside_entry _ es EL conv) by lia; reflexivity|].
    destruct (Z_lt_le_dec id (1 + zmax (ids (c_offsets (p_chunk m))))) as [L'|L'].
    + destruct (free_entry _ _ es SM eq_refl EL EF conv id ltac:(lia) Hid) as (n & -> & _). reflexivity.
    + rewrite (outside_entry _ es EL conv) by lia. reflexivity.
  - eexists. eexists. split; [exact RD|]. intros key Hk. apply (state_trailer ops' pretty' q Ht' R'). exact Hk.
Qed.

Theorem C78_extended_documents_stream : forall decode pretty ops p pretty' ops' q xref_id file,
  ops_typed ops -> pdf_run ops (pdf_with_settings pretty) = Some p ->
  ops_typed ops' -> pdf_run ops' (pdf_with_settings pretty') = Some q ->
  id_ok xref_id = true -> ids_below (xref_id :: pdf_ids ops' ++ pdf_ids ops) ->
  finished_with_stream decode (pdf_extend_by_pdf p q) xref_id file -> blen file < 2 ^ 64 ->
  (forall it, In it (pdf_items ops' ++ pdf_items ops) -> body_readable (snd it) = true ->
     exists i, resolve decode file (fst it) = Some i /\ item_means it i) /\
  (forall id, id <> xref_id -> ~ In id (pdf_ids ops' ++ pdf_ids ops) -> resolve decode file id = None) /\
  exists entries trailer, read_file decode file = Some (entries, trailer) /\
    forall k, k <> lit "Size" -> ~ In k stream_keys -> lookup k trailer = trailer_value ops' k.
Proof.
  intros decode pretty ops p pretty' ops' q xid file Ht R Ht' R' HX HB HF HL.
  unfold ids_below in HB. apply Forall_cons_iff in HB. destruct HB as [HB0 HB].
  pose proof (ext_ids pretty pretty' ops ops' p q Ht R Ht' R') as RI.
  pose proof (ext_small pretty pretty' ops ops' p q Ht R Ht' R' HB) as SM0.
  pose proof (ext_item pretty pretty' ops ops' p q Ht R Ht' R') as Hitem.
  pose proof (ext_trailer pretty' ops' p q Ht' R') as TR.
  pose proof (reach_len _ _ _ Ht R) as RL.
  assert (RL' : 16 <= blen (pdf_bytes (pdf_extend_by_pdf p q))).
  { rewrite ext_bytes, blen_app. pose proof (blen_nonneg (pdf_bytes q)). lia. }
  set (m := pdf_extend_by_pdf p q) in *.
  assert (SM : ids_small (with_xref m xid)).
  { unfold ids_small. apply Forall_forall. intros i Hi. apply (Permutation_in _ (with_xref_perm m xid)) in Hi.
    destruct Hi as [<-|Hi]; [unfold id_ok in HX; lia|]. unfold ids_small in SM0. rewrite Forall_forall in SM0. exact (SM0 _ Hi). }
  assert (K : exists F, finish_stream_inner m xid F = Some file /\
    (forall data, decode (filter_val (snd (F data))) (fst (F data)) = Some data)).
  { destruct HF as [F1 F2|fl F1 F2].
    - exists (fun buf => (buf, None)). split; [exact F1|exact F2].
    - eexists. split; [exact F1|]. intro data. specialize (F2 data). cbv beta. destruct (fl data) as [a b]. exact F2. }
  destruct K as (F & KF & KD).
  assert (LE : blen (pdf_bytes m) <= blen file).
  { rewrite finish_stream_form in KF. cbn zeta in KF. destruct (write_offsets _) as [[n es]|]; [|discriminate].
    destruct (F _) as [data flt]. destruct (_ <=? _); [|discriminate]. apply ProofFile3.some_inj in KF. rewrite <- KF. apply blen_prefix. }
  destruct (stream_read decode m xid F file KF KD SM TR ltac:(lia)) as (es & flt & data & ND & EL & EF & EB & ED & DL & RD & SX). cbn zeta in *.
  destruct (field_width_spec (blen (pdf_bytes m)) ltac:(lia)) as [W1 W2]. set (w := field_width (blen (pdf_bytes m))) in *.
  split; [|split].
  - intros it Hit Hr. destruct (Hitem it Hit) as (pre & st & nl & post & E & Ho & Fit).
    unfold resolve. rewrite RD.
    rewrite (used_entry (with_xref m xid) _ es ND SM eq_refl EL EF (narrow (Z.to_nat w)) (fst it) (blen pre)) by (unfold with_xref; apply in_or_app; left; exact Ho).
    rewrite used_narrow; [|split; [apply blen_nonneg|eapply Z.le_lt_trans; [|exact W2]; rewrite E; apply blen_prefix]|lia].
    rewrite EB, E, <- !app_assoc.
    match goal with |- context [pre ++ item_bytes st nl it ++ ?r] => destruct (parse_at pre st nl it r Hr Fit) as (r' & ->) end.
    rewrite item_val_id. cbn [fst snd]. rewrite !Z.eqb_refl. cbn [andb]. exists (item_val it). split; [reflexivity|]. apply item_val_means. exact Hr.
  - intros id Hx Hid. unfold resolve. rewrite RD. rewrite <- RI in Hid.
    assert (Hid' : ~ In id (ids (with_xref m xid))).
    { intro I. apply (Permutation_in _ (with_xref_perm m xid)) in I. destruct I as [I|I]; [apply Hx; symmetry; exact I|exact (Hid I)]. }
    destruct (Z_lt_le_dec id 0) as [L|L]; [rewrite (outside_entry _ es EL (narrow (Z.to_nat w))) by lia; reflexivity|].
    destruct (Z_lt_le_dec id (1 + zmax (ids (with_xref m xid)))) as [L'|L'].
    + destruct (free_entry _ _ es SM eq_refl EL EF (narrow (Z.to_nat w)) id ltac:(lia) Hid') as (n & -> & _). reflexivity.
    + rewrite (outside_entry _ es EL (narrow (Z.to_nat w))) by lia. reflexivity.
  - eexists. eexists. split; [exact RD|]. intros key K1 K2.
    destruct (stream_lookup m flt (1 + zmax (ids (with_xref m xid))) w (blen data)) as (_ & _ & _ & _ & L5).
    rewrite L5 by exact K2. apply (state_trailer ops' pretty' q Ht' R'). exact K1.
Qed.

(** A small document, copied and appended. *)
Definition inner_ops : list pdf_op := [PdfVersion 2 0; PdfObject 2 (OPrim (PRef 1)); PdfCatalog 1 [(lit "K", OPrim (PRef 2))]; PdfFileId (lit "a", lit "b")].
Definition outer_ops : list pdf_op := [PdfCatalog 7 []; PdfMarker (x0a, x31, x20, x52)].
Example C78_case : ops_typed inner_ops /\ ops_merges_ok inner_ops /\ ops_typed outer_ops /\
  ids_below (pdf_ids outer_ops ++ pdf_ids inner_ops) /\
  match pdf_run inner_ops (pdf_with_settings false), pdf_run outer_ops (pdf_with_settings true) with
  | Some p, Some q =>
      option_map (fun r => option_map (fun file => (map (resolve no_filter file) [7; 11; 12; 1], option_map snd (read_file no_filter file))) (finish (fst r)))
        (pdf_renumber_into_pdf (fun (t : unit) id => (id + 10, t)) p q tt) =
      Some (Some ([Some (IObj 7 0 (VDict [(lit "Type", VName (lit "Catalog"))])); Some (IObj 11 0 (VDict [(lit "Type", VName (lit "Catalog")); (lit "K", VRef 12 0)]));
                   Some (IObj 12 0 (VRef 11 0)); None], Some [(lit "Size", VInt 13); (lit "Root", VRef 7 0)])) /\
      option_map (fun file => (map (resolve no_filter file) [7; 1; 2], option_map snd (read_file no_filter file))) (finish (pdf_extend_by_pdf q p)) =
      Some ([Some (IObj 7 0 (VDict [(lit "Type", VName (lit "Catalog"))])); Some (IObj 1 0 (VDict [(lit "Type", VName (lit "Catalog")); (lit "K", VRef 2 0)]));
             Some (IObj 2 0 (VRef 1 0))],
            Some [(lit "Size", VInt 8); (lit "Root", VRef 1 0); (lit "ID", VArr [VStr (lit "a"); VStr (lit "b")])])
  | _, _ => False
  end.
Proof.
  split; [repeat constructor; lia|]. split; [repeat constructor|]. split; [repeat constructor|].
  split; [repeat constructor|]. vm_compute. split; reflexivity.
Qed.

Print Assumptions C78_renumber.
Print Assumptions C78_copied_objects_are_found.
Print Assumptions C78_extended_documents.
Print Assumptions C78_extended_documents_stream.
