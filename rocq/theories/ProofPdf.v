(** Proofs: histories of a [Pdf]. *)

From Coq Require Import ZArith List Lia Bool ZifyBool.
From Verif Require Import Bytes ModelFloat ModelBuf ModelObject ModelRenumber ModelChunk ModelPdf SpecLex SpecObj SpecMeans
  SpecRenum SpecChunk SpecFile SpecPdf SpecLimits ProofBasic ProofObj ProofParse ProofTree ProofRenum ProofRenumTree ProofXref ProofChunk
  ProofChunkParse ProofChunk2 ProofLimits ProofLimits3 ProofFile ProofFile2.
Import ListNotations.
Local Open Scope Z_scope.

Lemma items_fit_nil : items_fit [] = true. Proof. reflexivity. Qed.

Lemma items_fit_one it : items_fit [it] = body_fits (snd it).
Proof. unfold items_fit. cbn [forallb]. apply andb_true_r. Qed.

Lemma last_call_snoc {A} (f : pdf_op -> option A) ops op :
  last_call f (ops ++ [op]) = match f op with Some x => Some x | None => last_call f ops end.
Proof. unfold last_call. rewrite fold_left_app. reflexivity. Qed.

Lemma pdf_items_snoc ops op : pdf_items (ops ++ [op]) = pdf_items ops ++ op_items op.
Proof. unfold pdf_items. rewrite flat_map_app. cbn [flat_map]. rewrite app_nil_r. reflexivity. Qed.

(** The header as a list of 16 bytes. *)
Definition header (ma mi : byte) (m : byte * byte * byte * byte) : bytes :=
  let '(a, b, c, d) := m in
  [x25; x50; x44; x46; x2d; ma; x2e; mi; x0a; x25; a; b; c; d; x0a; x0a].

Lemma header_of_form ops : header_of ops = header (zb (48 + major_of ops)) (zb (48 + minor_of ops)) (marker_of ops).
Proof. unfold header_of, header. destruct (marker_of ops) as [[[a b] c] d]. reflexivity. Qed.

Lemma header_length ma mi m : blen (header ma mi m) = 16.
Proof. destruct m as [[[a b] c] d]. reflexivity. Qed.
Lemma header_of_length ops : blen (header_of ops) = 16.
Proof. rewrite header_of_form. apply header_length. Qed.

Lemma holds_splice pfx pfx' l c i new : holds pfx l c -> blen pfx = blen pfx' ->
  (forall t, splice i new (pfx ++ t) = pfx' ++ t) -> holds pfx' l (splice_buf i new c).
Proof.
  intros [H1 H2] E S. unfold splice_buf, holds. unfold chunk_bytes at 1. cbn [c_buf inner c_offsets].
  fold (chunk_bytes c). rewrite H1, S, <- E. split; [reflexivity|exact H2].
Qed.

Lemma version_holds ma mi m l p M N : holds (header ma mi m) l (p_chunk p) ->
  let p' := set_version M N p in
  holds (header (if M <? 10 then zb (48 + M) else ma) (if N <? 10 then zb (48 + N) else mi) m) l (p_chunk p') /\
  c_pretty (p_chunk p') = c_pretty (p_chunk p) /\ lims (c_buf (p_chunk p')) = lims (c_buf (p_chunk p)) /\
  p_catalog p' = p_catalog p /\ p_info p' = p_info p /\ p_file_id p' = p_file_id p.
Proof.
  intro H. cbn zeta. unfold set_version. destruct m as [[[a b] c] d].
  destruct (M <? 10), (N <? 10); cbn [on_chunk p_chunk p_catalog p_info p_file_id];
    (split; [|repeat split]); try exact H.
  - apply holds_splice with (header (zb (48 + M)) mi (a, b, c, d)); [|reflexivity|reflexivity].
    apply holds_splice with (header ma mi (a, b, c, d)); [exact H|reflexivity|reflexivity].
  - apply holds_splice with (header ma mi (a, b, c, d)); [exact H|reflexivity|reflexivity].
  - apply holds_splice with (header ma mi (a, b, c, d)); [exact H|reflexivity|reflexivity].
Qed.

Lemma marker_holds ma mi m l p n : holds (header ma mi m) l (p_chunk p) ->
  let p' := set_binary_marker n p in
  holds (header ma mi n) l (p_chunk p') /\
  c_pretty (p_chunk p') = c_pretty (p_chunk p) /\ lims (c_buf (p_chunk p')) = lims (c_buf (p_chunk p)) /\
  p_catalog p' = p_catalog p /\ p_info p' = p_info p /\ p_file_id p' = p_file_id p.
Proof.
  intro H. cbn zeta. unfold set_binary_marker. destruct m as [[[a b] c] d], n as [[[a' b'] c'] d'].
  cbn [on_chunk p_chunk p_catalog p_info p_file_id]. split; [|repeat split].
  apply holds_splice with (header ma mi (a, b, c, d)); [exact H|reflexivity|reflexivity].
Qed.

(** One call. *)
Definition op_fits (op : pdf_op) : bool := items_fit (op_items op).


(** How the header bytes change. *)
Definition edit (op : pdf_op) (h : byte * byte * (byte * byte * byte * byte)) :=
  let '(ma, mi, m) := h in
  match op with
  | PdfVersion M N => ((if M <? 10 then zb (48 + M) else ma), (if N <? 10 then zb (48 + N) else mi), m)
  | PdfMarker n => (ma, mi, n)
  | _ => (ma, mi, m)
  end.
Definition hdr (h : byte * byte * (byte * byte * byte * byte)) : bytes := let '(ma, mi, m) := h in header ma mi m.

Definition new_catalog op (c : option Z) := match op with PdfCatalog id _ => Some id | _ => c end.
Definition new_info op (c : option Z) := match op with PdfInfo id _ => Some id | _ => c end.
Definition new_file_id op (c : option (bytes * bytes)) := match op with PdfFileId id => Some id | _ => c end.

(** [placed_by op pretty k]: the call appends the placed items [k]; this does not depend on the header or on
    what is there already. *)
Lemma step_spec op (pretty : bool) : op_typed op ->
  if items_fit (op_items op) then
    exists k, map pl_item k = op_items op /\
    forall h l p, holds (hdr h) l (p_chunk p) -> c_pretty (p_chunk p) = pretty ->
    exists p', pdf_step op p = Some p' /\ holds (hdr (edit op h)) (l ++ k) (p_chunk p') /\
      c_pretty (p_chunk p') = pretty /\
      p_catalog p' = new_catalog op (p_catalog p) /\ p_info p' = new_info op (p_info p) /\
      p_file_id p' = new_file_id op (p_file_id p)
  else forall p, pdf_step op p = None.
Proof.
  intro Ht. destruct op as [id o|id es data|other|lm|source T f s|id es|id es|fid|ma mi|m]; cbn [op_items op_typed pdf_step] in *.
  - (* object *)
    rewrite items_fit_one. cbn [snd body_fits].
    exists [mkPl pretty pretty (id, BObj o)]. split; [reflexivity|]. intros [[ma mi] m] l p H E.
    eexists. split; [reflexivity|]. cbn [on_chunk p_chunk p_catalog p_info p_file_id edit new_catalog new_info new_file_id].
    destruct (object_holds _ _ _ id o H) as [A B]. rewrite E in *. repeat split; try apply A. exact B.
  - (* stream *)
    rewrite items_fit_one. cbn [snd body_fits]. destruct (Z.leb_spec (blen data) i32_max) as [L|L].
    + exists [mkPl pretty pretty (id, BStream es data)]. split; [reflexivity|]. intros [[ma mi] m] l p H E.
      destruct (chunk_stream id es data (p_chunk p)) as [c'|] eqn:Ec; [|exfalso; apply (stream_some_iff id es data (p_chunk p)) in L; contradiction].
      eexists. split; [reflexivity|]. cbn [on_chunk p_chunk p_catalog p_info p_file_id edit new_catalog new_info new_file_id].
      destruct (stream_holds _ _ _ id es data c' H Ec) as [A B]. rewrite E in *. repeat split; try apply A. exact B.
    + intro p. destruct (chunk_stream id es data (p_chunk p)) as [c'|] eqn:Ec; [|reflexivity].
      assert (blen data <= i32_max) by (apply (stream_some_iff id es data (p_chunk p)); congruence). lia.
  - (* extend *)
    pose proof (run_holds other Ht) as R. destruct (items_fit (hist_items other)).
    + destruct R as (c2 & k & R & K & M & P). exists k. split; [exact M|]. intros [[ma mi] m] l p H E. rewrite R.
      eexists. split; [reflexivity|]. cbn [option_map on_chunk p_chunk p_catalog p_info p_file_id edit new_catalog new_info new_file_id].
      pose proof (extend_holds _ _ _ _ _ H K) as A. repeat split; try apply A. exact E.
    + intro p. rewrite R. reflexivity.
  - (* merge *)
    rewrite items_fit_nil. exists []. split; [reflexivity|]. intros [[ma mi] m] l p H E. rewrite app_nil_r.
    eexists. split; [reflexivity|]. cbn [on_chunk p_chunk p_catalog p_info p_file_id edit new_catalog new_info new_file_id].
    repeat split; try apply H. exact E.
  - (* renumber *)
    destruct Ht as [Ht Hf]. rewrite map_items_fit. pose proof (run_holds source Ht) as R.
    destruct (items_fit (hist_items source)).
    + destruct R as (c2 & l2 & R & K & M & P).
      exists (fst (thread (map_placed_st f pretty) l2 s)).
      destruct (thread_placed f pretty l2 s) as [A _]. split; [rewrite A, M; reflexivity|].
      intros [[ma mi] m] l p H E. rewrite R.
      pose proof (items_typed source Ht) as It. rewrite <- M in It.
      destruct (renumber_holds f _ _ l2 l c2 (p_chunk p) s K H It) as (c' & E1 & Hh & Hp & _). rewrite E1.
      eexists. split; [reflexivity|]. cbn [option_map fst on_chunk p_chunk p_catalog p_info p_file_id edit new_catalog new_info new_file_id].
      rewrite E in *. repeat split; try apply Hh. exact Hp.
    + intro p. rewrite R. reflexivity.
  - (* catalog *)
    rewrite items_fit_one. cbn [snd body_fits].
    exists [mkPl pretty pretty (id, BObj (catalog_obj es))]. split; [reflexivity|]. intros [[ma mi] m] l p H E.
    eexists. split; [reflexivity|]. unfold pdf_catalog. cbn [on_chunk p_chunk p_catalog p_info p_file_id edit new_catalog new_info new_file_id].
    destruct (object_holds _ _ _ id (catalog_obj es) H) as [A B]. rewrite E in *. repeat split; try apply A. exact B.
  - (* info *)
    rewrite items_fit_one. cbn [snd body_fits].
    exists [mkPl pretty pretty (id, BObj (ODict es))]. split; [reflexivity|]. intros [[ma mi] m] l p H E.
    eexists. split; [reflexivity|]. unfold pdf_info. cbn [on_chunk p_chunk p_catalog p_info p_file_id edit new_catalog new_info new_file_id].
    destruct (object_holds _ _ _ id (ODict es) H) as [A B]. rewrite E in *. repeat split; try apply A. exact B.
  - (* file id *)
    rewrite items_fit_nil. exists []. split; [reflexivity|]. intros [[ma mi] m] l p H E. rewrite app_nil_r.
    eexists. split; [reflexivity|]. unfold set_file_id. cbn [p_chunk p_catalog p_info p_file_id edit new_catalog new_info new_file_id].
    repeat split; try apply H. exact E.
  - (* version *)
    rewrite items_fit_nil. exists []. split; [reflexivity|]. intros [[ma' mi'] m'] l p H E. rewrite app_nil_r.
    eexists. split; [reflexivity|]. destruct (version_holds ma' mi' m' l p ma mi H) as (A & B & _ & C & D & F).
    cbn [edit hdr new_catalog new_info new_file_id]. rewrite B, E. repeat split; try apply A; assumption.
  - (* marker *)
    rewrite items_fit_nil. exists []. split; [reflexivity|]. intros [[ma' mi'] m'] l p H E. rewrite app_nil_r.
    eexists. split; [reflexivity|]. destruct (marker_holds ma' mi' m' l p m H) as (A & B & _ & C & D & F).
    cbn [edit hdr new_catalog new_info new_file_id]. rewrite B, E. repeat split; try apply A; assumption.
Qed.

(** ** A sequence of calls *)

Lemma pdf_run_app a b p : pdf_run (a ++ b) p = match pdf_run a p with Some p => pdf_run b p | None => None end.
Proof. revert p. induction a as [|op a IH]; intro p; [reflexivity|]. cbn [app pdf_run]. destruct (pdf_step op p); [apply IH|reflexivity]. Qed.

Definition edits (ops : list pdf_op) h := fold_left (fun h op => edit op h) ops h.

Definition hdr0 : byte * byte * (byte * byte * byte * byte) := (x31, x37, (x80, x80, x80, x80)).

Lemma hdr_edits ops : hdr (edits ops hdr0) = header_of ops.
Proof.
  rewrite header_of_form.
  assert (E : edits ops hdr0 = (zb (48 + major_of ops), zb (48 + minor_of ops), marker_of ops)); [|rewrite E; reflexivity].
  induction ops as [|op ops IH] using rev_ind; [reflexivity|].
  unfold edits in *. rewrite fold_left_app. cbn [fold_left]. rewrite IH.
  unfold major_of, minor_of, marker_of. rewrite !last_call_snoc.
  destruct op as [id o|id es data|other|lm|source T f s|id es|id es|fid|ma mi|m]; cbn [edit]; try reflexivity.
  destruct (ma <? 10), (mi <? 10); reflexivity.
Qed.

Definition pdf_state (ops : list pdf_op) (pretty : bool) (k : list placed) (p : pdf) : Prop :=
  holds (header_of ops) k (p_chunk p) /\ c_pretty (p_chunk p) = pretty /\
  p_catalog p = catalog_of ops /\ p_info p = info_of ops /\ p_file_id p = file_id_of ops.

Lemma run_spec pretty ops : ops_typed ops ->
  if items_fit (pdf_items ops) then
    exists p k, pdf_run ops (pdf_with_settings pretty) = Some p /\ map pl_item k = pdf_items ops /\ pdf_state ops pretty k p
  else pdf_run ops (pdf_with_settings pretty) = None.
Proof.
  induction ops as [|op ops IH] using rev_ind; intro Ht.
  - cbn [pdf_items flat_map]. rewrite items_fit_nil. exists (pdf_with_settings pretty), []. repeat split.
  - unfold ops_typed in Ht. apply Forall_app in Ht. destruct Ht as [Ht Ho]. apply Forall_inv in Ho.
    rewrite pdf_items_snoc, items_fit_app, pdf_run_app. specialize (IH Ht).
    destruct (items_fit (pdf_items ops)); [|cbn [andb]; rewrite IH; reflexivity].
    destruct IH as (p & k & R & M & H & P & C & I & F). rewrite R. cbn [andb pdf_run].
    pose proof (step_spec op pretty Ho) as S. destruct (items_fit (op_items op)); [|rewrite S; reflexivity].
    destruct S as (k' & M' & S). rewrite <- hdr_edits in H.
    destruct (S _ _ _ H P) as (p' & E & A & B & C' & I' & F'). rewrite E.
    exists p', (k ++ k'). split; [reflexivity|]. split; [rewrite map_app, M, M'; reflexivity|].
    unfold pdf_state. rewrite <- hdr_edits. unfold edits in *. rewrite fold_left_app. cbn [fold_left].
    split; [exact A|]. split; [exact B|]. unfold catalog_of, info_of, file_id_of. rewrite !last_call_snoc.
    rewrite C', I', F', C, I, F. destruct op; repeat split.
Qed.

(** Header edits do not matter to the rest. *)
Definition not_edit (op : pdf_op) : bool := negb (header_edit op).

Lemma edit_items op : header_edit op = true -> op_items op = [].
Proof. destruct op; cbn; congruence. Qed.

Lemma filter_items ops : pdf_items (List.filter not_edit ops) = pdf_items ops.
Proof.
  induction ops as [|op ops IH]; [reflexivity|]. cbn [List.filter]. unfold not_edit at 1. destruct (header_edit op) eqn:E.
  - cbn [negb]. rewrite IH. unfold pdf_items. cbn [flat_map]. rewrite edit_items by exact E. reflexivity.
  - cbn [negb]. unfold pdf_items in *. cbn [flat_map]. rewrite IH. reflexivity.
Qed.

Lemma filter_typed ops : ops_typed ops -> ops_typed (List.filter not_edit ops).
Proof. intro H. apply Forall_forall. intros x Hx. apply filter_In in Hx. unfold ops_typed in H. rewrite Forall_forall in H. apply H. tauto. Qed.

Lemma run_edits pretty ops : ops_typed ops ->
  if items_fit (pdf_items ops) then
    exists p q k, pdf_run ops (pdf_with_settings pretty) = Some p /\
      pdf_run (List.filter not_edit ops) (pdf_with_settings pretty) = Some q /\
      map pl_item k = pdf_items ops /\ pdf_state ops pretty k p /\ pdf_state (List.filter not_edit ops) pretty k q
  else pdf_run ops (pdf_with_settings pretty) = None /\ pdf_run (List.filter not_edit ops) (pdf_with_settings pretty) = None.
Proof.
  induction ops as [|op ops IH] using rev_ind; intro Ht.
  - cbn [pdf_items flat_map]. rewrite items_fit_nil. exists (pdf_with_settings pretty), (pdf_with_settings pretty), []. repeat split.
  - unfold ops_typed in Ht. apply Forall_app in Ht. destruct Ht as [Ht Ho]. apply Forall_inv in Ho.
    rewrite pdf_items_snoc, items_fit_app, filter_app, !pdf_run_app. specialize (IH Ht).
    destruct (items_fit (pdf_items ops)); [|cbn [andb]; destruct IH as [-> ->]; split; reflexivity].
    destruct IH as (p & q & k & R & R' & M & Sp & Sq). rewrite R, R'. cbn [andb List.filter].
    pose proof (step_spec op pretty Ho) as S.
    assert (NE : not_edit op = negb (header_edit op)) by reflexivity. rewrite NE. clear NE. destruct (header_edit op) eqn:He.
    + rewrite (edit_items _ He), items_fit_nil in *. cbn [negb pdf_run]. destruct S as (k' & M' & S).
      assert (k' = []) by (destruct k'; [reflexivity|discriminate]). subst k'.
      destruct Sp as (H & P & C & I & F). rewrite <- hdr_edits in H.
      destruct (S _ _ _ H P) as (p' & E & A & B & C' & I' & F'). rewrite E, app_nil_r in *.
      exists p', q, k. repeat (split; [reflexivity || (rewrite app_nil_r; assumption)|]). split; [exact M|]. split.
      * unfold pdf_state. rewrite <- hdr_edits. unfold edits in *. rewrite fold_left_app. cbn [fold_left].
        split; [exact A|]. split; [exact B|]. unfold catalog_of, info_of, file_id_of. rewrite !last_call_snoc.
        rewrite C', I', F', C, I, F. destruct op; repeat split.
      * rewrite app_nil_r. exact Sq.
    + cbn [negb pdf_run]. destruct (items_fit (op_items op)); [|rewrite !S; split; reflexivity].
      destruct S as (k' & M' & S).
      assert (G : forall o p, pdf_state o pretty k p -> exists p', pdf_step op p = Some p' /\ pdf_state (o ++ [op]) pretty (k ++ k') p').
      { intros o p0 (H & P & C & I & F). rewrite <- hdr_edits in H.
        destruct (S _ _ _ H P) as (p' & E & A & B & C' & I' & F'). exists p'. split; [exact E|].
        unfold pdf_state. rewrite <- hdr_edits. unfold edits in *. rewrite fold_left_app. cbn [fold_left].
        split; [exact A|]. split; [exact B|]. unfold catalog_of, info_of, file_id_of. rewrite !last_call_snoc.
        rewrite C', I', F', C, I, F. destruct op; repeat split. }
      destruct (G _ _ Sp) as (p' & E1 & S1). destruct (G _ _ Sq) as (q' & E2 & S2). rewrite E1, E2.
      exists p', q', (k ++ k'). repeat (split; [reflexivity|]). split; [rewrite map_app, M, M'; reflexivity|]. split; assumption.
Qed.
