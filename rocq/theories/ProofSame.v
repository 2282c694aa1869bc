(** Proofs for C98. *)

From Coq Require Import ZArith List Lia Bool ZifyBool.
From Verif Require Import Bytes ModelFloat ModelBuf ModelObject ModelRenumber ModelChunk ModelPdf SpecLex SpecObj SpecMeans
  SpecRenum SpecChunk SpecFile SpecPdf SpecLimits SpecSame ProofBasic ProofObj ProofParse ProofTree ProofRenum ProofRenumTree ProofXref ProofChunk
  ProofChunkParse ProofChunk2 ProofLimits ProofLimits3 ProofFile ProofFile2 ProofPdf ProofFile3 ProofFile4.
Import ListNotations.
Local Open Scope Z_scope.

Lemma uniform_one p it : uniform p [mkPl p p it].
Proof. repeat constructor. Qed.

(** One call, in a uniform document: the placed items are uniform. *)
Lemma step_uniform op (pretty : bool) : op_typed op -> op_uniform pretty op -> items_fit (op_items op) = true ->
  exists k, map pl_item k = op_items op /\ uniform pretty k /\
    forall h l p, holds (hdr h) l (p_chunk p) -> c_pretty (p_chunk p) = pretty ->
    exists p', pdf_step op p = Some p' /\ holds (hdr (edit op h)) (l ++ k) (p_chunk p') /\
      c_pretty (p_chunk p') = pretty /\
      p_catalog p' = new_catalog op (p_catalog p) /\ p_info p' = new_info op (p_info p) /\
      p_file_id p' = new_file_id op (p_file_id p).
Proof.
  intros Ht Hu Hf.
  assert (One : forall k, map pl_item k = op_items op -> uniform pretty k ->
     (forall h l p, holds (hdr h) l (p_chunk p) -> c_pretty (p_chunk p) = pretty ->
      exists p', pdf_step op p = Some p' /\ holds (hdr (edit op h)) (l ++ k) (p_chunk p') /\
      c_pretty (p_chunk p') = pretty /\
      p_catalog p' = new_catalog op (p_catalog p) /\ p_info p' = new_info op (p_info p) /\
      p_file_id p' = new_file_id op (p_file_id p)) -> exists k, map pl_item k = op_items op /\ uniform pretty k /\
     (forall h l p, holds (hdr h) l (p_chunk p) -> c_pretty (p_chunk p) = pretty ->
      exists p', pdf_step op p = Some p' /\ holds (hdr (edit op h)) (l ++ k) (p_chunk p') /\
      c_pretty (p_chunk p') = pretty /\
      p_catalog p' = new_catalog op (p_catalog p) /\ p_info p' = new_info op (p_info p) /\
      p_file_id p' = new_file_id op (p_file_id p))) by (intros k A B C; exists k; auto).
  destruct op as [id o|id es data|other|lm|source T f s|id es|id es|fid|ma mi|m]; cbn [op_items op_typed op_uniform] in *.
  - apply (One [mkPl pretty pretty (id, BObj o)]); [reflexivity|apply uniform_one|]. cbn [pdf_step]. intros [[ma mi] m] l p H E.
    eexists. split; [reflexivity|]. cbn [on_chunk p_chunk p_catalog p_info p_file_id edit new_catalog new_info new_file_id].
    destruct (object_holds _ _ _ id o H) as [A B]. rewrite E in *. repeat split; try apply A. exact B.
  - rewrite items_fit_one in Hf. cbn [snd body_fits] in Hf. apply Z.leb_le in Hf. rename Hf into L.
    apply (One [mkPl pretty pretty (id, BStream es data)]); [reflexivity|apply uniform_one|]. cbn [pdf_step]. intros [[ma mi] m] l p H E.
    destruct (chunk_stream id es data (p_chunk p)) as [c'|] eqn:Ec; [|exfalso; apply (stream_some_iff id es data (p_chunk p)) in L; contradiction].
    eexists. split; [reflexivity|]. cbn [on_chunk p_chunk p_catalog p_info p_file_id edit new_catalog new_info new_file_id].
    destruct (stream_holds _ _ _ id es data c' H Ec) as [A B]. rewrite E in *. repeat split; try apply A. exact B.
  - pose proof (run_holds other Ht) as R. rewrite Hf in R. destruct R as (c2 & _ & R & _).
    destruct (run_uniform pretty other Ht Hu c2 R) as (k & K & M & U & P).
    apply (One k); [exact M|exact U|]. cbn [pdf_step]. intros [[ma mi] m] l p H E. rewrite R.
    eexists. split; [reflexivity|]. cbn [option_map on_chunk p_chunk p_catalog p_info p_file_id edit new_catalog new_info new_file_id].
    pose proof (extend_holds _ _ _ _ _ H K) as A. repeat split; try apply A. exact E.
  - apply (One []); [reflexivity|constructor|]. cbn [pdf_step]. intros [[ma mi] m] l p H E. rewrite app_nil_r.
    eexists. split; [reflexivity|]. cbn [on_chunk p_chunk p_catalog p_info p_file_id edit new_catalog new_info new_file_id].
    repeat split; try apply H. exact E.
  - destruct Ht as [Ht Hm]. rewrite map_items_fit in Hf. pose proof (run_holds source Ht) as R. rewrite Hf in R.
    destruct R as (c2 & _ & R & _). destruct (run_uniform pretty source Ht Hu c2 R) as (l2 & K & M & U & P).
    destruct (thread_placed f pretty l2 s) as [A _].
    apply (One (fst (thread (map_placed_st f pretty) l2 s))).
    + rewrite A, M. reflexivity.
    + apply uniform_thread. eapply Forall_impl; [|exact U]. cbn. intuition.
    + cbn [pdf_step]. intros [[ma mi] m] l p H E. rewrite R.
      pose proof (items_typed source Ht) as It. rewrite <- M in It.
      destruct (renumber_holds f _ _ l2 l c2 (p_chunk p) s K H It) as (c' & E1 & Hh & Hp & _). rewrite E1.
      eexists. split; [reflexivity|]. cbn [option_map fst on_chunk p_chunk p_catalog p_info p_file_id edit new_catalog new_info new_file_id].
      rewrite E in *. repeat split; try apply Hh. exact Hp.
  - apply (One [mkPl pretty pretty (id, BObj (catalog_obj es))]); [reflexivity|apply uniform_one|]. cbn [pdf_step]. intros [[ma mi] m] l p H E.
    eexists. split; [reflexivity|]. unfold pdf_catalog. cbn [on_chunk p_chunk p_catalog p_info p_file_id edit new_catalog new_info new_file_id].
    destruct (object_holds _ _ _ id (catalog_obj es) H) as [A B]. rewrite E in *. repeat split; try apply A. exact B.
  - apply (One [mkPl pretty pretty (id, BObj (ODict es))]); [reflexivity|apply uniform_one|]. cbn [pdf_step]. intros [[ma mi] m] l p H E.
    eexists. split; [reflexivity|]. unfold pdf_info. cbn [on_chunk p_chunk p_catalog p_info p_file_id edit new_catalog new_info new_file_id].
    destruct (object_holds _ _ _ id (ODict es) H) as [A B]. rewrite E in *. repeat split; try apply A. exact B.
  - apply (One []); [reflexivity|constructor|]. cbn [pdf_step]. intros [[ma mi] m] l p H E. rewrite app_nil_r.
    eexists. split; [reflexivity|]. unfold set_file_id. cbn [p_chunk p_catalog p_info p_file_id edit new_catalog new_info new_file_id].
    repeat split; try apply H. exact E.
  - apply (One []); [reflexivity|constructor|]. cbn [pdf_step]. intros [[ma' mi'] m'] l p H E. rewrite app_nil_r.
    eexists. split; [reflexivity|]. destruct (version_holds ma' mi' m' l p ma mi H) as (A & B & _ & C & D & F).
    cbn [edit hdr new_catalog new_info new_file_id]. rewrite B, E. repeat split; try apply A; assumption.
  - apply (One []); [reflexivity|constructor|]. cbn [pdf_step]. intros [[ma' mi'] m'] l p H E. rewrite app_nil_r.
    eexists. split; [reflexivity|]. destruct (marker_holds ma' mi' m' l p m H) as (A & B & _ & C & D & F).
    cbn [edit hdr new_catalog new_info new_file_id]. rewrite B, E. repeat split; try apply A; assumption.
Qed.

Lemma run_uniform_pdf pretty ops : ops_typed ops -> ops_uniform pretty ops -> items_fit (pdf_items ops) = true ->
  exists p k, pdf_run ops (pdf_with_settings pretty) = Some p /\ map pl_item k = pdf_items ops /\ uniform pretty k /\
    pdf_state ops pretty k p.
Proof.
  induction ops as [|op ops IH] using rev_ind; intros Ht Hu Hf.
  - exists (pdf_with_settings pretty), []. repeat split. constructor.
  - unfold ops_typed in Ht. apply Forall_app in Ht. destruct Ht as [Ht Ho]. apply Forall_inv in Ho.
    unfold ops_uniform in Hu. apply Forall_app in Hu. destruct Hu as [Hu Ho']. apply Forall_inv in Ho'.
    rewrite pdf_items_snoc, items_fit_app in Hf. apply andb_true_iff in Hf. destruct Hf as [Hf Hf'].
    destruct (IH Ht Hu Hf) as (p & k & R & M & U & H & P & C & I & F). rewrite pdf_run_app, R. cbn [pdf_run].
    destruct (step_uniform op pretty Ho Ho' Hf') as (k' & M' & U' & Sp). rewrite <- hdr_edits in H.
    destruct (Sp _ _ _ H P) as (p' & E & A & B & C' & I' & F'). rewrite E.
    exists p', (k ++ k'). split; [reflexivity|]. split; [rewrite map_app, M, M', pdf_items_snoc; reflexivity|].
    split; [apply Forall_app; split; assumption|].
    unfold pdf_state. rewrite <- hdr_edits. unfold edits in *. rewrite fold_left_app. cbn [fold_left].
    split; [exact A|]. split; [exact B|]. unfold catalog_of, info_of, file_id_of. rewrite !last_call_snoc.
    rewrite C', I', F', C, I, F. destruct op; repeat split.
Qed.

(** What finishing looks at. *)
Lemma finish_ext p q : pdf_bytes p = pdf_bytes q -> c_offsets (p_chunk p) = c_offsets (p_chunk q) ->
  c_pretty (p_chunk p) = c_pretty (p_chunk q) -> p_catalog p = p_catalog q -> p_info p = p_info q -> p_file_id p = p_file_id q ->
  finish p = finish q /\ forall id flt, finish_stream_inner p id flt = finish_stream_inner q id flt.
Proof.
  intros B O P C I F.
  assert (T : forall n, trailer_entries p n = trailer_entries q n) by (intro n; unfold trailer_entries; rewrite C, I, F; reflexivity).
  split.
  - rewrite !finish_form, B, O, P. destruct (write_offsets _) as [[n es]|]; [|reflexivity]. cbn [option_map fst]. rewrite T. reflexivity.
  - intros id flt. rewrite !finish_stream_form, B, O, P. destruct (write_offsets _) as [[n es]|]; [|reflexivity].
    destruct (flt _) as [d fo]. unfold stream_entries. rewrite T. reflexivity.
Qed.

Lemma same_header a b : same_document a b -> header_of a = header_of b.
Proof. intros [_ A B C _ _ _]. unfold header_of. rewrite A, B, C. reflexivity. Qed.

(** Two uniform documents that ask for the same. *)
Lemma same_state pretty a b p q : ops_typed a -> ops_typed b -> ops_uniform pretty a -> ops_uniform pretty b ->
  same_document a b -> pdf_run a (pdf_with_settings pretty) = Some p -> pdf_run b (pdf_with_settings pretty) = Some q ->
  pdf_bytes p = pdf_bytes q /\ c_offsets (p_chunk p) = c_offsets (p_chunk q) /\
  c_pretty (p_chunk p) = c_pretty (p_chunk q) /\ p_catalog p = p_catalog q /\ p_info p = p_info q /\ p_file_id p = p_file_id q.
Proof.
  intros Ta Tb Ua Ub Sd Ra Rb.
  assert (Fa : items_fit (pdf_items a) = true).
  { pose proof (run_spec pretty a Ta) as X. destruct (items_fit (pdf_items a)); [reflexivity|congruence]. }
  assert (Fb : items_fit (pdf_items b) = true) by (rewrite <- (sd_items _ _ Sd); exact Fa).
  destruct (run_uniform_pdf pretty a Ta Ua Fa) as (p' & k & R & M & U & (H1 & H2) & P & C & I & F).
  assert (p' = p) by congruence. subst p'.
  destruct (run_uniform_pdf pretty b Tb Ub Fb) as (q' & k' & R' & M' & U' & (H1' & H2') & P' & C' & I' & F').
  assert (q' = q) by congruence. subst q'.
  assert (k' = k). { apply (uniform_layout pretty); [exact U'|exact U|]. rewrite M, M', (sd_items _ _ Sd). reflexivity. } subst k'.
  unfold pdf_bytes. rewrite H1, H1', H2, H2', P, P', C, C', I, I', F, F', (same_header _ _ Sd).
  destruct Sd as [_ _ _ _ -> -> ->]. repeat split.
Qed.

(** Without secondary chunks. *)
Lemma direct_items l : pdf_items (map direct_call l) = l.
Proof.
  induction l as [|[id b] l IH]; [reflexivity|]. unfold pdf_items in *. cbn [map flat_map]. rewrite IH. destruct b; reflexivity.
Qed.

Lemma direct_typed l : forallb item_typed l = true -> ops_typed (map direct_call l).
Proof.
  intro H. apply Forall_forall. intros op Hop. apply in_map_iff in Hop. destruct Hop as ([id b] & <- & Hi).
  rewrite forallb_forall in H. specialize (H _ Hi). destruct b; exact H.
Qed.

Lemma without_items ops : pdf_items (without_chunks ops) = pdf_items ops.
Proof.
  unfold without_chunks, pdf_items. induction ops as [|op ops IH]; [reflexivity|]. cbn [flat_map]. rewrite flat_map_app, IH.
  f_equal. destruct op; try (cbn [flat_map]; rewrite app_nil_r; reflexivity); try (apply direct_items). reflexivity.
Qed.

Lemma without_typed ops : ops_typed ops -> ops_typed (without_chunks ops).
Proof.
  intro H. unfold ops_typed in *. unfold without_chunks. induction H as [|op ops Ho H IH]; [constructor|]. cbn [flat_map].
  apply Forall_app. split; [|exact IH].
  destruct op; try (constructor; [exact Ho|constructor]); try (apply direct_typed, op_items_typed; exact Ho). constructor.
Qed.

Lemma without_uniform pretty ops : ops_uniform pretty (without_chunks ops).
Proof.
  unfold ops_uniform, without_chunks. induction ops as [|op ops IH]; [constructor|]. cbn [flat_map]. apply Forall_app. split; [|exact IH].
  assert (D : forall l, Forall (op_uniform pretty) (map direct_call l)).
  { intro l. apply Forall_forall. intros x Hx. apply in_map_iff in Hx. destruct Hx as ([id b] & <- & _). destruct b; exact Logic.I. }
  destruct op; try (constructor; [exact Logic.I|constructor]); try apply D. constructor.
Qed.

Lemma last_call_app {A} (f : pdf_op -> option A) a b :
  last_call f (a ++ b) = match last_call f b with Some x => Some x | None => last_call f a end.
Proof.
  induction b as [|op b IH] using rev_ind; [rewrite app_nil_r; reflexivity|].
  rewrite app_assoc, !last_call_snoc, IH. destruct (f op); reflexivity.
Qed.

Lemma last_call_direct {A} (f : pdf_op -> option A) l : (forall it, f (direct_call it) = None) -> last_call f (map direct_call l) = None.
Proof.
  intro H. induction l as [|it l IH] using rev_ind; [reflexivity|]. rewrite map_app. cbn [map]. rewrite last_call_snoc, H. exact IH.
Qed.

Lemma last_call_without {A} (f : pdf_op -> option A) ops :
  (forall it, f (direct_call it) = None) -> (forall o, f (PdfExtend o) = None) -> (forall m, f (PdfMerge m) = None) ->
  (forall src T g t, f (PdfRenumber src T g t) = None) -> last_call f (without_chunks ops) = last_call f ops.
Proof.
  intros Hd He Hm Hr. induction ops as [|op ops IH] using rev_ind; [reflexivity|].
  unfold without_chunks in *. rewrite flat_map_app, last_call_app, last_call_snoc, IH. cbn [flat_map]. rewrite app_nil_r.
  destruct op; try (unfold last_call at 1; cbn [fold_left]; destruct (f _); reflexivity).
  - rewrite last_call_direct, He by exact Hd. reflexivity.
  - rewrite Hm. reflexivity.
  - rewrite last_call_direct, Hr by exact Hd. reflexivity.
Qed.

Lemma without_same ops : same_document ops (without_chunks ops).
Proof.
  assert (L : forall A (f : pdf_op -> option A),
    (forall it, f (direct_call it) = None) -> (forall o, f (PdfExtend o) = None) -> (forall m, f (PdfMerge m) = None) ->
    (forall src T g t, f (PdfRenumber src T g t) = None) -> last_call f ops = last_call f (without_chunks ops)).
  { intros. symmetry. apply last_call_without; assumption. }
  assert (D : forall it (P : pdf_op -> Prop), (forall id o, P (PdfObject id o)) -> (forall id es d, P (PdfStream id es d)) -> P (direct_call it)).
  { intros [id b] P A B. destruct b; [apply A|apply B]. }
  split.
  - symmetry. apply without_items.
  - unfold major_of. erewrite L; [reflexivity| | | |]; try reflexivity. intro it. apply (D it); reflexivity.
  - unfold minor_of. erewrite L; [reflexivity| | | |]; try reflexivity. intro it. apply (D it); reflexivity.
  - unfold marker_of. erewrite L; [reflexivity| | | |]; try reflexivity. intro it. apply (D it); reflexivity.
  - unfold catalog_of. apply L; try reflexivity. intro it. apply (D it); reflexivity.
  - unfold info_of. apply L; try reflexivity. intro it. apply (D it); reflexivity.
  - unfold file_id_of. apply L; try reflexivity. intro it. apply (D it); reflexivity.
Qed.

(** ** Equal bytes *)

Lemma same_layout l k : layout l = layout k ->
  forallb (fun pl => body_readable (snd (pl_item pl)) && body_fits (snd (pl_item pl))) l = true ->
  forallb (fun pl => body_readable (snd (pl_item pl)) && body_fits (snd (pl_item pl))) k = true ->
  Forall2 agree (map pl_item l) (map pl_item k).
Proof.
  intros E Hl Hk.
  pose proof (body_parses l [] (length l + length k) eq_refl Hl ltac:(lia)) as A.
  pose proof (body_parses k [] (length l + length k) eq_refl Hk ltac:(lia)) as B. cbn [app] in A, B. rewrite E, B in A. injection A as A.
  clear B E. revert k Hk A. induction l as [|x l IH]; intros k Hk A; destruct k as [|y k]; try discriminate A; [constructor|].
  cbn [map forallb] in *. apply andb_true_iff in Hl. destruct Hl as [Hx Hl]. apply andb_true_iff in Hk. destruct Hk as [Hy Hk].
  injection A as A0 A. constructor; [|apply IH; assumption]. exists (item_val (pl_item x)). split.
  - apply item_val_means. apply andb_true_iff in Hx. apply Hx.
  - rewrite <- A0. apply item_val_means. apply andb_true_iff in Hy. apply Hy.
Qed.

Lemma same_body pretty pretty' a b p q ba bb : ops_typed a -> ops_typed b ->
  pdf_run a (pdf_with_settings pretty) = Some p -> pdf_run b (pdf_with_settings pretty') = Some q ->
  inner (c_buf (p_chunk p)) = header_of a ++ ba -> inner (c_buf (p_chunk q)) = header_of b ++ bb -> ba = bb ->
  (forall it, In it (pdf_items a ++ pdf_items b) -> body_readable (snd it) = true) ->
  Forall2 agree (pdf_items a) (pdf_items b).
Proof.
  intros Ta Tb Ra Rb Ba Bb E Hr.
  destruct (reach pretty a p Ta Ra) as (k & M & ((H & _) & _) & F). destruct (reach pretty' b q Tb Rb) as (k' & M' & ((H' & _) & _) & F').
  assert (La : layout k = ba). { unfold chunk_bytes in H. rewrite Ba in H. apply app_inv_head in H. congruence. }
  assert (Lb : layout k' = bb). { unfold chunk_bytes in H'. rewrite Bb in H'. apply app_inv_head in H'. congruence. }
  rewrite <- M, <- M'. apply same_layout; [congruence| |].
  - apply forallb_forall. intros pl Hpl. apply andb_true_iff. assert (I : In (pl_item pl) (pdf_items a)) by (rewrite <- M; apply in_map; exact Hpl).
    split; [apply Hr; apply in_or_app; left; exact I|]. unfold items_fit in F. rewrite forallb_forall in F. apply F. exact I.
  - apply forallb_forall. intros pl Hpl. apply andb_true_iff. assert (I : In (pl_item pl) (pdf_items b)) by (rewrite <- M'; apply in_map; exact Hpl).
    split; [apply Hr; apply in_or_app; right; exact I|]. unfold items_fit in F'. rewrite forallb_forall in F'. apply F'. exact I.
Qed.
