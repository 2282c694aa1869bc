(** Proofs: a [Pdf] used as a [Chunk]. *)

From Coq Require Import ZArith List Lia Bool ZifyBool.
From Verif Require Import Bytes ModelFloat ModelBuf ModelObject ModelRenumber ModelChunk ModelPdf ModelMerge SpecLex SpecObj SpecMeans
  SpecRenum SpecChunk SpecFile SpecPdf SpecLimits SpecMerge ProofBasic ProofObj ProofParse ProofTree ProofRenum ProofRenumTree ProofXref ProofChunk
  ProofChunkParse ProofChunk2 ProofLimits ProofLimits3 ProofFile ProofFile2 ProofPdf.
Import ListNotations.
Local Open Scope Z_scope.

Lemma some_inj {A} (a b : A) : Some a = Some b -> a = b.
Proof. congruence. Qed.

Lemma as_chunk_snoc p ops op : as_chunk p (ops ++ [op]) = on_a_chunk (as_chunk p ops) op.
Proof. unfold as_chunk. rewrite fold_left_app. reflexivity. Qed.

Lemma catalog_typed id es : id_ok id = true /\ entries_typed es = true ->
  item_typed (id, BObj (ODict ((lit "Type", OPrim (PName (lit "Catalog"))) :: es))) = true.
Proof. intros [A B]. unfold item_typed. cbn [fst snd body_typed]. rewrite A. exact B. Qed.
Lemma info_typed id es : id_ok id = true /\ entries_typed es = true -> item_typed (id, BObj (ODict es)) = true.
Proof. intros [A B]. unfold item_typed. cbn [fst snd body_typed]. rewrite A. exact B. Qed.

Lemma as_chunk_typed pretty ops : ops_typed ops -> hist_typed (as_chunk pretty ops).
Proof.
  induction ops as [|op ops IH] using rev_ind; intro H; [exact I|].
  apply Forall_app in H. destruct H as [H1 H2]. apply Forall_inv in H2. specialize (IH H1). rewrite as_chunk_snoc.
  destruct op; cbn [on_a_chunk hist_typed op_typed] in *; try exact IH; try (split; [exact IH|]).
  all: try exact H2; try exact I; try (apply catalog_typed; exact H2); try (apply info_typed; exact H2).
Qed.

Lemma as_chunk_items pretty ops : hist_items (as_chunk pretty ops) = pdf_items ops.
Proof.
  induction ops as [|op ops IH] using rev_ind; [reflexivity|]. rewrite as_chunk_snoc, pdf_items_snoc, <- IH.
  destruct op; cbn [on_a_chunk hist_items op_items]; rewrite ?app_nil_r; reflexivity.
Qed.

Lemma as_chunk_merges pretty ops : ops_merges_ok ops -> merges_ok (as_chunk pretty ops).
Proof.
  induction ops as [|op ops IH] using rev_ind; intro H; [exact I|].
  apply Forall_app in H. destruct H as [H1 H2]. apply Forall_inv in H2. specialize (IH H1). rewrite as_chunk_snoc.
  destruct op; cbn [on_a_chunk merges_ok] in *; try exact IH; split; assumption.
Qed.


(** The two run in step. *)
Lemma twin pretty ops p : ops_typed ops -> ops_merges_ok ops -> pdf_run ops (pdf_with_settings pretty) = Some p ->
  exists c k, run (as_chunk pretty ops) = Some c /\ holds [] k c /\ holds (header_of ops) k (p_chunk p) /\
    map pl_item k = pdf_items ops /\ c_pretty c = pretty /\ c_pretty (p_chunk p) = pretty /\
    chunk_limits (p_chunk p) = chunk_limits c /\ lok (chunk_limits c).
Proof.
  revert p. induction ops as [|op ops IH] using rev_ind; intros p Ht Hm R.
  - cbn [pdf_run] in R. apply some_inj in R. subst p. exists (chunk_with_settings pretty), [].
    repeat (split; [reflexivity || (split; reflexivity)|]). apply limits0_ok.
  - apply Forall_app in Ht. destruct Ht as [Ht Ho]. apply Forall_inv in Ho.
    apply Forall_app in Hm. destruct Hm as [Hm Hmo]. apply Forall_inv in Hmo.
    rewrite pdf_run_app in R. destruct (pdf_run ops (pdf_with_settings pretty)) as [p0|]; [|discriminate].
    destruct (IH p0 Ht Hm eq_refl) as (c & k & Rc & Hc & Hp & M & Pc & Pp & L & Lk). clear IH.
    rewrite as_chunk_snoc, pdf_items_snoc. cbn [pdf_run] in R.
    assert (Hh : header_edit op = false -> header_of (ops ++ [op]) = header_of ops).
    { intro E. unfold header_of, marker_of, major_of, minor_of. rewrite !last_call_snoc. destruct op; try discriminate; reflexivity. }
    destruct (pdf_step op p0) as [p1|] eqn:E; [|discriminate]. apply some_inj in R. subst p1.
    destruct op as [id o|id es data|other|lm|source T f s|id es|id es|fid|ma mi|m]; cbn [pdf_step on_a_chunk run op_items op_typed] in *.
    + (* object *) apply some_inj in E. subst p. rewrite Rc. cbn [option_map on_chunk p_chunk]. rewrite Hh by reflexivity.
      destruct (object_holds _ _ _ id o Hc) as [A B]. destruct (object_holds _ _ _ id o Hp) as [A' B'].
      exists (chunk_object id o c), (k ++ [mkPl pretty pretty (id, BObj o)]). rewrite Pc, Pp in *.
      split; [reflexivity|]. split; [exact A|]. split; [exact A'|]. split; [rewrite map_app, M; reflexivity|].
      split; [exact B|]. split; [exact B'|].
      rewrite !object_limits by (assumption || (rewrite L; assumption)). rewrite L. split; [reflexivity|].
      apply merge_ok; [exact Lk|apply item_lim_ok; exact Ho].
    + (* stream *)
      destruct (chunk_stream id es data (p_chunk p0)) as [c'|] eqn:Es; [|discriminate]. apply some_inj in E. subst p.
      assert (F : chunk_stream id es data c <> None) by (apply stream_some_iff; apply (stream_some_iff id es data (p_chunk p0)); congruence).
      rewrite Rc. destruct (chunk_stream id es data c) as [c2|] eqn:Ec; [|contradiction]. cbn [on_chunk p_chunk]. rewrite Hh by reflexivity.
      destruct (stream_holds _ _ _ _ _ _ _ Hc Ec) as [A B]. destruct (stream_holds _ _ _ _ _ _ _ Hp Es) as [A' B'].
      exists c2, (k ++ [mkPl pretty pretty (id, BStream es data)]). rewrite Pc, Pp in *.
      split; [reflexivity|]. split; [exact A|]. split; [exact A'|]. split; [rewrite map_app, M; reflexivity|].
      split; [exact B|]. split; [exact B'|].
      rewrite (stream_limits id es data (p_chunk p0) c') by (assumption || (rewrite L; assumption)).
      rewrite (stream_limits id es data c c2) by assumption. rewrite L. split; [reflexivity|].
      apply merge_ok; [exact Lk|apply item_lim_ok; exact Ho].
    + (* extend *)
      destruct (run other) as [o|] eqn:Er; [|discriminate]. apply some_inj in E. subst p. rewrite Rc. cbn [on_chunk p_chunk]. rewrite Hh by reflexivity.
      pose proof (run_holds other Ho) as Q. destruct (items_fit (hist_items other)); [|congruence].
      destruct Q as (c2 & k2 & Q & K & M2 & P2). rewrite Er in Q. apply some_inj in Q. subst c2.
      exists (chunk_extend o c), (k ++ k2). split; [reflexivity|].
      split; [apply extend_holds; assumption|]. split; [apply extend_holds; assumption|].
      split; [rewrite map_app, M, M2; reflexivity|]. split; [exact Pc|]. split; [exact Pp|].
      destruct (run_bounds other Ho Hmo o Er) as [Lo _].
      unfold chunk_limits, chunk_extend, extend_buf in *. cbn [c_buf lims] in *. rewrite L. split; [reflexivity|].
      apply merge_ok; assumption.
    + (* merge *)
      apply limits_ok_iff in Hmo. apply some_inj in E. subst p. rewrite Rc. cbn [option_map on_chunk p_chunk]. rewrite Hh by reflexivity.
      exists (chunk_merge_limits lm c), k. rewrite app_nil_r. split; [reflexivity|].
      split; [exact Hc|]. split; [exact Hp|]. split; [exact M|]. split; [exact Pc|]. split; [exact Pp|].
      unfold chunk_limits, chunk_merge_limits, with_limits in *. cbn [c_buf lims] in *. rewrite L. split; [reflexivity|].
      apply merge_ok; assumption.
    + (* renumber *)
      destruct Ho as [Ho Hf]. destruct (run source) as [o|] eqn:Er; [|discriminate].
      pose proof (run_holds source Ho) as Q. destruct (items_fit (hist_items source)); [|congruence].
      destruct Q as (c2 & k2 & Q & K & M2 & P2). rewrite Er in Q. apply some_inj in Q. subst c2.
      pose proof (items_typed source Ho) as It. rewrite <- M2 in It.
      destruct (renumber_holds f _ _ k2 k o (p_chunk p0) s K Hp It) as (d & E1 & Hh1 & Hp1 & L1). rewrite E1 in E.
      destruct (renumber_holds f _ _ k2 k o c s K Hc It) as (e & E2 & Hh2 & Hp2 & L2). rewrite Rc, E2.
      cbn [option_map fst] in E |- *. apply some_inj in E. subst p. cbn [on_chunk p_chunk]. rewrite Hh by reflexivity.
      rewrite Pp in *. rewrite Pc in *.
      exists e, (k ++ fst (thread (map_placed_st f pretty) k2 s)). destruct (thread_placed f pretty k2 s) as [A _].
      split; [reflexivity|]. split; [exact Hh2|]. split; [exact Hh1|]. split; [rewrite map_app, M, A, M2; reflexivity|].
      split; [exact Hp2|]. split; [exact Hp1|]. rewrite L1, L2, L. split; [reflexivity|].
      destruct (run_bounds source Ho Hmo o Er) as [Lo _].
      rewrite note_refs_merge by (apply merge_ok; assumption). apply merge_ok; [apply merge_ok; assumption|apply refs_lim_ok].
    + (* catalog *) apply some_inj in E. subst p. rewrite Rc. unfold pdf_catalog. cbn [option_map on_chunk p_chunk]. rewrite Hh by reflexivity.
      change (ODict ((lit "Type", OPrim (PName (lit "Catalog"))) :: es)) with (catalog_obj es).
      destruct (object_holds _ _ _ id (catalog_obj es) Hc) as [A B]. destruct (object_holds _ _ _ id (catalog_obj es) Hp) as [A' B'].
      apply catalog_typed in Ho.
      exists (chunk_object id (catalog_obj es) c), (k ++ [mkPl pretty pretty (id, BObj (catalog_obj es))]). rewrite Pc, Pp in *.
      split; [reflexivity|]. split; [exact A|]. split; [exact A'|]. split; [rewrite map_app, M; reflexivity|].
      split; [exact B|]. split; [exact B'|].
      rewrite !object_limits by (assumption || (rewrite L; assumption)). rewrite L. split; [reflexivity|].
      apply merge_ok; [exact Lk|apply item_lim_ok; exact Ho].
    + (* info *) apply some_inj in E. subst p. rewrite Rc. unfold pdf_info. cbn [option_map on_chunk p_chunk]. rewrite Hh by reflexivity.
      destruct (object_holds _ _ _ id (ODict es) Hc) as [A B]. destruct (object_holds _ _ _ id (ODict es) Hp) as [A' B'].
      apply info_typed in Ho.
      exists (chunk_object id (ODict es) c), (k ++ [mkPl pretty pretty (id, BObj (ODict es))]). rewrite Pc, Pp in *.
      split; [reflexivity|]. split; [exact A|]. split; [exact A'|]. split; [rewrite map_app, M; reflexivity|].
      split; [exact B|]. split; [exact B'|].
      rewrite !object_limits by (assumption || (rewrite L; assumption)). rewrite L. split; [reflexivity|].
      apply merge_ok; [exact Lk|apply item_lim_ok; exact Ho].
    + (* file id *)
      apply some_inj in E. subst p. exists c, k. rewrite app_nil_r, Hh by reflexivity. repeat (split; [assumption|]). exact Lk.
    + (* version *)
      apply some_inj in E. subst p. rewrite header_of_form in Hp. destruct (version_holds _ _ _ _ p0 ma mi Hp) as (A & B & C & _).
      exists c, k. rewrite app_nil_r. split; [exact Rc|]. split; [exact Hc|]. split.
      { rewrite header_of_form. unfold major_of, minor_of, marker_of in *. rewrite !last_call_snoc.
        destruct (ma <? 10), (mi <? 10); exact A. }
      split; [exact M|]. split; [exact Pc|]. split; [rewrite B; exact Pp|]. unfold chunk_limits in *. rewrite C. split; [exact L|exact Lk].
    + (* marker *)
      apply some_inj in E. subst p. rewrite header_of_form in Hp. destruct (marker_holds _ _ _ _ p0 m Hp) as (A & B & C & _).
      exists c, k. rewrite app_nil_r. split; [exact Rc|]. split; [exact Hc|]. split.
      { rewrite header_of_form. unfold major_of, minor_of, marker_of in *. rewrite !last_call_snoc. exact A. }
      split; [exact M|]. split; [exact Pc|]. split; [rewrite B; exact Pp|]. unfold chunk_limits in *. rewrite C. split; [exact L|exact Lk].
Qed.

(** Renumbering only sees the objects. *)
Lemma renumber_same {T} (f : T -> Z -> Z * T) pfx pfx' k c c' tgt s : holds pfx k c -> holds pfx' k c' ->
  forallb item_typed (map pl_item k) = true -> chunk_limits c = chunk_limits c' ->
  chunk_renumber_into f c tgt s = chunk_renumber_into f c' tgt s.
Proof.
  intros [Hb Ho] [Hb' Ho'] Ht L. unfold chunk_renumber_into. rewrite L, Hb, Ho, Hb', Ho', !loop_holds by exact Ht. reflexivity.
Qed.
