(** C79: panics that are caught. *)

From Coq Require Import ZArith List Lia Bool Permutation ZifyBool.
From Verif Require Import Bytes ModelFloat ModelBuf ModelObject ModelRenumber ModelChunk ModelApi ModelPdf ModelCrash SpecLex SpecObj SpecMeans
  SpecRenum SpecChunk SpecApi SpecFile SpecPdf SpecCrash ProofBasic ProofObj ProofParse ProofTree ProofRenum ProofXref ProofRenumTree ProofChunk
  ProofChunkParse ProofApi ProofChunk2 ProofFile ProofFile2 ProofPdf ProofFile3 ProofFile4 ProofCrash PropChunk PropPdf PropPdf2.
Import ListNotations.
Local Open Scope Z_scope.

(** ** One object *)

(** If no place for a value is open, the object is as if the caller had closed the writers himself: all that was written up to the panic is there. *)
Theorem C79_object : forall id cs c c' o, caught_object id cs c = Some c' -> tree_so_far cs o -> c' = chunk_object id o c.
Proof. exact object_same. Qed.
Theorem C79_stream : forall id data cs c c' es,
  caught_stream id data cs c = Some c' -> blen data <= i32_max -> entries_so_far cs es -> chunk_stream id es data c = Some c'.
Proof. exact stream_same. Qed.
(** Too much data for a stream: an empty dictionary. *)
Theorem C79_stream_too_long : forall id data cs c, i32_max < blen data -> caught_stream id data cs c = Some (chunk_object id (ODict []) c).
Proof.
  intros id data cs c L. destruct (caught_stream id data cs c) as [c'|] eqn:E; [rewrite (stream_too_long _ _ _ _ _ E L); reflexivity|].
  exfalso. unfold caught_stream in E. destruct (chunk_indirect id c) as [w c1]. unfold stream_start in E. destruct (dict_start w (c_buf c1)) as [d b].
  destruct (Z.leb_spec (blen data) i32_max); [lia|discriminate].
Qed.

(** At every point of every sequence of calls: either a tree is there so far, or a place for a value is open; never both. *)
Theorem C79_every_point : forall id cs c c', consumed cs -> caught_object id cs c = Some c' ->
  (exists o, tree_so_far cs o) \/ stops_open cs.
Proof.
  intros id cs c c' C E. destruct (object_total id cs c c' C E) as (a & d & [o T|O]); [left; exists o; exact T|right; exact O].
Qed.
Lemma calls_last o : exists l c, calls_of o = l ++ [c] /\ (c = CDrop \/ exists p, c = CPrimitive p).
Proof.
  destruct o as [p|l|l]; cbn [calls_of].
  - exists [], (CPrimitive p). split; [reflexivity|]. right. exists p. reflexivity.
  - exists (CArray :: flat_map (fun o => CPush :: calls_of o) l), CDrop. split; [reflexivity|left; reflexivity].
  - exists (CDict :: flat_map (fun e => CInsert (fst e) :: calls_of (snd e)) l), CDrop. split; [reflexivity|left; reflexivity].
Qed.
Lemma push_then_drop cs k n o : (k = CPush \/ exists key, k = CInsert key) -> (cs ++ [k]) ++ repeat CDrop n = calls_of o -> False.
Proof.
  intros K E. destruct n as [|n].
  - cbn [repeat] in E. rewrite app_nil_r in E. destruct (calls_last o) as (l & c & L & C). rewrite L in E. apply app_inj_tail in E. destruct E as [_ E].
    destruct K as [->|(key & ->)], C as [->|(p & ->)]; discriminate.
  - pose proof (run_calls o (obj_direct 0 false false) [] buf_new) as R. rewrite <- E, api_run_app in R.
    destruct (api_run (cs ++ [k]) _) as [[st b]|] eqn:Q; [|discriminate]. rewrite api_run_app in Q.
    destruct (api_run cs _) as [[st1 b1]|]; [|discriminate]. cbn [api_run] in Q.
    destruct (api_step k (st1, b1)) as [s2|] eqn:S; [|discriminate]. apply some_eq in Q. subst s2. cbn [repeat api_run] in R.
    destruct K as [->|(key & ->)]; destruct st1 as [|[w|a|d|data d] st1]; cbn [api_step] in S; try discriminate.
    + destruct (array_push a b1) as [[w a'] b']. apply some_eq in S. injection S as <- <-. discriminate.
    + destruct (dict_insert key d b1) as [[w a'] b']. apply some_eq in S. injection S as <- <-. discriminate.
    + destruct (dict_insert key d b1) as [[w a'] b']. apply some_eq in S. injection S as <- <-. discriminate.
Qed.
Theorem C79_one_tree : forall cs o, tree_so_far cs o -> ~ stops_open cs /\ forall o', tree_so_far cs o' -> o' = o.
Proof.
  intros cs o (n & E). split.
  - intros [H|[(before & H)|(before & k & H)]]; rewrite H in E.
    + cbn [app] in E. destruct n as [|n]; destruct o; discriminate.
    + apply (push_then_drop before CPush n o); [left; reflexivity|exact E].
    + apply (push_then_drop before (CInsert k) n o); [right; exists k; reflexivity|exact E].
  - assert (X : forall n m o o', (n <= m)%nat -> expanded cs ++ repeat CDrop n = calls_of o -> expanded cs ++ repeat CDrop m = calls_of o' -> o' = o).
    { clear. intros n m o o' L E E'. replace m with (n + (m - n))%nat in E' by lia. rewrite repeat_app, app_assoc, E in E'.
      rewrite <- (app_nil_r (calls_of o')) in E'. apply calls_inj in E' as [E' _]. symmetry. exact E'. }
    intros o' (m & E'). destruct (Nat.le_gt_cases n m) as [L|L]; [exact (X n m o o' L E E')|symmetry; apply (X m n o' o); [lia|exact E'|exact E]].
Qed.

(** ** Renumbering *)

(** A closure that does not panic. *)
Theorem C79_renumber_without_panic : forall (T : Type) (f : T -> Z -> Z * T) source target s,
  caught_renumber_into (fun t id => Some (f t id)) source target s =
  option_map (fun r => (fst r, Some (snd r))) (chunk_renumber_into f source target s).
Proof.
  intros T f source target s. unfold caught_renumber_into, chunk_renumber_into.
  assert (P : forall fuel slice seen written b s,
    caught_patch_loop (fun t id => Some (f t id)) fuel slice seen written b s = option_map (fun r => (fst r, Some (snd r))) (patch_loop f fuel slice seen written b s)).
  { clear. induction fuel as [|fuel IH]; intros slice seen written b s; [reflexivity|]. cbn [caught_patch_loop patch_loop].
    destruct (nth_error slice seen) as [c|]; [|destruct (slice_get _ _ _); reflexivity].
    destruct (beq c x52).
    - destruct (validate_ref _) as [[[head id] gen]|]; [|apply IH]. destruct (f s id) as [new s1]. destruct (slice_get _ _ _); [apply IH|reflexivity].
    - destruct (beq c x25); [apply IH|]. destruct (beq c x28); [apply IH|]. destruct (_ && _ && _); [destruct (slice_get _ _ _); reflexivity|apply IH]. }
  assert (L : forall src offs pretty b o s,
    caught_renumber_loop (fun t id => Some (f t id)) src offs pretty b o s =
    option_map (fun r => (fst r, Some (snd r))) (renumber_loop f src offs pretty b o s)).
  { clear -P. induction offs as [|[id off] offs IH]; intros pretty b o s; [reflexivity|]. cbn [caught_renumber_loop renumber_loop].
    destruct (f s id) as [new s1]. destruct (slice_get _ _ _) as [sl|]; [|reflexivity]. destruct (extract_object sl) as [[gen sl']|]; [|apply IH].
    rewrite P. unfold patch_object. destruct (patch_loop _ _ _ _ _ _ _) as [[b2 s2]|]; [|reflexivity]. cbn [option_map fst snd]. apply IH. }
  rewrite L. destruct (renumber_loop _ _ _ _ _ _ _) as [[[b o] s2]|]; reflexivity.
Qed.

(** ** Documents *)

Definition cstate (hc : list pdf_op) (k : list seg) (p : pdf) : Prop :=
  shows (header_of hc) k (p_chunk p) /\ p_catalog p = catalog_of hc /\ p_info p = info_of hc /\ p_file_id p = file_id_of hc.

Lemma shows_splice pfx pfx' l c i new : shows pfx l c -> blen pfx = blen pfx' ->
  (forall t, splice i new (pfx ++ t) = pfx' ++ t) -> shows pfx' l (splice_buf i new c).
Proof.
  intros [H1 H2] E S. unfold splice_buf, shows. unfold chunk_bytes at 1. cbn [c_buf inner c_offsets].
  fold (chunk_bytes c). rewrite H1, S, <- E. split; [reflexivity|exact H2].
Qed.
Lemma version_shows ma mi m l p M N : shows (header ma mi m) l (p_chunk p) ->
  shows (header (if M <? 10 then zb (48 + M) else ma) (if N <? 10 then zb (48 + N) else mi) m) l (p_chunk (set_version M N p)).
Proof.
  intro H. unfold set_version. destruct m as [[[a b] c] d].
  destruct (M <? 10), (N <? 10); cbn [on_chunk p_chunk]; try exact H.
  - apply shows_splice with (header (zb (48 + M)) mi (a, b, c, d)); [|reflexivity|reflexivity].
    apply shows_splice with (header ma mi (a, b, c, d)); [exact H|reflexivity|reflexivity].
  - apply shows_splice with (header ma mi (a, b, c, d)); [exact H|reflexivity|reflexivity].
  - apply shows_splice with (header ma mi (a, b, c, d)); [exact H|reflexivity|reflexivity].
Qed.
Lemma marker_shows ma mi m l p n : shows (header ma mi m) l (p_chunk p) -> shows (header ma mi n) l (p_chunk (set_binary_marker n p)).
Proof.
  intro H. unfold set_binary_marker. destruct m as [[[a b] c] d], n as [[[a' b'] c'] d']. cbn [on_chunk p_chunk].
  apply shows_splice with (header ma mi (a, b, c, d)); [exact H|reflexivity|reflexivity].
Qed.

Lemma header_snoc_same hc op : header_edit op = false -> header_of (hc ++ [op]) = header_of hc.
Proof.
  intro H. unfold header_of, marker_of, major_of, minor_of. rewrite !last_call_snoc. destruct op; try discriminate; reflexivity.
Qed.
Lemma step_crash op a d : op_left op a d -> forall hc k p p', op_fair op -> cstate hc k p -> caught_step op p = Some p' ->
  exists k', cstate (hc ++ header_call op) (k ++ k') p' /\ seg_items k' = a /\ seg_damaged k' = d /\ fits a /\ solid k'.
Proof.
  intros L hc k p p' F (S & C & I & X) R.
  destruct L as [id cs a d L|id data cs a d L|o a d L|src T f s|id cs a d L|id cs a d L|l|x|M N|m]; cbn [caught_step op_fair header_call] in *; rewrite ?app_nil_r.
  - unfold on_chunk_opt in R. destruct (caught_object id cs (p_chunk p)) as [c'|] eqn:E; [|discriminate]. apply some_eq in R. subst p'.
    destruct (object_segs _ _ _ _ _ _ (proj2 F) E L) as (k' & B & O & _ & SI & SD & Fi & So). exists k'.
    split; [|split; [exact SI|split; [exact SD|split; [exact Fi|exact So]]]]. split; [exact (shows_app _ _ _ _ _ S B O)|]. split; [exact C|]. split; [exact I|exact X].
  - unfold on_chunk_opt in R. destruct (caught_stream id data cs (p_chunk p)) as [c'|] eqn:E; [|discriminate]. apply some_eq in R. subst p'.
    destruct (stream_segs _ _ _ _ _ _ _ (proj2 F) E L) as (k' & B & O & _ & SI & SD & Fi & So). exists k'.
    split; [|split; [exact SI|split; [exact SD|split; [exact Fi|exact So]]]]. split; [exact (shows_app _ _ _ _ _ S B O)|]. split; [exact C|]. split; [exact I|exact X].
  - destruct (caught_run o) as [c2|] eqn:E; [|discriminate]. apply some_eq in R. subst p'.
    destruct (left_shows _ _ _ L c2 F E) as (k' & [B Of] & SI & SD & Fi & So). exists k'.
    split; [|split; [exact SI|split; [exact SD|split; [exact Fi|exact So]]]]. split; [|split; [exact C|split; [exact I|exact X]]].
    apply (shows_app _ _ _ _ _ S).
    + unfold chunk_bytes, on_chunk, chunk_extend, extend_buf. cbn [c_buf inner p_chunk]. f_equal. exact B.
    + unfold on_chunk, chunk_extend. cbn [c_offsets p_chunk]. f_equal. rewrite Of, blen_nil, seg_offs_shift. f_equal. lia.
  - destruct F as [F2 F3]. destruct (run src) as [cs|] eqn:RS; [|discriminate].
    destruct (source_runs src F2 ltac:(congruence)) as (cs' & l & RS' & Hl & M & Fs & Ty). assert (cs' = cs) by congruence. subst cs'.
    destruct (renumber_segs f [] l cs (p_chunk p) s Hl Ty) as (c' & r & k' & E & B & Of & P & SI & SD & So).
    unfold on_chunk_opt in R. rewrite E in R. apply some_eq in R. cbn [fst] in R. subst p'. exists k'. rewrite SI, SD, M.
    split; [|split; [reflexivity|split; [reflexivity|split; [apply copied_fits; exact Fs|exact So]]]].
    split; [exact (shows_app _ _ _ _ _ S B Of)|]. split; [exact C|]. split; [exact I|exact X].
  - unfold on_chunk_opt in R. cbn [p_chunk] in R.
    destruct (caught_object _ _ (p_chunk p)) as [c'|] eqn:E; [|discriminate]. apply some_eq in R. subst p'.
    assert (C2 : consumed (CDict :: CPair (lit "Type") (PName (lit "Catalog")) :: cs)) by (intros [Q|[Q|Q]]; [discriminate|discriminate|exact (proj2 F Q)]).
    destruct (object_segs _ _ _ _ _ _ C2 E L) as (k' & B & O & _ & SI & SD & Fi & So). exists k'.
    split; [|split; [exact SI|split; [exact SD|split; [exact Fi|exact So]]]]. unfold cstate. rewrite header_snoc_same by reflexivity.
    unfold catalog_of, info_of, file_id_of. rewrite !last_call_snoc. split; [exact (shows_app _ _ _ _ _ S B O)|]. split; [reflexivity|]. split; [exact I|exact X].
  - unfold on_chunk_opt in R. cbn [p_chunk] in R.
    destruct (caught_object _ _ (p_chunk p)) as [c'|] eqn:E; [|discriminate]. apply some_eq in R. subst p'.
    assert (C2 : consumed (CDict :: cs)) by (intros [Q|Q]; [discriminate|exact (proj2 F Q)]).
    destruct (object_segs _ _ _ _ _ _ C2 E L) as (k' & B & O & _ & SI & SD & Fi & So). exists k'.
    split; [|split; [exact SI|split; [exact SD|split; [exact Fi|exact So]]]]. unfold cstate. rewrite header_snoc_same by reflexivity.
    unfold catalog_of, info_of, file_id_of. rewrite !last_call_snoc. split; [exact (shows_app _ _ _ _ _ S B O)|]. split; [exact C|]. split; [reflexivity|exact X].
  - apply some_eq in R. subst p'. exists []. rewrite app_nil_r. split; [|repeat split; constructor]. split; [exact S|]. split; [exact C|]. split; [exact I|exact X].
  - apply some_eq in R. subst p'. exists []. rewrite app_nil_r. split; [|repeat split; constructor]. unfold cstate. rewrite header_snoc_same by reflexivity.
    unfold catalog_of, info_of, file_id_of. rewrite !last_call_snoc. split; [exact S|]. split; [exact C|]. split; [exact I|reflexivity].
  - apply some_eq in R. subst p'. exists []. rewrite app_nil_r. split; [|repeat split; constructor]. unfold cstate.
    unfold catalog_of, info_of, file_id_of. rewrite !last_call_snoc. rewrite <- hdr_edits in S |- *. unfold edits in *. rewrite fold_left_app. cbn [fold_left].
    destruct (fold_left _ hc hdr0) as [[ma mi] m]. cbn [edit hdr] in *. split; [apply version_shows; exact S|].
    unfold set_version. destruct (M <? 10), (N <? 10); (split; [exact C|split; [exact I|exact X]]).
  - apply some_eq in R. subst p'. exists []. rewrite app_nil_r. split; [|repeat split; constructor]. unfold cstate.
    unfold catalog_of, info_of, file_id_of. rewrite !last_call_snoc. rewrite <- hdr_edits in S |- *. unfold edits in *. rewrite fold_left_app. cbn [fold_left].
    destruct (fold_left _ hc hdr0) as [[ma mi] m0]. cbn [edit hdr] in *. split; [apply (marker_shows _ _ m0); exact S|].
    unfold set_binary_marker. destruct m as [[[x y] z] t]. split; [exact C|split; [exact I|exact X]].
Qed.
Lemma run_crash ops a d : left_by ops a d -> forall hc k p p', Forall op_fair ops -> cstate hc k p -> caught_pdf_run ops p = Some p' ->
  exists k', cstate (hc ++ header_calls ops) (k ++ k') p' /\ seg_items k' = a /\ seg_damaged k' = d /\ fits a /\ solid k'.
Proof.
  induction 1 as [|op ops a d a' d' L L' IH]; intros hc k p p' F S R.
  - cbn [caught_pdf_run] in R. apply some_eq in R. subst p'. exists []. cbn [header_calls flat_map]. rewrite !app_nil_r. split; [exact S|]. repeat split. constructor.
  - cbn [caught_pdf_run] in R. destruct (caught_step op p) as [p1|] eqn:E; [|discriminate]. apply Forall_cons_iff in F. destruct F as [F1 F2].
    destruct (step_crash _ _ _ L _ _ _ _ F1 S E) as (k1 & S1 & I1 & D1 & Fi1 & So1).
    destruct (IH _ _ _ _ F2 S1 R) as (k2 & S2 & I2 & D2 & Fi2 & So2). exists (k1 ++ k2).
    unfold header_calls in *. cbn [flat_map]. rewrite !app_assoc. split; [exact S2|]. rewrite seg_items_app, seg_damaged_app, I1, I2, D1, D2.
    split; [reflexivity|]. split; [reflexivity|]. split; [apply fits_app; assumption|apply solid_app; assumption].
Qed.
Lemma start_crash pretty : cstate [] [] (pdf_with_settings pretty).
Proof. repeat split. Qed.

Theorem C79_every_run : forall ops p p', Forall op_fair ops -> caught_pdf_run ops p = Some p' -> exists items damaged, left_by ops items damaged.
Proof.
  induction ops as [|op ops IH]; intros p p' F R; [eexists; eexists; apply B_none|].
  cbn [caught_pdf_run] in R. destruct (caught_step op p) as [p1|] eqn:E; [|discriminate]. apply Forall_cons_iff in F. destruct F as [F1 F2].
  destruct (IH p1 p' F2 R) as (a' & d' & L'). enough (X : exists a d, op_left op a d) by (destruct X as (a & d & L); eexists; eexists; apply B_op; eassumption).
  destruct op as [id cs|id data cs|o|l|src T f s|id cs|id cs|x|M N|m]; cbn [caught_step op_fair] in *.
  - unfold on_chunk_opt in E. destruct (caught_object id cs (p_chunk p)) as [c'|] eqn:Q; [|discriminate].
    destruct (object_total _ _ _ _ (proj2 F1) Q) as (a & d & L). exists a, d. apply PL_object. exact L.
  - unfold on_chunk_opt in E. destruct (caught_stream id data cs (p_chunk p)) as [c'|] eqn:Q; [|discriminate].
    destruct (stream_total _ _ _ _ _ (proj2 F1) Q) as (a & d & L). exists a, d. apply PL_stream. exact L.
  - destruct (caught_run o) as [c2|] eqn:Q; [|discriminate]. destruct (left_total o c2 F1 Q) as (a & d & L). exists a, d. apply PL_extend. exact L.
  - eexists. eexists. apply PL_merge.
  - eexists. eexists. apply PL_renumber.
  - unfold on_chunk_opt in E. destruct (caught_object _ _ _) as [c'|] eqn:Q; [|discriminate].
    assert (C2 : consumed (CDict :: CPair (lit "Type") (PName (lit "Catalog")) :: cs)) by (intros [W|[W|W]]; [discriminate|discriminate|exact (proj2 F1 W)]).
    destruct (object_total _ _ _ _ C2 Q) as (a & d & L). exists a, d. apply PL_catalog. exact L.
  - unfold on_chunk_opt in E. destruct (caught_object _ _ _) as [c'|] eqn:Q; [|discriminate].
    assert (C2 : consumed (CDict :: cs)) by (intros [W|W]; [discriminate|exact (proj2 F1 W)]).
    destruct (object_total _ _ _ _ C2 Q) as (a & d & L). exists a, d. apply PL_info. exact L.
  - eexists. eexists. apply PL_file_id.
  - eexists. eexists. apply PL_version.
  - eexists. eexists. apply PL_marker.
Qed.

Lemma seg_ids_perm l : Permutation (map seg_id l) (map fst (seg_items l) ++ seg_damaged l).
Proof.
  induction l as [|[pl|id bs] l IH]; [constructor| |]; cbn [map seg_id seg_items seg_damaged flat_map app].
  - fold (seg_items l) (seg_damaged l). constructor. exact IH.
  - fold (seg_items l) (seg_damaged l). eapply perm_trans; [apply perm_skip; exact IH|]. apply Permutation_middle.
Qed.
Lemma op_left_ids op a d : op_fair op -> op_left op a d -> Forall (fun i => id_ok i = true) (map fst a ++ d).
Proof.
  intros F L. destruct L as [id cs a d L|id data cs a d L|o a d L|src T f s|id cs a d L|id cs a d L|l|x|M N|m]; cbn [op_fair] in F; try constructor.
  - exact (object_left_ids _ _ _ _ (proj1 F) L).
  - exact (stream_left_ids _ _ _ _ _ (proj1 F) L).
  - exact (left_in_ids _ _ _ F L).
  - apply copied_ids. exact (proj2 F).
  - exact (object_left_ids _ _ _ _ (proj1 F) L).
  - exact (object_left_ids _ _ _ _ (proj1 F) L).
Qed.
Lemma left_by_ids ops a d : left_by ops a d -> Forall op_fair ops -> Forall (fun i => id_ok i = true) (map fst a ++ d).
Proof.
  induction 1 as [|op ops a d a' d' L L' IH]; intro F; [constructor|]. apply Forall_cons_iff in F. destruct F as [F1 F2].
  apply ids_join; [exact (op_left_ids _ _ _ F1 L)|exact (IH F2)].
Qed.
Lemma header_calls_typed ops : Forall op_fair ops -> ops_typed (header_calls ops).
Proof.
  unfold ops_typed. induction 1 as [|op ops F FF IH]; [constructor|]. unfold header_calls. cbn [flat_map]. apply Forall_app. split; [|exact IH].
  destruct op; cbn [header_call op_fair] in *; repeat constructor; try apply F; exact F.
Qed.
Lemma header_calls_fit ops : items_fit (pdf_items (header_calls ops)) = true.
Proof.
  induction ops as [|op ops IH]; [reflexivity|]. unfold header_calls, pdf_items in *. cbn [flat_map]. rewrite flat_map_app, items_fit_app, IH, andb_true_r.
  destruct op; reflexivity.
Qed.
Lemma seg_located l : forall base it, In it (seg_items l) -> exists a pl b, l = a ++ SItem pl :: b /\ it = pl_item pl /\ In (fst it, base + blen (segs_bytes a)) (seg_offs base l).
Proof.
  induction l as [|s l IH]; intros base it H; [destruct H|]. change (seg_items (s :: l)) with ((match s with SItem pl => [pl_item pl] | SJunk _ _ => [] end) ++ seg_items l) in H.
  apply in_app_or in H. destruct H as [H|H].
  - destruct s as [pl|id bs]; [|destruct H]. destruct H as [<-|[]]. exists [], pl, l. split; [reflexivity|]. split; [reflexivity|]. cbn [seg_offs segs_bytes flat_map seg_id]. rewrite blen_nil, Z.add_0_r. left. reflexivity.
  - destruct (IH (base + blen (seg_bytes s)) it H) as (a & pl & b & -> & -> & Q). exists (s :: a), pl, b. split; [reflexivity|]. split; [reflexivity|].
    cbn [app seg_offs]. right. cbn [segs_bytes flat_map]. rewrite blen_app. fold (segs_bytes a). rewrite Z.add_assoc. exact Q.
Qed.
Lemma seg_offs_small l : forall base, solid l -> 0 <= base -> Forall (fun e => 0 <= snd e < base + blen (segs_bytes l)) (seg_offs base l).
Proof.
  induction l as [|s l IH]; intros base H B; [constructor|]. inversion H as [|x y H1 H2]; subst. cbn [seg_offs segs_bytes flat_map]. rewrite blen_app. fold (segs_bytes l).
  pose proof (blen_nonneg (segs_bytes l)). constructor; [cbn [snd]; lia|]. eapply Forall_impl; [|apply IH; [exact H2|lia]]. intros e He. cbv beta in He. lia.
Qed.

Section Run.
  Context (pretty : bool) (ops : list caught_op) (p : pdf) (items : list item) (damaged : list Z).
  Hypothesis F : Forall op_fair ops.
  Hypothesis R : caught_pdf_run ops (pdf_with_settings pretty) = Some p.
  Hypothesis L : left_by ops items damaged.

  Lemma crash_ids : Permutation (ids (c_offsets (p_chunk p))) (map fst items ++ damaged).
  Proof using F R L.
    destruct (run_crash _ _ _ L [] [] _ _ F (start_crash pretty) R) as (k & (([_ O] & _) & I & D & _)). cbn [app] in O.
    unfold ids. rewrite O, seg_offs_ids, <- I, <- D. apply seg_ids_perm.
  Qed.
  Lemma crash_small : ids_below (map fst items ++ damaged) -> ids_small (c_offsets (p_chunk p)).
  Proof using F R L.
    intro HB. unfold ids_small. eapply Permutation_Forall; [apply Permutation_sym; exact crash_ids|].
    pose proof (left_by_ids _ _ _ L F) as P. unfold ids_below in HB. rewrite Forall_forall in *. intros i Hi. specialize (P i Hi). specialize (HB i Hi). unfold id_ok in P. lia.
  Qed.
  Lemma crash_header : exists body, pdf_bytes p = header_of (header_calls ops) ++ body /\ 16 <= blen (pdf_bytes p).
  Proof using F R L.
    destruct (run_crash _ _ _ L [] [] _ _ F (start_crash pretty) R) as (k & (([B _] & _) & _)). cbn [app] in B.
    exists (segs_bytes k). unfold pdf_bytes. split; [exact B|]. rewrite B, blen_app, header_of_length. pose proof (blen_nonneg (segs_bytes k)). lia.
  Qed.
  Lemma crash_trailer : trailer_ok p.
  Proof using F R L.
    destruct (run_crash _ _ _ L [] [] _ _ F (start_crash pretty) R) as (k & (_ & C & I & _) & _). cbn [app] in C, I.
    pose proof (header_calls_typed ops F) as T. pose proof (run_spec true _ T) as Q. rewrite header_calls_fit in Q.
    destruct Q as (q & kk & Q & _ & (_ & _ & C2 & I2 & _)). pose proof (reach_trailer _ _ _ T Q) as [A B]. split; intros i Hi.
    - apply A. rewrite C2, <- C. exact Hi.
    - apply B. rewrite I2, <- I. exact Hi.
  Qed.
  Lemma crash_small_offsets : small_offsets p.
  Proof using F R L.
    destruct (run_crash _ _ _ L [] [] _ _ F (start_crash pretty) R) as (k & (([B O] & _) & _ & _ & _ & So)). cbn [app] in B, O.
    unfold small_offsets, pdf_bytes. rewrite B, O, blen_app. apply seg_offs_small; [exact So|apply blen_nonneg].
  Qed.
  Lemma crash_item it : In it items -> exists pre st nl post,
    pdf_bytes p = pre ++ item_bytes st nl it ++ post /\ In (fst it, blen pre) (c_offsets (p_chunk p)) /\ body_fits (snd it) = true.
  Proof using F R L.
    intro H. destruct (run_crash _ _ _ L [] [] _ _ F (start_crash pretty) R) as (k & (([B O] & _) & I & _ & Fi & _)). cbn [app] in B, O.
    pose proof Fi as Fit. unfold fits in Fit. rewrite forallb_forall in Fit. specialize (Fit it H).
    rewrite <- I in H. destruct (seg_located k (blen (header_of (header_calls ops))) it H) as (a & pl & b & E & -> & Q).
    exists (header_of (header_calls ops) ++ segs_bytes a), (pl_style pl), (pl_nl pl), (segs_bytes b).
    split; [|split; [rewrite O, blen_app; exact Q|exact Fit]].
    unfold pdf_bytes. rewrite B, E, segs_bytes_app. cbn [segs_bytes flat_map seg_bytes]. unfold placed_bytes. rewrite <- !app_assoc. reflexivity.
  Qed.
  Lemma crash_trailer_value N k : k <> lit "Size" -> lookup k (dict_vals (trailer_entries p N)) = trailer_value (header_calls ops) k.
  Proof using F R L.
    intro K. destruct (run_crash _ _ _ L [] [] _ _ F (start_crash pretty) R) as (kk & (_ & C & I & X) & _). cbn [app] in C, I, X.
    destruct (trailer_lookup p N) as [_ Q]. rewrite Q by exact K. unfold trailer_value. rewrite C, I, X. reflexivity.
  Qed.
End Run.

(** Finishing works exactly if no id is used twice, counting the damaged objects. *)
Theorem C79_finish : forall pretty ops p items damaged,
  Forall op_fair ops -> caught_pdf_run ops (pdf_with_settings pretty) = Some p -> left_by ops items damaged ->
  (exists file, finish p = Some file) <-> NoDup (map fst items ++ damaged).
Proof.
  intros pretty ops p items damaged F R L. pose proof (crash_ids pretty ops p items damaged F R L) as P. rewrite finish_form. split.
  - intros (file & H). destruct (ListDec.NoDup_dec Z.eq_dec (ids (c_offsets (p_chunk p)))) as [ND|ND].
    + exact (Permutation_NoDup P ND).
    + rewrite write_offsets_dup in H by exact ND. discriminate.
  - intro ND. apply (Permutation_NoDup (Permutation_sym P)) in ND.
    assert (Q : Forall (fun i => 0 < i) (ids (c_offsets (p_chunk p)))).
    { eapply Permutation_Forall; [apply Permutation_sym; exact P|]. eapply Forall_impl; [|exact (left_by_ids _ _ _ L F)]. intros i Hi. unfold id_ok in Hi. lia. }
    destruct (write_offsets_spec _ ND Q) as (es & E & _). rewrite E. eexists. reflexivity.
Qed.

(** Every object that is complete is found in the finished file, wherever the panics were; ids that were not used resolve to nothing; the header and
    the trailer are what was asked for. *)
Theorem C79_document : forall decode pretty ops p items damaged file,
  Forall op_fair ops -> caught_pdf_run ops (pdf_with_settings pretty) = Some p -> left_by ops items damaged ->
  ids_below (map fst items ++ damaged) -> finish p = Some file -> blen file <= 10 ^ 10 ->
  (forall it, In it items -> body_readable (snd it) = true -> exists i, resolve decode file (fst it) = Some i /\ item_means it i) /\
  (forall id, ~ In id (map fst items ++ damaged) -> resolve decode file id = None) /\
  (exists rest, file = header_of (header_calls ops) ++ rest) /\
  exists entries trailer, read_file decode file = Some (entries, trailer) /\
    forall k, k <> lit "Size" -> lookup k trailer = trailer_value (header_calls ops) k.
Proof.
  intros decode pretty ops p items damaged file F R L HB HF HL.
  pose proof (crash_ids pretty ops p items damaged F R L) as RI.
  pose proof (crash_small pretty ops p items damaged F R L HB) as SM.
  pose proof (crash_item pretty ops p items damaged F R L) as Hitem.
  pose proof (crash_trailer pretty ops p items damaged F R L) as TR.
  pose proof (crash_small_offsets pretty ops p items damaged F R L) as SO.
  assert (HL' : blen (pdf_bytes p) <= 10 ^ 10).
  { rewrite finish_form in HF. destruct (write_offsets _); [|discriminate]. cbn [option_map] in HF. apply ProofFile3.some_inj in HF.
    rewrite <- HF in HL. eapply Z.le_trans; [apply blen_prefix|exact HL]. }
  destruct (plain_read decode p file HF SM TR SO HL') as (es & tail & ND & EL & EF & EB & _ & RD & _). cbn zeta in *.
  split; [|split; [|split]].
  - intros it Hit Hr. destruct (Hitem it Hit) as (pre & st & nl & post & E & Ho & Fit).
    unfold resolve. rewrite RD. rewrite (used_entry _ _ es ND SM eq_refl EL EF conv _ _ Ho). cbn [conv].
    rewrite EB, E, <- !app_assoc. destruct (parse_at pre st nl it
      (post ++ lit "xref" ++ [x0a] ++ lit "0 " ++ dec_u (1 + zmax (ids (c_offsets (p_chunk p)))) ++ [x0a] ++ flat_map plain_entry es ++ lit "trailer" ++ tail) Hr Fit) as (r & ->).
    rewrite item_val_id. cbn [fst snd]. rewrite !Z.eqb_refl. cbn [andb]. exists (item_val it). split; [reflexivity|]. apply item_val_means. exact Hr.
  - intros id Hid. unfold resolve. rewrite RD.
    assert (Hid' : ~ In id (ids (c_offsets (p_chunk p)))) by (intro Q; apply Hid; exact (Permutation_in _ RI Q)).
    destruct (Z_lt_le_dec id 0) as [L1|L1]; [rewrite (outside_entry _ es EL conv) by lia; reflexivity|].
    destruct (Z_lt_le_dec id (1 + zmax (ids (c_offsets (p_chunk p))))) as [L'|L'].
    + destruct (free_entry _ _ es SM eq_refl EL EF conv id ltac:(lia) Hid') as (n & -> & _). reflexivity.
    + rewrite (outside_entry _ es EL conv) by lia. reflexivity.
  - destruct (crash_header pretty ops p items damaged F R L) as (body & E & _). rewrite EB, E, <- app_assoc. eexists. reflexivity.
  - eexists. eexists. split; [exact RD|]. intros key Hk. apply (crash_trailer_value pretty ops p items damaged F R L). exact Hk.
Qed.

Theorem C79_document_stream : forall decode pretty ops p items damaged xref_id file,
  Forall op_fair ops -> caught_pdf_run ops (pdf_with_settings pretty) = Some p -> left_by ops items damaged ->
  id_ok xref_id = true -> ids_below (xref_id :: map fst items ++ damaged) ->
  finished_with_stream decode p xref_id file -> blen file < 2 ^ 64 ->
  (forall it, In it items -> body_readable (snd it) = true -> exists i, resolve decode file (fst it) = Some i /\ item_means it i) /\
  (forall id, id <> xref_id -> ~ In id (map fst items ++ damaged) -> resolve decode file id = None) /\
  (exists rest, file = header_of (header_calls ops) ++ rest) /\
  exists entries trailer, read_file decode file = Some (entries, trailer) /\
    forall k, k <> lit "Size" -> ~ In k stream_keys -> lookup k trailer = trailer_value (header_calls ops) k.
Proof.
  intros decode pretty ops p items damaged xid file F0 R L HX HB HF HL.
  unfold ids_below in HB. apply Forall_cons_iff in HB. destruct HB as [HB0 HB].
  pose proof (crash_ids pretty ops p items damaged F0 R L) as RI.
  pose proof (crash_small pretty ops p items damaged F0 R L HB) as SM0.
  pose proof (crash_item pretty ops p items damaged F0 R L) as Hitem.
  pose proof (crash_trailer pretty ops p items damaged F0 R L) as TR.
  destruct (crash_header pretty ops p items damaged F0 R L) as (body & EH & RL).
  assert (SM : ids_small (with_xref p xid)).
  { unfold ids_small. apply Forall_forall. intros i Hi. apply (Permutation_in _ (with_xref_perm p xid)) in Hi.
    destruct Hi as [<-|Hi]; [unfold id_ok in HX; lia|]. unfold ids_small in SM0. rewrite Forall_forall in SM0. exact (SM0 _ Hi). }
  assert (K : exists F, finish_stream_inner p xid F = Some file /\
    (forall data, decode (filter_val (snd (F data))) (fst (F data)) = Some data)).
  { destruct HF as [F1 F2|fl F1 F2].
    - exists (fun buf => (buf, None)). split; [exact F1|exact F2].
    - eexists. split; [exact F1|]. intro data. specialize (F2 data). cbv beta. destruct (fl data) as [a b]. exact F2. }
  destruct K as (F & KF & KD).
  assert (LE : blen (pdf_bytes p) <= blen file).
  { rewrite finish_stream_form in KF. cbn zeta in KF. destruct (write_offsets _) as [[n es]|]; [|discriminate].
    destruct (F _) as [data flt]. destruct (_ <=? _); [|discriminate]. apply ProofFile3.some_inj in KF. rewrite <- KF. apply blen_prefix. }
  destruct (stream_read decode p xid F file KF KD SM TR ltac:(lia)) as (es & flt & data & ND & EL & EF & EB & ED & DL & RD & SX). cbn zeta in *.
  destruct (field_width_spec (blen (pdf_bytes p)) ltac:(lia)) as [W1 W2]. set (w := field_width (blen (pdf_bytes p))) in *.
  split; [|split; [|split]].
  - intros it Hit Hr. destruct (Hitem it Hit) as (pre & st & nl & post & E & Ho & Fit).
    unfold resolve. rewrite RD.
    rewrite (used_entry (with_xref p xid) _ es ND SM eq_refl EL EF (narrow (Z.to_nat w)) (fst it) (blen pre)) by (unfold with_xref; apply in_or_app; left; exact Ho).
    rewrite used_narrow; [|split; [apply blen_nonneg|eapply Z.le_lt_trans; [|exact W2]; rewrite E; apply blen_prefix]|lia].
    rewrite EB, E, <- !app_assoc.
    match goal with |- context [pre ++ item_bytes st nl it ++ ?r] => destruct (parse_at pre st nl it r Hr Fit) as (r' & ->) end.
    rewrite item_val_id. cbn [fst snd]. rewrite !Z.eqb_refl. cbn [andb]. exists (item_val it). split; [reflexivity|]. apply item_val_means. exact Hr.
  - intros id Hx Hid. unfold resolve. rewrite RD.
    assert (Hid' : ~ In id (ids (with_xref p xid))).
    { intro I. apply (Permutation_in _ (with_xref_perm p xid)) in I. destruct I as [I|I]; [apply Hx; symmetry; exact I|]. apply Hid. exact (Permutation_in _ RI I). }
    destruct (Z_lt_le_dec id 0) as [L1|L1]; [rewrite (outside_entry _ es EL (narrow (Z.to_nat w))) by lia; reflexivity|].
    destruct (Z_lt_le_dec id (1 + zmax (ids (with_xref p xid)))) as [L'|L'].
    + destruct (free_entry _ _ es SM eq_refl EL EF (narrow (Z.to_nat w)) id ltac:(lia) Hid') as (n & -> & _). reflexivity.
    + rewrite (outside_entry _ es EL (narrow (Z.to_nat w))) by lia. reflexivity.
  - rewrite EB, EH, <- app_assoc. eexists. reflexivity.
  - eexists. eexists. split; [exact RD|]. intros key K1 K2.
    destruct (stream_lookup p flt (1 + zmax (ids (with_xref p xid))) w (blen data)) as (_ & _ & _ & _ & L5).
    rewrite L5 by exact K2. apply (crash_trailer_value pretty ops p items damaged F0 R L). exact K1.
Qed.

(** ** What is not promised *)

(** A key without a value; an indirect object without a value; an object that a panicking closure cut short: these cannot be read. *)
Definition damaged_file (ops : list caught_op) : option bytes := match caught_pdf_run ops pdf_new with Some p => finish p | None => None end.
Theorem C79_damaged_refuted :
  (exists file, damaged_file [KpObject 1 [CDict; CInsert (lit "K")]; KpObject 2 [CPrimitive (PInt 7)]] = Some file /\
     resolve no_filter file 1 = None /\ resolve no_filter file 2 = Some (IObj 2 0 (VInt 7))) /\
  (exists file, damaged_file [KpObject 1 []; KpObject 2 [CPrimitive (PInt 7)]] = Some file /\
     resolve no_filter file 1 = None /\ resolve no_filter file 2 = Some (IObj 2 0 (VInt 7))) /\
  (exists file, damaged_file [KpRenumber (HObject (HObject (HNew true) 1 (OPrim (PInt 7))) 2 (OArray [OPrim (PInt 7); OPrim (PRef 9)])) unit
      (fun t id => if id =? 9 then None else Some (id, t)) tt; KpObject 3 [CPrimitive (PInt 7)]] = Some file /\
     resolve no_filter file 1 = Some (IObj 1 0 (VInt 7)) /\ resolve no_filter file 2 = None /\ resolve no_filter file 3 = Some (IObj 3 0 (VInt 7))).
Proof.
  split; [|split]; (eexists; split; [vm_compute; reflexivity|vm_compute; repeat split]).
Qed.

(** A page whose writer panics in the middle of its resources, a catalog that panics, a stream with a half-written entry, a renumbering that panics. *)
Definition crash_source : hist := HObject (HObject (HNew false) 1 (OPrim (PRef 2))) 2 (OArray [OPrim (PRef 1); OPrim (PRef 5)]).
Definition crash_closure (n : nat) (id : Z) : option (Z * nat) := match n with O => None | S n => Some (id mod 100 + 10, n) end.
Definition crash_ops : list caught_op :=
  [ KpObject 3 [CDict; CPair (lit "Type") (PName (lit "Page")); CInsert (lit "Resources"); CDict; CInsert (lit "Font"); CDict];
    KpStream 4 (lit "data") [CPair (lit "N") (PInt 3); CInsert (lit "Filter"); CArray; CItem (PName (lit "A"))];
    KpStream 5 (lit "data") [CInsert (lit "Filter")];
    KpRenumber crash_source nat crash_closure 4%nat;
    KpCatalog 6 [CPair (lit "K") (PInt 1); CInsert (lit "Names"); CDict];
    KpVersion 1 4 ].
Definition crash_items : list item :=
  [ (3, BObj (ODict [(lit "Type", OPrim (PName (lit "Page"))); (lit "Resources", ODict [(lit "Font", ODict [])])]));
    (4, BStream [(lit "N", OPrim (PInt 3)); (lit "Filter", OArray [OPrim (PName (lit "A"))])] (lit "data"));
    (11, BObj (OPrim (PRef 12)));
    (6, BObj (ODict [(lit "Type", OPrim (PName (lit "Catalog"))); (lit "K", OPrim (PInt 1)); (lit "Names", ODict [])])) ].
Example C79_case :
  Forall op_fair crash_ops /\ left_by crash_ops crash_items [5; 12] /\ ids_below (map fst crash_items ++ [5; 12]) /\
  forallb (fun it => body_readable (snd it)) crash_items = true /\
  match caught_pdf_run crash_ops pdf_new with
  | Some p =>
      match finish p with
      | Some file => map (resolve no_filter file) [3; 4; 5; 6; 11; 12] =
          [ Some (IObj 3 0 (VDict [(lit "Type", VName (lit "Page")); (lit "Resources", VDict [(lit "Font", VDict [])])]));
            Some (IStream 4 0 [(lit "Length", VInt 4); (lit "N", VInt 3); (lit "Filter", VArr [VName (lit "A")])] (lit "data"));
            None;
            Some (IObj 6 0 (VDict [(lit "Type", VName (lit "Catalog")); (lit "K", VInt 1); (lit "Names", VDict [])]));
            Some (IObj 11 0 (VRef 12 0)); None ]
      | None => False
      end
  | None => False
  end.
Proof.
  split.
  { repeat constructor; cbn; try lia; try (intros [H|H]; [discriminate|]; repeat (destruct H as [H|H]; [discriminate|]); exact H).
    intros t id n t' E. destruct t as [|t]; cbn [crash_closure] in E; [discriminate|]. apply some_eq in E. injection E as <- _.
    pose proof (Z.mod_pos_bound id 100 ltac:(lia)). unfold id_ok, i32_max. lia. }
  split.
  { unfold crash_ops, crash_items.
    change (left_by crash_ops ([(3, BObj (ODict [(lit "Type", OPrim (PName (lit "Page"))); (lit "Resources", ODict [(lit "Font", ODict [])])]))] ++
      [(4, BStream [(lit "N", OPrim (PInt 3)); (lit "Filter", OArray [OPrim (PName (lit "A"))])] (lit "data"))] ++ [] ++ [(11, BObj (OPrim (PRef 12)))] ++
      [(6, BObj (ODict [(lit "Type", OPrim (PName (lit "Catalog"))); (lit "K", OPrim (PInt 1)); (lit "Names", ODict [])]))] ++ [] ++ []) ([] ++ [] ++ [5] ++ [12] ++ [] ++ [] ++ [])).
    apply B_op; [apply PL_object; apply OL_tree; exists 3%nat; reflexivity|].
    apply B_op; [apply PL_stream; apply SL_stream; [vm_compute; discriminate|exists 2%nat; reflexivity]|].
    apply B_op; [apply PL_stream; apply SL_open; [vm_compute; discriminate|right; exists [], (lit "Filter"); reflexivity]|].
    apply B_op; [exact (PL_renumber crash_source nat crash_closure 4%nat)|].
    apply B_op; [apply PL_catalog; apply OL_tree; exists 2%nat; reflexivity|].
    apply B_op; [apply PL_version|]. apply B_none. }
  split; [repeat constructor|]. split; [reflexivity|]. vm_compute. reflexivity.
Qed.

Print Assumptions C79_object.
Print Assumptions C79_stream.
Print Assumptions C79_stream_too_long.
Print Assumptions C79_every_point.
Print Assumptions C79_one_tree.
Print Assumptions C79_renumber_without_panic.
Print Assumptions C79_every_run.
Print Assumptions C79_finish.
Print Assumptions C79_document.
Print Assumptions C79_document_stream.
Print Assumptions C79_damaged_refuted.
