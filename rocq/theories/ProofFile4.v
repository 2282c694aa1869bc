(** Proofs: finished files of histories of [Pdf] calls. *)

From Coq Require Import ZArith List Lia Bool Permutation Sorted ZifyBool.
From Verif Require Import Bytes ModelFloat ModelBuf ModelObject ModelRenumber ModelChunk ModelPdf SpecLex SpecObj SpecMeans
  SpecRenum SpecChunk SpecFile SpecPdf ProofBasic ProofObj ProofParse ProofTree ProofRenum ProofXref ProofChunk ProofChunkParse ProofChunk2
  ProofFile ProofFile2 ProofPdf ProofFile3 PropChunk.
Import ListNotations.
Local Open Scope Z_scope.

Lemma offs_in l : forall base id off, In (id, off) (offs base l) ->
  exists a pl b, l = a ++ pl :: b /\ id = fst (pl_item pl) /\ off = base + blen (layout a).
Proof.
  induction l as [|pl l IH]; intros base id off; [intros []|]. cbn [offs]. intros [E|H].
  - injection E as <- <-. exists [], pl, l. repeat split. cbn. lia.
  - destruct (IH _ _ _ H) as (a & q & b & -> & -> & ->). exists (pl :: a), q, b. repeat split.
    cbn [layout flat_map]. rewrite blen_app. unfold layout. lia.
Qed.

Lemma in_offs l : forall base a pl b, l = a ++ pl :: b -> In (fst (pl_item pl), base + blen (layout a)) (offs base l).
Proof.
  intros base a. revert base l. induction a as [|q a IH]; intros base l pl b ->.
  - cbn [app offs layout flat_map]. left. f_equal. cbn. lia.
  - cbn [app offs]. right. specialize (IH (base + blen (placed_bytes q)) _ pl b eq_refl).
    cbn [layout flat_map]. rewrite blen_app. fold (layout a). rewrite Z.add_assoc. exact IH.
Qed.

Lemma item_object_at pre p nl it post : 0 < fst it ->
  object_at (pre ++ item_bytes p nl it ++ post) (blen pre) (fst it).
Proof.
  intro H. unfold object_at. rewrite from_app. unfold item_bytes. rewrite <- !app_assoc. split.
  - rewrite dec_i_pos by lia. pose proof (dec_u_ne (fst it) ltac:(lia)) as NE. pose proof (dec_u_digits (fst it) ltac:(lia)) as D.
    destruct (dec_u (fst it)) as [|c r]; [congruence|]. cbn [forallb] in D. apply andb_true_iff in D. destruct D as [D _].
    exists c. eexists. split; [reflexivity|exact D].
  - set (r := [x0a] ++ body_bytes p (snd it) ++ _).
    exists (lit " 0 obj" ++ r), (lit " obj" ++ r), r. split; [apply next_token_int; reflexivity|]. split.
    + change (lit " 0 obj" ++ r) with ([x20] ++ dec_i 0 ++ (lit " obj" ++ r)). rewrite next_token_ws by reflexivity.
      apply next_token_int. reflexivity.
    + change (lit " obj" ++ r) with ([x20] ++ lit "obj" ++ r). rewrite next_token_ws by reflexivity.
      apply (keyword (lit "obj") r); [discriminate|reflexivity|reflexivity|reflexivity].
Qed.

(** ** A reachable Pdf *)


Section Reachable.
  Context (pretty : bool) (ops : list pdf_op) (p : pdf).
  Hypothesis HT : ops_typed ops.
  Hypothesis HR : pdf_run ops (pdf_with_settings pretty) = Some p.

  Lemma reach : exists k, map pl_item k = pdf_items ops /\ pdf_state ops pretty k p /\ items_fit (pdf_items ops) = true.
  Proof.
    pose proof (run_spec pretty ops HT) as R. destruct (items_fit (pdf_items ops)).
    - destruct R as (p' & k & R & M & S). assert (p' = p) by congruence. subst p'. exists k. auto.
    - congruence.
  Qed.

  Lemma reach_ids : ids (c_offsets (p_chunk p)) = pdf_ids ops.
  Proof.
    destruct reach as (k & M & ((_ & O) & _) & _). unfold ids, pdf_ids. rewrite O, offs_ids, <- M, map_map. reflexivity.
  Qed.

  Lemma op_items_typed op : op_typed op -> forallb item_typed (op_items op) = true.
  Proof.
    destruct op as [id o|id es data|other|lm|source T f s|id es|id es|fid|ma mi|m]; cbn [op_typed op_items]; intro H.
    - cbn [forallb]. rewrite H. reflexivity.
    - cbn [forallb]. rewrite H. reflexivity.
    - apply items_typed. exact H.
    - reflexivity.
    - destruct H as [H1 H2]. apply (items_typed (HRenumber (HNew true) source T f s)). cbn. auto.
    - destruct H as [H1 H2]. cbn [forallb]. unfold item_typed. cbn [fst snd body_typed obj_typed forallb]. rewrite H1.
      unfold entries_typed in H2. rewrite H2. reflexivity.
    - destruct H as [H1 H2]. cbn [forallb]. unfold item_typed. cbn [fst snd body_typed obj_typed]. rewrite H1.
      unfold entries_typed in H2. rewrite H2. reflexivity.
    - reflexivity.
    - reflexivity.
    - reflexivity.
  Qed.

  Lemma all_typed : forallb item_typed (pdf_items ops) = true.
  Proof.
    clear HR. unfold pdf_items. unfold ops_typed in HT. induction HT as [|op l H HF IH]; [reflexivity|].
    cbn [flat_map]. rewrite forallb_app, op_items_typed by exact H. apply IH. exact HF.
  Qed.

  Lemma reach_pos : Forall (fun i => 0 < i) (pdf_ids ops).
  Proof.
    pose proof all_typed as A. rewrite forallb_forall in A. apply Forall_forall. intros i Hi. apply in_map_iff in Hi.
    destruct Hi as (it & <- & Hi). specialize (A _ Hi). unfold item_typed, id_ok in A. lia.
  Qed.

  Lemma reach_small : ids_below (pdf_ids ops) -> ids_small (c_offsets (p_chunk p)).
  Proof.
    intro H. unfold ids_small. rewrite reach_ids. pose proof reach_pos as P. rewrite Forall_forall in *. unfold ids_below in H. rewrite Forall_forall in H.
    intros i Hi. specialize (P _ Hi). specialize (H _ Hi). lia.
  Qed.

  Lemma reach_trailer : trailer_ok p.
  Proof.
    destruct reach as (k & M & (_ & _ & C & I & _) & _). unfold trailer_ok. rewrite C, I. clear -HT.
    unfold catalog_of, info_of. induction ops as [|op l IH] using rev_ind; [split; intros i X; discriminate X|].
    unfold ops_typed in HT. apply Forall_app in HT. destruct HT as [HT' Ho]. apply Forall_inv in Ho. destruct (IH HT') as [A B].
    rewrite !last_call_snoc. split; intro i.
    - destruct op; try apply A. intro E. injection E as <-. cbn [op_typed] in Ho. destruct Ho as [Ho _]. unfold id_ok in Ho. lia.
    - destruct op; try apply B. intro E. injection E as <-. cbn [op_typed] in Ho. destruct Ho as [Ho _]. unfold id_ok in Ho. lia.
  Qed.

  (** Every recorded offset is where the item is. *)
  Lemma reach_offset id off : In (id, off) (c_offsets (p_chunk p)) -> exists pre st nl it post,
    pdf_bytes p = pre ++ item_bytes st nl it ++ post /\ blen pre = off /\ 16 <= off /\ id = fst it /\ In it (pdf_items ops).
  Proof.
    destruct reach as (k & M & ((Hb & O) & _) & _). rewrite O. intro H. apply offs_in in H.
    destruct H as (a & pl & b & -> & -> & ->). exists (header_of ops ++ layout a), (pl_style pl), (pl_nl pl), (pl_item pl), (layout b).
    unfold pdf_bytes. rewrite Hb, layout_app. cbn [layout flat_map]. fold (layout b). split; [rewrite <- !app_assoc; reflexivity|].
    rewrite blen_app, header_of_length. pose proof (blen_nonneg (layout a)). split; [reflexivity|]. split; [lia|]. split; [reflexivity|].
    rewrite <- M, map_app. apply in_or_app. right. left. reflexivity.
  Qed.

  Lemma reach_item it : In it (pdf_items ops) -> exists pre st nl post,
    pdf_bytes p = pre ++ item_bytes st nl it ++ post /\ In (fst it, blen pre) (c_offsets (p_chunk p)).
  Proof.
    destruct reach as (k & M & ((Hb & O) & _) & _). rewrite <- M. intro H. apply in_map_iff in H.
    destruct H as (pl & <- & H). apply in_split in H. destruct H as (a & b & ->).
    exists (header_of ops ++ layout a), (pl_style pl), (pl_nl pl), (layout b).
    unfold pdf_bytes. rewrite Hb, O, layout_app. cbn [layout flat_map]. fold (layout b). split; [rewrite <- !app_assoc; reflexivity|].
    rewrite blen_app. apply (in_offs _ _ a pl b). reflexivity.
  Qed.

  Lemma reach_offsets : small_offsets p.
  Proof.
    apply Forall_forall. intros [id off] H. cbn [snd]. destruct (reach_offset id off H) as (pre & st & nl & it & post & E & L & L2 & _ & _).
    rewrite E, !blen_app, L. pose proof (placed_ne (mkPl st nl it)) as P. unfold placed_bytes in P. cbn [pl_style pl_nl pl_item] in P.
    pose proof (blen_nonneg post). lia.
  Qed.

  Lemma reach_len : 16 <= blen (pdf_bytes p).
  Proof.
    destruct reach as (k & M & ((Hb & O) & _) & _). unfold pdf_bytes. rewrite Hb, blen_app, header_of_length.
    pose proof (blen_nonneg (layout k)). lia.
  Qed.
End Reachable.
