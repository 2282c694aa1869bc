(** Properties C23, C29: the limit of 10^10 bytes in the theorems about cross-reference tables is exact. *)

From Coq Require Import ZArith List Lia Bool Permutation Sorted ZifyBool.
From Verif Require Import Bytes ModelFloat ModelBuf ModelObject ModelRenumber ModelChunk ModelPdf SpecLex SpecObj SpecMeans
  SpecRenum SpecChunk SpecFile SpecPdf SpecLimits ProofBasic ProofObj ProofParse ProofTree ProofRenum ProofXref ProofChunk ProofChunkParse ProofChunk2
  ProofFile ProofFile2 ProofPdf ProofFile3 ProofFile4 PropChunk PropPdf.
Import ListNotations.
Local Open Scope Z_scope.

(** More calls on a Pdf: more placed items. *)
Lemma run_from pretty b : ops_typed b -> forall a ka q p, pdf_state a pretty ka q -> pdf_run b q = Some p ->
  exists kb, map pl_item kb = pdf_items b /\ pdf_state (a ++ b) pretty (ka ++ kb) p.
Proof.
  induction b as [|op b IH]; intros Ht a ka q p HS HR.
  - exists []. cbn [pdf_run] in HR. apply some_inj in HR. subst p. rewrite !app_nil_r. split; [reflexivity|exact HS].
  - unfold ops_typed in Ht. apply Forall_cons_iff in Ht. destruct Ht as [Ho Ht]. cbn [pdf_run] in HR.
    pose proof (step_spec op pretty Ho) as Sp. destruct (items_fit (op_items op)); [|rewrite Sp in HR; discriminate].
    destruct Sp as (k' & M' & Sp). destruct HS as (H & P & C & I & F). rewrite <- hdr_edits in H.
    destruct (Sp _ _ _ H P) as (p' & E & A & B & C' & I' & F'). rewrite E in HR.
    assert (HS' : pdf_state (a ++ [op]) pretty (ka ++ k') p').
    { unfold pdf_state. rewrite <- hdr_edits. unfold edits in *. rewrite fold_left_app. cbn [fold_left].
      split; [exact A|]. split; [exact B|]. unfold catalog_of, info_of, file_id_of. rewrite !last_call_snoc.
      rewrite C', I', F', C, I, F. destruct op; repeat split. }
    destruct (IH Ht _ _ _ _ HS' HR) as (kb & M & HS2). exists (k' ++ kb). split.
    + rewrite map_app, M', M. reflexivity.
    + rewrite <- !app_assoc in HS2. exact HS2.
Qed.

(** A number of more than ten digits. *)
Lemma dec_u_long n : 10 ^ 10 <= n -> (11 <= length (dec_u n))%nat.
Proof.
  intro H. destruct (le_lt_dec 11 (length (dec_u n))) as [L|L]; [exact L|exfalso].
  assert (B : forall s, forallb is_digit s = true -> 0 <= digits_val s < 10 ^ Z.of_nat (length s)).
  { induction s as [|c s IH] using rev_ind; intro D; [cbn; lia|]. rewrite forallb_app in D. apply andb_true_iff in D. destruct D as [D1 D2].
    specialize (IH D1). rewrite digits_val_app, app_length. cbn [length]. replace (Z.of_nat (length s + 1)) with (Z.of_nat (length s) + 1) by lia.
    rewrite Z.pow_add_r by lia. cbn [forallb] in D2. assert (V : 0 <= digits_val [c] < 10) by (destruct c; try discriminate D2; cbn; lia).
    change (10 ^ Z.of_nat 1) with 10. change (10 ^ 1) with 10. lia. }
  specialize (B _ (dec_u_digits n ltac:(lia))). rewrite dec_u_val in B by lia.
  assert (10 ^ Z.of_nat (length (dec_u n)) <= 10 ^ 10) by (apply Z.pow_le_mono_r; lia). lia.
Qed.

Lemma entry20_large o g rest : 10 ^ 10 <= o -> entry20 (firstn 20 (plain_entry (Used o g) ++ rest)) = None.
Proof.
  intro H. pose proof (dec_u_long o H) as L. pose proof (dec_u_digits o ltac:(lia)) as D. cbn [plain_entry]. unfold zero_padded at 1.
  destruct (dec_u o) as [|c0 [|c1 [|c2 [|c3 [|c4 [|c5 [|c6 [|c7 [|c8 [|c9 [|c10 d]]]]]]]]]]]; cbn [length] in L; try lia.
  assert (D10 : is_digit c10 = true).
  { cbn [forallb] in D. repeat (apply andb_true_iff in D; destruct D as [? D]). assumption. }
  cbn [length Nat.sub repeat app]. rewrite <- !app_assoc. cbn [app]. unfold entry20.
  set (t := (d ++ _)). cbn [firstn skipn].
  destruct (bytes_eqb [c10] [x20]) eqn:E; [apply bytes_eqb_spec in E; injection E as E; subst c10; discriminate D10|].
  rewrite !andb_false_r. reflexivity.
Qed.

Lemma entries20_large e1 o g e2 : entries_fit e1 -> 10 ^ 10 <= o -> forall a rest,
  entries20 (length (e1 ++ Used o g :: e2)) a (flat_map plain_entry (e1 ++ Used o g :: e2) ++ rest) = None.
Proof.
  intros HF Ho. induction HF as [|e es [H1 H2] HF IH]; intros a rest.
  - cbn [app length entries20 flat_map]. rewrite <- app_assoc, entry20_large by exact Ho. reflexivity.
  - destruct (entry20_plain e H1 H2) as [P L].
    cbn [app length entries20 flat_map]. rewrite <- app_assoc.
    set (r := flat_map plain_entry (es ++ Used o g :: e2) ++ rest) in *.
    assert (F1 : firstn 20 (plain_entry e ++ r) = plain_entry e) by (rewrite <- L; apply firstn_mid).
    assert (F2 : skipn 20 (plain_entry e ++ r) = r) by (rewrite <- L; apply skipn_mid).
    rewrite F1, F2, P. unfold r. rewrite IH. reflexivity.
Qed.

(** The first entry that does not fit. *)
Lemma first_large es : Forall (fun e => (0 <= entry_value e < 10 ^ 10 /\ 0 <= entry_gen e < 10 ^ 5) \/ exists o g, e = Used o g /\ 10 ^ 10 <= o) es ->
  (exists o g, In (Used o g) es /\ 10 ^ 10 <= o) ->
  exists e1 o g e2, es = e1 ++ Used o g :: e2 /\ entries_fit e1 /\ 10 ^ 10 <= o.
Proof.
  induction 1 as [|e es H HF IH]; intros (o & g & I & L); [destruct I|].
  destruct H as [H|(o' & g' & -> & H)].
  - destruct I as [->|I].
    + exists [], o, g, es. split; [reflexivity|]. split; [constructor|exact L].
    + destruct IH as (e1 & o' & g' & e2 & -> & F & L'); [exists o, g; split; assumption|].
      exists (e :: e1), o', g', e2. split; [reflexivity|]. split; [constructor; assumption|exact L'].
  - exists [], o', g', es. split; [reflexivity|]. split; [constructor|exact H].
Qed.

(** If an object is written when the file already has 10^10 bytes, its entry has more than 20 bytes and the
    finished file cannot be opened.  [a] are the calls before that, [b] those from then on. *)
Theorem C23_large_file_refuted : forall decode pretty a b q p file,
  ops_typed (a ++ b) -> pdf_run a (pdf_with_settings pretty) = Some q -> pdf_run b q = Some p -> finish p = Some file ->
  ids_below (pdf_ids (a ++ b)) ->
  10 ^ 10 <= blen (inner (c_buf (p_chunk q))) -> pdf_items b <> [] ->
  read_file decode file = None.
Proof.
  intros decode pretty a b q p file HT HA HB HF HI HL HN.
  assert (HR : pdf_run (a ++ b) (pdf_with_settings pretty) = Some p) by (rewrite pdf_run_app, HA; exact HB).
  assert (TA : ops_typed a /\ ops_typed b) by (unfold ops_typed in *; apply Forall_app in HT; exact HT). destruct TA as [TA TB].
  destruct (reach _ _ _ TA HA) as (ka & MA & SA & _). destruct (run_from pretty b TB a ka q p SA HB) as (kb & MB & SB).
  destruct SA as ((BA & _) & _). destruct SB as ((_ & OB) & _).
  (* an object beyond the limit *)
  assert (BIG : exists id off, In (id, off) (c_offsets (p_chunk p)) /\ 10 ^ 10 <= off).
  { destruct kb as [|pl kb]; [contradiction HN; rewrite <- MB; reflexivity|].
    exists (fst (pl_item pl)), (16 + blen (layout ka)). rewrite OB, header_of_length. split.
    - apply (in_offs _ 16 ka pl kb). reflexivity.
    - change (inner (c_buf (p_chunk q))) with (chunk_bytes (p_chunk q)) in HL. rewrite BA, blen_app, header_of_length in HL. exact HL. }
  pose proof (reach_small _ _ _ HT HR HI) as SM. pose proof (reach_offsets _ _ _ HT HR) as SO.
  rewrite finish_form in HF. set (l := c_offsets (p_chunk p)) in *.
  destruct (ListDec.NoDup_dec Z.eq_dec (ids l)) as [ND|ND]; [|rewrite write_offsets_dup in HF by exact ND; discriminate].
  destruct (xref_entries l ND SM) as (es & E & HN2 & HL2 & HF2). set (N := 1 + zmax (ids l)) in *.
  rewrite E in HF. cbn [option_map fst snd] in HF. apply some_inj in HF. rewrite dec_i_pos in HF by lia.
  assert (FL : exists e1 o g e2, es = e1 ++ Used o g :: e2 /\ entries_fit e1 /\ 10 ^ 10 <= o).
  { apply first_large.
    - pose proof (values_small _ _ _ (proj1 HN2) HF2) as V. revert V. apply Forall_impl.
      intros [n g|o g]; cbn [entry_value entry_gen].
      + intros [V1 V2]. left. assert (i32_max < 10 ^ 10) by reflexivity. split; [lia|]. change (10 ^ 5) with 100000. destruct V2; subst; lia.
      + intros [(id & V1) ->]. apply (proj1 (in_sorted _ _)) in V1. unfold small_offsets in SO. rewrite Forall_forall in SO. specialize (SO _ V1). cbn [snd] in SO.
        destruct (Z_lt_le_dec o (10 ^ 10)) as [L|L]; [left; split; [lia|change (10 ^ 5) with 100000; lia]|right; exists o, 0; split; [reflexivity|exact L]].
    - destruct BIG as (id & off & I & L). exists off, 0. split; [|exact L].
      pose proof (used_entry l N es ND SM eq_refl HL2 HF2 conv id off I) as U. cbn [conv] in U.
      assert (G : forall n a0 es0, find_entry id (combine (zrange a0 n) (map conv es0)) = Some (XUsed off 0) -> In (Used off 0) es0).
      { induction n as [|n IHn]; intros a0 es0; [discriminate|]. destruct es0 as [|e0 es0]; [discriminate|]. cbn [zrange map combine find_entry].
        destruct (a0 =? id).
        - intro X. apply some_inj in X. destruct e0 as [n0 g0|o0 g0]; cbn [conv] in X; [discriminate X|]. injection X as -> ->. left. reflexivity.
        - intro X. right. eapply IHn. exact X. }
      eapply G. exact U. }
  destruct FL as (e1 & o & g & e2 & -> & FE & LO).
  set (rest := lit "trailer" ++ [x0a] ++ out (c_pretty (p_chunk p)) 0 (ODict (trailer_entries p N)) ++ [x0a] ++ tail_bytes (blen (pdf_bytes p))) in HF.
  assert (SX : startxref file = Some (blen (pdf_bytes p))).
  { rewrite <- HF. unfold rest. rewrite !app_assoc. apply startxref_read. apply blen_nonneg. }
  unfold read_file. rewrite SX, <- HF, from_app, strip_app. clearbody rest. unfold xref_table. rewrite strip_app.
  assert (X : forall t, eol ([x0a] ++ t) = Some t) by reflexivity. rewrite X.
  set (body := lit "0 " ++ _).
  assert (E0 : body = dec_u 0 ++ [x20] ++ dec_u N ++ [x0a] ++ flat_map plain_entry (e1 ++ Used o g :: e2) ++ rest) by reflexivity.
  assert (L0 : exists n, length body = S n) by (eexists; reflexivity). destruct L0 as [n L0]. rewrite L0, E0.
  cbn [subsections]. rewrite strip_digits by lia.
  unfold subsection. rewrite digits_read; [|lia|reflexivity]. rewrite strip_app, digits_read; [|lia|reflexivity]. rewrite X.
  rewrite <- HL2 at 1. rewrite Nat2Z.id, entries20_large by assumption. reflexivity.
Qed.

(** Such a program exists: five streams of the largest size, and one more object. *)
Lemma layout_at_least k : blen (layout k) >= fold_right (fun it n => match snd it with BStream _ d => blen d | BObj _ => 0 end + n) 0 (map pl_item k).
Proof.
  induction k as [|[st nl [id bd]] k IH]; [cbn; lia|]. cbn [layout flat_map map fold_right pl_item snd]. fold (layout k). rewrite blen_app.
  assert (P : blen (placed_bytes (mkPl st nl (id, bd))) >= match bd with BStream _ d => blen d | BObj _ => 0 end); [|lia].
  unfold placed_bytes, item_bytes. cbn [pl_style pl_nl pl_item fst snd]. destruct bd as [o|es d]; [pose proof (blen_nonneg (dec_i id ++ lit " 0 obj" ++ [x0a] ++ body_bytes st (BObj o) ++ [x0a] ++ lit "endobj" ++ [x0a] ++ (if nl then [x0a] else []))); lia|].
  rewrite stream_body, !blen_app.
  repeat match goal with |- context [blen ?x] => lazymatch x with d => fail | _ => let E := fresh in pose proof (blen_nonneg x) as E; revert E; generalize (blen x); intros end end.
  lia.
Qed.

Definition five_streams (data : bytes) : list pdf_op := map (fun id => PdfStream id [] data) [1; 2; 3; 4; 5].

Example C23_large_file_case : forall data, blen data = i32_max ->
  let a := five_streams data in let b := [PdfObject 6 (OPrim (PInt 0))] in
  exists q p file, ops_typed (a ++ b) /\ ids_below (pdf_ids (a ++ b)) /\ pdf_items b <> [] /\
    pdf_run a (pdf_with_settings false) = Some q /\ 10 ^ 10 <= blen (inner (c_buf (p_chunk q))) /\
    pdf_run b q = Some p /\ finish p = Some file.
Proof.
  intros data HD. cbv zeta.
  assert (HT : ops_typed (five_streams data ++ [PdfObject 6 (OPrim (PInt 0))])) by (unfold five_streams; repeat constructor).
  assert (HI : pdf_ids (five_streams data ++ [PdfObject 6 (OPrim (PInt 0))]) = [1; 2; 3; 4; 5; 6]) by reflexivity.
  assert (TA : ops_typed (five_streams data)) by (unfold five_streams; repeat constructor).
  pose proof (run_spec false _ TA) as RA.
  assert (FA : items_fit (pdf_items (five_streams data)) = true).
  { unfold five_streams, pdf_items. cbn [map flat_map op_items app]. unfold items_fit. cbn [forallb snd body_fits]. rewrite HD. reflexivity. }
  rewrite FA in RA. destruct RA as (q & ka & RA & MA & ((BA & _) & _)).
  pose proof (run_spec false _ HT) as RP.
  assert (FP : items_fit (pdf_items (five_streams data ++ [PdfObject 6 (OPrim (PInt 0))])) = true).
  { rewrite pdf_items_snoc, items_fit_app, FA. reflexivity. }
  rewrite FP in RP. destruct RP as (p & k & RP & _). pose proof RP as RP'. rewrite pdf_run_app, RA in RP'.
  destruct (finish p) as [file|] eqn:F.
  2:{ exfalso. assert (HB : ids_below (pdf_ids (five_streams data ++ [PdfObject 6 (OPrim (PInt 0))]))) by (rewrite HI; unfold ids_below; repeat constructor).
      apply (C25_finish_panics_iff_duplicate false _ p HT RP HB) in F. apply F. rewrite HI.
      repeat (constructor; [cbn [In]; lia|]). constructor. }
  exists q, p, file. split; [exact HT|]. split; [rewrite HI; unfold ids_below; repeat constructor|]. split; [discriminate|].
  split; [exact RA|]. split; [|split; [exact RP'|exact F]].
  change (inner (c_buf (p_chunk q))) with (chunk_bytes (p_chunk q)). rewrite BA, blen_app, header_of_length.
  pose proof (layout_at_least ka) as L. rewrite MA in L. unfold five_streams, pdf_items in L. cbn [map flat_map op_items app fold_right snd] in L. rewrite HD in L.
  unfold i32_max in *. change (10 ^ 10) with 10000000000. lia.
Qed.

Lemma large_data_exists : exists data, blen data = i32_max.
Proof. exists (repeat x00 (Z.to_nat i32_max)). unfold blen. rewrite repeat_length. apply Z2Nat.id. discriminate. Qed.

Print Assumptions C23_large_file_refuted.
