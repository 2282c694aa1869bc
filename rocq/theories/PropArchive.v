(** C103: files have the syntax that the archival standard asks for. *)

From Coq Require Import ZArith List Lia Bool Permutation Sorted ZifyBool.
From Verif Require Import Bytes ModelFloat ModelBuf ModelObject ModelRenumber ModelChunk ModelPdf SpecLex SpecObj SpecMeans
  SpecRenum SpecChunk SpecFile SpecPdf SpecLimits SpecSerial SpecCut SpecKeyword SpecArchive ProofBasic ProofObj ProofParse ProofTree ProofRenum ProofXref ProofChunk ProofChunkParse ProofChunk2
  ProofFile ProofFile2 ProofPdf ProofFile3 ProofFile4 PropChunk PropPdf PropPdf2 PropSerial ProofCut ProofCut2 ProofCut3 PropCut ProofKeyword PropKeyword ProofArchive.
Import ListNotations.
Local Open Scope Z_scope.

Lemma line_after s : after_line_end (s ++ [x0a]).
Proof. exists s, [x0a]. split; [reflexivity|constructor]. Qed.
Lemma line_after_app a b : after_line_end b -> after_line_end (a ++ b).
Proof. intros (s & e & -> & H). exists (a ++ s), e. split; [rewrite app_assoc; reflexivity|exact H]. Qed.

Lemma item_archival pre st nl it rest : after_line_end pre -> 0 < fst it -> body_readable (snd it) = true -> body_fits (snd it) = true ->
  archival_object (pre ++ item_bytes st nl it ++ rest) (blen pre, item_val it).
Proof.
  intros HP HI Hr Hf. pose proof (item_parses [] st nl it rest eq_refl Hr Hf) as P. rewrite app_nil_l in P.
  exists pre, (dec_u (fst it)), x20, [x30], x20, [x0a], (body_bytes st (snd it)), [x0a], ([x0a] ++ (if nl then [x0a] else []) ++ rest).
  cbn [fst snd]. rewrite from_app.
  split; [unfold item_bytes; rewrite dec_i_pos by lia; rewrite <- !app_assoc; reflexivity|].
  split; [reflexivity|]. split; [exact HP|].
  split; [exists [x0a]; eexists; split; [reflexivity|constructor]|].
  split; [exact P|]. split; [apply dec_u_ne; lia|]. split; [discriminate|]. split; [apply dec_u_digits; lia|]. split; [reflexivity|].
  assert (V : indirect_id (item_val it) = (fst it, 0)) by (destruct it as [id [o|es data]]; reflexivity). rewrite V. cbn [fst snd].
  split; [apply dec_u_val; lia|]. split; [reflexivity|]. split; [reflexivity|]. split; [reflexivity|]. split; [constructor|]. split; [constructor|].
  destruct it as [id bd]. cbn [fst snd] in *. split.
  { destruct bd as [o|es data]; cbn [item_val fst snd archival_body]; [exact I|].
    exists (out st 0 (ODict (len_entry data :: es)) ++ [x0a]), [x0a], [x0a]. split; [rewrite stream_body, <- !app_assoc; reflexivity|].
    split; [left; reflexivity|]. split; [constructor|]. reflexivity. }
  unfold item_bytes. cbn [fst snd]. rewrite <- !app_assoc. change (lit " 0 obj") with ([x20; x30; x20] ++ lit "obj"). rewrite <- !app_assoc.
  set (tl := [x0a] ++ lit "endobj" ++ [x0a] ++ (if nl then [x0a] else []) ++ rest).
  apply (hlexes_whole _ [TInt id; TInt 0; TKeyword (lit "obj")] ([x0a] ++ body_bytes st bd ++ tl)).
  { apply lexes_hlexes; [|reflexivity]. econstructor; [apply next_token_int; reflexivity|].
    change ([x20; x30; x20] ++ lit "obj" ++ [x0a] ++ body_bytes st bd ++ tl) with ([x20] ++ dec_i 0 ++ [x20] ++ lit "obj" ++ [x0a] ++ body_bytes st bd ++ tl).
    econstructor; [rewrite next_token_ws by reflexivity; apply next_token_int; reflexivity|].
    econstructor; [rewrite next_token_ws by reflexivity|constructor]. apply (keyword (lit "obj")); reflexivity || discriminate. }
  assert (T : strings_whole tl) by (apply whole_stop; [left; reflexivity|reflexivity]).
  destruct bd as [o|es data]; cbn [body_readable body_fits] in *.
  - apply andb_true_iff in Hr. destruct Hr as [Hok Hs]. cbn [body_bytes].
    apply (hlexes_whole _ (obj_toks o) tl); [|exact T]. apply hlexes_ws; [reflexivity|apply obj_toks_ne|].
    apply out_hlexes; [exact Hok|unfold sep_ok; rewrite Hs; apply orb_true_r|right; reflexivity].
  - unfold entries_readable in Hr. apply andb_true_iff in Hr. destruct Hr as [Hok Hs].
    rewrite stream_body, <- !app_assoc.
    assert (Hok' : obj_ok (ODict (len_entry data :: es)) = true).
    { cbn [obj_ok forallb snd len_entry]. cbn [obj_ok] in Hok. rewrite Hok. cbn [prim_ok].
      unfold in_i32, i32_min. assert (0 <= blen data) by (unfold blen; lia).
      apply Z.leb_le in Hf. rewrite andb_true_r. apply andb_true_iff. split; apply Z.leb_le; unfold i32_max in *; lia. }
    eapply (hlexes_whole _ (obj_toks (ODict (len_entry data :: es)))).
    { apply hlexes_ws; [reflexivity|apply obj_toks_ne|]. apply out_hlexes; [exact Hok'| |right; reflexivity].
      unfold sep_ok. apply orb_true_iff. right. cbn [separable forallb fst snd len_entry]. cbn [separable] in Hs. rewrite Hs. reflexivity. }
    apply whole_stop; [right; left; reflexivity|reflexivity].
Qed.

Lemma placed_archival l : forall pre rest base x, base = blen pre -> after_line_end pre ->
  forallb (fun pl => body_readable (snd (pl_item pl)) && body_fits (snd (pl_item pl))) l = true ->
  Forall (fun pl => 0 < fst (pl_item pl)) l ->
  In x (combine (offsets base l) (map (fun pl => item_val (pl_item pl)) l)) ->
  archival_object (pre ++ layout l ++ rest) x.
Proof.
  induction l as [|pl l IH]; intros pre rest base x Hb HP H PO; [intros []|]. cbn [forallb] in H. apply andb_true_iff in H. destruct H as [H1 H2].
  apply andb_true_iff in H1. apply Forall_cons_iff in PO. destruct PO as [P1 P2]. cbn [offsets offs map snd combine layout flat_map]. fold (layout l).
  intros [<-|I].
  - subst base. rewrite <- app_assoc. unfold placed_bytes. apply item_archival; tauto.
  - rewrite <- app_assoc, app_assoc. apply (IH (pre ++ placed_bytes pl) rest (base + blen (placed_bytes pl)) x); [rewrite blen_app; lia| |exact H2|exact P2|exact I].
    apply line_after_app. unfold placed_bytes, item_bytes. do 6 apply line_after_app.
    destruct (pl_nl pl); [exact (line_after [x0a])|exact (line_after [])].
Qed.

(** ** Headers and ends *)
Definition high_marker (ops : list pdf_op) : Prop := let '(a, b, c, d) := marker_of ops in Forall (fun x => 127 < bz x) [a; b; c; d].
Lemma header_archival ops t : high_marker ops -> archival_header (header_of ops ++ t) (major_of ops) (minor_of ops).
Proof.
  intro H. rewrite header_of_form. unfold high_marker in H. destruct (marker_of ops) as [[[a b] c] d].
  exists [x0a], [a; b; c; d], ([x0a; x0a] ++ t). split; [reflexivity|]. split; [constructor|]. split; [apply le_n|]. split; [exact H|].
  exists [x0a], ([x0a] ++ t). split; [reflexivity|constructor].
Qed.
Lemma header_line_end ops : after_line_end (header_of ops).
Proof.
  rewrite header_of_form. destruct (marker_of ops) as [[[a b] c] d].
  exact (line_after [x25; x50; x44; x46; x2d; zb (48 + major_of ops); x2e; zb (48 + minor_of ops); x0a; x25; a; b; c; d; x0a]).
Qed.
Lemma high_one_line ops : high_marker ops -> one_line (marker_of ops) = true.
Proof.
  unfold high_marker. destruct (marker_of ops) as [[[a b] c] d]. intro H. apply C93_usual_markers.
  eapply Forall_impl; [|exact H]. intros x Hx. right. cbv beta in Hx. lia.
Qed.
Lemma no_encryption ops : trailer_value ops (lit "Encrypt") = None.
Proof. reflexivity. Qed.

(** ** C103 *)

(** With a cross-reference table. *)
Theorem C103_table : forall decode pretty ops p file,
  ops_typed ops -> pdf_run ops (pdf_with_settings pretty) = Some p -> finish p = Some file ->
  ids_below (pdf_ids ops) -> blen file <= 10 ^ 10 ->
  Forall (fun it => body_readable (snd it) = true) (pdf_items ops) -> high_marker ops ->
  exists objects start entries trailer,
    salvaged file = objects /\ Forall2 (fun it x => item_means it (snd x)) (pdf_items ops) objects /\
    startxref file = Some start /\ read_file decode file = Some (entries, trailer) /\
    Forall (fun x => find_entry (fst (indirect_id (snd x))) entries = Some (XUsed (fst x) 0)) objects /\
    archival_header file (major_of ops) (minor_of ops) /\ archival_end file /\
    archival_table file start /\ archival_trailer file start /\
    Forall (archival_object file) objects /\ lookup (lit "Encrypt") trailer = None.
Proof.
  intros decode pretty ops p file HT HR HF HB HL HA HH. pose proof (high_one_line _ HH) as HM.
  destruct (C93_read_through decode pretty ops p file HT HR HF HB HL HA HM) as (objects & start & entries & trailer & RS & F2 & SX & RD & FE & _).
  destruct (C29_finish decode pretty ops p file HT HR HF HB HL) as (_ & _ & entries' & trailer' & _ & _ & _ & _ & _ & _ & RD' & _ & KV).
  rewrite RD in RD'. apply some_inj in RD'. injection RD' as <- <-.
  exists objects, start, entries, trailer. split; [rewrite (salvaged_all _ _ RS); reflexivity|]. split; [exact F2|]. split; [exact SX|]. split; [exact RD|]. split; [exact FE|].
  destruct (reach _ _ _ HT HR) as (k & M & ((Hb & O) & _) & Fit).
  pose proof (all_good k _ M Fit HA) as GO.
  assert (PO : Forall (fun pl => 0 < fst (pl_item pl)) k).
  { apply Forall_forall. intros pl Hp. pose proof (reach_pos _ HT) as P. rewrite Forall_forall in P. apply P. unfold pdf_ids. rewrite <- M, map_map.
    apply (in_map (fun x => fst (pl_item x))). exact Hp. }
  assert (HL' : blen (pdf_bytes p) <= 10 ^ 10).
  { rewrite finish_form in HF. destruct (write_offsets _); [|discriminate]. cbn [option_map] in HF. apply some_inj in HF.
    rewrite <- HF in HL. eapply Z.le_trans; [apply blen_prefix|exact HL]. }
  pose proof (reach_small _ _ _ HT HR HB) as SM. pose proof (reach_offsets _ _ _ HT HR) as SO. pose proof (reach_trailer _ _ _ HT HR) as TO.
  destruct (plain_read decode p file HF SM TO SO HL') as (_ & _ & ND & _ & _ & _ & _ & _ & SX').
  rewrite SX in SX'. apply some_inj in SX'. subst start.
  destruct (xref_entries _ ND SM) as (es & E & HN & EL & EF).
  rewrite finish_form, E in HF. cbn [option_map fst snd] in HF. apply some_inj in HF.
  rewrite dec_i_pos in HF by lia. set (N := 1 + zmax (ids (c_offsets (p_chunk p)))) in *.
  match type of HF with pdf_bytes p ++ ?t = _ => set (rest := t) in * end.
  assert (ST : stops rest).
  { split; [apply blanks_solid; reflexivity|]. left. unfold rest. rewrite strip_app. discriminate. }
  assert (FB : file = header_of ops ++ layout k ++ rest) by (rewrite <- HF; unfold pdf_bytes; rewrite Hb, <- app_assoc; reflexivity).
  split; [rewrite FB; apply header_archival; exact HH|].
  split.
  { exists (pdf_bytes p ++ lit "xref" ++ [x0a] ++ lit "0 " ++ dec_u N ++ [x0a] ++ flat_map plain_entry es ++ lit "trailer" ++ [x0a] ++
      out (c_pretty (p_chunk p)) 0 (ODict (trailer_entries p N)) ++ [x0a] ++ lit "startxref" ++ [x0a] ++ dec_u (blen (pdf_bytes p)) ++ [x0a]), [].
    split; [|left; reflexivity]. rewrite <- HF. unfold rest, tail_bytes. rewrite <- !app_assoc, app_nil_r. reflexivity. }
  assert (FS : from file (blen (pdf_bytes p)) = rest) by (rewrite <- HF; apply from_app). unfold archival_table, archival_trailer. rewrite FS.
  split.
  { exists [x0a], [x30], (dec_u N), [x0a]. eexists. split; [reflexivity|]. split; [constructor|]. split; [constructor|]. split; [discriminate|].
    split; [apply dec_u_ne; lia|]. split; [reflexivity|apply dec_u_digits; lia]. }
  split.
  { assert (EFit : entries_fit es).
    { pose proof (values_small _ _ _ (proj1 HN) EF) as V. unfold entries_fit. revert V. apply Forall_impl.
      intros [n g|o g]; cbn [entry_value entry_gen].
      - intros [V1 V2]. assert (i32_max < 10 ^ 10) by reflexivity. split; [lia|]. change (10 ^ 5) with 100000. destruct V2; subst; lia.
      - intros [(id & V1) ->]. apply (proj1 (in_sorted _ _)) in V1. unfold small_offsets in SO. rewrite Forall_forall in SO. specialize (SO _ V1). cbn [snd] in SO.
        split; [lia|]. change (10 ^ 5) with 100000. lia. }
    destruct (trailer_readable p N TO HN) as (T1 & T2).
    unfold rest. eexists. set (body := lit "0 " ++ _). exists body.
    set (tail := [x0a] ++ out (c_pretty (p_chunk p)) 0 (ODict (trailer_entries p N)) ++ [x0a] ++ tail_bytes (blen (pdf_bytes p))) in *.
    exists (combine (zrange 0 (length es)) (map conv es)), tail.
    split; [apply strip_app|]. split; [reflexivity|]. split.
    - assert (E0 : body = dec_u 0 ++ [x20] ++ dec_u N ++ [x0a] ++ flat_map plain_entry es ++ lit "trailer" ++ tail) by reflexivity.
      assert (L0 : exists n, length body = S n) by (eexists; reflexivity). destruct L0 as [n L0]. rewrite L0, E0.
      cbn [subsections]. rewrite strip_digits by lia.
      unfold subsection. rewrite digits_read; [|lia|reflexivity]. rewrite strip_app, digits_read; [|lia|reflexivity].
      assert (X : forall t, eol ([x0a] ++ t) = Some t) by reflexivity. rewrite X. clear X.
      rewrite <- EL at 1. rewrite Nat2Z.id. rewrite entries20_plain by exact EFit.
      assert (S : forall m, subsections m (lit "trailer" ++ tail) = Some ([], tail)) by (intros [|m]; cbn [subsections]; rewrite strip_app; reflexivity).
      rewrite S, app_nil_r. reflexivity.
    - unfold tail. eapply (hlexes_whole _ (obj_toks (ODict (trailer_entries p N)))).
      { apply hlexes_ws; [reflexivity|apply obj_toks_ne|]. apply out_hlexes; [exact T1| |left; reflexivity].
        unfold sep_ok. rewrite (names_nonempty_separable _ T2). apply orb_true_r. }
      unfold tail_bytes. apply whole_stop; [right; right; left; reflexivity|reflexivity]. }
  split; [|rewrite KV; [apply no_encryption|discriminate]].
  pose proof (layout_objects ops k rest file _ HT HM FB ST GO PO RS) as EO. cbn [se_objects] in EO.
  apply Forall_forall. intros x Hx. rewrite EO in Hx. rewrite FB.
  apply (placed_archival k (header_of ops) rest 16); [rewrite header_of_length; reflexivity|apply header_line_end|exact GO|exact PO|exact Hx].
Qed.

(** With a cross-reference stream. *)
Theorem C103_stream : forall decode pretty ops p xref_id file,
  ops_typed ops -> pdf_run ops (pdf_with_settings pretty) = Some p ->
  id_ok xref_id = true -> ids_below (xref_id :: pdf_ids ops) ->
  finished_with_stream decode p xref_id file -> blen file < 2 ^ 64 ->
  Forall (fun it => body_readable (snd it) = true) (pdf_items ops) -> high_marker ops ->
  exists objects start entries trailer data,
    salvaged file = objects ++ [(start, IStream xref_id 0 trailer data)] /\ Forall2 (fun it x => item_means it (snd x)) (pdf_items ops) objects /\
    startxref file = Some start /\ read_file decode file = Some (entries, trailer) /\
    Forall (fun x => find_entry (fst (indirect_id (snd x))) entries = Some (XUsed (fst x) 0)) (salvaged file) /\
    archival_header file (major_of ops) (minor_of ops) /\ archival_end file /\
    Forall (archival_object file) (salvaged file) /\ lookup (lit "Encrypt") trailer = None.
Proof.
  intros decode pretty ops p xid file HT HR HX HB HF HL HA HH. pose proof (high_one_line _ HH) as HM.
  destruct (C93_read_through_stream decode pretty ops p xid file HT HR HX HB HF HL HA HM) as (objects & start & entries & trailer & data0 & RS & F2 & SX & RD & FE & _).
  destruct (C29_stream decode pretty ops p xid file HT HR HX HB HF HL) as (_ & _ & entries' & trailer' & _ & _ & _ & _ & _ & RD' & _ & _ & KV).
  rewrite RD in RD'. apply some_inj in RD'. injection RD' as <- <-.
  pose proof (salvaged_all _ _ RS) as SA. cbn [se_objects] in SA. rewrite SA.
  exists objects, start, entries, trailer, data0. split; [reflexivity|]. split; [exact F2|]. split; [exact SX|]. split; [exact RD|]. split; [exact FE|].
  destruct (st_data decode pretty ops p xid file HT HR HX HB HF HL) as (es & flt & data & ND & EN & EL & EF & EB & DL & RD2 & SX2 & W1 & W2).
  pose proof (st_small pretty ops p xid HT HR HX HB) as SM.
  destruct (reach _ _ _ HT HR) as (k & M & ((Hb & O) & _) & Fit).
  pose proof (all_good k _ M Fit HA) as GO.
  set (N := 1 + zmax (xid :: pdf_ids ops)) in *. set (w := field_width (blen (pdf_bytes p))) in *.
  assert (NP : 0 < N <= i32_max) by (destruct (xref_entries _ ND SM) as (es' & E & B & _); rewrite EN in B; exact B).
  set (xit := (xid, BStream (stream_entries p flt N w) data)) in *.
  assert (XR : body_readable (snd xit) = true) by (apply stream_entries_readable; [exact (reach_trailer _ _ _ HT HR)|exact NP|lia]).
  assert (XF : body_fits (snd xit) = true) by (cbn [xit snd body_fits]; lia).
  set (xpl := mkPl pretty pretty xit). set (k2 := k ++ [xpl]).
  assert (GO2 : forallb (fun pl => body_readable (snd (pl_item pl)) && body_fits (snd (pl_item pl))) k2 = true).
  { unfold k2. rewrite forallb_app, GO. cbn [forallb xpl pl_item]. rewrite XR, XF. reflexivity. }
  set (rest := tail_bytes (blen (pdf_bytes p))) in *.
  assert (ST : stops rest).
  { split; [apply blanks_solid; reflexivity|]. right. unfold rest, tail_bytes. rewrite strip_app. discriminate. }
  assert (FB : file = header_of ops ++ layout k2 ++ rest).
  { rewrite EB at 1. unfold pdf_bytes. rewrite Hb. unfold k2. rewrite layout_app. cbn [layout flat_map]. rewrite app_nil_r, <- !app_assoc. reflexivity. }
  assert (PO : Forall (fun pl => 0 < fst (pl_item pl)) k2).
  { apply Forall_app. split; [|constructor; [cbn [xpl pl_item xit fst]; unfold id_ok in HX; lia|constructor]].
    apply Forall_forall. intros pl Hp. pose proof (reach_pos _ HT) as P. rewrite Forall_forall in P. apply P. unfold pdf_ids. rewrite <- M, map_map.
    apply (in_map (fun x => fst (pl_item x))). exact Hp. }
  split; [rewrite FB; apply header_archival; exact HH|].
  split.
  { exists (header_of ops ++ layout k2 ++ lit "startxref" ++ [x0a] ++ dec_u (blen (pdf_bytes p)) ++ [x0a]), []. split; [|left; reflexivity].
    rewrite FB. unfold rest, tail_bytes. rewrite <- !app_assoc, app_nil_r. reflexivity. }
  split; [|rewrite KV; [apply no_encryption|discriminate|intros X; cbn in X; repeat (destruct X as [X|X]; [discriminate X|]); exact X]].
  pose proof (layout_objects ops k2 rest file _ HT HM FB ST GO2 PO RS) as EO. cbn [se_objects] in EO.
  apply Forall_forall. intros x Hx. rewrite EO in Hx. rewrite FB.
  apply (placed_archival k2 (header_of ops) rest 16); [rewrite header_of_length; reflexivity|apply header_line_end|exact GO2|exact PO|exact Hx].
Qed.

(** The hypotheses are met, by a document with a stream and, in its trailer, a string that is written in hexadecimal. *)
Definition archival_file : option bytes := match pdf_run example_ops (pdf_with_settings false) with Some p => finish p | None => None end.
Example C103_case :
  let ops := example_ops in
  ops_typed ops /\ ids_below (pdf_ids ops) /\ ids_below (5 :: pdf_ids ops) /\ high_marker ops /\
  Forall (fun it => body_readable (snd it) = true) (pdf_items ops) /\
  option_map (fun f => map fst (salvaged f)) archival_file = Some [16; 54; 124; 142; 163; 183].
Proof.
  cbv zeta. split; [exact example_ops_typed|].
  split; [unfold ids_below; repeat constructor|]. split; [unfold ids_below; repeat constructor|]. split; [repeat constructor|].
  split; [apply Forall_forall; apply forallb_forall; vm_compute; reflexivity|].
  vm_compute; reflexivity.
Qed.
(** What the rule for strings refuses: half a byte at the end, and characters that are not digits. *)
Example C103_odd : ~ whole_bytes (lit "<FEFF0>") /\ whole_bytes (lit "<FEFF00>") /\ ~ whole_bytes (lit "<FEFG>").
Proof. split; [intros [H _]; discriminate H|]. split; [split; reflexivity|]. intros [_ H]; discriminate H. Qed.

Print Assumptions C103_table.
Print Assumptions C103_stream.
