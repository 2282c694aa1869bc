(** C97: the chunk of a [Pdf] can be replaced, taken and swapped through [DerefMut]. *)

From Coq Require Import ZArith List Lia Bool Permutation ZifyBool.
From Verif Require Import Bytes ModelFloat ModelBuf ModelObject ModelRenumber ModelChunk ModelPdf ModelSwap SpecLex SpecObj SpecMeans
  SpecRenum SpecChunk SpecFile SpecPdf SpecSwap ProofBasic ProofObj ProofParse ProofTree ProofRenum ProofXref ProofRenumTree ProofChunk
  ProofChunkParse ProofChunk2 ProofFile ProofFile2 ProofPdf ProofFile3 ProofFile4 PropChunk PropRenum PropPdf PropPdf2 ProofSwap.
Import ListNotations.
Local Open Scope Z_scope.

(** ** The state of a document *)

Lemma piece_offs_small l : forall base, 0 <= base -> Forall (fun e => 0 <= snd e < base + blen (pieces_bytes l)) (piece_offs base l).
Proof.
  induction l as [|[calls|pl] l IH]; intros base B; [constructor| |]; cbn [piece_offs pieces_bytes flat_map piece_bytes]; rewrite blen_app; fold (pieces_bytes l).
  - rewrite header_of_length. eapply Forall_impl; [|apply IH; lia]. intros e He. cbv beta in He. lia.
  - pose proof (placed_ne pl). pose proof (blen_nonneg (pieces_bytes l)). constructor; [cbn [snd]; lia|]. eapply Forall_impl; [|apply IH; lia]. intros e He. cbv beta in He. lia.
Qed.
Lemma piece_located l : forall base it, In it (map pl_item (placeds l)) ->
  exists a pl b, l = a ++ Itm pl :: b /\ it = pl_item pl /\ In (fst it, base + blen (pieces_bytes a)) (piece_offs base l).
Proof.
  induction l as [|[calls|pl] l IH]; intros base it H; [destruct H| |].
  - destruct (IH (base + blen (header_of calls)) it H) as (a & pl & b & -> & E & Q). exists (Head calls :: a), pl, b. split; [reflexivity|]. split; [exact E|].
    cbn [app piece_offs pieces_bytes flat_map piece_bytes]. rewrite blen_app. fold (pieces_bytes a). rewrite Z.add_assoc. exact Q.
  - destruct H as [<-|H].
    + exists [], pl, l. split; [reflexivity|]. split; [reflexivity|]. cbn [pieces_bytes flat_map piece_offs]. rewrite blen_nil, Z.add_0_r. left. reflexivity.
    + destruct (IH (base + blen (placed_bytes pl)) it H) as (a & pl2 & b & -> & E & Q). exists (Itm pl :: a), pl2, b. split; [reflexivity|]. split; [exact E|].
      cbn [app piece_offs pieces_bytes flat_map piece_bytes]. rewrite blen_app. fold (pieces_bytes a). rewrite Z.add_assoc. right. exact Q.
Qed.

Lemma trailer_ids d : swap_pdf_typed d ->
  (forall i, catalog_of (trailer_calls d) = Some i -> 0 < i <= i32_max) /\ (forall i, info_of (trailer_calls d) = Some i -> 0 < i <= i32_max).
Proof.
  induction d as [pretty|d IH h|d IH id es|d IH id es|d IH x|d IH M N|d IH m]; intro T; cbn [swap_pdf_typed trailer_calls] in *;
    unfold catalog_of, info_of in *; rewrite ?last_call_snoc; try (apply IH; tauto).
  - split; discriminate.
  - destruct T as (T & Ti & _). destruct (IH T) as [A B]. split; [|exact B]. intros i E. injection E as <-. unfold id_ok in Ti. lia.
  - destruct T as (T & Ti & _). destruct (IH T) as [A B]. split; [exact A|]. intros i E. injection E as <-. unfold id_ok in Ti. lia.
Qed.

Section State.
  Context (d : swap_pdf) (p : pdf).
  Hypothesis Ty : swap_pdf_typed d.
  Hypothesis St : pdf_is d p.

  Lemma sw_ids : ids (c_offsets (p_chunk p)) = map fst (objects_in d).
  Proof using St. destruct St as ((l & [_ O] & M & _) & _). unfold ids. rewrite O, piece_offs_ids, <- M, map_map. reflexivity. Qed.
  Lemma sw_ok : Forall (fun i => id_ok i = true) (map fst (objects_in d)).
  Proof using St.
    destruct St as ((l & _ & _ & Ti & _) & _). apply Forall_forall. intros i H. apply in_map_iff in H as (it & <- & H). rewrite forallb_forall in Ti. specialize (Ti it H).
    unfold item_typed in Ti. apply andb_true_iff in Ti. apply Ti.
  Qed.
  Lemma sw_trailer : trailer_ok p.
  Proof using Ty St. destruct St as (_ & C & I & _). destruct (trailer_ids d Ty) as [A B]. split; [rewrite C; exact A|rewrite I; exact B]. Qed.
  Lemma sw_offsets : small_offsets p.
  Proof using St. destruct St as ((l & [B O] & _) & _). unfold small_offsets, pdf_bytes. rewrite B, O. apply (piece_offs_small l 0). lia. Qed.
  Lemma sw_item it : In it (objects_in d) -> exists pre st nl post,
    pdf_bytes p = pre ++ item_bytes st nl it ++ post /\ In (fst it, blen pre) (c_offsets (p_chunk p)) /\ body_fits (snd it) = true.
  Proof using St.
    destruct St as ((l & [B O] & M & _ & Fi & _) & _). intro H. pose proof H as H0. rewrite <- M in H. destruct (piece_located l 0 it H) as (a & pl & b & -> & -> & Q).
    exists (pieces_bytes a), (pl_style pl), (pl_nl pl), (pieces_bytes b). split; [|split].
    - unfold pdf_bytes. rewrite B, pieces_bytes_app. reflexivity.
    - rewrite O. exact Q.
    - unfold items_fit in Fi. rewrite forallb_forall in Fi. exact (Fi _ H0).
  Qed.
  Lemma sw_value N key : key <> lit "Size" -> lookup key (dict_vals (trailer_entries p N)) = trailer_value (trailer_calls d) key.
  Proof using St. intro K. destruct St as (_ & C & I & X). destruct (trailer_lookup p N) as [_ Q]. rewrite Q by exact K. unfold trailer_value. rewrite C, I, X. reflexivity. Qed.
  Lemma sw_header calls : header_in d = Some calls -> exists rest, pdf_bytes p = header_of calls ++ rest.
  Proof using St.
    intro E. destruct St as ((l & [B _] & _ & _ & _ & S) & _). rewrite E in S. destruct S as (r & ->). unfold pdf_bytes. rewrite B. exists (pieces_bytes r). reflexivity.
  Qed.
  Lemma digit_first id r : exists c t, dec_i id ++ r = c :: t /\ (0 < id -> c <> x25).
  Proof using.
    destruct (dec_i_spec id) as (_ & D & N). destruct (dec_i id) as [|c t] eqn:E; [destruct (N eq_refl)|]. exists c, (t ++ r). split; [reflexivity|].
    intros _ ->. cbn [forallb] in D. apply andb_true_iff in D. destruct D as [D _]. discriminate.
  Qed.
  Lemma sw_no_header : header_in d = None ->
    (objects_in d = [] /\ pdf_bytes p = []) \/ (objects_in d <> [] /\ exists c t, pdf_bytes p = c :: t /\ c <> x25).
  Proof using St.
    intro E. destruct St as ((l & [B _] & M & Ti & _ & S) & _). rewrite E in S. destruct l as [|[calls|pl] l]; [|destruct S|].
    - left. split; [symmetry; exact M|exact B].
    - right. cbn in M. split; [intro Q; rewrite Q in M; discriminate|]. unfold pdf_bytes. rewrite B. cbn [pieces_bytes flat_map piece_bytes]. unfold placed_bytes, item_bytes. rewrite <- !app_assoc.
      match goal with |- context [dec_i ?i ++ ?r] => destruct (digit_first i r) as (c & t & -> & H) end. exists c, t. split; [reflexivity|]. apply H.
      rewrite <- M in Ti. cbn [forallb] in Ti. apply andb_true_iff in Ti. destruct Ti as [Ti _]. unfold item_typed, id_ok in Ti. lia.
  Qed.
End State.

(** ** Documents *)

(** Every history whose streams are small enough runs without a panic, and only those. *)
Theorem C97_runs : forall d, swap_pdf_typed d -> careful_pdf d -> (swap_pdf_run d <> None <-> items_fit (ever_written_in d) = true).
Proof.
  intros d Ty Ca. pose proof (proj2 swap_spec d Ty Ca) as Q. destruct (items_fit (ever_written_in d)).
  - destruct Q as (p & -> & _). split; [reflexivity|discriminate].
  - rewrite Q. split; [intro H; destruct (H eq_refl)|discriminate].
Qed.
Lemma pdf_facts d p : swap_pdf_typed d -> careful_pdf d -> swap_pdf_run d = Some p -> pdf_is d p.
Proof.
  intros Ty Ca R. pose proof (proj2 swap_spec d Ty Ca) as Q. destruct (items_fit (ever_written_in d)); [|congruence].
  destruct Q as (q & E & Q). rewrite R in E. apply ProofFile3.some_inj in E. subst q. exact Q.
Qed.

(** Finishing works exactly if no id is used twice; the file has the objects of the chunk that is in the [Pdf] at the end, and no others; the trailer is what
    was asked of the [Pdf], whatever its chunk was. *)
Theorem C97_document : forall d p, swap_pdf_typed d -> careful_pdf d -> swap_pdf_run d = Some p ->
  ((exists file, finish p = Some file) <-> NoDup (map fst (objects_in d))) /\
  forall decode file, ids_below (map fst (objects_in d)) -> finish p = Some file -> blen file <= 10 ^ 10 ->
    (forall it, In it (objects_in d) -> body_readable (snd it) = true -> exists i, resolve decode file (fst it) = Some i /\ item_means it i) /\
    (forall id, ~ In id (map fst (objects_in d)) -> resolve decode file id = None) /\
    exists entries trailer, read_file decode file = Some (entries, trailer) /\
      forall key, key <> lit "Size" -> lookup key trailer = trailer_value (trailer_calls d) key.
Proof.
  intros d p Ty Ca R. pose proof (pdf_facts d p Ty Ca R) as St. split; [exact (fa_finish p _ (sw_ids d p St) (sw_ok d p St))|].
  intros decode file HB HF HL.
  destruct (fa_document p _ (objects_in d) (trailer_value (trailer_calls d)) (sw_ids d p St) (sw_ok d p St) (sw_trailer d p Ty St) (sw_offsets d p St) (sw_item d p St) (sw_value d p St)
    decode file HB HF HL) as (A & B & _ & C). split; [exact A|]. split; [exact B|exact C].
Qed.
Theorem C97_document_stream : forall d p, swap_pdf_typed d -> careful_pdf d -> swap_pdf_run d = Some p ->
  forall decode xref_id file, header_in d <> None \/ objects_in d <> [] ->
    id_ok xref_id = true -> ids_below (xref_id :: map fst (objects_in d)) -> finished_with_stream decode p xref_id file -> blen file < 2 ^ 64 ->
    (forall it, In it (objects_in d) -> body_readable (snd it) = true -> exists i, resolve decode file (fst it) = Some i /\ item_means it i) /\
    (forall id, id <> xref_id -> ~ In id (map fst (objects_in d)) -> resolve decode file id = None) /\
    exists entries trailer, read_file decode file = Some (entries, trailer) /\
      forall key, key <> lit "Size" -> ~ In key stream_keys -> lookup key trailer = trailer_value (trailer_calls d) key.
Proof.
  intros d p Ty Ca R decode xid file Ne HX HB HF HL. pose proof (pdf_facts d p Ty Ca R) as St.
  assert (Pos : 0 < blen (pdf_bytes p)).
  { destruct (header_in d) as [calls|] eqn:E.
    - destruct (sw_header d p St calls E) as (rest & ->). rewrite blen_app, header_of_length. pose proof (blen_nonneg rest). lia.
    - destruct (sw_no_header d p St E) as [[Q _]|(_ & c & t & -> & _)]; [destruct Ne as [Ne|Ne]; [destruct (Ne eq_refl)|destruct (Ne Q)]|]. unfold blen. cbn [length]. lia. }
  destruct (fa_document_stream p _ (objects_in d) (trailer_value (trailer_calls d)) (sw_ids d p St) (sw_ok d p St) (sw_trailer d p Ty St) (sw_offsets d p St) (sw_item d p St) (sw_value d p St)
    decode xid file Pos HX HB HF HL) as (A & B & _ & C). split; [exact A|]. split; [exact B|exact C].
Qed.

(** ** The header *)

(** The header that was asked for is there, if the chunk starts with one; otherwise the file has no header at all. *)
Lemma finished_bytes p file : finish p = Some file -> exists rest, file = pdf_bytes p ++ lit "xref" ++ rest.
Proof.
  rewrite finish_form. destruct (write_offsets _) as [[n es]|]; [|discriminate]. cbn [option_map]. intro H. apply ProofFile3.some_inj in H. subst file.
  eexists. reflexivity.
Qed.
Lemma not_percent c t : c <> x25 -> ~ exists rest, c :: t = lit "%PDF-" ++ rest.
Proof. intros H (rest & E). apply H. change (lit "%PDF-") with [x25; x50; x44; x46; x2d] in E. cbn [app] in E. congruence. Qed.
Theorem C97_header : forall d p file, swap_pdf_typed d -> careful_pdf d -> swap_pdf_run d = Some p ->
  finish p = Some file \/ (exists xref_id, id_ok xref_id = true /\ (finish_with_xref_stream p xref_id = Some file \/ exists filter, finish_with_xref_stream_and_filter p xref_id filter = Some file)) ->
  (forall calls, header_in d = Some calls -> exists rest, file = header_of calls ++ rest) /\
  ((exists rest, file = lit "%PDF-" ++ rest) <-> header_in d <> None).
Proof.
  intros d p file Ty Ca R HF. pose proof (pdf_facts d p Ty Ca R) as St.
  assert (K : exists c r, file = pdf_bytes p ++ c :: r /\ c <> x25).
  { destruct HF as [HF|(xid & HX & HF)].
    - destruct (finished_bytes p file HF) as (rest & ->). exists x78, (lit "ref" ++ rest). split; [reflexivity|discriminate].
    - assert (HF' : exists F, finish_stream_inner p xid F = Some file) by (destruct HF as [HF|(fl & HF)]; eexists; exact HF).
      destruct HF' as (F & HF'). rewrite finish_stream_form in HF'. cbn zeta in HF'. destruct (write_offsets _) as [[n es]|]; [|discriminate].
      destruct (F _) as [data flt]. destruct (_ <=? _); [|discriminate]. apply ProofFile3.some_inj in HF'. rewrite <- HF'. unfold item_bytes. cbn [fst]. rewrite <- !app_assoc.
      match goal with |- context [dec_i xid ++ ?r] => destruct (digit_first xid r) as (c & t & -> & H) end. exists c, t. split; [reflexivity|]. apply H. unfold id_ok in HX. lia. }
  destruct K as (c & r & -> & Hc). assert (A : forall calls, header_in d = Some calls -> exists rest, pdf_bytes p ++ c :: r = header_of calls ++ rest).
  { intros calls E. destruct (sw_header d p St calls E) as (rest & ->). rewrite <- app_assoc. eexists. reflexivity. }
  split; [exact A|]. split.
  - intros H E. destruct (sw_no_header d p St E) as [[_ B]|(_ & c2 & t & B & H2)]; rewrite B in H; [exact (not_percent _ _ Hc H)|exact (not_percent _ _ H2 H)].
  - intro H. destruct (header_in d) as [calls|] eqn:E; [|destruct (H eq_refl)]. destruct (A calls eq_refl) as (rest & ->). unfold header_of.
    destruct (marker_of calls) as [[[x y] z] t]. rewrite <- !app_assoc. eexists. reflexivity.
Qed.

(** ** Plain calls are such histories *)

Lemma plain_chunk_run h : swap_run (plain_chunk h) = run h.
Proof. induction h as [p|h IH id o|h IH id es data|h1 IH1 h2 IH2|h IH lm|h1 IH1 h2 IH2 T f s]; cbn [plain_chunk swap_run run]; rewrite ?IH, ?IH1, ?IH2; reflexivity. Qed.
Lemma plain_chunk_objects h : objects_of (plain_chunk h) = hist_items h.
Proof. induction h as [p|h IH id o|h IH id es data|h1 IH1 h2 IH2|h IH lm|h1 IH1 h2 IH2 T f s]; cbn [plain_chunk objects_of hist_items]; rewrite ?IH, ?IH1, ?IH2; reflexivity. Qed.
Theorem C97_plain_calls : forall pretty ops, ops_typed ops ->
  swap_pdf_run (plain_calls ops (SwNew pretty)) = pdf_run ops (pdf_with_settings pretty) /\
  objects_in (plain_calls ops (SwNew pretty)) = pdf_items ops /\
  header_in (plain_calls ops (SwNew pretty)) = Some (List.filter header_edit ops).
Proof.
  intros pretty ops. unfold plain_calls. induction ops as [|op ops IH] using rev_ind; intro Ty; [split; [reflexivity|split; reflexivity]|].
  pose proof Ty as Ty'. apply Forall_app in Ty. destruct Ty as [Ty To]. destruct (IH Ty) as (A & B & C). rewrite !fold_left_app. cbn [fold_left]. rewrite pdf_run_app, <- A, pdf_items_snoc, <- B.
  rewrite List.filter_app. set (d := fold_left plain_call ops (SwNew pretty)) in *.
  split; [|split].
  - destruct (swap_pdf_run d) as [p|] eqn:E.
    2:{ destruct op; cbn [plain_call swap_pdf_run]; rewrite E; reflexivity. }
    assert (L : 16 <= chunk_len (p_chunk p)).
    { destruct (reach _ _ _ Ty (eq_sym A)) as (k & _ & ([Hb _] & _) & _). unfold chunk_len. rewrite Hb, blen_app, header_of_length. pose proof (blen_nonneg (layout k)). lia. }
    cbn [pdf_run]. destruct op as [id o|id es data|other|lm|source T f s|id es|id es|fid|M N|m]; cbn [plain_call swap_pdf_run swap_run pdf_step]; rewrite ?E; cbn [option_map taken_chunk];
      rewrite ?plain_chunk_run; try reflexivity.
    + unfold taken_chunk. destruct (chunk_stream id es data (p_chunk p)); reflexivity.
    + destruct (run other); reflexivity.
    + destruct (run source) as [c|]; [|reflexivity]. unfold taken_chunk. destruct (chunk_renumber_into f c (p_chunk p) s) as [[c' s']|]; reflexivity.
    + unfold checked_version, reaches. destruct (Z.leb_spec 6 (chunk_len (p_chunk p))); [|lia]. destruct (Z.leb_spec 8 (chunk_len (p_chunk p))); [|lia]. rewrite !orb_true_r. reflexivity.
    + unfold checked_marker, reaches. destruct (Z.leb_spec 14 (chunk_len (p_chunk p))); [|lia]. reflexivity.
  - destruct op; cbn [plain_call objects_in objects_of op_items]; rewrite ?plain_chunk_objects, ?app_nil_r; reflexivity.
  - destruct op; cbn [plain_call header_in header_at List.filter header_edit]; rewrite ?C, ?app_nil_r; reflexivity.
Qed.

(** ** What is not so *)

(** [*pdf = chunk] loses the header of the file: the documentation of [Pdf] does not say so. *)
Definition plain_source : swap_hist := ShObject (ShNew true) 1 (OPrim (PInt 5)).
Theorem C97_header_lost_refuted : ~ forall d p file, swap_pdf_typed d -> swap_pdf_run d = Some p -> finish p = Some file -> exists rest, file = lit "%PDF-" ++ rest.
Proof.
  intro H. destruct (swap_pdf_run (SwReplace (SwNew true) plain_source)) as [p|] eqn:R; [|vm_compute in R; discriminate].
  destruct (finish p) as [file|] eqn:F; [|vm_compute in R; apply ProofFile3.some_inj in R; subst p; vm_compute in F; discriminate].
  assert (Ty : swap_pdf_typed (SwReplace (SwNew true) plain_source)) by (cbn; repeat split; vm_compute; congruence).
  assert (Ca : careful_pdf (SwReplace (SwNew true) plain_source)) by (cbn; repeat split).
  destruct (C97_header _ p file Ty Ca R (or_introl F)) as [_ [Q _]]. apply Q; [exact (H _ _ _ Ty R F)|reflexivity].
Qed.
(** [set_version] then writes into the first object, which can no longer be read; on an empty chunk it panics, and so does [set_binary_marker]. *)
Example C97_version_overwrites_refuted :
  match swap_pdf_run (SwReplace (SwNew true) plain_source), swap_pdf_run (SwVersion (SwReplace (SwNew true) plain_source) 1 4) with
  | Some p, Some q => match finish p, finish q with
                      | Some f, Some g => resolve (fun _ _ => None) f 1 = Some (IObj 1 0 (VInt 5)) /\ resolve (fun _ _ => None) g 1 = None
                      | _, _ => False
                      end
  | _, _ => False
  end /\
  swap_pdf_run (SwVersion (SwReplace (SwNew true) (ShNew true)) 1 4) = None /\
  swap_pdf_run (SwMarker (SwReplace (SwNew true) (ShNew true)) (x80, x80, x80, x80)) = None.
Proof. split; [vm_compute; split; reflexivity|split; vm_compute; reflexivity]. Qed.

(** ** A case *)

(** Two documents [a] and [b] swap their chunks; [a] goes on with what was written into [b], under its own trailer, and with the version that was set
    in [b]; then a chunk that holds a copy of [a] (with its header in the middle of the file) and a renumbered copy is added. *)
Definition doc_a : swap_pdf := SwFileId (SwCatalog (SwNew true) 1 [(lit "Pages", OPrim (PRef 2))]) (lit "x", lit "y").
Definition doc_b : swap_pdf := SwVersion (SwReplace (SwNew false) (ShStream (ShTaken (SwNew false)) 4 [(lit "N", OPrim (PInt 3))] (lit "data"))) 2 0.
Definition swapped : swap_pdf := SwReplace doc_a (ShTaken doc_b).
Definition swap_added : swap_hist :=
  ShRenumber (ShExtend (ShObject (ShNew true) 7 (OPrim (PRef 4))) (ShTaken doc_a)) (ShExtend (ShTaken doc_a) (ShTaken doc_b)) unit (fun _ id => (id mod 100 + 10, tt)) tt.
Definition swap_all : swap_pdf := SwVersion (SwReplace swapped (ShExtend (ShTaken swapped) swap_added)) 10 4.
Example C97_case :
  swap_pdf_typed swap_all /\ careful_pdf swap_all /\ map fst (objects_in swap_all) = [4; 7; 1; 11; 14] /\
  header_in swap_all = Some [PdfVersion 2 0; PdfVersion 10 4] /\
  match swap_pdf_run swap_all with
  | Some p =>
      match finish p with
      | Some file =>
          map (resolve (fun _ _ => None) file) [1; 2; 4; 7; 11; 14] =
            [ Some (IObj 1 0 (VDict [(lit "Type", VName (lit "Catalog")); (lit "Pages", VRef 2 0)])); None;
              Some (IStream 4 0 [(lit "Length", VInt 4); (lit "N", VInt 3)] (lit "data")); Some (IObj 7 0 (VRef 4 0));
              Some (IObj 11 0 (VDict [(lit "Type", VName (lit "Catalog")); (lit "Pages", VRef 12 0)]));
              Some (IStream 14 0 [(lit "Length", VInt 4); (lit "N", VInt 3)] (lit "data")) ] /\
          firstn 8 file = lit "%PDF-2.4"
      | None => False
      end
  | None => False
  end.
Proof.
  split.
  { assert (A : swap_pdf_typed doc_a) by (cbn [swap_pdf_typed doc_a]; repeat split).
    assert (B : swap_pdf_typed doc_b) by (cbn [swap_pdf_typed swap_typed doc_b]; repeat split; lia).
    assert (C : swap_pdf_typed swapped) by (split; [exact A|exact B]).
    assert (D : swap_typed swap_added).
    { split; [split; [split; [exact Logic.I|reflexivity]|exact A]|]. split; [split; [exact A|exact B]|].
      intros t id. pose proof (Z.mod_pos_bound id 100 ltac:(lia)). unfold id_ok, i32_max. cbn [fst]. lia. }
    split; [split; [exact C|split; [exact C|exact D]]|]. lia. }
  split; [cbn; repeat split; discriminate|]. split; [vm_compute; reflexivity|]. split; [reflexivity|]. vm_compute. split; reflexivity.
Qed.

Print Assumptions C97_runs.
Print Assumptions C97_document.
Print Assumptions C97_document_stream.
Print Assumptions C97_header.
Print Assumptions C97_plain_calls.
Print Assumptions C97_header_lost_refuted.
