(** Property C93: a finished file read from its first byte to its last. *)

From Coq Require Import ZArith List Lia Bool Permutation Sorted ZifyBool.
From Verif Require Import Bytes ModelFloat ModelBuf ModelObject ModelRenumber ModelChunk ModelPdf SpecLex SpecObj SpecMeans
  SpecRenum SpecChunk SpecFile SpecPdf SpecLimits SpecSerial ProofBasic ProofObj ProofParse ProofTree ProofRenum ProofXref ProofChunk ProofChunkParse ProofChunk2
  ProofFile ProofFile2 ProofPdf ProofFile3 ProofFile4 PropChunk PropPdf PropPdf2.
Import ListNotations.
Local Open Scope Z_scope.

(** ** The parts *)

(** What begins with a digit is neither white space nor a keyword. *)
Lemma digit_front c r : is_digit c = true ->
  blanks (c :: r) = c :: r /\ strip (lit "xref") (c :: r) = None /\ strip (lit "startxref") (c :: r) = None.
Proof. destruct c; try discriminate; intros _; repeat split; apply blanks_solid; reflexivity. Qed.

Lemma item_front st nl it t : 0 < fst it -> exists c r, item_bytes st nl it ++ t = c :: r /\ is_digit c = true.
Proof.
  intro H. unfold item_bytes. rewrite dec_i_pos by lia. rewrite <- !app_assoc.
  pose proof (dec_u_ne (fst it) ltac:(lia)) as NE. pose proof (dec_u_digits (fst it) ltac:(lia)) as D.
  destruct (dec_u (fst it)) as [|c r]; [congruence|]. cbn [forallb] in D. apply andb_true_iff in D. destruct D as [D _].
  exists c. eexists. split; [reflexivity|exact D].
Qed.

(** Bytes that are skipped before anything. *)
Definition skipped (w : bytes) : Prop := forall t, blanks (w ++ t) = blanks t.

Definition stops (rest : bytes) : Prop :=
  blanks rest = rest /\ (strip (lit "xref") rest <> None \/ strip (lit "startxref") rest <> None).

Definition offsets (base : Z) (l : list placed) : list Z := map snd (offs base l).

Lemma scan_layout size rest : stops rest -> forall l w fuel base,
  skipped w ->
  forallb (fun pl => body_readable (snd (pl_item pl)) && body_fits (snd (pl_item pl))) l = true ->
  Forall (fun pl => 0 < fst (pl_item pl)) l ->
  (length l <= fuel)%nat -> base = size - blen (layout l ++ rest) ->
  scan fuel size (w ++ layout l ++ rest) =
  Some (combine (offsets base l) (map (fun pl => item_val (pl_item pl)) l), rest).
Proof.
  intros [B K]. induction l as [|pl l IH]; intros w fuel base Hw Hr Hp Hf Hb.
  - cbn [layout flat_map offsets offs map combine app].
    assert (E : scan fuel size (w ++ rest) = Some ([], rest)); [|exact E].
    destruct fuel; cbn [scan]; rewrite Hw, B; destruct (strip (lit "xref") rest), (strip (lit "startxref") rest); try reflexivity;
      destruct K as [K|K]; contradiction K; reflexivity.
  - cbn [forallb] in Hr. apply andb_true_iff in Hr. destruct Hr as [H1 H2].
    apply andb_true_iff in H1. destruct H1 as [H0 H1].
    apply Forall_cons_iff in Hp. destruct Hp as [P1 P2].
    destruct fuel as [|fuel]; [cbn [length] in Hf; lia|].
    cbn [layout flat_map]. fold (layout l).
    assert (FR : (placed_bytes pl ++ layout l) ++ rest = item_bytes (pl_style pl) (pl_nl pl) (pl_item pl) ++ layout l ++ rest)
      by (unfold placed_bytes; rewrite <- app_assoc; reflexivity).
    assert (SZ : blen (item_bytes (pl_style pl) (pl_nl pl) (pl_item pl) ++ layout l ++ rest) = size - base).
    { rewrite <- FR. cbn [layout flat_map] in Hb. fold (layout l) in Hb. lia. }
    rewrite FR.
    assert (G : blanks (item_bytes (pl_style pl) (pl_nl pl) (pl_item pl) ++ layout l ++ rest) = item_bytes (pl_style pl) (pl_nl pl) (pl_item pl) ++ layout l ++ rest /\
      strip (lit "xref") (item_bytes (pl_style pl) (pl_nl pl) (pl_item pl) ++ layout l ++ rest) = None /\
      strip (lit "startxref") (item_bytes (pl_style pl) (pl_nl pl) (pl_item pl) ++ layout l ++ rest) = None).
    { destruct (item_front (pl_style pl) (pl_nl pl) (pl_item pl) (layout l ++ rest) P1) as (c & r & E & D). rewrite E. apply digit_front. exact D. }
    destruct G as (G1 & G2 & G3).
    cbn [scan]. rewrite Hw, G1, G2, G3.
    pose proof (item_parses [] (pl_style pl) (pl_nl pl) (pl_item pl) (layout l ++ rest) eq_refl H0 H1) as P.
    rewrite app_nil_l in P. rewrite P.
    assert (Hw' : skipped ([x0a] ++ (if pl_nl pl then [x0a] else []))).
    { intro t. apply blanks_wss. destruct (pl_nl pl); reflexivity. }
    rewrite (app_assoc [x0a] (if pl_nl pl then [x0a] else [])).
    rewrite (IH _ fuel (base + blen (placed_bytes pl)) Hw' H2 P2) by
      (try (cbn [length] in Hf; lia); rewrite <- FR in SZ; rewrite <- app_assoc, blen_app in SZ; lia).
    rewrite SZ. cbn [offsets offs map snd combine]. f_equal. f_equal. f_equal. f_equal. lia.
Qed.

Lemma header_skipped m : one_line m = true -> let '(a, b, c, d) := m in skipped (lit "%" ++ [a; b; c; d] ++ [x0a; x0a]).
Proof.
  destruct m as [[[a b] c] d]. unfold one_line. cbn [forallb]. intros H t.
  change ((lit "%" ++ [a; b; c; d] ++ [x0a; x0a]) ++ t) with (x25 :: [a; b; c; d] ++ x0a :: x0a :: t).
  rewrite blanks_comment. unfold skip_line. rewrite span_all; [|exact H|reflexivity].
  cbn [snd]. rewrite !blanks_ws by reflexivity. reflexivity.
Qed.

Lemma version_range ops : ops_typed ops -> 0 <= major_of ops < 10 /\ 0 <= minor_of ops < 10.
Proof.
  unfold major_of, minor_of. induction ops as [|op ops IH] using rev_ind; intro Ht; [cbn; lia|].
  unfold ops_typed in Ht. apply Forall_app in Ht. destruct Ht as [Ht Ho]. apply Forall_inv in Ho. specialize (IH Ht).
  rewrite !last_call_snoc. destruct op as [id o|id es data|other|lm|source T f s|id es|id es|fid|ma mi|m]; try exact IH.
  cbn [op_typed] in Ho. destruct (Z.ltb_spec ma 10), (Z.ltb_spec mi 10); lia.
Qed.

Lemma digit_of n : 0 <= n < 10 -> is_digit (zb (48 + n)) = true /\ digits_val [zb (48 + n)] = n.
Proof.
  intro H. assert (E : n = 0 \/ n = 1 \/ n = 2 \/ n = 3 \/ n = 4 \/ n = 5 \/ n = 6 \/ n = 7 \/ n = 8 \/ n = 9) by lia.
  repeat (destruct E as [E|E]; [subst n; split; reflexivity|]). subst n; split; reflexivity.
Qed.

Lemma header_reads ops t : ops_typed ops ->
  header_line (header_of ops ++ t) =
  Some (major_of ops, minor_of ops, (let '(a, b, c, d) := marker_of ops in lit "%" ++ [a; b; c; d] ++ [x0a; x0a]) ++ t).
Proof.
  intro HT. destruct (version_range ops HT) as [V1 V2]. destruct (digit_of _ V1) as [A1 A2]. destruct (digit_of _ V2) as [B1 B2].
  rewrite header_of_form. unfold header. destruct (marker_of ops) as [[[a b] c] d]. set (u := zb (48 + major_of ops)) in *.
  set (v := zb (48 + minor_of ops)) in *. clearbody u v. unfold header_line.
  change (([x25; x50; x44; x46; x2d; u; x2e; v; x0a; x25; a; b; c; d; x0a; x0a]) ++ t)
    with (lit "%PDF-" ++ [u; x2e; v; x0a; x25; a; b; c; d; x0a; x0a] ++ t). rewrite strip_app. cbn [app]. rewrite A1, B1. cbn [andb eol].
  rewrite A2, B2. reflexivity.
Qed.

Lemma last_reads n : 0 <= n -> last_lines ([x0a] ++ dec_u n ++ [x0a] ++ lit "%%EOF") = Some n.
Proof.
  intro H. unfold last_lines. cbn [app eol]. rewrite digits_read; [|exact H|reflexivity]. reflexivity.
Qed.

Lemma table_then_reads N es d rest :
  0 < N -> Z.of_nat (length es) = N -> entries_fit es ->
  obj_ok (ODict d) = true -> separable (ODict d) = true -> forall p,
  table_then (lit "xref" ++ [x0a] ++ lit "0 " ++ dec_u N ++ [x0a] ++ flat_map plain_entry es ++
              lit "trailer" ++ [x0a] ++ out p 0 (ODict d) ++ [x0a] ++ lit "startxref" ++ [x0a] ++ rest)
  = Some ((combine (zrange 0 (length es)) (map conv es), map (fun e => (fst e, obj_val (snd e))) d), [x0a] ++ rest).
Proof.
  intros HN HL HF Hok Hsep p. unfold table_then. rewrite strip_app.
  set (body := lit "0 " ++ _). cbn [app]. assert (X : eol (x0a :: body) = Some body) by reflexivity. rewrite X. clear X.
  set (tail := [x0a] ++ out p 0 (ODict d) ++ [x0a] ++ lit "startxref" ++ [x0a] ++ rest).
  assert (E0 : body = dec_u 0 ++ [x20] ++ dec_u N ++ [x0a] ++ flat_map plain_entry es ++ lit "trailer" ++ tail) by reflexivity.
  assert (L0 : exists n, length body = S n) by (eexists; reflexivity). destruct L0 as [n L0]. rewrite L0, E0.
  cbn [subsections]. rewrite strip_digits by lia.
  unfold subsection. rewrite digits_read; [|lia|reflexivity]. rewrite strip_app, digits_read; [|lia|reflexivity].
  assert (X : forall t, eol ([x0a] ++ t) = Some t) by reflexivity. rewrite X. clear X.
  rewrite <- HL at 1. rewrite Nat2Z.id. rewrite entries20_plain by exact HF.
  assert (S : forall m, subsections m (lit "trailer" ++ tail) = Some ([], tail)) by (intros [|m]; cbn [subsections]; rewrite strip_app; reflexivity).
  rewrite S, app_nil_r. clear S.
  fold (objs [] tail). unfold tail. rewrite (objs_ws [] [x0a]) by reflexivity.
  rewrite (out_parses p 0 (ODict d)); [|exact Hok|unfold sep_ok; rewrite Hsep; apply orb_true_r|left; reflexivity].
  rewrite (objs_ws _ [x0a]) by reflexivity.
  assert (T : next_token (lit "startxref" ++ [x0a] ++ rest) = Some (TKeyword (lit "startxref"), [x0a] ++ rest))
    by (apply next_token_word; [discriminate|reflexivity|reflexivity]).
  rewrite (objs_step _ _ _ _ T).
  assert (K1 : bytes_eqb (lit "startxref") (lit "R") = false) by reflexivity.
  assert (K2 : bytes_eqb (lit "startxref") (lit "null") = false) by reflexivity.
  assert (K3 : bytes_eqb (lit "startxref") (lit "true") = false) by reflexivity.
  assert (K4 : bytes_eqb (lit "startxref") (lit "false") = false) by reflexivity.
  rewrite K1, K2, K3, K4. cbn [rev app]. reflexivity.
Qed.

(** ** The objects met are those that were asked for, at the recorded positions *)

Lemma placed_count l : (length l <= length (layout l))%nat.
Proof.
  induction l as [|pl l IH]; [apply Nat.le_0_l|]. cbn [layout flat_map length]. fold (layout l). rewrite app_length.
  pose proof (placed_ne pl) as P. unfold blen in P. lia.
Qed.

Lemma offs_length base l : length (offs base l) = length l.
Proof. revert base. induction l as [|pl l IH]; intro base; [reflexivity|]. cbn [offs length]. rewrite IH. reflexivity. Qed.

Lemma met_items base l : forallb (fun pl => body_readable (snd (pl_item pl))) l = true ->
  Forall2 (fun it x => item_means it (snd x)) (map pl_item l) (combine (offsets base l) (map (fun pl => item_val (pl_item pl)) l)).
Proof.
  revert base. induction l as [|pl l IH]; intros base H; [constructor|]. cbn [forallb] in H. apply andb_true_iff in H.
  cbn [offsets offs map snd combine]. constructor; [apply item_val_means; apply H|]. apply IH. apply H.
Qed.

Lemma met_offs base l x : In x (combine (offsets base l) (map (fun pl => item_val (pl_item pl)) l)) ->
  In (fst (indirect_id (snd x)), fst x) (offs base l) /\ snd (indirect_id (snd x)) = 0.
Proof.
  revert base. induction l as [|pl l IH]; intro base; [intros []|]. cbn [offsets offs map snd combine]. intros [<-|H].
  - cbn [fst snd]. rewrite item_val_id. split; [left; reflexivity|reflexivity].
  - apply IH in H. split; [right; apply H|apply H].
Qed.

Lemma met_some l x : NoDup (map (fun x => fst (indirect_id (snd x))) l) ->
  Forall (fun x => snd (indirect_id (snd x)) = 0) l -> In x l -> met (fst (indirect_id (snd x))) l = Some x.
Proof.
  induction l as [|y l IH]; [intros _ _ []|]. intros ND G I. cbn [map] in ND. apply NoDup_cons_iff in ND. destruct ND as [N1 N2].
  apply Forall_cons_iff in G. destruct G as [G1 G2]. cbn [met]. rewrite G1. destruct I as [<-|I]; [rewrite Z.eqb_refl; reflexivity|].
  destruct (Z.eqb_spec (fst (indirect_id (snd y))) (fst (indirect_id (snd x)))) as [E|E]; [|apply IH; assumption].
  exfalso. apply N1. rewrite E. apply (in_map (fun x => fst (indirect_id (snd x)))). exact I.
Qed.

Lemma met_none l id : ~ In id (map (fun x => fst (indirect_id (snd x))) l) -> met id l = None.
Proof.
  induction l as [|y l IH]; intro H; [reflexivity|]. cbn [map In] in H. cbn [met].
  destruct (Z.eqb_spec (fst (indirect_id (snd y))) id) as [E|E]; [exfalso; apply H; left; exact E|]. apply IH. tauto.
Qed.

Lemma met_ids base l : map (fun x => fst (indirect_id (snd x))) (combine (offsets base l) (map (fun pl => item_val (pl_item pl)) l)) = map fst (map pl_item l).
Proof.
  revert base. induction l as [|pl l IH]; intro base; [reflexivity|]. cbn [offsets offs map snd combine]. rewrite item_val_id. cbn [fst]. f_equal. apply IH.
Qed.

(** Going through the objects gives the same as looking them up. *)
Lemma same_objects decode file l (entries : list (Z * xentry)) tr :
  read_file decode file = Some (entries, tr) ->
  NoDup (map (fun x => fst (indirect_id (snd x))) l) ->
  Forall (fun x => snd (indirect_id (snd x)) = 0 /\ find_entry (fst (indirect_id (snd x))) entries = Some (XUsed (fst x) 0) /\
    exists r, parse_indirect (from file (fst x)) = Some (snd x, r)) l ->
  (forall id, ~ In id (map (fun x => fst (indirect_id (snd x))) l) -> resolve decode file id = None) ->
  forall id, resolve decode file id = option_map snd (met id l).
Proof.
  intros RD ND F N id.
  destruct (in_dec Z.eq_dec id (map (fun x => fst (indirect_id (snd x))) l)) as [I|I].
  - apply in_map_iff in I. destruct I as (x & <- & I). rewrite met_some; [|exact ND| |exact I].
    2:{ apply Forall_forall. rewrite Forall_forall in F. intros y Hy. apply (F y Hy). }
    rewrite Forall_forall in F. destruct (F x I) as (G & E & r & P). unfold resolve. rewrite RD, E, P, G, !Z.eqb_refl. reflexivity.
  - rewrite met_none by exact I. apply N. exact I.
Qed.

Lemma placed_at l : forall pre rest base x, base = blen pre ->
  forallb (fun pl => body_readable (snd (pl_item pl)) && body_fits (snd (pl_item pl))) l = true ->
  In x (combine (offsets base l) (map (fun pl => item_val (pl_item pl)) l)) ->
  exists r, parse_indirect (from (pre ++ layout l ++ rest) (fst x)) = Some (snd x, r).
Proof.
  induction l as [|pl l IH]; intros pre rest base x Hb H; [intros []|]. cbn [forallb] in H. apply andb_true_iff in H. destruct H as [H1 H2].
  apply andb_true_iff in H1. cbn [offsets offs map snd combine layout flat_map]. fold (layout l).
  intros [<-|I].
  - cbn [fst snd]. subst base. rewrite <- app_assoc. unfold placed_bytes. apply parse_at; tauto.
  - rewrite <- app_assoc, app_assoc. apply (IH (pre ++ placed_bytes pl) rest (base + blen (placed_bytes pl)) x); [rewrite blen_app; lia|exact H2|exact I].
Qed.

Lemma all_good k l : map pl_item k = l -> items_fit l = true -> Forall (fun it => body_readable (snd it) = true) l ->
  forallb (fun pl => body_readable (snd (pl_item pl)) && body_fits (snd (pl_item pl))) k = true.
Proof.
  intros M F R. apply forallb_forall. intros pl Hp.
  assert (I : In (pl_item pl) l) by (rewrite <- M; apply in_map; exact Hp).
  rewrite Forall_forall in R. rewrite (R _ I), (items_fit_in _ _ F I). reflexivity.
Qed.

Lemma good_readable k : forallb (fun pl => body_readable (snd (pl_item pl)) && body_fits (snd (pl_item pl))) k = true ->
  forallb (fun pl => body_readable (snd (pl_item pl))) k = true.
Proof. intro H. rewrite forallb_forall in *. intros pl Hp. specialize (H pl Hp). apply andb_true_iff in H. apply H. Qed.

(** ** C93 *)

(** With a cross-reference table. *)
Theorem C93_read_through : forall decode pretty ops p file,
  ops_typed ops -> pdf_run ops (pdf_with_settings pretty) = Some p -> finish p = Some file ->
  ids_below (pdf_ids ops) -> blen file <= 10 ^ 10 ->
  Forall (fun it => body_readable (snd it) = true) (pdf_items ops) -> one_line (marker_of ops) = true ->
  exists objects start entries trailer,
    read_serial file = Some (mkSerial (major_of ops, minor_of ops) objects (Some (start, (entries, trailer))) start) /\
    Forall2 (fun it x => item_means it (snd x)) (pdf_items ops) objects /\
    startxref file = Some start /\ read_file decode file = Some (entries, trailer) /\
    Forall (fun x => find_entry (fst (indirect_id (snd x))) entries = Some (XUsed (fst x) 0)) objects /\
    forall id, resolve decode file id = option_map snd (met id objects).
Proof.
  intros decode pretty ops p file HT HR HF HB HL HA HM.
  pose proof (reach_small _ _ _ HT HR HB) as SM. pose proof (reach_ids _ _ _ HT HR) as RI.
  assert (HL' : blen (pdf_bytes p) <= 10 ^ 10).
  { rewrite finish_form in HF. destruct (write_offsets _); [|discriminate]. cbn [option_map] in HF. apply some_inj in HF.
    rewrite <- HF in HL. eapply Z.le_trans; [apply blen_prefix|exact HL]. }
  destruct (C23_every_object_is_found decode pretty ops p file HT HR HF HB HL) as [_ NO].
  destruct (plain_read decode p file HF SM (reach_trailer _ _ _ HT HR) (reach_offsets _ _ _ HT HR) HL')
    as (es & tail & ND & EL & EF & EB & _ & RD & SX). cbn zeta in *.
  destruct (reach _ _ _ HT HR) as (k & M & ((Hb & O) & _) & Fit).
  pose proof (all_good k _ M Fit HA) as GO.
  set (N := 1 + zmax (ids (c_offsets (p_chunk p)))) in *.
  (* the exact bytes *)
  rewrite finish_form in HF.
  destruct (xref_entries _ ND SM) as (es' & E & HN & HL2 & HF2). fold N in E, HN, HL2, HF2.
  rewrite E in HF. cbn [option_map fst snd] in HF. apply some_inj in HF. rewrite dec_i_pos in HF by lia.
  assert (EE : entries_fit es').
  { pose proof (values_small _ _ _ (proj1 HN) HF2) as V. unfold entries_fit. revert V. apply Forall_impl.
    intros [n g|o g]; cbn [entry_value entry_gen].
    - intros [V1 V2]. assert (i32_max < 10 ^ 10) by reflexivity. split; [lia|]. change (10 ^ 5) with 100000. destruct V2; subst; lia.
    - intros [(id & V1) ->]. apply (proj1 (in_sorted _ _)) in V1. pose proof (reach_offsets _ _ _ HT HR) as Ho. unfold small_offsets in Ho. rewrite Forall_forall in Ho. specialize (Ho _ V1). cbn [snd] in Ho.
      split; [lia|]. change (10 ^ 5) with 100000. lia. }
  destruct (trailer_readable p N (reach_trailer _ _ _ HT HR) HN) as (T1 & T2).
  pose proof (fun rest => table_then_reads N es' (trailer_entries p N) rest (proj1 HN) HL2 EE T1 (names_nonempty_separable _ T2) (c_pretty (p_chunk p))) as TT.
  pose proof (fun rest => table_reads N es' (trailer_entries p N) rest (proj1 HN) HL2 EE T1 (names_nonempty_separable _ T2) (c_pretty (p_chunk p))) as TR.
  (* the same section *)
  assert (SEC : Some (combine (zrange 0 (length es')) (map conv es'), dict_vals (trailer_entries p N)) =
                Some (combine (zrange 0 (length es)) (map conv es), dict_vals (trailer_entries p N))).
  { rewrite <- RD. unfold read_file. rewrite SX, <- HF, from_app, strip_app. unfold tail_bytes. symmetry. apply TR. }
  set (rest := lit "xref" ++ [x0a] ++ lit "0 " ++ dec_u N ++ [x0a] ++ flat_map plain_entry es' ++ lit "trailer" ++ [x0a] ++
    out (c_pretty (p_chunk p)) 0 (ODict (trailer_entries p N)) ++ [x0a] ++ tail_bytes (blen (pdf_bytes p))) in *.
  assert (ST : stops rest).
  { split; [apply blanks_solid; reflexivity|]. left. unfold rest. rewrite strip_app. discriminate. }
  assert (TR' : table_then rest = Some ((combine (zrange 0 (length es)) (map conv es), dict_vals (trailer_entries p N)), [x0a] ++ dec_u (blen (pdf_bytes p)) ++ [x0a] ++ lit "%%EOF")).
  { apply some_inj in SEC. rewrite <- SEC. unfold rest, tail_bytes. apply TT. }
  assert (SR : strip (lit "startxref") rest = None) by reflexivity.
  assert (FB : file = header_of ops ++ layout k ++ rest) by (rewrite <- HF; unfold pdf_bytes; rewrite Hb, <- app_assoc; reflexivity).
  assert (FS : blen file = 16 + blen (layout k ++ rest)) by (rewrite FB, blen_app, header_of_length; reflexivity).
  assert (PB : blen file - blen rest = blen (pdf_bytes p)) by (rewrite <- HF, blen_app; lia).
  assert (PO : Forall (fun pl => 0 < fst (pl_item pl)) k).
  { apply Forall_forall. intros pl Hp. pose proof (reach_pos _ HT) as P. rewrite Forall_forall in P. apply P. unfold pdf_ids. rewrite <- M, map_map.
    apply (in_map (fun x => fst (pl_item x))). exact Hp. }
  set (objs := combine (offsets 16 k) (map (fun pl => item_val (pl_item pl)) k)).
  assert (SC : scan (length ((let '(a, b, c, d) := marker_of ops in lit "%" ++ [a; b; c; d] ++ [x0a; x0a]) ++ layout k ++ rest)) (blen file)
    ((let '(a, b, c, d) := marker_of ops in lit "%" ++ [a; b; c; d] ++ [x0a; x0a]) ++ layout k ++ rest) = Some (objs, rest)).
  { pose proof (header_skipped _ HM) as SK. destruct (marker_of ops) as [[[a b] c] d]. apply scan_layout; [exact ST|exact SK|exact GO|exact PO| |lia].
    rewrite !app_length. pose proof (placed_count k). lia. }
  exists objs, (blen (pdf_bytes p)). eexists. eexists. split; [|split; [|split; [exact SX|split; [exact RD|]]]].
  - unfold read_serial. rewrite FB at 1. rewrite header_reads by exact HT. rewrite SC, SR, TR', last_reads by apply blen_nonneg.
    rewrite PB. reflexivity.
  - rewrite <- M. apply met_items. apply good_readable. exact GO.
  - assert (FE : Forall (fun x => find_entry (fst (indirect_id (snd x))) (combine (zrange 0 (length es)) (map conv es)) = Some (XUsed (fst x) 0)) objs).
    { apply Forall_forall. intros x Hx. apply met_offs in Hx. destruct Hx as [Hx _].
      assert (Hx' : In (fst (indirect_id (snd x)), fst x) (c_offsets (p_chunk p))) by (rewrite O, header_of_length; exact Hx).
      rewrite (used_entry _ _ es ND SM eq_refl EL EF conv _ _ Hx'). reflexivity. }
    split; [exact FE|]. apply (same_objects decode file objs _ _ RD).
    + unfold objs. rewrite met_ids, M. change (map fst (pdf_items ops)) with (pdf_ids ops). rewrite <- RI. exact ND.
    + apply Forall_forall. intros x Hx. rewrite Forall_forall in FE. split; [apply (met_offs _ _ _ Hx)|]. split; [apply FE; exact Hx|].
      rewrite FB. apply (placed_at k (header_of ops) rest 16); [rewrite header_of_length; reflexivity|exact GO|exact Hx].
    + intros id Hid. apply NO. unfold objs in Hid. rewrite met_ids, M in Hid. exact Hid.
Qed.

(** With a cross-reference stream: it is the last object, at the announced position. *)
Theorem C93_read_through_stream : forall decode pretty ops p xref_id file,
  ops_typed ops -> pdf_run ops (pdf_with_settings pretty) = Some p ->
  id_ok xref_id = true -> ids_below (xref_id :: pdf_ids ops) ->
  finished_with_stream decode p xref_id file -> blen file < 2 ^ 64 ->
  Forall (fun it => body_readable (snd it) = true) (pdf_items ops) -> one_line (marker_of ops) = true ->
  exists objects start entries trailer data,
    let all := objects ++ [(start, IStream xref_id 0 trailer data)] in
    read_serial file = Some (mkSerial (major_of ops, minor_of ops) all None start) /\
    Forall2 (fun it x => item_means it (snd x)) (pdf_items ops) objects /\
    startxref file = Some start /\ read_file decode file = Some (entries, trailer) /\
    Forall (fun x => find_entry (fst (indirect_id (snd x))) entries = Some (XUsed (fst x) 0)) all /\
    forall id, resolve decode file id = option_map snd (met id all).
Proof.
  intros decode pretty ops p xid file HT HR HX HB HF HL HA HM.
  destruct (C27_every_object_is_found decode pretty ops p xid file HT HR HX HB HF HL) as [_ NO].
  destruct (st_data decode pretty ops p xid file HT HR HX HB HF HL) as (es & flt & data & ND & EN & EL & EF & EB & DL & RD & SX & W1 & W2).
  pose proof (st_small pretty ops p xid HT HR HX HB) as SM. pose proof (st_perm pretty ops p xid HT HR) as PM.
  destruct (reach _ _ _ HT HR) as (k & M & ((Hb & O) & _) & Fit).
  pose proof (all_good k _ M Fit HA) as GO.
  set (N := 1 + zmax (xid :: pdf_ids ops)) in *. set (w := field_width (blen (pdf_bytes p))) in *.
  assert (NP : 0 < N <= i32_max) by (destruct (xref_entries _ ND SM) as (es' & E & B & _); rewrite EN in B; exact B).
  set (xit := (xid, BStream (stream_entries p flt N w) data)) in *.
  assert (XR : body_readable (snd xit) = true) by (apply stream_entries_readable; [exact (reach_trailer _ _ _ HT HR)|exact NP|lia]).
  assert (XF : body_fits (snd xit) = true) by (cbn [xit snd body_fits]; lia).
  set (xpl := mkPl pretty pretty xit). set (k2 := k ++ [xpl]).
  assert (GO2 : forallb (fun pl => body_readable (snd (pl_item pl)) && body_fits (snd (pl_item pl))) k2 = true).
  { unfold k2. rewrite forallb_app, GO. cbn [forallb xpl pl_item]. rewrite XR, XF. reflexivity. }
  set (rest := tail_bytes (blen (pdf_bytes p))) in *.
  assert (ST : stops rest).
  { split; [apply blanks_solid; reflexivity|]. right. unfold rest, tail_bytes. rewrite strip_app. discriminate. }
  assert (FB : file = header_of ops ++ layout k2 ++ rest).
  { rewrite EB at 1. unfold pdf_bytes. rewrite Hb. unfold k2. rewrite layout_app. cbn [layout flat_map]. rewrite app_nil_r, <- !app_assoc. reflexivity. }
  assert (PL : blen (pdf_bytes p) = 16 + blen (layout k)) by (unfold pdf_bytes; rewrite Hb, blen_app, header_of_length; reflexivity).
  assert (FS : blen file = 16 + blen (layout k2 ++ rest)) by (rewrite FB, blen_app, header_of_length; reflexivity).
  assert (PO : Forall (fun pl => 0 < fst (pl_item pl)) k2).
  { apply Forall_app. split; [|constructor; [cbn [xpl pl_item xit fst]; unfold id_ok in HX; lia|constructor]].
    apply Forall_forall. intros pl Hp. pose proof (reach_pos _ HT) as P. rewrite Forall_forall in P. apply P. unfold pdf_ids. rewrite <- M, map_map.
    apply (in_map (fun x => fst (pl_item x))). exact Hp. }
  assert (OF : forall base l, offs base (l ++ [xpl]) = offs base l ++ [(xid, base + blen (layout l))]).
  { intros base l. revert base. induction l as [|q l IH]; intro base; [cbn [app offs layout flat_map xpl pl_item xit fst]; f_equal; f_equal; cbn; lia|].
    cbn [app offs]. rewrite IH. cbn [app]. f_equal. f_equal. f_equal. cbn [layout flat_map]. fold (layout l). rewrite blen_app. f_equal. lia. }
  assert (OB : combine (offsets 16 k2) (map (fun pl => item_val (pl_item pl)) k2) =
    combine (offsets 16 k) (map (fun pl => item_val (pl_item pl)) k) ++ [(blen (pdf_bytes p), item_val xit)]).
  { unfold offsets, k2. rewrite OF, !map_app. cbn [map snd]. rewrite <- PL.
    assert (G : forall (a : list Z) (b : list indirect) x y, length a = length b -> combine (a ++ [x]) (b ++ [y]) = combine a b ++ [(x, y)]).
    { induction a as [|a0 a IH]; intros [|b0 b] x y L; try discriminate L; [reflexivity|]. cbn [app combine]. rewrite IH by (cbn [length] in L; lia). reflexivity. }
    apply G. rewrite !map_length, offs_length. reflexivity. }
  set (objs := combine (offsets 16 k) (map (fun pl => item_val (pl_item pl)) k)) in *.
  assert (SC : scan (length ((let '(a, b, c, d) := marker_of ops in lit "%" ++ [a; b; c; d] ++ [x0a; x0a]) ++ layout k2 ++ rest)) (blen file)
    ((let '(a, b, c, d) := marker_of ops in lit "%" ++ [a; b; c; d] ++ [x0a; x0a]) ++ layout k2 ++ rest) = Some (objs ++ [(blen (pdf_bytes p), item_val xit)], rest)).
  { rewrite <- OB. pose proof (header_skipped _ HM) as SK. destruct (marker_of ops) as [[[a b] c] d]. apply scan_layout; [exact ST|exact SK|exact GO2|exact PO| |lia].
    rewrite !app_length. pose proof (placed_count k2). lia. }
  assert (XV : item_val xit = IStream xid 0 ((lit "Length", VInt (blen data)) :: dict_vals (stream_entries p flt N w)) data) by reflexivity.
  exists objs, (blen (pdf_bytes p)). eexists. eexists. exists data. cbn zeta. split; [|split; [|split; [exact SX|split; [exact RD|]]]].
  - unfold read_serial. rewrite FB at 1. rewrite header_reads by exact HT. rewrite SC. unfold rest at 1, tail_bytes at 1. rewrite strip_app, last_reads by apply blen_nonneg.
    rewrite XV. reflexivity.
  - rewrite <- M. apply met_items. apply good_readable. exact GO.
  - rewrite <- XV, <- OB.
    assert (HO : offs 16 k2 = with_xref p xid).
    { unfold k2, with_xref. rewrite OF, O, PL, header_of_length. reflexivity. }
    assert (FE : Forall (fun x => find_entry (fst (indirect_id (snd x))) (combine (zrange 0 (length es)) (map (narrow (Z.to_nat w)) es)) = Some (XUsed (fst x) 0))
      (combine (offsets 16 k2) (map (fun pl => item_val (pl_item pl)) k2))).
    { apply Forall_forall. intros x Hx. apply met_offs in Hx. destruct Hx as [Hx _]. rewrite HO in Hx.
      rewrite (used_entry _ _ es ND SM (eq_sym EN) EL EF (narrow (Z.to_nat w)) _ _ Hx).
      f_equal. apply used_narrow; [|lia]. unfold with_xref in Hx. apply in_app_or in Hx. destruct Hx as [Hx|[Hx|[]]].
      - pose proof (reach_offsets _ _ _ HT HR) as Ho. unfold small_offsets in Ho. rewrite Forall_forall in Ho. specialize (Ho _ Hx). cbn [snd] in Ho. lia.
      - assert (E : fst x = blen (pdf_bytes p)) by congruence. rewrite E. pose proof (blen_nonneg (pdf_bytes p)). lia. }
    assert (MI : map (fun x => fst (indirect_id (snd x))) (combine (offsets 16 k2) (map (fun pl => item_val (pl_item pl)) k2)) = pdf_ids ops ++ [xid]).
    { rewrite met_ids. unfold k2. rewrite map_app, M, map_app. reflexivity. }
    split; [exact FE|]. apply (same_objects decode file _ _ _ RD).
    + rewrite MI. apply (Permutation_NoDup (l := ids (with_xref p xid))); [|exact ND].
      eapply Permutation_trans; [exact PM|]. apply Permutation_cons_append.
    + apply Forall_forall. intros x Hx. rewrite Forall_forall in FE. split; [apply (met_offs _ _ _ Hx)|]. split; [apply FE; exact Hx|].
      rewrite FB. apply (placed_at k2 (header_of ops) rest 16); [rewrite header_of_length; reflexivity|exact GO2|exact Hx].
    + rewrite MI. intros id Hid. apply NO; [intros ->; apply Hid; apply in_or_app; right; left; reflexivity|].
      intro I. apply Hid. apply in_or_app. left. exact I.
Qed.

(** Objects written out of order and with gaps, among them a stream whose data looks like a file. *)
Example C93_case :
  let ops := example_ops in
  ops_typed ops /\ ids_below (pdf_ids ops) /\ ids_below (5 :: pdf_ids ops) /\ one_line (marker_of ops) = true /\
  Forall (fun it => body_readable (snd it) = true) (pdf_items ops) /\
  option_map (option_map (fun f => option_map (fun s => (se_version s, map fst (se_objects s), option_map fst (se_section s), se_start s)) (read_serial f)))
    (option_map finish (pdf_run ops (pdf_with_settings false))) =
  Some (Some (Some ((2, 0), [16; 54; 124; 142; 163; 183], Some 228, 228))) /\
  option_map (option_map (fun f => option_map (fun s => (se_version s, map fst (se_objects s), option_map fst (se_section s), se_start s)) (read_serial f)))
    (option_map (fun p => finish_with_xref_stream p 5) (pdf_run ops (pdf_with_settings false))) =
  Some (Some (Some ((2, 0), [16; 54; 124; 142; 163; 183; 228], None, 228))).
Proof.
  cbv zeta. split; [exact example_ops_typed|].
  split; [unfold ids_below; repeat constructor|]. split; [unfold ids_below; repeat constructor|]. split; [reflexivity|].
  split; [apply Forall_forall; apply forallb_forall; vm_compute; reflexivity|].
  split; vm_compute; reflexivity.
Qed.

(** A line end in the marker: the rest of it is no longer part of the comment, and the file cannot be read
    through any more, although it can still be opened with its cross-references. *)
Definition marker_ops : list pdf_op := [PdfMarker (x0a, x31, x20, x32); PdfObject 1 (OPrim (PInt 7))].

Theorem C93_marker_refuted : exists p file,
  pdf_run marker_ops (pdf_with_settings false) = Some p /\
  finish p = Some file /\ one_line (marker_of marker_ops) = false /\
  read_serial file = None /\ resolve no_filter file 1 = Some (IObj 1 0 (VInt 7)).
Proof.
  destruct (pdf_run marker_ops (pdf_with_settings false)) as [p|] eqn:E; [|vm_compute in E; discriminate].
  assert (K : option_map (fun f => (read_serial f, resolve no_filter f 1)) match pdf_run marker_ops (pdf_with_settings false) with Some p => finish p | None => None end
    = Some (None, Some (IObj 1 0 (VInt 7)))) by (vm_compute; reflexivity).
  rewrite E in K. destruct (finish p) as [file|] eqn:F; [|discriminate K]. cbn [option_map] in K. apply some_inj in K.
  exists p, file. split; [reflexivity|]. split; [exact F|]. split; [reflexivity|]. split; congruence.
Qed.

(** Printable ASCII characters, which the documentation suggests, and bytes from 128 on, which the standard
    recommends, are fine. *)
Theorem C93_usual_markers : forall a b c d,
  Forall (fun x => 32 <= bz x <= 126 \/ 128 <= bz x) [a; b; c; d] -> one_line (a, b, c, d) = true.
Proof.
  intros a b c d H. unfold one_line. apply forallb_forall. rewrite Forall_forall in H. intros x Hx. specialize (H x Hx). cbv beta in H.
  destruct (bmem x [x0a; x0d]) eqn:E; [|reflexivity]. exfalso. unfold bmem in E. cbn [existsb] in E.
  apply orb_true_iff in E. destruct E as [E|E]; [|apply orb_true_iff in E; destruct E as [E|E]; [|discriminate E]];
    apply beq_spec in E; subst x; change (bz x0a) with 10 in H; change (bz x0d) with 13 in H; lia.
Qed.

Print Assumptions C93_read_through.
Print Assumptions C93_read_through_stream.
Print Assumptions C93_marker_refuted.
Print Assumptions C93_usual_markers.
