(** Property C100, continued: exactly which streams can be delimited by their keyword. *)

From Coq Require Import ZArith List Lia Bool Permutation Sorted ZifyBool.
From Verif Require Import Bytes ModelFloat ModelBuf ModelObject ModelRenumber ModelChunk ModelPdf SpecLex SpecObj SpecMeans
  SpecRenum SpecChunk SpecFile SpecPdf SpecLimits SpecSerial SpecCut SpecKeyword ProofBasic ProofObj ProofParse ProofTree ProofRenum ProofXref ProofChunk ProofChunkParse ProofChunk2
  ProofFile ProofFile2 ProofPdf ProofFile3 ProofFile4 PropChunk PropPdf PropPdf2 PropSerial ProofCut ProofCut2 ProofCut3 PropCut ProofKeyword PropKeyword.
Import ListNotations.
Local Open Scope Z_scope.

(** The converse for one stream. *)
Lemma chop_len s : (length (chop s) <= length s)%nat.
Proof.
  unfold chop. destruct (eol_back (rev s)) as [r|] eqn:E; [|lia]. rewrite rev_length. rewrite <- (rev_length s).
  destruct (rev s) as [|c t]; [discriminate E|]. unfold eol_back in E.
  destruct c; try discriminate E; try (injection E as <-; cbn [length]; lia).
  destruct t as [|d t]; [injection E as <-; cbn [length]; lia|]. destruct d; injection E as <-; cbn [length]; lia.
Qed.

Lemma keyword_data_plain data tl r : keyword_data ([x0a] ++ data ++ [x0a] ++ lit "endstream" ++ tl) = Some (data, r) -> plain_data data.
Proof.
  intro H. apply keyword_form in H. destruct H as (body & d & t & B & U & _ & C).
  assert (B' : Some (data ++ x0a :: lit "endstream" ++ tl) = Some body) by exact B. apply some_inj in B'. subst body.
  destruct (until (lit "endstream") data) as [[a b]|] eqn:E.
  - exfalso. rewrite (until_ext _ _ _ _ _ E) in U. injection U as <- <-. apply until_form in E.
    pose proof (chop_len a) as L. rewrite <- C in L. rewrite E, !app_length in L. change (length (lit "endstream")) with 9%nat in L. lia.
  - split; [exact E|]. intros x ->.
    rewrite until_found in U; [|intro X; cbn in X; repeat (destruct X as [X|X]; [discriminate X|]); exact X|discriminate|exact E].
    injection U as <- <-. unfold chop in C. rewrite !rev_app_distr in C. cbn [rev app eol_back] in C. rewrite rev_involutive in C.
    apply (f_equal (@length byte)) in C. rewrite app_length in C. cbn [length] in C. lia.
Qed.

Lemma stream_by_keyword p nl id es data rest : entries_readable es = true -> body_fits (BStream es data) = true ->
  by_keyword (item_bytes p nl (id, BStream es data) ++ rest) =
  match keyword_data ([x0a] ++ data ++ [x0a] ++ lit "endstream" ++ [x0a] ++ lit "endobj" ++ [x0a] ++ (if nl then [x0a] else []) ++ rest) with
  | Some (x, r) => match item_val (id, BStream es data) with IStream i g d _ => Some (IStream i g d x, r) | IObj _ _ _ => None end
  | None => None
  end.
Proof.
  intros Hr Hf. unfold item_bytes. cbn [fst snd] in *.
  unfold by_keyword, indirect_with. rewrite <- !app_assoc.
  change (lit " 0 obj") with ([x20; x30; x20] ++ lit "obj"). rewrite <- app_assoc.
  rewrite next_token_int by reflexivity.
  cbn [app]. rewrite next_token_ws1 by reflexivity.
  match goal with |- context [next_token (x30 :: ?r)] => change (x30 :: r) with (dec_i 0 ++ r) end.
  rewrite next_token_int by reflexivity. rewrite next_token_ws1 by reflexivity.
  set (tl := [x0a] ++ lit "endobj" ++ [x0a] ++ (if nl then [x0a] else []) ++ rest).
  change (x0a :: lit "endobj" ++ x0a :: (if nl then [x0a] else []) ++ rest) with tl.
  rewrite (ProofChunkParse.keyword (lit "obj")) by (reflexivity || discriminate).
  change (bytes_eqb (lit "obj") (lit "obj")) with true. cbv iota.
  rewrite objects_objs by lia.
  match goal with |- context [objs [] (x0a :: ?r)] => change (x0a :: r) with ([x0a] ++ r) end.
  rewrite (objs_ws [] [x0a]) by reflexivity. fold tl.
  cbn [body_fits] in Hf.
    unfold entries_readable in Hr. apply andb_true_iff in Hr. destruct Hr as [Hok Hs].
    rewrite stream_body. rewrite <- !app_assoc.
    assert (Hok' : obj_ok (ODict (len_entry data :: es)) = true).
    { cbn [obj_ok forallb snd len_entry]. cbn [obj_ok] in Hok. rewrite Hok. cbn [prim_ok].
      unfold in_i32, i32_min. assert (0 <= blen data) by (unfold blen; lia).
      apply Z.leb_le in Hf. rewrite andb_true_r. apply andb_true_iff. split; apply Z.leb_le; unfold i32_max in *; lia. }
    rewrite out_parses; [|exact Hok'| |right; reflexivity].
    2:{ unfold sep_ok. apply orb_true_iff. right. cbn [separable forallb fst snd len_entry].
        cbn [separable] in Hs. rewrite Hs. reflexivity. }
    rewrite objs_ws by reflexivity.
    set (st := [x0a] ++ data ++ [x0a] ++ lit "endstream" ++ tl).
    rewrite (objs_step _ _ (TKeyword (lit "stream")) st); [|apply ProofChunkParse.keyword; reflexivity || discriminate].
    change (bytes_eqb (lit "stream") (lit "R")) with false. change (bytes_eqb (lit "stream") (lit "null")) with false.
    change (bytes_eqb (lit "stream") (lit "true")) with false. change (bytes_eqb (lit "stream") (lit "false")) with false.
    cbn [rev app]. change (bytes_eqb (lit "stream") (lit "endobj")) with false.
    change (bytes_eqb (lit "stream") (lit "stream")) with true. cbv iota. cbn [obj_val].
    change (x0a :: data ++ x0a :: lit "endstream" ++ tl) with st. destruct (keyword_data st) as [[x r]|]; reflexivity.
Qed.

Lemma item_plain p nl it rest r : body_readable (snd it) = true -> body_fits (snd it) = true ->
  by_keyword (item_bytes p nl it ++ rest) = Some (item_val it, r) -> plain_object (item_val it).
Proof.
  intros Hr Hf H. destruct it as [id [o|es data]]; [exact Logic.I|]. cbn [snd body_readable] in Hr, Hf.
  rewrite stream_by_keyword in H by assumption.
  destruct (keyword_data _) as [[x q]|] eqn:K; [|discriminate H]. unfold item_val in *. cbn [fst snd] in *.
  cbn [plain_object]. assert (x = data) as -> by congruence. apply (keyword_data_plain _ _ _ K).
Qed.

(** Both readers find the same in a layout only if all its streams are plain. *)
Lemma layout_plain size rest : forall l w f g, skipped w ->
  forallb (fun pl => body_readable (snd (pl_item pl)) && body_fits (snd (pl_item pl))) l = true ->
  Forall (fun pl => 0 < fst (pl_item pl)) l -> (length l <= f)%nat ->
  repair g size (w ++ layout l ++ rest) = salvage f size (w ++ layout l ++ rest) ->
  Forall (fun pl => plain_object (item_val (pl_item pl))) l.
Proof.
  induction l as [|pl l IH]; intros w f g Hw Hr Hp Hf E; [constructor|].
  cbn [forallb] in Hr. apply andb_true_iff in Hr. destruct Hr as [H1 H2]. apply andb_true_iff in H1. destruct H1 as [H0 H1].
  apply Forall_cons_iff in Hp. destruct Hp as [P1 P2]. destruct f as [|f]; [cbn [length] in Hf; lia|].
  cbn [layout flat_map] in E. fold (layout l) in E. unfold placed_bytes in E. rewrite <- app_assoc in E.
  assert (G1 : blanks (item_bytes (pl_style pl) (pl_nl pl) (pl_item pl) ++ layout l ++ rest) = item_bytes (pl_style pl) (pl_nl pl) (pl_item pl) ++ layout l ++ rest).
  { destruct (item_front (pl_style pl) (pl_nl pl) (pl_item pl) (layout l ++ rest) P1) as (c & r & Q & D). rewrite Q. apply digit_front. exact D. }
  assert (Hw' : skipped ([x0a] ++ (if pl_nl pl then [x0a] else []))).
  { intro t. apply blanks_wss. destruct (pl_nl pl); reflexivity. }
  pose proof (item_parses [] (pl_style pl) (pl_nl pl) (pl_item pl) (layout l ++ rest) eq_refl H0 H1) as P. rewrite app_nil_l in P.
  cbn [salvage] in E. rewrite Hw, G1, P in E. destruct g as [|g]; [discriminate E|]. cbn [repair] in E. rewrite Hw, G1 in E.
  destruct (by_keyword _) as [[i r]|] eqn:K in E; [|discriminate E].
  assert (Et := f_equal (@tl _) E). cbn [tl] in Et.
  assert (Ei := f_equal (fun l => match l with x :: _ => Some (snd x) | [] => None end) E). cbn [snd] in Ei. apply some_inj in Ei. subst i. clear E.
  pose proof (item_plain _ _ _ _ _ H0 H1 K) as Q. constructor; [exact Q|].
  pose proof (item_by_keyword [] (pl_style pl) (pl_nl pl) (pl_item pl) (layout l ++ rest) eq_refl H0 H1 Q) as B. rewrite app_nil_l in B.
  rewrite B in K. assert (r = [x0a] ++ (if pl_nl pl then [x0a] else []) ++ layout l ++ rest) as ->
    by (apply some_inj in K; exact (eq_sym (f_equal snd K))).
  apply (IH _ f g Hw' H2 P2); [cbn [length] in Hf; lia|].
  rewrite app_assoc in Et. exact Et.
Qed.

Lemma file_plain ops k rest file :
  ops_typed ops -> one_line (marker_of ops) = true -> file = header_of ops ++ layout k ++ rest ->
  forallb (fun pl => body_readable (snd (pl_item pl)) && body_fits (snd (pl_item pl))) k = true ->
  Forall (fun pl => 0 < fst (pl_item pl)) k -> repaired file = salvaged file ->
  Forall (fun pl => plain_object (item_val (pl_item pl))) k.
Proof.
  intros HT HM FB GO PO E. unfold repaired, salvaged in E. rewrite FB in E at 3 6.
  apply (layout_plain (blen file) rest k (header_of ops) (length file) (length file)); [|exact GO|exact PO| |exact E].
  - intro t. destruct (version_range ops HT) as [V1 V2]. destruct (digit_of _ V1) as [A1 _]. destruct (digit_of _ V2) as [B1 _].
    pose proof (header_skipped _ HM) as SK. rewrite header_of_form. unfold header. destruct (marker_of ops) as [[[a b] c] d].
    set (u := zb (48 + major_of ops)) in *. set (v := zb (48 + minor_of ops)) in *. clearbody u v.
    change ([x25; x50; x44; x46; x2d; u; x2e; v; x0a; x25; a; b; c; d; x0a; x0a] ++ t)
      with (x25 :: [x50; x44; x46; x2d; u; x2e; v] ++ x0a :: ((lit "%" ++ [a; b; c; d] ++ [x0a; x0a]) ++ t)).
    rewrite blanks_comment. unfold skip_line. rewrite span_all; [|destruct u; try discriminate A1; destruct v; try discriminate B1; reflexivity|reflexivity].
    cbn [snd]. rewrite blanks_ws by reflexivity. apply SK.
  - rewrite FB, !app_length. pose proof (placed_count k). lia.
Qed.

(** Every stream of the document can be delimited by its keyword, and so can its beginnings, exactly if the keyword is in the data of
    none of them and none ends in a carriage return. *)
Theorem C100_exactly : forall pretty ops p file,
  ops_typed ops -> pdf_run ops (pdf_with_settings pretty) = Some p -> finish p = Some file ->
  ids_below (pdf_ids ops) -> blen file <= 10 ^ 10 ->
  Forall (fun it => body_readable (snd it) = true) (pdf_items ops) -> one_line (marker_of ops) = true ->
  (repaired file = salvaged file <->
   Forall (fun it => match snd it with BObj _ => True | BStream _ data => plain_data data end) (pdf_items ops)).
Proof.
  intros pretty ops p file HT HR HF HB HL HA HM. split.
  - intro E. destruct (reach _ _ _ HT HR) as (k & M & ((Hb & O) & _) & Fit).
    pose proof (all_good k _ M Fit HA) as GO.
    assert (PO : Forall (fun pl => 0 < fst (pl_item pl)) k).
    { apply Forall_forall. intros pl Hp. pose proof (reach_pos _ HT) as P. rewrite Forall_forall in P. apply P. unfold pdf_ids. rewrite <- M, map_map.
      apply (in_map (fun x => fst (pl_item x))). exact Hp. }
    rewrite finish_form in HF. destruct (write_offsets _) as [[N es']|]; [|discriminate]. cbn [option_map fst snd] in HF. apply some_inj in HF.
    match type of HF with pdf_bytes p ++ ?t = _ => set (rest := t) in * end.
    assert (FB : file = header_of ops ++ layout k ++ rest) by (rewrite <- HF; unfold pdf_bytes; rewrite Hb, <- app_assoc; reflexivity).
    pose proof (file_plain ops k rest file HT HM FB GO PO E) as Q. rewrite <- M. clear - Q.
    induction Q as [|pl k Q _ IH]; cbn [map]; constructor; [|exact IH]. destruct (pl_item pl) as [id [o|es data]]; [exact Logic.I|exact Q].
  - intro D. pose proof (C100_streams_by_keyword pretty ops p file HT HR HF HB HL HA HM D (length file)) as Q.
    unfold cut in Q. rewrite firstn_all in Q. exact Q.
Qed.

Example C100_exactly_case : let ops := ending_ops in
  ops_typed ops /\ ids_below (pdf_ids ops) /\ Forall (fun it => body_readable (snd it) = true) (pdf_items ops) /\ one_line (marker_of ops) = true /\
  ~ Forall (fun it => match snd it with BObj _ => True | BStream _ data => plain_data data end) (pdf_items ops).
Proof.
  split; [repeat constructor|]. split; [unfold ids_below; repeat constructor; intros []|]. split; [repeat constructor|]. split; [reflexivity|].
  intro H. apply Forall_inv in H. destruct H as [H _]. vm_compute in H. discriminate H.
Qed.

(** The same with a cross-reference stream. *)
Theorem C100_exactly_stream : forall decode pretty ops p xref_id file,
  ops_typed ops -> pdf_run ops (pdf_with_settings pretty) = Some p ->
  id_ok xref_id = true -> ids_below (xref_id :: pdf_ids ops) ->
  finished_with_stream decode p xref_id file -> blen file < 2 ^ 64 ->
  Forall (fun it => body_readable (snd it) = true) (pdf_items ops) -> one_line (marker_of ops) = true ->
  (repaired file = salvaged file <-> Forall (fun x => plain_object (snd x)) (salvaged file)).
Proof.
  intros decode pretty ops p xid file HT HR HX HB HF HL HA HM. split.
  2:{ intro D. pose proof (C100_streams_by_keyword_stream decode pretty ops p xid file HT HR HX HB HF HL HA HM D (length file)) as Q.
      unfold cut in Q. rewrite firstn_all in Q. exact Q. }
  intro EQ. destruct (C93_read_through_stream decode pretty ops p xid file HT HR HX HB HF HL HA HM) as (objects & start & es0 & tr & data0 & RS & F2 & _).
  destruct (st_data decode pretty ops p xid file HT HR HX HB HF HL) as (es & flt & data & ND & EN & EL & EF & EB & DL & RD & SX & W1 & W2).
  pose proof (st_small pretty ops p xid HT HR HX HB) as SM.
  destruct (reach _ _ _ HT HR) as (k & M & ((Hb & O) & _) & Fit).
  pose proof (all_good k _ M Fit HA) as GO.
  set (N := 1 + zmax (xid :: pdf_ids ops)) in *. set (w := field_width (blen (pdf_bytes p))) in *.
  assert (NP : 0 < N <= i32_max) by (destruct (xref_entries _ ND SM) as (es' & E & B & _); rewrite EN in B; exact B).
  set (xit := (xid, BStream (stream_entries p flt N w) data)) in *.
  assert (XR : body_readable (snd xit) = true) by (apply stream_entries_readable; [exact (reach_trailer _ _ _ HT HR)|exact NP|lia]).
  assert (XF : body_fits (snd xit) = true) by (cbn [xit snd body_fits]; lia).
  set (xpl := mkPl pretty pretty xit). set (k2 := k ++ [xpl]).
  assert (GO2 : forallb (fun pl => body_readable (snd (pl_item pl)) && body_fits (snd (pl_item pl))) k2 = true).
  { unfold k2. rewrite forallb_app, GO. cbn [forallb xpl pl_item]. rewrite XR, XF. reflexivity. }
  set (rest := tail_bytes (blen (pdf_bytes p))) in *.
  assert (ST : stops rest).
  { split; [apply blanks_solid; reflexivity|]. right. unfold rest, tail_bytes. rewrite strip_app. discriminate. }
  assert (FB : file = header_of ops ++ layout k2 ++ rest).
  { rewrite EB at 1. unfold pdf_bytes. rewrite Hb. unfold k2. rewrite layout_app. cbn [layout flat_map]. rewrite app_nil_r, <- !app_assoc. reflexivity. }
  assert (PO : Forall (fun pl => 0 < fst (pl_item pl)) k2).
  { apply Forall_app. split; [|constructor; [cbn [xpl pl_item xit fst]; unfold id_ok in HX; lia|constructor]].
    apply Forall_forall. intros pl Hp. pose proof (reach_pos _ HT) as P. rewrite Forall_forall in P. apply P. unfold pdf_ids. rewrite <- M, map_map.
    apply (in_map (fun x => fst (pl_item x))). exact Hp. }
  pose proof (file_plain ops k2 rest file HT HM FB GO2 PO EQ) as Q. pose proof (layout_objects ops k2 rest file _ HT HM FB ST GO2 PO RS) as EO.
  rewrite (salvaged_all _ _ RS), EO. clear - Q. apply Forall_forall. intros [off x] Hx. apply in_combine_r in Hx. cbn [snd]. apply in_map_iff in Hx.
  destruct Hx as (pl & E & Hp). rewrite Forall_forall in Q. rewrite <- E. apply Q, Hp.
Qed.
(** Without a filter the cross-reference stream itself is no obstacle. *)
Theorem C100_exactly_plain_stream : forall pretty ops p xref_id file,
  ops_typed ops -> pdf_run ops (pdf_with_settings pretty) = Some p ->
  id_ok xref_id = true -> ids_below (xref_id :: pdf_ids ops) ->
  finish_with_xref_stream p xref_id = Some file -> blen file < 2 ^ 64 ->
  Forall (fun it => body_readable (snd it) = true) (pdf_items ops) -> one_line (marker_of ops) = true ->
  (repaired file = salvaged file <->
   Forall (fun it => match snd it with BObj _ => True | BStream _ data => plain_data data end) (pdf_items ops)).
Proof.
  intros pretty ops p xid file HT HR HX HB HF HL HA HM. split.
  - intro EQ. assert (FS : finished_with_stream no_filter p xid file) by (apply FinishedPlain; [exact HF|reflexivity]).
    destruct (C93_read_through_stream _ pretty ops p xid file HT HR HX HB FS HL HA HM) as (objects & start & es0 & tr & data0 & RS & F2 & _).
    pose proof (proj1 (C100_exactly_stream _ pretty ops p xid file HT HR HX HB FS HL HA HM) EQ) as Q.
    rewrite (salvaged_all _ _ RS) in Q. cbn [se_objects] in Q. apply Forall_app in Q. destruct Q as [Q _]. clear - F2 Q.
    induction F2 as [|it x l l' M F2 IH]; [constructor|]. inversion Q as [|? ? Q1 Q2]; subst. constructor; [|apply IH, Q2].
    destruct it as [id [o|es data]]; [exact Logic.I|]. cbn [snd] in *. destruct (snd x) eqn:EX; inversion M; subst. exact Q1.
  - intro D. pose proof (C100_streams_by_keyword_plain_stream pretty ops p xid file HT HR HX HB HF HL HA HM D (length file)) as Q.
    unfold cut in Q. rewrite firstn_all in Q. exact Q.
Qed.

Print Assumptions C100_exactly.
Print Assumptions C100_exactly_stream.
Print Assumptions C100_exactly_plain_stream.
