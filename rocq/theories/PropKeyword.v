(** Property C100: streams read up to their keyword. *)

From Coq Require Import ZArith List Lia Bool Permutation Sorted ZifyBool.
From Verif Require Import Bytes ModelFloat ModelBuf ModelObject ModelRenumber ModelChunk ModelPdf SpecLex SpecObj SpecMeans
  SpecRenum SpecChunk SpecFile SpecPdf SpecLimits SpecSerial SpecCut SpecKeyword ProofBasic ProofObj ProofParse ProofTree ProofRenum ProofXref ProofChunk ProofChunkParse ProofChunk2
  ProofFile ProofFile2 ProofPdf ProofFile3 ProofFile4 PropChunk PropPdf PropPdf2 PropSerial ProofCut ProofCut2 ProofCut3 PropCut ProofKeyword.
Import ListNotations.
Local Open Scope Z_scope.

Lemma read_both pre rest st nl it : body_readable (snd it) = true -> body_fits (snd it) = true -> plain_object (item_val it) ->
  by_keyword (from (pre ++ item_bytes st nl it ++ rest) (blen pre)) = parse_indirect (from (pre ++ item_bytes st nl it ++ rest) (blen pre)).
Proof.
  intros H1 H2 H3. rewrite from_app.
  pose proof (item_parses [] st nl it rest eq_refl H1 H2) as A. pose proof (item_by_keyword [] st nl it rest eq_refl H1 H2 H3) as B.
  rewrite app_nil_l in A, B. rewrite A, B. reflexivity.
Qed.

Lemma placed_both l : forall pre rest base x, base = blen pre ->
  forallb (fun pl => body_readable (snd (pl_item pl)) && body_fits (snd (pl_item pl))) l = true ->
  In x (combine (offsets base l) (map (fun pl => item_val (pl_item pl)) l)) -> plain_object (snd x) ->
  by_keyword (from (pre ++ layout l ++ rest) (fst x)) = parse_indirect (from (pre ++ layout l ++ rest) (fst x)).
Proof.
  induction l as [|pl l IH]; intros pre rest base x Hb H; [intros []|]. cbn [forallb] in H. apply andb_true_iff in H. destruct H as [H1 H2].
  apply andb_true_iff in H1. cbn [offsets offs map snd combine layout flat_map]. fold (layout l).
  intros [<-|I] Hp.
  - cbn [fst snd] in *. subst base. rewrite <- app_assoc. unfold placed_bytes. apply read_both; tauto.
  - rewrite <- app_assoc, app_assoc. apply (IH (pre ++ placed_bytes pl) rest (base + blen (placed_bytes pl)) x); [rewrite blen_app; lia|exact H2|exact I|exact Hp].
Qed.

(** What is met in a file with a known layout. *)
Lemma layout_objects ops k rest file se :
  ops_typed ops -> one_line (marker_of ops) = true -> file = header_of ops ++ layout k ++ rest -> stops rest ->
  forallb (fun pl => body_readable (snd (pl_item pl)) && body_fits (snd (pl_item pl))) k = true ->
  Forall (fun pl => 0 < fst (pl_item pl)) k ->
  read_serial file = Some se -> se_objects se = combine (offsets 16 k) (map (fun pl => item_val (pl_item pl)) k).
Proof.
  intros HT HM FB ST GO PO RS. unfold read_serial in RS. rewrite FB in RS at 1. rewrite header_reads in RS by exact HT.
  assert (FS : blen file = 16 + blen (layout k ++ rest)) by (rewrite FB, blen_app, header_of_length; reflexivity).
  assert (SC : scan (length ((let '(a, b, c, d) := marker_of ops in lit "%" ++ [a; b; c; d] ++ [x0a; x0a]) ++ layout k ++ rest)) (blen file)
    ((let '(a, b, c, d) := marker_of ops in lit "%" ++ [a; b; c; d] ++ [x0a; x0a]) ++ layout k ++ rest) = Some (combine (offsets 16 k) (map (fun pl => item_val (pl_item pl)) k), rest)).
  { pose proof (header_skipped _ HM) as SK. destruct (marker_of ops) as [[[a b] c] d]. apply scan_layout; [exact ST|exact SK|exact GO|exact PO| |lia].
    rewrite !app_length. pose proof (placed_count k). lia. }
  rewrite SC in RS. destruct (strip (lit "startxref") rest) as [q|].
  - destruct (last_lines q); [|discriminate RS]. cbn [option_map] in RS. apply some_inj in RS. rewrite <- RS. reflexivity.
  - destruct (table_then rest) as [[t q]|]; [|discriminate RS]. destruct (last_lines q); [|discriminate RS]. cbn [option_map] in RS. apply some_inj in RS. rewrite <- RS. reflexivity.
Qed.

Lemma both_agree ops k rest file se :
  ops_typed ops -> one_line (marker_of ops) = true -> file = header_of ops ++ layout k ++ rest -> stops rest ->
  forallb (fun pl => body_readable (snd (pl_item pl)) && body_fits (snd (pl_item pl))) k = true ->
  Forall (fun pl => 0 < fst (pl_item pl)) k ->
  read_serial file = Some se -> Forall (fun x => plain_object (snd x)) (se_objects se) ->
  Forall (fun x => by_keyword (from file (fst x)) = parse_indirect (from file (fst x))) (se_objects se).
Proof.
  intros HT HM FB ST GO PO RS PL. pose proof (layout_objects ops k rest file se HT HM FB ST GO PO RS) as EO.
  rewrite Forall_forall in *. intros x Hx. specialize (PL x Hx). rewrite EO in Hx. rewrite FB.
  apply (placed_both k (header_of ops) rest 16); [rewrite header_of_length; reflexivity|exact GO|exact Hx|exact PL].
Qed.

(** ** C100 *)

(** With a cross-reference table. *)
Theorem C100_streams_by_keyword : forall pretty ops p file,
  ops_typed ops -> pdf_run ops (pdf_with_settings pretty) = Some p -> finish p = Some file ->
  ids_below (pdf_ids ops) -> blen file <= 10 ^ 10 ->
  Forall (fun it => body_readable (snd it) = true) (pdf_items ops) -> one_line (marker_of ops) = true ->
  Forall (fun it => match snd it with BObj _ => True | BStream _ data => plain_data data end) (pdf_items ops) ->
  forall n, repaired (cut n file) = salvaged (cut n file).
Proof.
  intros pretty ops p file HT HR HF HB HL HA HM HD n.
  destruct (C93_read_through no_filter pretty ops p file HT HR HF HB HL HA HM) as (objects & start & es & tr & RS & F2 & _).
  apply (repaired_cut _ _ n RS).
  destruct (reach _ _ _ HT HR) as (k & M & ((Hb & O) & _) & Fit).
  pose proof (all_good k _ M Fit HA) as GO.
  assert (PO : Forall (fun pl => 0 < fst (pl_item pl)) k).
  { apply Forall_forall. intros pl Hp. pose proof (reach_pos _ HT) as P. rewrite Forall_forall in P. apply P. unfold pdf_ids. rewrite <- M, map_map.
    apply (in_map (fun x => fst (pl_item x))). exact Hp. }
  rewrite finish_form in HF. destruct (write_offsets _) as [[N es']|]; [|discriminate]. cbn [option_map fst snd] in HF. apply some_inj in HF.
  match type of HF with pdf_bytes p ++ ?t = _ => set (rest := t) in * end.
  assert (ST : stops rest).
  { split; [apply blanks_solid; reflexivity|]. left. unfold rest. rewrite strip_app. discriminate. }
  assert (FB : file = header_of ops ++ layout k ++ rest) by (rewrite <- HF; unfold pdf_bytes; rewrite Hb, <- app_assoc; reflexivity).
  apply (both_agree ops k rest file _ HT HM FB ST GO PO RS). cbn [se_objects].
  clear - F2 HD. induction F2 as [|it x l m H _ IH]; [constructor|]. apply Forall_cons_iff in HD. destruct HD as [D1 D2]. constructor; [|exact (IH D2)].
  destruct H; [exact Logic.I|exact D1].
Qed.

(** With a cross-reference stream, whose data is one more thing that must not be mistaken. *)
Theorem C100_streams_by_keyword_stream : forall decode pretty ops p xref_id file,
  ops_typed ops -> pdf_run ops (pdf_with_settings pretty) = Some p ->
  id_ok xref_id = true -> ids_below (xref_id :: pdf_ids ops) ->
  finished_with_stream decode p xref_id file -> blen file < 2 ^ 64 ->
  Forall (fun it => body_readable (snd it) = true) (pdf_items ops) -> one_line (marker_of ops) = true ->
  Forall (fun x => plain_object (snd x)) (salvaged file) ->
  forall n, repaired (cut n file) = salvaged (cut n file).
Proof.
  intros decode pretty ops p xid file HT HR HX HB HF HL HA HM HD n.
  destruct (C93_read_through_stream decode pretty ops p xid file HT HR HX HB HF HL HA HM) as (objects & start & es0 & tr & data0 & RS & F2 & _).
  apply (repaired_cut _ _ n RS). rewrite (salvaged_all _ _ RS) in HD.
  destruct (st_data decode pretty ops p xid file HT HR HX HB HF HL) as (es & flt & data & ND & EN & EL & EF & EB & DL & RD & SX & W1 & W2).
  pose proof (st_small pretty ops p xid HT HR HX HB) as SM.
  destruct (reach _ _ _ HT HR) as (k & M & ((Hb & O) & _) & Fit).
  pose proof (all_good k _ M Fit HA) as GO.
  set (N := 1 + zmax (xid :: pdf_ids ops)) in *. set (w := field_width (blen (pdf_bytes p))) in *.
  assert (NP : 0 < N <= i32_max) by (destruct (xref_entries _ ND SM) as (es' & E & B & _); rewrite EN in B; exact B).
  set (xit := (xid, BStream (stream_entries p flt N w) data)) in *.
  assert (XR : body_readable (snd xit) = true) by (apply stream_entries_readable; [exact (reach_trailer _ _ _ HT HR)|exact NP|lia]).
  assert (XF : body_fits (snd xit) = true) by (cbn [xit snd body_fits]; lia).
  set (xpl := mkPl pretty pretty xit). set (k2 := k ++ [xpl]).
  assert (GO2 : forallb (fun pl => body_readable (snd (pl_item pl)) && body_fits (snd (pl_item pl))) k2 = true).
  { unfold k2. rewrite forallb_app, GO. cbn [forallb xpl pl_item]. rewrite XR, XF. reflexivity. }
  set (rest := tail_bytes (blen (pdf_bytes p))) in *.
  assert (ST : stops rest).
  { split; [apply blanks_solid; reflexivity|]. right. unfold rest, tail_bytes. rewrite strip_app. discriminate. }
  assert (FB : file = header_of ops ++ layout k2 ++ rest).
  { rewrite EB at 1. unfold pdf_bytes. rewrite Hb. unfold k2. rewrite layout_app. cbn [layout flat_map]. rewrite app_nil_r, <- !app_assoc. reflexivity. }
  assert (PO : Forall (fun pl => 0 < fst (pl_item pl)) k2).
  { apply Forall_app. split; [|constructor; [cbn [xpl pl_item xit fst]; unfold id_ok in HX; lia|constructor]].
    apply Forall_forall. intros pl Hp. pose proof (reach_pos _ HT) as P. rewrite Forall_forall in P. apply P. unfold pdf_ids. rewrite <- M, map_map.
    apply (in_map (fun x => fst (pl_item x))). exact Hp. }
  exact (both_agree ops k2 rest file _ HT HM FB ST GO2 PO RS HD).
Qed.

(** ** Cross-reference streams that are not filtered *)

Lemma until_skip (k : bytes) (c : byte) rest : ~ In c k -> k <> [] -> until k rest = None -> until k (c :: rest) = None.
Proof.
  intros N K H. assert (Z0 : strip k [] = None) by (destruct k; [contradiction K; reflexivity|reflexivity]).
  rewrite until_eq. destruct (strip k (c :: rest)) as [q|] eqn:E; [exfalso; apply N; exact (strip_straddle k [] c _ q Z0 E)|]. rewrite H. reflexivity.
Qed.

Lemma entry_form fw e : 0 <= fw <= 8 -> match e with Free n q => q = 0 \/ q = 65535 | Used o q => q = 0 end ->
  exists ty o g, stream_entry fw e = ty :: o ++ [g; g] /\ (length o <= 8)%nat /\ (ty = x00 \/ ty = x01) /\ (g = x00 \/ g = xff).
Proof.
  intros W H. unfold stream_entry. destruct e as [n q|o q].
  - exists x00, (skipn (8 - Z.to_nat fw) (be_bytes 8 n)), (if q =? 0 then x00 else xff).
    split; [destruct H as [-> | ->]; reflexivity|]. split; [rewrite skipn_length; cbn [be_bytes app length]; rewrite ?app_length; cbn [length]; lia|].
    split; [left; reflexivity|]. destruct (q =? 0); [left|right]; reflexivity.
  - exists x01, (skipn (8 - Z.to_nat fw) (be_bytes 8 o)), x00.
    split; [rewrite H; reflexivity|]. split; [rewrite skipn_length; cbn [be_bytes app length]; rewrite ?app_length; cbn [length]; lia|].
    split; [right; reflexivity|left; reflexivity].
Qed.

Lemma entries_plain fw es : 0 <= fw <= 8 -> Forall (fun e => match e with Free n q => q = 0 \/ q = 65535 | Used o q => q = 0 end) es ->
  plain_data (flat_map (stream_entry fw) es).
Proof.
  intros W F. split.
  - induction F as [|e es H F IH]; [reflexivity|]. cbn [flat_map].
    destruct (entry_form fw e W H) as (ty & o & g & -> & L & T & G). cbn [app]. rewrite <- app_assoc. cbn [app].
    apply until_skip; [|discriminate|].
    + destruct T as [-> | ->]; intro X; cbn in X; repeat (destruct X as [X|X]; [discriminate X|]); exact X.
    + assert (NG : ~ In g (lit "endstream")) by (destruct G as [-> | ->]; intro X; cbn in X; repeat (destruct X as [X|X]; [discriminate X|]); exact X).
      apply until_short; [exact NG|exact NG|discriminate|exact IH|]. change (length (lit "endstream")) with 9%nat. lia.
  - intros x E. destruct (rev es) as [|e r] eqn:R.
    + apply (f_equal (@rev xref_entry)) in R. rewrite rev_involutive in R. subst es. cbn in E. destruct x; discriminate E.
    + assert (Ed : es = rev r ++ [e]) by (apply (f_equal (@rev xref_entry)) in R; rewrite rev_involutive in R; exact R).
      assert (He : match e with Free n q => q = 0 \/ q = 65535 | Used o q => q = 0 end).
      { rewrite Forall_forall in F. apply F. rewrite Ed. apply in_or_app. right. left. reflexivity. }
      rewrite Ed, flat_map_app in E. cbn [flat_map] in E. rewrite app_nil_r in E.
      destruct (entry_form fw e W He) as (ty & o & g & Ee & _ & _ & G). rewrite Ee in E.
      replace (ty :: o ++ [g; g]) with ((ty :: o ++ [g]) ++ [g]) in E by (cbn [app]; rewrite <- app_assoc; reflexivity).
      rewrite app_assoc in E. apply app_inj_tail in E. destruct E as [_ E]. destruct G as [-> | ->]; discriminate E.
Qed.

Theorem C100_streams_by_keyword_plain_stream : forall pretty ops p xref_id file,
  ops_typed ops -> pdf_run ops (pdf_with_settings pretty) = Some p ->
  id_ok xref_id = true -> ids_below (xref_id :: pdf_ids ops) ->
  finish_with_xref_stream p xref_id = Some file -> blen file < 2 ^ 64 ->
  Forall (fun it => body_readable (snd it) = true) (pdf_items ops) -> one_line (marker_of ops) = true ->
  Forall (fun it => match snd it with BObj _ => True | BStream _ data => plain_data data end) (pdf_items ops) ->
  forall n, repaired (cut n file) = salvaged (cut n file).
Proof.
  intros pretty ops p xid file HT HR HX HB HF HL HA HM HD n.
  assert (HF' : finished_with_stream no_filter p xid file) by (apply FinishedPlain; [exact HF|reflexivity]).
  apply (C100_streams_by_keyword_stream no_filter pretty ops p xid file HT HR HX HB HF' HL HA HM).
  destruct (C93_read_through_stream no_filter pretty ops p xid file HT HR HX HB HF' HL HA HM) as (objects & start & es0 & tr & data0 & RS & F2 & SX0 & RD0 & _).
  rewrite (salvaged_all _ _ RS). cbn [se_objects]. apply Forall_app. split.
  { clear - F2 HD. induction F2 as [|it x l m H _ IH]; [constructor|]. apply Forall_cons_iff in HD. destruct HD as [D1 D2]. constructor; [|exact (IH D2)].
    destruct H; [exact Logic.I|exact D1]. }
  constructor; [|constructor]. cbn [snd plain_object].
  destruct (st_data no_filter pretty ops p xid file HT HR HX HB HF' HL) as (es & flt & data & ND & EN & EL & EF & EB & DL & RD & SX & W1 & W2).
  pose proof (st_small pretty ops p xid HT HR HX HB) as SM.
  (* the stream at the end *)
  pose proof (serial_reads _ _ RS) as RR. cbn [se_objects] in RR. apply Forall_app in RR. destruct RR as [_ RR]. apply Forall_inv in RR. cbn [fst snd] in RR.
  destruct RR as [r RR]. assert (Es : start = blen (pdf_bytes p)) by congruence. subst start.
  assert (OX : NoDup (ids (with_xref p xid))) by exact ND.
  destruct (xref_entries _ ND SM) as (es' & E & NP & _ & EF').
  unfold finish_with_xref_stream in HF. rewrite finish_stream_form in HF. cbn zeta in HF.
  change (c_offsets (p_chunk p) ++ [(xid, blen (pdf_bytes p))]) with (with_xref p xid) in HF. rewrite E in HF. cbv beta iota in HF.
  destruct (blen (flat_map (stream_entry (field_width (blen (pdf_bytes p)))) es') <=? i32_max) eqn:LL; [|discriminate HF].
  apply some_inj in HF. rewrite <- HF, from_app in RR.
  match type of RR with parse_indirect (item_bytes ?a ?b ?it ++ ?t) = _ =>
    pose proof (item_parses [] a b it t eq_refl) as P end.
  cbn [app snd] in P.
  rewrite P in RR; [|apply stream_entries_readable; [exact (reach_trailer _ _ _ HT HR)|exact NP|lia]|exact LL].
  apply some_inj in RR. unfold item_val in RR. cbn [fst snd] in RR. 
  assert (Q : data0 = flat_map (stream_entry (field_width (blen (pdf_bytes p)))) es') by congruence. rewrite Q.
  apply entries_plain; [lia|]. pose proof (values_small _ _ _ (proj1 NP) EF') as V. eapply Forall_impl; [|exact V].
  intros [a b|a b]; cbv beta iota; tauto.
Qed.

(** ** Refuted without the conditions *)

(** A carriage return at the end of the data is lost, and the keyword in the data ends it early. *)
Definition carriage_ops : list pdf_op := [PdfStream 1 [] [x61; x0d]].
Definition ending_ops : list pdf_op := [PdfStream 1 [] (lit "a endstream endobj")].

Definition data_of (i : indirect) : bytes := match i with IObj _ _ _ => [] | IStream _ _ _ d => d end.

Definition both (ops : list pdf_op) : option (list bytes * list bytes) :=
  match pdf_run ops (pdf_with_settings false) with
  | Some p => match finish p with Some f => Some (map (fun x => data_of (snd x)) (repaired f), map (fun x => data_of (snd x)) (salvaged f)) | None => None end
  | None => None
  end.

Theorem C100_carriage_return_refuted : ops_typed carriage_ops /\ both carriage_ops = Some ([[x61]], [[x61; x0d]]).
Proof. split; [repeat constructor|vm_compute; reflexivity]. Qed.

Theorem C100_keyword_in_data_refuted : ops_typed ending_ops /\
  both ending_ops = Some ([lit "a "], [lit "a endstream endobj"]).
Proof. split; [repeat constructor|vm_compute; reflexivity]. Qed.

(** Objects written out of order and with gaps; the stream among them is plain. *)
Example C100_case :
  let ops := example_ops in
  ops_typed ops /\ ids_below (pdf_ids ops) /\ ids_below (5 :: pdf_ids ops) /\ one_line (marker_of ops) = true /\
  Forall (fun it => body_readable (snd it) = true) (pdf_items ops) /\
  Forall (fun it => match snd it with BObj _ => True | BStream _ data => plain_data data end) (pdf_items ops) /\
  both ops = Some (let l := [[]; lit "1 0 obj" ++ [x0a] ++ lit "xref" ++ [x0a] ++ lit "startxref"; []; []; []; []] in (l, l)).
Proof.
  cbv zeta. split; [exact example_ops_typed|].
  split; [unfold ids_below; repeat constructor|]. split; [unfold ids_below; repeat constructor|]. split; [reflexivity|].
  split; [apply Forall_forall; apply forallb_forall; vm_compute; reflexivity|].
  split; [|vm_compute; reflexivity].
  match goal with |- Forall ?P ?l => let v := eval vm_compute in l in change (Forall P v) end.
  repeat (apply Forall_cons; [first [exact Logic.I|split; [vm_compute; reflexivity|]]|]); try apply Forall_nil.
  intros x E; apply (f_equal (@rev byte)) in E; rewrite rev_app_distr in E; discriminate E.
Qed.

Print Assumptions C100_streams_by_keyword.
Print Assumptions C100_streams_by_keyword_stream.
Print Assumptions C100_streams_by_keyword_plain_stream.
Print Assumptions C100_carriage_return_refuted.
Print Assumptions C100_keyword_in_data_refuted.
