(** C104: the limits reported for a document bound everything that is found in its file. *)

From Coq Require Import ZArith List Lia Bool Permutation ZifyBool.
From Verif Require Import Bytes ModelFloat ModelBuf ModelObject ModelRenumber ModelChunk ModelPdf SpecLex SpecObj SpecMeans
  SpecRenum SpecChunk SpecFile SpecPdf SpecLimits SpecMerge SpecSame SpecWithin ProofBasic ProofObj ProofParse ProofTree ProofRenum ProofXref ProofRenumTree ProofChunk
  ProofChunkParse ProofChunk2 ProofFile ProofFile2 ProofPdf ProofFile3 ProofFile4 ProofLimits ProofLimits2 ProofLimits3 ProofMerge PropChunk PropRenum PropPdf PropPdf2 ProofSame
  PropSame PropMerge PropLimits ProofWithin.
From Verif Require ModelContent SpecContent ProofContent PropContent.
Import ListNotations.
Local Open Scope Z_scope.

(** ** Objects *)
Lemma object_within l it : item_typed it = true -> body_readable (snd it) = true -> body_fits (snd it) = true -> lok l ->
  limits_le (item_lim it) l -> within_object l (item_val it).
Proof.
  intros HT HR HF Hl LE. pose proof HT as HT0. unfold item_typed in HT0. apply andb_true_iff in HT0. destruct HT0 as [HI HB].
  unfold item_lim in LE. apply lub in LE; [|apply int_lim_ok|apply body_lim_ok; exact HB|exact Hl]. destruct LE as [L1 L2].
  assert (I : in_i32 (fst it) = true) by (unfold id_ok, in_i32, i32_min, i32_max in *; lia).
  assert (N : 0 < fst it <= l_int l) by (unfold id_ok in HI; destruct (int_lim_le l _ I L1); lia).
  destruct it as [id [o|es data]]; cbn [fst snd item_val within_object body_readable body_fits body_obj] in *.
  - apply andb_true_iff in HR. split; [exact N|]. split; [reflexivity|]. apply tree_within; tauto.
  - unfold entries_readable in HR. apply andb_true_iff in HR. destruct HR as [HO _]. split; [exact N|]. split; [reflexivity|].
    assert (D : in_i32 (blen data) = true) by (pose proof (blen_nonneg data); unfold in_i32, i32_min, i32_max in *; lia).
    assert (OK : obj_ok (stream_obj es data) = true) by (cbn [stream_obj obj_ok forallb snd prim_ok] in *; rewrite D, HO; reflexivity).
    split; [exact (tree_within l _ OK Hl L2)|].
    pose proof (ok_reals_valid _ OK) as RV. unfold stream_obj in *. cbn [reals_valid forallb snd] in RV. apply andb_true_iff in RV. destruct RV as [_ RV].
    rewrite obj_lim_dict, entries_lim_cons in L2. pose proof (name_lim_ok (blen (lit "Length")) ltac:(discriminate)) as NL.
    assert (IL : lok (obj_lim (OPrim (PInt (blen data))))) by apply int_lim_ok.
    apply lub in L2; [|auto using merge_ok, entries_ok|apply dict_lim_ok; lia|exact Hl]. destruct L2 as [L2 _].
    apply lub in L2; [|auto using merge_ok|auto using entries_ok|exact Hl]. destruct L2 as [L2 _].
    apply lub in L2; try assumption. destruct L2 as [_ L2]. cbn [obj_lim prim_lim] in L2.
    pose proof (blen_nonneg data). destruct (int_lim_le l _ D L2); lia.
Qed.

(** ** What is merged in *)
Lemma renumber_limits h1 h2 T (f : T -> Z -> Z * T) s c : hist_typed (HRenumber h1 h2 T f s) -> merges_ok (HRenumber h1 h2 T f s) -> run (HRenumber h1 h2 T f s) = Some c ->
  exists c1 c2 r, run h1 = Some c1 /\ run h2 = Some c2 /\ lok (chunk_limits c1) /\ lok (chunk_limits c2) /\ lok r /\
    chunk_limits c = merge (merge (chunk_limits c1) (chunk_limits c2)) r.
Proof.
  cbn [hist_typed merges_ok run]. intros [H1 [H2 H3]] [M1 M2] Hr.
  destruct (run h1) as [c1|] eqn:R1; [|discriminate]. destruct (run h2) as [c2|] eqn:R2; [|discriminate].
  destruct (run_bounds h1 H1 M1 c1 R1) as [A1 _]. destruct (run_bounds h2 H2 M2 c2 R2) as [A2 _].
  pose proof (run_holds h1 H1) as P1. pose proof (run_holds h2 H2) as P2.
  destruct (items_fit (hist_items h1)); [|congruence]. destruct (items_fit (hist_items h2)); [|congruence].
  destruct P1 as [x1 [l1 [X1 [X2 [X3 X4]]]]]. destruct P2 as [x2 [l2 [Y1 [Y2 [Y3 Y4]]]]].
  rewrite R1 in X1. injection X1 as <-. rewrite R2 in Y1. injection Y1 as <-.
  pose proof (items_typed h2 H2) as Tt.
  destruct (renumber_holds f [] [] l2 l1 c2 c1 s Y2 X2 ltac:(rewrite Y3; exact Tt)) as [c' [E [_ [_ EL]]]].
  rewrite E in Hr. cbn [option_map fst] in Hr. injection Hr as <-. rewrite note_refs_merge in EL by auto using merge_ok.
  exists c1, c2. eexists. split; [reflexivity|]. split; [reflexivity|]. split; [exact A1|]. split; [exact A2|]. split; [|exact EL]. apply refs_lim_ok.
Qed.
Lemma to_le a b : lok a -> lok b -> limits_le a b <-> le a b.
Proof. intros. unfold le. apply le_iff; assumption. Qed.
Lemma run_merges m h : limits_ok m = true -> hist_typed h -> merges_ok h -> merged_into m h -> forall c, run h = Some c -> limits_le m (chunk_limits c).
Proof.
  intro Om. apply limits_ok_iff in Om. intros Ht Hm M. induction M as [h|h id o M IH|h id es data M IH|h l M IH|h h2 M IH|h h2 M IH|h src T f s M IH|h src T f s M IH];
    intros c Hr; pose proof (run_bounds _ Ht Hm c Hr) as [Lc _]; apply to_le; try assumption; cbn [hist_typed merges_ok run] in *.
  - destruct (run h) as [c0|] eqn:R0; [|discriminate]. injection Hr as <-. destruct (run_bounds h Ht (proj1 Hm) c0 R0) as [L0 _].
    change (chunk_limits (chunk_merge_limits m c0)) with (merge (chunk_limits c0) m). apply le_r; assumption.
  - destruct Ht as [H1 H2]. destruct (run h) as [c0|] eqn:R0; [|discriminate]. injection Hr as <-. destruct (run_bounds h H1 Hm c0 R0) as [L0 _].
    rewrite object_limits by assumption. apply le_up_l; try assumption; [apply item_lim_ok; exact H2|]. apply to_le; auto.
  - destruct Ht as [H1 H2]. destruct (run h) as [c0|] eqn:R0; [|discriminate]. destruct (run_bounds h H1 Hm c0 R0) as [L0 _].
    rewrite (stream_limits _ _ _ _ _ L0 H2 Hr). apply le_up_l; try assumption; [apply item_lim_ok; exact H2|]. apply to_le; auto.
  - destruct Hm as [M1 M2]. apply limits_ok_iff in M2. destruct (run h) as [c0|] eqn:R0; [|discriminate]. injection Hr as <-. destruct (run_bounds h Ht M1 c0 R0) as [L0 _].
    change (chunk_limits (chunk_merge_limits l c0)) with (merge (chunk_limits c0) l). apply le_up_l; try assumption. apply to_le; auto.
  - destruct Ht as [H1 H2]. destruct Hm as [M1 M2]. destruct (run h) as [c1|] eqn:R1; [|discriminate]. destruct (run h2) as [c2|] eqn:R2; [|discriminate]. injection Hr as <-.
    destruct (run_bounds h H1 M1 c1 R1) as [L1 _]. destruct (run_bounds h2 H2 M2 c2 R2) as [L2 _].
    change (chunk_limits (chunk_extend c2 c1)) with (merge (chunk_limits c1) (chunk_limits c2)). apply le_up_l; try assumption. apply to_le; auto.
  - destruct Ht as [H1 H2]. destruct Hm as [M1 M2]. destruct (run h) as [c1|] eqn:R1; [|discriminate]. destruct (run h2) as [c2|] eqn:R2; [|discriminate]. injection Hr as <-.
    destruct (run_bounds h H1 M1 c1 R1) as [L1 _]. destruct (run_bounds h2 H2 M2 c2 R2) as [L2 _].
    change (chunk_limits (chunk_extend c2 c1)) with (merge (chunk_limits c1) (chunk_limits c2)). apply le_up_r; try assumption. apply to_le; auto.
  - pose proof (renumber_limits h src T f s c Ht Hm Hr) as (c1 & c2 & r & R1 & R2 & L1 & L2 & LR & E). rewrite E. destruct Ht as [H1 [H2 H3]]. destruct Hm as [M1 M2].
    apply le_up_l; auto using merge_ok. apply le_up_l; auto. apply to_le; auto.
  - pose proof (renumber_limits h src T f s c Ht Hm Hr) as (c1 & c2 & r & R1 & R2 & L1 & L2 & LR & E). rewrite E. destruct Ht as [H1 [H2 H3]]. destruct Hm as [M1 M2].
    apply le_up_l; auto using merge_ok. apply le_up_r; auto. apply to_le; auto.
Qed.
Lemma merged_as_chunk m pretty ops : merged_in m ops -> merged_into m (as_chunk pretty ops).
Proof.
  induction ops as [|op ops IH] using rev_ind; intro H; [inversion H|]. rewrite as_chunk_snoc. apply Exists_app in H. destruct H as [H|H].
  - specialize (IH H). destruct op; cbn [on_a_chunk]; try constructor; exact IH.
  - apply Exists_cons in H. destruct H as [H|H]; [|inversion H]. destruct H; cbn [on_a_chunk].
    + apply merged_now.
    + apply merged_in_extension; assumption.
    + apply merged_in_source; assumption.
Qed.

(** ** Contents *)
Import ModelContent SpecContent ProofContent.
Lemma operand_limits p first o b : lok (lims b) -> reals_valid o = true -> lims (op_operand p first o b) = merge (lims b) (obj_lim o).
Proof.
  intros Hb Hv. destruct (tree_limits o Hv) as [_ W]. unfold op_operand. destruct p; [destruct (inner b); rewrite W; (exact Hb || reflexivity)|apply W, Hb].
Qed.
Lemma operands_limits p l : forall first b, lok (lims b) -> forallb reals_valid l = true ->
  let b' := snd (op_operands p first l b) in lok (lims b') /\ le (lims b) (lims b') /\ Forall (fun o => le (obj_lim o) (lims b')) l.
Proof.
  induction l as [|o l IH]; intros first b Hb Hv; cbn [op_operands snd]; [split; [exact Hb|split; [apply le_refl; exact Hb|constructor]]|].
  cbn [forallb] in Hv. apply andb_true_iff in Hv. destruct Hv as [V1 V2]. pose proof (obj_lim_ok o V1) as OL.
  pose proof (operand_limits p first o b Hb V1) as E. assert (L1 : lok (lims (op_operand p first o b))) by (rewrite E; auto using merge_ok).
  destruct (IH false (op_operand p first o b) L1 V2) as (A & B & C). cbv zeta in *. split; [exact A|].
  split; [eapply le_trans; [exact Hb|exact L1|exact A| |exact B]; rewrite E; apply le_l; assumption|].
  constructor; [|exact C]. eapply le_trans; [exact OL|exact L1|exact A| |exact B]. rewrite E. apply le_r; assumption.
Qed.
Lemma drop_limits p first k b : lims (op_drop p first k b) = lims b.
Proof. unfold op_drop. destruct (_ && _); reflexivity. Qed.
Lemma content_limits calls : forall c c', lok (lims (ct_buf c)) -> content_run calls c = Some c' ->
  forallb (fun call => forallb reals_valid (fst (call_op call))) calls = true ->
  lok (lims (ct_buf c')) /\ le (lims (ct_buf c)) (lims (ct_buf c')) /\
  Forall (fun call => Forall (fun o => le (obj_lim o) (lims (ct_buf c'))) (fst (call_op call))) calls.
Proof.
  induction calls as [|call r IH]; intros c c' Hc H V.
  - cbn in H. injection H as <-. split; [exact Hc|]. split; [apply le_refl; exact Hc|constructor].
  - cbn [content_run forallb] in *. apply andb_true_iff in V. destruct V as [V1 V2].
    destruct (content_step call c) as [c1|] eqn:E; [|discriminate]. unfold content_step in E. destruct (call_allowed call); [|discriminate].
    destruct (call_op call) as [os k] eqn:EC. cbn [fst] in *. injection E as <-. unfold write_op in *.
    pose proof (operands_limits (ct_pretty c) os true (ct_buf c) Hc V1) as (A & B & C). cbv zeta in A, B, C.
    destruct (op_operands (ct_pretty c) true os (ct_buf c)) as [f b]. cbn [snd ct_buf ct_pretty ct_depth] in *.
    assert (L1 : lok (lims (op_drop (ct_pretty c) f k b))) by (rewrite drop_limits; exact A).
    match type of H with content_run r ?cc = _ => destruct (IH cc c' L1 H V2) as (D & F & G) end. cbn [ct_buf] in F. rewrite drop_limits in F. split; [exact D|]. split; [eapply le_trans; [exact Hc|exact A|exact D|exact B|exact F]|].
    constructor; [|exact G]. rewrite Forall_forall in C |- *. intros o Ho. rewrite EC in Ho. cbn [fst] in Ho. rewrite forallb_forall in V1. eapply le_trans; [apply obj_lim_ok, V1, Ho|exact A|exact D|apply C, Ho|exact F].
Qed.
Lemma calls_valid p calls : forallb (ccall_ok p) calls = true -> forallb (fun call => forallb reals_valid (fst (call_op call))) calls = true.
Proof.
  intro H. rewrite forallb_forall in *. intros c Hc. specialize (H c Hc). unfold ccall_ok in H. rewrite iso_call in H. destruct (call_op c) as [os k].
  cbn [fst]. rewrite !andb_true_iff in H. destruct H as [[H _] _]. rewrite forallb_forall in *. intros o Ho. apply ok_reals_valid, H, Ho.
Qed.

(** ** C104 *)

(** Every object that a reader finds in the file, however the document was put together: every number, name, string, array and dictionary in it. *)
Theorem C104_objects_within_limits : forall decode ops file own pretty p it,
  file_of decode ops file own -> pdf_run ops (pdf_with_settings pretty) = Some p -> ops_merges_ok ops ->
  In it (pdf_items ops) -> body_readable (snd it) = true ->
  exists i, resolve decode file (fst it) = Some i /\ item_means it i /\ within_object (chunk_limits (p_chunk p)) i.
Proof.
  intros decode ops file own pretty p it FO HR HM HI HB. destruct (value_found decode ops file own FO) as (VF & _).
  assert (HT : ops_typed ops) by (destruct FO; assumption).
  exists (item_val it). split; [apply VF; assumption|]. split; [apply item_val_means; exact HB|].
  destruct (twin pretty ops p HT HM HR) as (c & k & RC & _ & _ & _ & _ & _ & EL & LK). rewrite EL.
  destruct (run_bounds _ (as_chunk_typed pretty ops HT) (as_chunk_merges pretty ops HM) c RC) as [_ B]. rewrite as_chunk_items, Forall_forall in B.
  destruct (B it HI) as [L1 L2]. pose proof (items_typed _ (as_chunk_typed pretty ops HT)) as TY. rewrite as_chunk_items, forallb_forall in TY.
  destruct (reach _ _ _ HT HR) as (k' & M & _ & Fit).
  apply object_within; [apply TY; exact HI|exact HB|exact (items_fit_in _ _ Fit HI)|exact LK|]. apply to_le; assumption.
Qed.

Lemma operations_within pretty calls c : forallb (ccall_ok pretty) calls = true -> content_run calls (content_with_settings pretty) = Some c ->
  lok (lims (content_finish c)) /\
  exists operations, parse_content (inner (content_finish c)) = Some operations /\ Forall2 ccall_means calls operations /\
    forall l, lok l -> limits_le (lims (content_finish c)) l -> Forall (fun op => Forall (within l) (fst op)) operations.
Proof.
  intros Hok Hr. rewrite PropContent.C36_finish_keeps_limits.
  assert (L0 : lok (lims (ct_buf (content_with_settings pretty)))) by (cbn; apply limits0_ok).
  destruct (content_limits calls _ _ L0 Hr (calls_valid _ _ Hok)) as (A & _ & C). split; [exact A|].
  destruct (PropContent.C36_finish_keeps_operations pretty calls c Hok Hr) as (E & ops & P & M). pose proof (content_parses pretty calls c Hok Hr) as P'.
  rewrite <- E in P'. exists (map call_vals calls). split; [exact P'|]. rewrite P in P'. injection P' as ->. split; [exact M|]. clear P M.
  intros l Hl LE. apply to_le in LE; [|exact A|exact Hl].
  apply Forall_map. rewrite Forall_forall in C |- *. intros call Hc. specialize (C call Hc). unfold call_vals. cbn [fst].
  rewrite forallb_forall in Hok. specialize (Hok call Hc). unfold ccall_ok in Hok. rewrite iso_call in Hok. destruct (call_op call) as [os k]. cbn [fst] in *.
  rewrite !andb_true_iff in Hok. destruct Hok as [[H _] _]. rewrite forallb_forall in H. apply Forall_map. rewrite Forall_forall in C |- *. intros o Ho.
  assert (OL : lok (obj_lim o)) by (apply obj_lim_ok, ok_reals_valid, H, Ho).
  apply tree_within; [apply H; exact Ho|exact Hl|]. apply to_le; [exact OL|exact Hl|]. eapply le_trans; [exact OL|exact A|exact Hl|apply C; exact Ho|exact LE].
Qed.
(** The operands of the operations in a content stream, by the limits of the content. *)
Theorem C104_contents_within_limits : forall pretty calls c,
  forallb (ccall_ok pretty) calls = true -> content_run calls (content_with_settings pretty) = Some c ->
  limits_ok (lims (content_finish c)) = true /\
  exists operations, parse_content (inner (content_finish c)) = Some operations /\ Forall2 ccall_means calls operations /\
    Forall (fun op => Forall (within (lims (content_finish c))) (fst op)) operations.
Proof.
  intros pretty calls c Hok Hr. destruct (operations_within pretty calls c Hok Hr) as (A & ops & P & M & W). split; [apply limits_ok_iff; exact A|].
  exists ops. split; [exact P|]. split; [exact M|]. apply W; [exact A|]. apply to_le; [exact A|exact A|]. apply le_refl; exact A.
Qed.
(** Whatever is merged into the document, or into a chunk that gets into it, stays below what the document reports. *)
Theorem C104_merged_limits : forall m ops pretty p, ops_typed ops -> ops_merges_ok ops -> limits_ok m = true ->
  pdf_run ops (pdf_with_settings pretty) = Some p -> merged_in m ops -> limits_le m (chunk_limits (p_chunk p)).
Proof.
  intros m ops pretty p HT HM Om HR M. destruct (twin pretty ops p HT HM HR) as (c & k & RC & _ & _ & _ & _ & _ & EL & LK). rewrite EL.
  apply (run_merges m _ Om (as_chunk_typed pretty ops HT) (as_chunk_merges pretty ops HM) (merged_as_chunk m pretty ops M) c RC).
Qed.

(** So a document into which the limits of a content are merged bounds the operands of that content too. *)
Theorem C104_merged_contents : forall pretty calls c ops pretty' p,
  forallb (ccall_ok pretty) calls = true -> content_run calls (content_with_settings pretty) = Some c ->
  ops_typed ops -> ops_merges_ok ops -> pdf_run ops (pdf_with_settings pretty') = Some p -> merged_in (lims (content_finish c)) ops ->
  exists operations, parse_content (inner (content_finish c)) = Some operations /\ Forall2 ccall_means calls operations /\
    Forall (fun op => Forall (within (chunk_limits (p_chunk p))) (fst op)) operations.
Proof.
  intros pretty calls c ops pretty' p Hok Hr HT HM HR M. destruct (operations_within pretty calls c Hok Hr) as (A & os & P & Me & W).
  exists os. split; [exact P|]. split; [exact Me|].
  destruct (twin pretty' ops p HT HM HR) as (k0 & k & RC & _ & _ & _ & _ & _ & EL & LK).
  apply W; [rewrite EL; exact LK|]. apply (C104_merged_limits _ ops pretty' p HT HM); [apply limits_ok_iff; exact A|exact HR|exact M].
Qed.

(** A program that keeps the reported numbers to those of the archival standard has a file in which every object keeps to them, and every operand of every
    operation in the contents that it told the document about. *)
Theorem C104_archival_objects : forall decode ops file own pretty p it,
  file_of decode ops file own -> pdf_run ops (pdf_with_settings pretty) = Some p -> ops_merges_ok ops ->
  archival_limits (chunk_limits (p_chunk p)) -> In it (pdf_items ops) -> body_readable (snd it) = true ->
  exists i, resolve decode file (fst it) = Some i /\ item_means it i /\ conforming_object i.
Proof.
  intros decode ops file own pretty p it FO HR HM A HI HB. destruct (C104_objects_within_limits decode ops file own pretty p it FO HR HM HI HB) as (i & R & M & W).
  exists i. split; [exact R|]. split; [exact M|]. assert (HT : ops_typed ops) by (destruct FO; assumption).
  destruct (twin pretty ops p HT HM HR) as (k0 & k & RC & _ & _ & _ & _ & _ & EL & LK).
  assert (L : lok (chunk_limits (p_chunk p))) by (rewrite EL; exact LK). destruct i; cbn [within_object conforming_object] in *; apply (within_conforms _ L A); tauto.
Qed.
Theorem C104_archival_contents : forall pretty calls c ops pretty' p,
  forallb (ccall_ok pretty) calls = true -> content_run calls (content_with_settings pretty) = Some c ->
  ops_typed ops -> ops_merges_ok ops -> pdf_run ops (pdf_with_settings pretty') = Some p -> merged_in (lims (content_finish c)) ops ->
  archival_limits (chunk_limits (p_chunk p)) ->
  exists operations, parse_content (inner (content_finish c)) = Some operations /\ Forall2 ccall_means calls operations /\
    Forall (fun op => Forall conforming (fst op)) operations.
Proof.
  intros pretty calls c ops pretty' p Hok Hr HT HM HR M A. destruct (C104_merged_contents pretty calls c ops pretty' p Hok Hr HT HM HR M) as (os & P & Me & W).
  exists os. split; [exact P|]. split; [exact Me|].
  destruct (twin pretty' ops p HT HM HR) as (k0 & k & RC & _ & _ & _ & _ & _ & EL & LK).
  assert (L : lok (chunk_limits (p_chunk p))) by (rewrite EL; exact LK).
  rewrite Forall_forall in W |- *. intros op Ho. specialize (W op Ho). rewrite Forall_forall in W |- *. intros v Hv. apply (within_conforms _ L A), W, Hv.
Qed.

(** The document of PropPdf with the limits of a content merged in: it meets the hypotheses, what it reports comes partly from its objects and partly from
    the content, and it keeps to the archival limits; with the content alone, nothing is said about the objects. *)
Definition limits_of_content : limits :=
  match content_run PropContent.example_calls (content_with_settings false) with Some c => lims (content_finish c) | None => limits0 end.
Example C104_case :
  let ops := PdfMerge limits_of_content :: example_ops in
  ops_typed ops /\ ops_merges_ok ops /\ merged_in limits_of_content ops /\ forallb (fun it => body_readable (snd it)) (pdf_items ops) = true /\
  limits_of_content = mkLimits 12 (FFin false 12582912 (-23)) 4 3 3 1 /\
  option_map (fun p => chunk_limits (p_chunk p)) (pdf_run ops (pdf_with_settings false)) = Some (mkLimits 22 (FFin false 12582912 (-23)) 7 3 3 2) /\
  archival_limits limits_of_content.
Proof.
  cbv zeta. split; [apply Forall_cons; [exact Logic.I|exact example_ops_typed]|].
  assert (E : limits_of_content = mkLimits 12 (FFin false 12582912 (-23)) 4 3 3 1) by (vm_compute; reflexivity).
  rewrite E. clear E.
  split; [apply Forall_cons; [reflexivity|]; unfold example_ops; repeat apply Forall_cons; try apply Forall_nil; cbn [merges_ok]; exact Logic.I|].
  split; [apply Exists_cons_hd, op_merge|]. split; [vm_compute; reflexivity|]. split; [reflexivity|]. split; [vm_compute; reflexivity|].
  unfold archival_limits. cbn [l_real l_str l_name l_array l_dict]. split; [vm_compute; reflexivity|]. lia.
Qed.

Print Assumptions C104_objects_within_limits.
Print Assumptions C104_contents_within_limits.
Print Assumptions C104_merged_limits.
Print Assumptions C104_merged_contents.
Print Assumptions C104_archival_objects.
Print Assumptions C104_archival_contents.
