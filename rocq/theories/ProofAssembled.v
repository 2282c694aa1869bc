(** Lemmas for C77: a document assembled from parts, as a document written by calls on the document itself. *)

From Coq Require Import ZArith List Lia Bool.
From Verif Require ModelContent ModelCmap.
From Verif Require Import Bytes ModelFloat ModelBuf ModelObject ModelRenumber ModelChunk ModelColor ModelSmall ModelPdf ModelTw ModelEnums ModelRoles ModelTwArgs
  ModelTwFiles ModelTwGraphics ModelTwAnnot ModelTwForms ModelTwAttr ModelTwXObj ModelTwFonts ModelTwDoc ModelFontDesc ModelDoc ModelPart
  SpecLex SpecObj SpecText SpecMeans SpecRenum SpecChunk SpecFile SpecPdf SpecTyped SpecColor SpecSmall SpecTw SpecEnums SpecRoles SpecTwArgs
  SpecTwFiles SpecTwGraphics SpecTwAnnot SpecTwForms SpecTwAttr SpecTwXObj SpecTwFonts SpecTwDoc SpecFontDesc SpecDoc SpecPart SpecRename SpecAssembled
  ProofBasic ProofObj ProofParse ProofTree ProofRenum ProofRenumTree ProofChunk ProofChunk2 ProofPdf ProofSmall ProofTyped ProofColor ProofTw ProofDoc PropPdf PropPdf2 PropDoc ProofPart PropPart ProofRename.
Import ListNotations.
Local Open Scope Z_scope.

Lemma find_combine ids ns id e : find (fun e : Z * Z => fst e =? id) (combine ids ns) = Some e -> In (snd e) ns.
Proof.
  revert ns. induction ids as [|i ids IH]; intros [|n ns] H; try discriminate. cbn [combine find fst] in H.
  destruct (i =? id); [apply some_inj in H; subst e; left; reflexivity|right; exact (IH _ H)].
Qed.
Lemma renaming_keeps {T} (f : T -> Z -> Z * T) s ids : closure_ok f s ids -> keeps (renaming f s ids).
Proof.
  intros [_ F] r R. unfold renaming. destruct (find _ _) as [e|] eqn:E; [|exact R].
  rewrite Forall_forall in F. exact (F _ (find_combine _ _ _ _ E)).
Qed.
Lemma part_keeps p : part_ok p -> Forall (fun x => keeps (snd (fst x)) /\ id_ok (fst (fst x)) = true) (part_found p).
Proof.
  induction p as [pretty|p IH id c|p IH l|p1 IH1 p2 IH2|p1 IH1 p2 IH2 T f s]; cbn [part_ok part_found]; intro K.
  - constructor.
  - destruct K as (K1 & K2 & _). apply Forall_app. split; [exact (IH K1)|]. constructor; [|constructor]. split; [intros r R; exact R|exact K2].
  - exact (IH K).
  - apply Forall_app. split; [apply IH1|apply IH2]; apply K.
  - destruct K as (K1 & K2 & K3). apply Forall_app. split; [exact (IH1 K1)|]. apply Forall_map. eapply Forall_impl; [|exact (IH2 K2)].
    intros [[id g] c] [G I]. cbn [fst snd] in *. split; [|exact I]. intros r R. apply (renaming_keeps f s _ K3). apply G. exact R.
Qed.

Lemma map_refs_typed g : keeps g -> forall o, obj_typed o = true -> obj_typed (map_refs g o) = true.
Proof.
  intro G. induction o as [q|l IH|l IH] using obj_ind'; intro H.
  - destruct q; try exact H. exact (G _ H).
  - cbn [map_refs obj_typed] in *. rewrite forallb_map. rewrite forallb_forall in *. intros a A. rewrite Forall_forall in IH. exact (IH a A (H a A)).
  - cbn [map_refs obj_typed] in *. rewrite forallb_map. rewrite forallb_forall in *. intros a A. rewrite Forall_forall in IH. exact (IH a A (H a A)).
Qed.

(** A call found in a part, written to the document itself. *)
Lemma effective_call_spec x it : found_item x it -> keeps (snd (fst x)) /\ id_ok (fst (fst x)) = true ->
  doc_op_ok (effective_call x) /\
  doc_op_plain (effective_call x) = Some (match snd it with BObj o => PdfObject (fst it) o | BStream es data => PdfStream (fst it) es data end).
Proof.
  destruct x as [[id g] c]. cbn [fst snd]. intros (K & b & B & -> & _) [G I]. unfold map_item. cbn [fst snd].
  destruct c as [c|o]; cbn [effective_call doc_op_ok doc_op_plain part_call_ok part_call_body] in *.
  - split; [split; [exact (G id I)|exact (chunk_call_ren_ok g c G K)]|]. rewrite chunk_call_ren_body, B. cbn [option_map]. destruct b; reflexivity.
  - apply some_inj in B. subst b. cbn [map_body]. split; [|reflexivity]. apply andb_true_iff in K as [K _]. cbn [op_typed body_typed] in *.
    unfold item_typed. cbn [fst snd body_typed]. change (id_ok (g id)) with (ref_ok (g id)). rewrite (G id I). cbn [andb].
    exact (map_refs_typed g G o K).
Qed.

Definition found_op (it : item) : pdf_op :=
  match snd it with BObj o => PdfObject (fst it) o | BStream es data => PdfStream (fst it) es data end.
Lemma effective_calls_spec fs its : Forall2 found_item fs its -> Forall (fun x => keeps (snd (fst x)) /\ id_ok (fst (fst x)) = true) fs ->
  Forall doc_op_ok (map effective_call fs) /\ all_some doc_op_plain (map effective_call fs) = Some (map found_op its) /\
  flat_map op_items (map found_op its) = its.
Proof.
  induction 1 as [|x it fs its F FS IH]; intro K; [split; [constructor|split; reflexivity]|].
  inversion K as [|? ? K1 K2]; subst. destruct (IH K2) as (I1 & I2 & I3). destruct (effective_call_spec x it F K1) as [S1 S2].
  cbn [map all_some flat_map]. split; [constructor; assumption|]. rewrite S2, I2, I3. split; [reflexivity|].
  destruct it as [id [o|es data]]; reflexivity.
Qed.

(** Calls that leave the settings of the document alone. *)
Definition silent {A} (f : pdf_op -> option A) : Prop :=
  (forall id o, f (PdfObject id o) = None) /\ (forall id es data, f (PdfStream id es data) = None) /\ (forall h, f (PdfExtend h) = None) /\
  (forall h T g s, f (PdfRenumber h T g s) = None).
Lemma found_silent {A} (f : pdf_op -> option A) its a : silent f ->
  fold_left (fun a op => match f op with Some x => Some x | None => a end) (map found_op its) a = a.
Proof.
  intros (S1 & S2 & _). revert a. induction its as [|[id [o|es data]] its IH]; intro a; [reflexivity| |]; cbn [map fold_left found_op fst snd].
  - unfold found_op at 1. cbn [fst snd]. rewrite S1. apply IH.
  - unfold found_op at 1. cbn [fst snd]. rewrite S2. apply IH.
Qed.

Lemma all_some_app {A B} (f : A -> option B) a b x y : all_some f a = Some x -> all_some f b = Some y -> all_some f (a ++ b) = Some (x ++ y).
Proof.
  revert x. induction a as [|e a IH]; intros x X Y; cbn [all_some app] in *; [apply some_inj in X; subst x; exact Y|].
  destruct (f e); [|discriminate]. destruct (all_some f a) as [x'|]; [|discriminate]. cbn [option_map] in *. apply some_inj in X. subst x.
  rewrite (IH x' eq_refl Y). reflexivity.
Qed.

(** Two documents with the same bytes, offsets and settings. *)
Definition alike (pretty : bool) (p p' : pdf) : Prop :=
  exists h l, holds (hdr h) l (p_chunk p) /\ holds (hdr h) l (p_chunk p') /\ c_pretty (p_chunk p) = pretty /\ c_pretty (p_chunk p') = pretty /\
  p_catalog p = p_catalog p' /\ p_info p = p_info p' /\ p_file_id p = p_file_id p'.
Definition alike_results (pretty : bool) (a b : option pdf) : Prop :=
  match a, b with Some a, Some b => alike pretty a b | None, None => True | _, _ => False end.
Lemma found_run its pfx l p : holds pfx l (p_chunk p) ->
  if items_fit its then
    exists p', pdf_run (map found_op its) p = Some p' /\
      holds pfx (l ++ map (mkPl (c_pretty (p_chunk p)) (c_pretty (p_chunk p))) its) (p_chunk p') /\ c_pretty (p_chunk p') = c_pretty (p_chunk p) /\
      p_catalog p' = p_catalog p /\ p_info p' = p_info p /\ p_file_id p' = p_file_id p
  else pdf_run (map found_op its) p = None.
Proof.
  revert l p. induction its as [|[id b] its IH]; intros l p H.
  - exists p. cbn [map]. rewrite app_nil_r. repeat split; apply H.
  - cbn [map pdf_run]. unfold items_fit. cbn [forallb snd]. fold (items_fit its).
    set (pl := mkPl (c_pretty (p_chunk p)) (c_pretty (p_chunk p)) (id, b)).
    assert (G : forall p1, holds pfx (l ++ [pl]) (p_chunk p1) -> c_pretty (p_chunk p1) = c_pretty (p_chunk p) ->
      p_catalog p1 = p_catalog p -> p_info p1 = p_info p -> p_file_id p1 = p_file_id p ->
      if items_fit its then
        exists p', pdf_run (map found_op its) p1 = Some p' /\
          holds pfx (l ++ pl :: map (mkPl (c_pretty (p_chunk p)) (c_pretty (p_chunk p))) its) (p_chunk p') /\ c_pretty (p_chunk p') = c_pretty (p_chunk p) /\
          p_catalog p' = p_catalog p /\ p_info p' = p_info p /\ p_file_id p' = p_file_id p
      else pdf_run (map found_op its) p1 = None).
    { intros p1 H1 E1 E2 E3 E4. specialize (IH _ _ H1). destruct (items_fit its); [|exact IH].
      destruct IH as (p' & I1 & I2 & I3 & I4 & I5 & I6). exists p'. split; [exact I1|]. rewrite E1, <- app_assoc in I2. cbn [app] in I2.
      split; [exact I2|]. repeat split; congruence. }
    unfold found_op at 1 3. cbn [fst snd]. destruct b as [o|es data]; cbn [body_fits pdf_step].
    + cbn [andb]. apply G; try reflexivity; apply (object_holds pfx l (p_chunk p) id o H).
    + destruct (Z.leb_spec (blen data) i32_max) as [L|L]; cbn [andb].
      * destruct (chunk_stream id es data (p_chunk p)) as [c'|] eqn:Ec; [|exfalso; apply (stream_some_iff id es data (p_chunk p)) in L; contradiction].
        cbn [option_map]. apply G; try reflexivity; apply (stream_holds pfx l (p_chunk p) id es data c' H Ec).
      * destruct (chunk_stream id es data (p_chunk p)) as [c'|] eqn:Ec; [|reflexivity].
        assert (blen data <= i32_max) by (apply (stream_some_iff id es data (p_chunk p)); congruence). lia.
Qed.
Lemma uniform_items pretty k its : uniform pretty k -> map pl_item k = its -> k = map (mkPl pretty pretty) its.
Proof.
  intros U E. apply (uniform_layout pretty); [exact U| |].
  - apply Forall_forall. intros pl I. apply in_map_iff in I as (it & <- & _). split; reflexivity.
  - rewrite map_map. cbn [pl_item]. rewrite map_id. exact E.
Qed.
Lemma step_alike pretty op p p' : op_typed op -> alike pretty p p' -> alike_results pretty (pdf_step op p) (pdf_step op p').
Proof.
  intros T (h & l & H & H' & E & E' & C & I & F). pose proof (step_spec op pretty T) as S. destruct (items_fit (op_items op)); [|rewrite !S; exact Logic.I].
  destruct S as (k & _ & S). destruct (S h l p H E) as (a & A1 & A2 & A3 & A4 & A5 & A6). destruct (S h l p' H' E') as (b & B1 & B2 & B3 & B4 & B5 & B6).
  rewrite A1, B1. exists (edit op h), (l ++ k). split; [exact A2|]. split; [exact B2|]. repeat (split; [assumption|]).
  rewrite A4, A5, A6, B4, B5, B6, C, I, F. repeat split.
Qed.
Lemma extend_alike pretty h' p p' : hist_typed h' -> hist_uniform pretty h' -> alike pretty p p' ->
  alike_results pretty (pdf_step (PdfExtend h') p) (pdf_run (map found_op (hist_items h')) p').
Proof.
  intros T U (h & l & H & H' & E & E' & C & I & F). cbn [pdf_step]. pose proof (found_run (hist_items h') _ _ _ H') as R.
  pose proof (run_holds h' T) as R2. destruct (items_fit (hist_items h')); [|rewrite R, R2; exact Logic.I].
  destruct R2 as (c & _ & R2 & _). destruct (run_uniform pretty h' T U c R2) as (k & K1 & K2 & K3 & _).
  destruct R as (b & B1 & B2 & B3 & B4 & B5 & B6). rewrite R2, B1. cbn [option_map alike_results].
  rewrite E' in B2. rewrite <- (uniform_items _ _ _ K3 K2) in B2. exists h, (l ++ k).
  split; [apply extend_holds; assumption|]. split; [exact B2|]. split; [exact E|]. split; [congruence|]. cbn [on_chunk p_catalog p_info p_file_id].
  repeat split; congruence.
Qed.
Lemma renumber_alike {T} pretty h' (f : T -> Z -> Z * T) s p p' : hist_typed h' -> hist_uniform pretty h' -> alike pretty p p' ->
  alike_results pretty (pdf_step (PdfRenumber h' T f s) p) (pdf_run (map found_op (fst (thread (map_item_st f) (hist_items h') s))) p').
Proof.
  intros HT U (h & l & H & H' & E & E' & C & I & F). cbn [pdf_step]. pose proof (found_run (fst (thread (map_item_st f) (hist_items h') s)) _ _ _ H') as R.
  rewrite map_items_fit in R.
  pose proof (run_holds h' HT) as R2. destruct (items_fit (hist_items h')); [|rewrite R, R2; exact Logic.I].
  destruct R2 as (c & _ & R2 & _). destruct (run_uniform pretty h' HT U c R2) as (k & K1 & K2 & K3 & _).
  destruct R as (b & B1 & B2 & B3 & B4 & B5 & B6). rewrite R2, B1.
  destruct (renumber_holds f _ _ k l c (p_chunk p) s K1 H) as (c' & X1 & X2 & X3 & _); [rewrite K2; apply items_typed; exact HT|].
  rewrite X1. cbn [option_map alike_results fst]. rewrite E in *. rewrite E' in B2.
  destruct (thread_placed f pretty k s) as [A _]. rewrite K2 in A.
  rewrite <- (uniform_items pretty (fst (thread (map_placed_st f pretty) k s)) _) in B2; [|apply uniform_thread|exact A].
  2:{ eapply Forall_impl; [|exact K3]. cbn. intuition. }
  eexists h, _. split; [exact X2|]. split; [exact B2|]. split; [exact X3|]. split; [congruence|]. cbn [on_chunk p_catalog p_info p_file_id].
  repeat split; congruence.
Qed.
Lemma part_uniform pretty p : forall h, part_settings pretty p -> part_hist p = Some h -> hist_uniform pretty h.
Proof.
  induction p as [b|p IH id c|p IH l|p1 IH1 p2 IH2|p1 IH1 p2 IH2 T f s]; intros h K E; cbn [part_hist part_settings] in *.
  - apply some_inj in E. subst h. exact K.
  - destruct (part_hist p) as [h0|]; [|discriminate]. destruct (part_call_body c) as [[]|]; try discriminate; apply some_inj in E; subst h; exact (IH h0 K eq_refl).
  - destruct (part_hist p) as [h0|]; [|discriminate]. apply some_inj in E. subst h. exact (IH h0 K eq_refl).
  - destruct (part_hist p1) as [h1|]; [|discriminate]. destruct (part_hist p2) as [h2|]; [|discriminate]. apply some_inj in E. subst h.
    split; [apply (IH1 _ (proj1 K) eq_refl)|apply (IH2 _ (proj2 K) eq_refl)].
  - destruct (part_hist p1) as [h1|]; [|discriminate]. destruct (part_hist p2) as [h2|]; [|discriminate]. apply some_inj in E. subst h.
    split; [apply (IH1 _ (proj1 K) eq_refl)|apply (IH2 _ (proj2 K) eq_refl)].
Qed.

(** One call on the document, without parts. *)
Lemma effective_op_spec op q : merge_op_ok op -> merge_plain op = Some q ->
  exists q' le, op_typed q' /\ Forall doc_op_ok (effective_op op) /\ all_some doc_op_plain (effective_op op) = Some le /\
  op_items q' = flat_map op_items le /\
  (forall h l p, holds (hdr h) l (p_chunk p) -> pdf_step q p = pdf_step q' p) /\
  (forall A (f : pdf_op -> option A), silent f -> forall a, match f q' with Some x => Some x | None => a end =
     fold_left (fun a op => match f op with Some x => Some x | None => a end) le a) /\
  (forall pretty p p', merge_settings pretty op -> alike pretty p p' -> alike_results pretty (pdf_step q' p) (pdf_run le p')).
Proof.
  destruct op as [op|p|p T f s]; cbn [merge_op_ok merge_plain effective_op]; intros K E.
  - exists q, [q]. destruct (doc_op_spec op q K E) as (S1 & S2 & S3). split; [exact S1|]. split; [constructor; [exact K|constructor]|].
    cbn [all_some]. rewrite E. split; [reflexivity|]. cbn [flat_map fold_left]. rewrite app_nil_r. split; [reflexivity|]. split; [reflexivity|]. split; [reflexivity|].
    intros pretty p p' _ A. pose proof (step_alike pretty q p p' S1 A) as X. cbn [pdf_run]. destruct (pdf_step q p'); exact X.
  - destruct (part_hist p) as [h|] eqn:P; [|discriminate]. cbn [option_map] in E. apply some_inj in E. subst q.
    destruct (part_spec p h K P) as (h' & H1 & H2 & H3 & H4 & H5).
    destruct (effective_calls_spec _ _ H4 (part_keeps p K)) as (E1 & E2 & E3).
    exists (PdfExtend h'), (map found_op (hist_items h)). split; [exact H1|]. split; [exact E1|]. split; [exact E2|].
    cbn [op_items pdf_step]. split; [rewrite E3; exact H3|]. split; [intros h0 l p0 _; rewrite H2; reflexivity|].
    split; [intros A f S a; rewrite (found_silent f _ _ S); destruct S as (_ & _ & S & _); rewrite S; reflexivity|].
    intros pretty p0 p0' M A. rewrite <- H3. apply extend_alike; [exact H1|apply H5; apply (part_uniform pretty p h M P)|exact A].
  - destruct (part_hist p) as [h|] eqn:P; [|discriminate]. cbn [option_map] in E. apply some_inj in E. subst q.
    destruct K as [K1 K2]. destruct (part_spec p h K1 P) as (h' & H1 & H2 & H3 & H4 & H5).
    assert (KF : Forall (fun x => keeps (snd (fst x)) /\ id_ok (fst (fst x)) = true) (part_found (PartRenumber (PartNew true) p T f s)))
      by (apply part_keeps; cbn [part_ok]; split; [exact Logic.I|split; assumption]).
    assert (PI : part_ids p = flat_map item_refs (hist_items h)) by (unfold part_ids; rewrite P; reflexivity).
    cbn [part_found app] in *. rewrite PI in *. set (ids := flat_map item_refs (hist_items h)) in *.
    destruct (closure_total f s ids K2) as (G1 & G2 & G3).
    assert (EX : map (map_item (totally (renaming f s ids))) (hist_items h) = map (map_item (renaming f s ids)) (hist_items h)).
    { apply map_ext_in. intros it I. apply map_item_ext. intros r R. apply G2. unfold ids. apply in_flat_map. exists it. split; assumption. }
    pose proof (founds_renamed (renaming f s ids) _ _ H4 G3) as FF.
    destruct (effective_calls_spec _ _ FF KF) as (E1 & E2 & E3).
    exists (PdfRenumber h' unit (fun t id => (totally (renaming f s ids) id, t)) tt), (map found_op (map (map_item (renaming f s ids)) (hist_items h))).
    split; [split; [exact H1|intros t id; apply totally_ok]|]. split; [exact E1|]. split; [exact E2|].
    split; [cbn [op_items]; rewrite map_items_pure; cbn [fst]; rewrite H3, EX, E3; reflexivity|].
    split.
    2:{ split; [intros A f0 S a; rewrite (found_silent f0 _ _ S); destruct S as (_ & _ & _ & S); rewrite S; reflexivity|].
        intros pretty p0 p0' M A. rewrite <- EX, <- H3. pose proof (f_equal fst (map_items_pure (totally (renaming f s ids)) (hist_items h') tt)) as PU. cbn [fst] in PU. rewrite <- PU.
        apply renumber_alike; [exact H1|apply H5; apply (part_uniform pretty p h M P)|exact A]. }
    intros h0 l p0 Hp. cbn [pdf_step]. rewrite <- H2.
    pose proof (run_holds h' H1) as RB. destruct (items_fit (hist_items h')); [|rewrite RB; reflexivity].
    destruct RB as (cb & lb & R1 & R2 & R3 & _). rewrite R1.
    destruct (renumber_agrees f (totally (renaming f s ids)) [] (hdr h0) lb l cb (p_chunk p0) s R2 Hp) as (c' & X1 & X2).
    + rewrite R3. apply items_typed. exact H1.
    + rewrite R3, H3. exact G1.
    + rewrite X1, X2. reflexivity.
Qed.

Lemma effective_ops_spec ops l : Forall merge_op_ok ops -> all_some merge_plain ops = Some l ->
  exists l' le, ops_typed l' /\ Forall doc_op_ok (effective ops) /\ all_some doc_op_plain (effective ops) = Some le /\ pdf_items l' = pdf_items le /\
  (forall h k p, holds (hdr h) k (p_chunk p) -> pdf_run l p = pdf_run l' p) /\
  (forall A (f : pdf_op -> option A), silent f -> last_call f l' = last_call f le) /\
  (forall pretty p p', Forall (merge_settings pretty) ops -> alike pretty p p' -> alike_results pretty (pdf_run l' p) (pdf_run le p')).
Proof.
  intros K E. apply all_some_forall2 in E. unfold last_call.
  enough (X : exists l' le, ops_typed l' /\ Forall doc_op_ok (effective ops) /\ all_some doc_op_plain (effective ops) = Some le /\ pdf_items l' = pdf_items le /\
    (forall h k p, holds (hdr h) k (p_chunk p) -> pdf_run l p = pdf_run l' p) /\
    (forall A (f : pdf_op -> option A), silent f -> forall a,
       fold_left (fun a op => match f op with Some x => Some x | None => a end) l' a = fold_left (fun a op => match f op with Some x => Some x | None => a end) le a) /\
    (forall pretty p p', Forall (merge_settings pretty) ops -> alike pretty p p' -> alike_results pretty (pdf_run l' p) (pdf_run le p'))).
  { destruct X as (l' & le & X1 & X2 & X3 & X4 & X5 & X6 & X7). exists l', le. repeat (split; [assumption|]). split; [intros A f S; apply X6; exact S|exact X7]. }
  unfold ops_typed, pdf_items, effective.
  induction E as [|op q ops l E F IH].
  { exists [], []. split; [constructor|]. split; [constructor|]. split; [reflexivity|]. split; [reflexivity|]. split; [reflexivity|]. split; [reflexivity|]. intros pretty p p' _ A. exact A. }
  inversion K as [|? ? K1 K2]; subst. destruct (IH K2) as (l' & le & I1 & I2 & I3 & I4 & I5 & I6 & I7).
  destruct (effective_op_spec op q K1 E) as (q' & lq & S1 & S2 & S3 & S4 & S5 & S6 & S7). exists (q' :: l'), (lq ++ le).
  split; [constructor; assumption|]. cbn [flat_map]. split; [apply Forall_app; split; assumption|]. split; [apply all_some_app; assumption|].
  split; [rewrite flat_map_app, S4, I4; reflexivity|]. split.
  - intros h k p H. cbn [pdf_run]. rewrite (S5 h k p H).
    pose proof (step_spec q' (c_pretty (p_chunk p)) S1) as S. destruct (items_fit (op_items q')); [|rewrite S; reflexivity].
    destruct S as (k' & _ & S). destruct (S h k p H eq_refl) as (p' & -> & H' & _). eapply I5. exact H'.
  - split; [intros A f S a; cbn [fold_left]; rewrite fold_left_app, I6 by exact S; f_equal; apply S6; exact S|].
    intros pretty p p' M A. inversion M as [|? ? M1 M2]; subst. specialize (S7 pretty p p' M1 A). cbn [pdf_run]. rewrite pdf_run_app.
    destruct (pdf_step q' p), (pdf_run lq p'); try contradiction; [|exact Logic.I]. apply I7; assumption.
Qed.
Lemma effective_plain ops pretty q : Forall merge_op_ok ops -> merge_run ops (pdf_with_settings pretty) = Some q ->
  exists l' le, ops_typed l' /\ pdf_run l' (pdf_with_settings pretty) = Some q /\
  Forall doc_op_ok (effective ops) /\ all_some doc_op_plain (effective ops) = Some le /\ pdf_items l' = pdf_items le /\
  (forall A (f : pdf_op -> option A), silent f -> last_call f l' = last_call f le).
Proof.
  unfold merge_run. intros K R. destruct (all_some merge_plain ops) as [l|] eqn:E; [|discriminate].
  destruct (effective_ops_spec ops l K E) as (l' & le & S1 & S2 & S3 & S4 & S5 & S6 & _). exists l', le. split; [exact S1|].
  split; [|repeat (split; [assumption|]); exact S6]. rewrite <- (S5 hdr0 [] (pdf_with_settings pretty)); [exact R|]. split; reflexivity.
Qed.

(** What the assembled document and the document without parts have in common for the theorems about files. *)
Lemma effective_document ops pretty q : Forall merge_op_ok ops -> merge_run ops (pdf_with_settings pretty) = Some q ->
  exists l' le, ops_typed l' /\ pdf_run l' (pdf_with_settings pretty) = Some q /\ Forall doc_op_ok (effective ops) /\
  all_some doc_op_plain (effective ops) = Some le /\ ops_typed le /\ pdf_ids l' = doc_ids (effective ops) /\
  (forall resolved, (forall it, In it (pdf_items l') -> body_readable (snd it) = true ->
      exists i, resolved (fst it) = Some i /\ item_means it i) -> Forall (fun op => doc_op_reads op resolved) (effective ops)) /\
  catalog_of l' = catalog_of le /\ info_of l' = info_of le /\ file_id_of l' = file_id_of le /\ header_of l' = header_of le /\
  (forall k, trailer_value l' k = trailer_value le k).
Proof.
  intros K R. destruct (effective_plain ops pretty q K R) as (l' & le & S1 & S2 & S3 & S4 & S5 & S6).
  destruct (doc_ops_spec _ _ S3 S4) as (D1 & D2 & D3). exists l', le.
  assert (C : catalog_of l' = catalog_of le) by (apply S6; repeat split).
  assert (N : info_of l' = info_of le) by (apply S6; repeat split).
  assert (J : file_id_of l' = file_id_of le) by (apply S6; repeat split).
  repeat (split; [assumption|]). split; [rewrite <- D2; unfold pdf_ids; rewrite S5; reflexivity|].
  split; [intros resolved H; apply D3; rewrite <- S5; exact H|]. repeat (split; [assumption|]).
  split.
  - unfold header_of, marker_of, major_of, minor_of. rewrite !S6 by (repeat split). reflexivity.
  - intro k. unfold trailer_value. rewrite C, N, J. reflexivity.
Qed.

(** ** The same file *)
Lemma part_none p : part_hist p = None -> Exists (fun x => part_call_body (snd x) = None) (part_found p).
Proof.
  induction p as [b|p IH id c|p IH l|p1 IH1 p2 IH2|p1 IH1 p2 IH2 T f s]; intro E; cbn [part_hist part_found] in *.
  - discriminate.
  - apply Exists_app. destruct (part_hist p); [|left; exact (IH eq_refl)]. destruct (part_call_body c) as [[]|] eqn:B; try discriminate.
    right. constructor. exact B.
  - destruct (part_hist p); [discriminate|exact (IH eq_refl)].
  - apply Exists_app. destruct (part_hist p1); [|left; exact (IH1 eq_refl)]. destruct (part_hist p2); [discriminate|right; exact (IH2 eq_refl)].
  - apply Exists_app. destruct (part_hist p1); [|left; exact (IH1 eq_refl)]. destruct (part_hist p2); [discriminate|right].
    specialize (IH2 eq_refl). apply Exists_exists in IH2 as (x & I & X). apply Exists_exists. eexists. split; [apply in_map; exact I|exact X].
Qed.
Lemma all_some_none {A B} (f : A -> option B) l : Exists (fun a => f a = None) l -> all_some f l = None.
Proof. induction 1 as [a l E|a l X IH]; cbn [all_some]; [rewrite E; reflexivity|]. destruct (f a); [rewrite IH|]; reflexivity. Qed.
Lemma found_none fs : Exists (fun x => part_call_body (snd x) = None) fs -> Exists (fun op => doc_op_plain op = None) (map effective_call fs).
Proof.
  intro X. apply Exists_exists in X as ([[id g] c] & I & X). apply Exists_exists. eexists. split; [apply in_map; exact I|].
  destruct c as [c|o]; cbn [effective_call doc_op_plain snd part_call_body] in *; [|discriminate]. rewrite chunk_call_ren_body, X. reflexivity.
Qed.
Lemma effective_none ops : all_some merge_plain ops = None -> all_some doc_op_plain (effective ops) = None.
Proof.
  intro E. apply all_some_none. induction ops as [|op ops IH]; [discriminate|]. cbn [all_some] in E. unfold effective. cbn [flat_map]. apply Exists_app.
  destruct (merge_plain op) as [q|] eqn:M.
  - right. apply IH. destruct (all_some merge_plain ops); [discriminate|reflexivity].
  - left. destruct op as [op|p|p T f s]; cbn [merge_plain effective_op] in *.
    + constructor. exact M.
    + apply found_none, part_none. destruct (part_hist p); [discriminate|reflexivity].
    + apply found_none, part_none. cbn [part_hist]. destruct (part_hist p); [discriminate|reflexivity].
Qed.
Lemma same_document pretty ops : Forall merge_op_ok ops -> Forall (merge_settings pretty) ops ->
  alike_results pretty (merge_run ops (pdf_with_settings pretty)) (doc_run (effective ops) (pdf_with_settings pretty)).
Proof.
  intros K M. unfold merge_run, doc_run. destruct (all_some merge_plain ops) as [l|] eqn:E; [|rewrite (effective_none _ E); exact Logic.I].
  destruct (effective_ops_spec ops l K E) as (l' & le & _ & _ & S3 & _ & S5 & _ & S7). rewrite S3.
  assert (H0 : holds (hdr hdr0) [] (p_chunk (pdf_with_settings pretty))) by (split; reflexivity).
  rewrite (S5 hdr0 [] _ H0). apply S7; [exact M|]. exists hdr0, []. repeat split.
Qed.
Lemma trailer_alike p p' n : p_catalog p = p_catalog p' -> p_info p = p_info p' -> p_file_id p = p_file_id p' -> trailer_entries p n = trailer_entries p' n.
Proof. intros A B C. unfold trailer_entries. rewrite A, B, C. reflexivity. Qed.
Lemma finish_alike pretty p p' : alike pretty p p' -> finish p = finish p'.
Proof.
  intros (h & l & [H1 H2] & [H1' H2'] & E & E' & C & I & F). unfold finish. unfold chunk_bytes in *. rewrite H2, H2', H1, H1', E, E'.
  destruct (write_offsets _) as [[n es]|]; [|reflexivity]. rewrite (trailer_alike p p' n C I F). f_equal. unfold finish_trailer. rewrite !inner_extend, !write_obj_inner.
  unfold plain_prologue, push, push_int. rewrite !inner_extend, !inner_with, !inner_extend, H1, H1'. reflexivity.
Qed.
Lemma stream_inner pretty id es data c c' h l : holds (hdr h) l c -> holds (hdr h) l c' -> c_pretty c = pretty -> c_pretty c' = pretty ->
  match (let '(w, b) := obj_indirect id pretty (c_buf c) in write_stream w es data b),
        (let '(w, b) := obj_indirect id pretty (c_buf c') in write_stream w es data b) with
  | Some b, Some b' => inner b = inner b'
  | None, None => True
  | _, _ => False
  end.
Proof.
  intros H H' E E'.
  assert (X : forall c, c_pretty c = pretty -> chunk_stream id es data c =
    option_map (fun b => mkChunk b (c_offsets c ++ [(id, chunk_len c)]) pretty) (let '(w, b) := obj_indirect id pretty (c_buf c) in write_stream w es data b)).
  { intros c0 E0. unfold chunk_stream, chunk_indirect. rewrite E0. destruct (obj_indirect id pretty (c_buf c0)) as [w b]. cbn [c_buf c_offsets c_pretty].
    destruct (write_stream w es data b); reflexivity. }
  pose proof (X c E) as X1. pose proof (X c' E') as X2.
  pose proof (stream_some_iff id es data c) as N1. pose proof (stream_some_iff id es data c') as N2.
  destruct (let '(w, b) := obj_indirect id pretty (c_buf c) in write_stream w es data b) as [b|];
    destruct (let '(w, b) := obj_indirect id pretty (c_buf c') in write_stream w es data b) as [b'|]; cbn [option_map] in *; try exact Logic.I.
  - destruct (stream_holds _ _ _ id es data _ H X1) as [[Y1 _] _]. destruct (stream_holds _ _ _ id es data _ H' X2) as [[Y2 _] _].
    unfold chunk_bytes in Y1, Y2. cbn [c_buf] in Y1, Y2. rewrite E in Y1. rewrite E' in Y2. congruence.
  - rewrite X1, X2 in *. apply N2; [apply N1; discriminate|reflexivity].
  - rewrite X1, X2 in *. apply N1; [apply N2; discriminate|reflexivity].
Qed.
Lemma finish_stream_alike pretty p p' id flt : alike pretty p p' -> finish_stream_inner p id flt = finish_stream_inner p' id flt.
Proof.
  intros (h & l & H & H' & E & E' & C & I & F). pose proof H as [H1 H2]. pose proof H' as [H1' H2'].
  unfold finish_stream_inner. unfold chunk_bytes in *. rewrite H2, H2', H1, H1', E, E'.
  destruct (write_offsets _) as [[n es]|]; [|reflexivity]. rewrite (trailer_alike p p' n C I F). destruct (flt _) as [data fl].
  match goal with |- context [write_stream _ ?es data _] => pose proof (stream_inner pretty id es data _ _ h l H H' E E') as X end.
  destruct (obj_indirect id pretty (c_buf (p_chunk p))) as [w b]. destruct (obj_indirect id pretty (c_buf (p_chunk p'))) as [w' b'].
  match goal with |- context [write_stream w ?es data _] => destruct (write_stream w es data b), (write_stream w' es data b'); try contradiction; [|reflexivity] end.
  unfold finish_trailer. rewrite !inner_extend, X. reflexivity.
Qed.
