(** C80: the name dictionary, identifiers of structure elements, looking up numbers, from the trailer on. *)

From Coq Require Import ZArith List Bool Lia.
From Verif Require ModelCmap ModelContent SpecContent.
From Verif Require Import Bytes ModelFloat ModelBuf ModelObject ModelChunk ModelColor ModelSmall ModelPdf ModelTw ModelEnums ModelRoles ModelTwArgs
  ModelTwFiles ModelTwGraphics ModelTwAnnot ModelTwForms ModelTwAttr ModelTwXObj ModelTwFonts ModelTwDoc ModelFontDesc ModelDoc
  SpecLex SpecObj SpecText SpecMeans SpecRenum SpecChunk SpecFile SpecPdf SpecTyped SpecColor SpecSmall SpecTw SpecEnums SpecRoles SpecTwArgs
  SpecTwFiles SpecTwGraphics SpecTwAnnot SpecTwForms SpecTwAttr SpecTwXObj SpecTwFonts SpecTwDoc SpecFontDesc SpecDoc SpecPages SpecExtract SpecNav SpecViews SpecNames
  ProofBasic ProofTree ProofTyped ProofTw ProofTwDoc PropDoc PropPdf2 PropPages PropExtract PropNav.
Import ListNotations.
Local Open Scope Z_scope.

Lemma read_entry_ids_refs {K V} (es : list (K * (Z * V))) :
  read_entry_ids (map (fun e => (fst e, VRef (fst (snd e)) 0)) es) = Some (map (fun e => (fst e, fst (snd e))) es).
Proof. unfold read_entry_ids. rewrite map_map. apply all_of_map. apply Forall_forall. intros e _. reflexivity. Qed.

Lemma names_entry k ncalls tcalls : called (names_key k) (names_method k) ncalls (Some tcalls) ->
  entries_for (names_key k) (writer_doc Names_head Names_doc ncalls) = [(names_key k, is_name_tree tcalls)].
Proof.
  intro H. apply (called_entries (names_key k) (names_method k) is_name_tree Names_head Names_doc ncalls (Some tcalls)) in H; [exact H|reflexivity|].
  intro c. destruct k, c; reflexivity.
Qed.
Lemma names_found decode ops cat file calls k {V} (t : tree_node bytes V) : finished_document decode ops cat file -> In (DocCatalog cat calls) ops ->
  names_written ops calls k t -> forall n, (tn_depth t <= n)%nat -> read_names decode k n file = Some (asked_names t).
Proof.
  intros D I (ncalls & tcalls & W1 & W2 & W3) n Hn. entries W1 Catalog_head Catalog_doc Names_reads. apply names_entry in W2.
  destruct (document_facts _ _ _ _ D) as [X _]. destruct (catalog_found _ _ _ _ _ D I) as (c & C1 & C2).
  unfold read_names. rewrite C1. cbn [bind]. unfold required at 1.
  destruct (dict_lookup _ _ _ _ C2 W1) as (nv & L1 & Q1). rewrite L1. cbn [bind]. destruct (dict_is _ _ Q1) as [nd ->]. cbn [object_dict bind].
  unfold required. destruct (dict_lookup _ _ _ _ Q1 W2) as (tv & L2 & Q2). rewrite L2. cbn [bind].
  destruct (dict_is _ _ Q2) as [d ->]. rewrite (walk_name_tree (resolve decode file) ops X t tcalls (VDict d) d n W3 eq_refl Q2 Hn).
  cbn [bind]. apply read_entry_ids_refs.
Qed.

(** A reader that starts from the trailer finds in each tree of the name dictionary exactly the names that were written there, in order, each with
    the object that it was given. *)
Theorem C80_names : forall decode ops cat file calls k (V : Type) (t : tree_node bytes V),
  finished_document decode ops cat file -> In (DocCatalog cat calls) ops -> names_written ops calls k t ->
  exists depth, forall n, (depth <= n)%nat -> read_names decode k n file = Some (asked_names t).
Proof. intros decode ops cat file calls k V t D I W. exists (tn_depth t). exact (names_found _ _ _ _ _ _ _ D I W). Qed.

(** The destinations among them lead to the pages and views that were asked for. *)
Theorem C80_destinations : forall decode ops cat file calls tree t l,
  finished_document decode ops cat file -> In (DocCatalog cat calls) ops -> pages_written ops calls tree ->
  names_written ops calls NkDestinations t -> places_written ops t -> asked_named_places (it_pages tree) t = Some l ->
  exists depth, forall n, (depth <= n)%nat -> read_named_places decode n file = Some l.
Proof.
  intros decode ops cat file calls tree t l D I P W Q A. destruct (document_facts _ _ _ _ D) as [X _].
  destruct (pages_found _ _ _ _ _ _ D I P) as (ds & F & E). exists (it_depth tree + tn_depth t)%nat. intros n Hn.
  unfold read_named_places. rewrite E by lia. cbn [bind]. rewrite (names_found _ _ _ _ _ _ _ D I W) by lia. cbn [bind].
  rewrite (pages_ids _ _ _ F). unfold asked_names. rewrite map_map. unfold asked_named_places in A. unfold places_written in Q. clear - X Q A.
  revert l A. induction Q as [|[k [id p]] es H Q IH]; intros l A; [exact A|]. cbn [map all_of fst snd] in *.
  destruct (asked_explicit (it_pages tree) p) as [x|] eqn:Ex; [|discriminate]. cbn [option_map] in A.
  destruct (all_of (map (fun e => option_map (pair (fst e)) (asked_explicit (it_pages tree) (snd (snd e)))) es)) as [xs|] eqn:Es; [|discriminate].
  apply some_inj in A. subst l. rewrite (IH xs eq_refl).
  destruct (found (resolve decode file) ops X _ _ H) as (i & E & v & -> & M). rewrite E.
  destruct (explicit_found _ _ _ _ M Ex) as (r & view & l & -> & Y). cbn [read_place]. rewrite Y. reflexivity.
Qed.

(** The identifiers of structure elements lead to the elements that were asked for. *)
Theorem C80_element_ids : forall decode ops cat file calls t,
  finished_document decode ops cat file -> In (DocCatalog cat calls) ops -> element_ids_written ops calls t ->
  exists depth, forall n, (depth <= n)%nat -> read_element_ids decode n file = Some (asked_element_ids t).
Proof.
  intros decode ops cat file calls t D I (rcalls & tcalls & W1 & W2 & W3 & W4).
  entries W1 Catalog_head Catalog_doc StructTreeRoot_reads. entries W2 StructTreeRoot_head StructTreeRoot_doc is_name_tree.
  destruct (document_facts _ _ _ _ D) as [X _]. destruct (catalog_found _ _ _ _ _ D I) as (c & C1 & C2). exists (tn_depth t). intros n Hn.
  unfold read_element_ids. rewrite C1. cbn [bind]. unfold required at 1.
  destruct (dict_lookup _ _ _ _ C2 W1) as (v & L & Q). rewrite L. cbn [bind]. destruct (dict_is _ _ Q) as [root ->]. cbn [object_dict bind].
  unfold required. destruct (dict_lookup _ _ _ _ Q W2) as (tv & L2 & Q2). rewrite L2. cbn [bind].
  destruct (dict_is _ _ Q2) as [d ->]. rewrite (walk_name_tree (resolve decode file) ops X t tcalls (VDict d) d n W3 eq_refl Q2) by exact Hn.
  cbn [bind]. rewrite read_entry_ids_refs. cbn [bind]. unfold asked_element_ids. rewrite map_map. apply all_of_map. clear - X W4.
  apply (Forall_impl _ (P := fun e => exists calls, In (DocTyped (fst (snd e)) (Ck_struct_element calls)) ops /\
      called (lit "ID") <| StructElement_id s => s |> calls (snd (snd e)))); [|exact W4].
  intros [k [id own]] (calls & H1 & H2). cbn [fst snd] in *. entries H2 StructElement_head StructElement_doc is_str.
  destruct (found (resolve decode file) ops X _ _ H1) as (i & E & v & -> & M). destruct (dict_is _ _ M) as [d ->].
  cbn [object_dict]. rewrite E. cbn [bind]. rewrite (optional_found _ _ _ _ _ own M H2); [reflexivity|].
  destruct own as [s|]; [|exact Logic.I]. cbn [option_map]. intros v Y. unfold is_str in Y. subst v. reflexivity.
Qed.

(** ** Looking up numbers *)
Lemma ascending_app a b : ascending (a ++ b) -> ascending a /\ ascending b /\ Forall (fun x => Forall (fun y => x < y) b) a.
Proof.
  induction a as [|x a IH]; cbn [app ascending]; [intro H; repeat split; [exact H|constructor]|]. intros [H1 H2]. apply Forall_app in H1. destruct H1 as [H1 H3].
  destruct (IH H2) as (A & B & C). repeat split; try assumption. constructor; assumption.
Qed.
Lemma limits_entry calls lo hi : flat_map (fun c => match c with MtLimits lo hi => [(lo, hi)] | _ => [] end) calls = [(lo, hi)] ->
  entries_for (lit "Limits") (map number_tree_reads calls) = [(lit "Limits", is_array [is_int lo; is_int hi])].
Proof.
  intro H. change [(lit "Limits", is_array [is_int lo; is_int hi])] with
    (map (fun l => (lit "Limits", is_array [is_int (fst l); is_int (snd l)])) [(lo, hi)]). rewrite <- H. clear.
  induction calls as [|c calls IH]; [reflexivity|]. cbn [map flat_map]. rewrite map_app, <- IH.
  change (number_tree_reads c :: map number_tree_reads calls) with ([number_tree_reads c] ++ map number_tree_reads calls). rewrite entries_for_app.
  destruct c; reflexivity.
Qed.
Lemma nums_entry calls es : flat_map (fun c => match c with MtNums es => [es] | _ => [] end) calls = [es] ->
  entries_for (lit "Nums") (map number_tree_reads calls) = [(lit "Nums", pairs_are read_number_pairs es)].
Proof.
  intro H. change [(lit "Nums", pairs_are read_number_pairs es)] with (map (fun es => (lit "Nums", pairs_are read_number_pairs es)) [es]). rewrite <- H. clear.
  induction calls as [|c calls IH]; [reflexivity|]. cbn [map flat_map]. rewrite map_app, <- IH.
  change (number_tree_reads c :: map number_tree_reads calls) with ([number_tree_reads c] ++ map number_tree_reads calls). rewrite entries_for_app.
  destruct c; reflexivity.
Qed.
Lemma numkids_entry calls : entries_for (lit "Kids") (map number_tree_reads calls) =
  map (fun ids => (lit "Kids", is_refs ids)) (flat_map (fun c => match c with MtKids ids => [ids] | _ => [] end) calls).
Proof.
  induction calls as [|c calls IH]; [reflexivity|]. cbn [map flat_map]. rewrite map_app, <- IH.
  change (number_tree_reads c :: map number_tree_reads calls) with ([number_tree_reads c] ++ map number_tree_reads calls). rewrite entries_for_app.
  destruct c; reflexivity.
Qed.
Lemma find_absent {V} (es : list (Z * V)) key : Forall (fun e => fst e <> key) es -> find (fun e => fst e =? key) es = None.
Proof. induction 1 as [|e es H _ IH]; [reflexivity|]. cbn [find]. apply Z.eqb_neq in H. rewrite H. exact IH. Qed.
Lemma find_app {V} (f : V -> bool) a b : find f (a ++ b) = match find f a with Some x => Some x | None => find f b end.
Proof. induction a as [|x a IH]; [reflexivity|]. cbn [app find]. destruct (f x); [reflexivity|exact IH]. Qed.

Section Find.
  Variables (resolved : Z -> option indirect) (ops : list doc_op) (key : Z).
  Hypothesis R : Forall (fun op => doc_op_reads op resolved) ops.
  Lemma walk_limits {V} : forall (t : tree_node Z V) calls, limits_written ops calls t -> ascending (map fst (tn_entries t)) ->
    forall v d, object_dict resolved v = Some d -> is_number_tree calls (VDict d) ->
    forall n, (tn_depth t <= n)%nat -> find_number resolved key n v = Some (option_map (fun id => VRef id 0) (value_for t key)).
  Proof using R.
    fix IH 1. intros [es|kids] calls W S v d E D [|n] L; try (inversion L; fail); cbn [limits_written tn_entries tn_depth] in *; unfold value_for; cbn [tn_entries].
    - destruct W as [W1 W2]. apply (f_equal (map (fun ids => (lit "Kids", is_refs ids)))) in W1. rewrite <- numkids_entry in W1. apply nums_entry in W2.
      cbn [find_number]. unfold bind. rewrite E. rewrite (dict_lookup_none _ _ _ D W1).
      destruct (dict_lookup _ _ _ _ D W2) as (x & L2 & vs & ps & -> & P & F). rewrite L2, P. cbn [option_map]. f_equal.
      clear - F. remember (map (fun e : Z * (Z * V) => (fst e, PRef (fst (snd e)))) es) as l eqn:El. revert es El.
      induction F as [|a b l ps [H1 H2] F IH]; intros [|e es] El; try discriminate; [reflexivity|]. cbn [map] in El. injection El as -> ->.
      cbn [fst snd] in *. destruct b as [k v]. cbn [fst snd] in *. subst k. inversion H2. subst. cbn [find fst].
      destruct (fst e =? key); [reflexivity|]. exact (IH es eq_refl).
    - destruct W as [W1 W2]. apply (f_equal (map (fun ids => (lit "Kids", is_refs ids)))) in W1. rewrite <- numkids_entry in W1.
      cbn [find_number]. unfold bind at 1. rewrite E. apply le_S_n in L.
      destruct (dict_lookup _ _ _ _ D W1) as (x & L2 & vs & -> & Q). rewrite L2. apply refs_found in Q. subst vs.
      clear W1 L2. induction kids as [|[id t] kids IHk]; [reflexivity|]. destruct W2 as [(kc & lo & hi & W3 & W4 & W5 & W6 & W7 & W8) W9].
      cbn [map fold_right snd] in L. cbn [flat_map snd] in *. rewrite map_app in S. apply ascending_app in S. destruct S as (S1 & S2 & S3).
      cbn [map first_that fst].
      assert (Y : exists d', object_dict resolved (VRef id 0) = Some d' /\ is_number_tree kc (VDict d')).
      { destruct (found resolved ops R _ _ W3) as (i & E' & v' & -> & D'). destruct (dict_is _ _ D') as [d' ->]. exists d'. split; [|exact D'].
        cbn [object_dict]. rewrite E'. reflexivity. }
      destruct Y as (d' & E' & D'). apply limits_entry in W4. destruct (dict_lookup _ _ _ _ D' W4) as (lv & L4 & ls & -> & F).
      inversion F as [|? a ? ? A1 F1]; subst. inversion F1 as [|? b ? ? A2 F2]; subst. inversion F2; subst. unfold is_int in A1, A2. subst a b.
      assert (Wi : within resolved key (VRef id 0) = Some ((lo <=? key) && (key <=? hi))) by (unfold within, bind; rewrite E', L4; reflexivity).
      rewrite Wi. rewrite find_app. destruct ((lo <=? key) && (key <=? hi)) eqn:B.
      + cbn [bind]. apply andb_true_iff in B. destruct B as [B1 B2]. apply Z.leb_le in B1, B2.
        rewrite (IH t kc W8 S1 (VRef id 0) d' E' D' n) by (etransitivity; [apply Nat.le_max_l|exact L]). unfold value_for.
        destruct (find (fun e => fst e =? key) (tn_entries t)) as [e|]; [reflexivity|]. cbn [option_map].
        rewrite find_absent; [reflexivity|]. rewrite Forall_forall in S3. specialize (S3 hi W6). apply Forall_forall. intros e He.
        rewrite Forall_forall in S3. specialize (S3 (fst e) (in_map fst _ _ He)). lia.
      + rewrite (find_absent (tn_entries t)).
        * refine (IHk W9 S2 _). etransitivity; [apply Nat.le_max_r|exact L].
        * apply Forall_forall. intros e He. rewrite Forall_forall in W7. specialize (W7 e He). apply andb_false_iff in B. destruct B as [B|B]; apply Z.leb_gt in B; lia.
  Qed.
End Find.

(** In a parent tree whose nodes were written with their limits, a reader that visits only one path finds for every key the object that was given for
    it, and for no other key any object. *)
Theorem C80_find_parent : forall decode ops cat file calls (V : Type) (t : tree_node Z V),
  finished_document decode ops cat file -> In (DocCatalog cat calls) ops ->
  parents_indexed ops calls t -> ascending (map fst (tn_entries t)) ->
  exists depth, forall n, (depth <= n)%nat -> forall key, find_parent decode n file key = Some (value_for t key).
Proof.
  intros decode ops cat file calls V t D I (rcalls & tcalls & W1 & W2 & W3) S.
  entries W1 Catalog_head Catalog_doc StructTreeRoot_reads. entries W2 StructTreeRoot_head StructTreeRoot_doc is_number_tree.
  destruct (document_facts _ _ _ _ D) as [X _]. destruct (catalog_found _ _ _ _ _ D I) as (c & C1 & C2). exists (tn_depth t). intros n Hn key.
  unfold find_parent. rewrite C1. cbn [bind]. unfold required at 1.
  destruct (dict_lookup _ _ _ _ C2 W1) as (v & L & Q). rewrite L. cbn [bind]. destruct (dict_is _ _ Q) as [root ->]. cbn [object_dict bind].
  unfold required. destruct (dict_lookup _ _ _ _ Q W2) as (tv & L2 & Q2). rewrite L2. cbn [bind].
  destruct (dict_is _ _ Q2) as [d ->]. rewrite (walk_limits (resolve decode file) ops key X t tcalls W3 S (VDict d) d eq_refl Q2 n Hn).
  destruct (value_for t key); reflexivity.
Qed.
(** And likewise for the tree of page labels. *)
Theorem C80_find_label : forall decode ops cat file calls (V : Type) (t : tree_node Z V),
  finished_document decode ops cat file -> In (DocCatalog cat calls) ops ->
  labels_indexed ops calls t -> ascending (map fst (tn_entries t)) ->
  exists depth, forall n, (depth <= n)%nat -> forall key, find_label decode n file key = Some (value_for t key).
Proof.
  intros decode ops cat file calls V t D I (tcalls & W2 & W3) S. entries W2 Catalog_head Catalog_doc is_number_tree.
  destruct (document_facts _ _ _ _ D) as [X _]. destruct (catalog_found _ _ _ _ _ D I) as (c & C1 & C2). exists (tn_depth t). intros n Hn key.
  unfold find_label. rewrite C1. cbn [bind]. unfold required.
  destruct (dict_lookup _ _ _ _ C2 W2) as (tv & L2 & Q2). rewrite L2. cbn [bind].
  destruct (dict_is _ _ Q2) as [d ->]. rewrite (walk_limits (resolve decode file) ops key X t tcalls W3 S (VDict d) d eq_refl Q2 n Hn).
  destruct (value_for t key); reflexivity.
Qed.

(** ** A document *)

(** Two pages; two named destinations and a script; two structure elements with identifiers; a parent tree with two leaves; a page label. *)
Definition names_catalog : Catalog_calls := [
  Typed (Catalog_pages 2);
  Typed (Catalog_names [Typed (Names_javascript [NtNames [(lit "init", PRef 9)]]); Typed (Names_destinations [NtKids [10; 11]])]);
  Typed (Catalog_struct_tree_root [Typed (StructTreeRoot_id_tree [NtNames [(lit "e(1", PRef 20); (lit "e2", PRef 21)]]);
    Typed (StructTreeRoot_parent_tree [MtKids [30; 31]])]);
  Typed (Catalog_page_labels [MtNums [(0, PRef 40)]])].
Definition names_sample : list doc_op := [
  DocTyped 4 (Ck_page [Typed (Page_parent 2)]);
  DocTyped 5 (Ck_page [Typed (Page_parent 2)]);
  DocTyped 2 (Ck_pages [Typed (Pages_kids [4; 5]); Typed (Pages_count 2)]);
  DocOther (PdfObject 9 (Action_obj [Typed (Action_action_type ActionType_JavaScript)]));
  DocTyped 10 (Ck_name_tree [NtNames [(lit "a", PRef 12)]; NtLimits (lit "a") (lit "a")]);
  DocTyped 11 (Ck_name_tree [NtNames [(lit "b", PRef 13)]; NtLimits (lit "b") (lit "b")]);
  DocTyped 12 (Ck_destination [TypedItem (Destination_page 5); TypedItem Destination_fit]);
  DocTyped 13 (Ck_destination [TypedItem (Destination_page 4); TypedItem (Destination_fit_horizontal f32_zero)]);
  DocTyped 20 (Ck_struct_element [Typed (StructElement_kind StructRole_P); Typed (StructElement_id (lit "e(1"))]);
  DocTyped 21 (Ck_struct_element [Typed (StructElement_id (lit "e2")); Typed (StructElement_kind StructRole_P)]);
  DocTyped 30 (Ck_number_tree [MtLimits 1 3; MtNums [(1, PRef 20); (3, PRef 21)]]);
  DocTyped 31 (Ck_number_tree [MtNums [(7, PRef 21)]; MtLimits 7 7]);
  DocOther (PdfObject 40 (PageLabel_obj []));
  DocCatalog 1 names_catalog].
Definition names_tree : tree_node bytes explicit_place :=
  TnNode [(10, TnLeaf [(lit "a", (12, (5, Destination_fit)))]); (11, TnLeaf [(lit "b", (13, (4, Destination_fit_horizontal f32_zero)))])].
Definition names_parents : tree_node Z unit := TnNode [(30, TnLeaf [(1, (20, tt)); (3, (21, tt))]); (31, TnLeaf [(7, (21, tt))])].
Definition names_elements : tree_node bytes (option bytes) := TnLeaf [(lit "e(1", (20, Some (lit "e(1"))); (lit "e2", (21, Some (lit "e2")))].
Example C80_case :
  names_written names_sample names_catalog NkDestinations names_tree /\ places_written names_sample names_tree /\
  names_written names_sample names_catalog NkJavaScript (TnLeaf [(lit "init", (9, tt))]) /\
  pages_written names_sample names_catalog (ItNode 2 [ItPage 4; ItPage 5]) /\
  asked_named_places [4; 5] names_tree = Some [(lit "a", (1%nat, lit "Fit")); (lit "b", (0%nat, lit "FitH"))] /\
  element_ids_written names_sample names_catalog names_elements /\
  parents_indexed names_sample names_catalog names_parents /\ ascending (map fst (tn_entries names_parents)) /\
  labels_indexed names_sample names_catalog (TnLeaf [(0, (40, tt))]).
Proof.
  split; [eexists _, _; split; [reflexivity|]; split; [reflexivity|]; split; [reflexivity|];
    split; [eexists; split; [cbn [names_sample In]; tauto|split; reflexivity]|];
    split; [eexists; split; [cbn [names_sample In]; tauto|split; reflexivity]|exact I]|].
  split; [repeat (apply Forall_cons; [cbn [names_sample In fst snd place_calls]; tauto|]); apply Forall_nil|].
  split; [eexists _, _; split; [reflexivity|]; split; [reflexivity|]; split; reflexivity|].
  split; [split; [reflexivity|]; split; [eexists; split; [cbn [names_sample In]; tauto|reflexivity]|];
    split; [eexists; cbn [names_sample In]; tauto|]; split; [eexists; cbn [names_sample In]; tauto|exact I]|].
  split; [reflexivity|].
  split; [eexists _, _; split; [reflexivity|]; split; [reflexivity|]; split; [split; reflexivity|]; repeat (apply Forall_cons;
    [eexists; split; [cbn [names_sample In fst snd]; tauto|reflexivity]|]); apply Forall_nil|].
  split; [eexists _, _; split; [reflexivity|]; split; [reflexivity|]; split; [reflexivity|]|].
  { split; [eexists _, 1, 3; split; [cbn [names_sample In]; tauto|]|split; [eexists _, 7, 7; split; [cbn [names_sample In]; tauto|]|exact I]];
      (split; [reflexivity|]); (split; [cbn; tauto|]); (split; [cbn; tauto|]); (split; [|split; reflexivity]);
      repeat (apply Forall_cons; [cbn [fst]; lia|]); apply Forall_nil. }
  split; [cbn; repeat split; repeat constructor; lia|]. eexists. split; [reflexivity|]. split; reflexivity.
Qed.
(** And the file is really read so. *)
Example C80_file : exists file, finished_document no_filter names_sample 1 file /\
  read_names no_filter NkDestinations 2 file = Some [(lit "a", 12); (lit "b", 13)] /\
  read_named_places no_filter 2 file = Some [(lit "a", (1%nat, lit "Fit")); (lit "b", (0%nat, lit "FitH"))] /\
  read_element_ids no_filter 1 file = Some [(lit "e(1", 20, Some (lit "e(1")); (lit "e2", 21, Some (lit "e2"))] /\
  map (find_parent no_filter 2 file) [0; 1; 2; 3; 7; 8] = [Some None; Some (Some 20); Some None; Some (Some 21); Some (Some 21); Some None].
Proof.
  assert (X : match doc_run names_sample (pdf_with_settings true) with
              | Some p => match finish p with
                          | Some f => (blen f <=? 10 ^ 10, (read_names no_filter NkDestinations 2 f, read_named_places no_filter 2 f, read_element_ids no_filter 1 f, map (find_parent no_filter 2 f) [0; 1; 2; 3; 7; 8]))
                          | None => (false, (None, None, None, [])) end
              | None => (false, (None, None, None, [])) end =
    (true, (Some [(lit "a", 12); (lit "b", 13)], Some [(lit "a", (1%nat, lit "Fit")); (lit "b", (0%nat, lit "FitH"))],
      Some [(lit "e(1", 20, Some (lit "e(1")); (lit "e2", 21, Some (lit "e2"))],
      [Some None; Some (Some 20); Some None; Some (Some 21); Some (Some 21); Some None]))) by (vm_compute; reflexivity).
  destruct (doc_run names_sample (pdf_with_settings true)) as [p|] eqn:R; [|discriminate].
  destruct (finish p) as [file|] eqn:F; [|discriminate]. exists file. split.
  - apply (finished_table _ _ _ _ true p); [|exact R|exact F| |apply Z.leb_le; exact (f_equal fst X)|reflexivity].
    + repeat (apply Forall_cons; [cbn [doc_op_ok op_typed]; repeat split|]); apply Forall_nil.
    + unfold ids_below; repeat constructor.
  - pose proof (f_equal snd X) as Y. cbn [snd] in Y. injection Y as Y1 Y2 Y3 Y4. repeat split; try assumption. cbn [map]. rewrite Y4. repeat f_equal; assumption.
Qed.

Print Assumptions C80_names.
Print Assumptions C80_destinations.
Print Assumptions C80_element_ids.
Print Assumptions C80_find_parent.
Print Assumptions C80_find_label.
