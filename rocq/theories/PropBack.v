(** C91: outlines from their end, pages up to the root, from the trailer on. *)

From Coq Require Import ZArith List Bool Lia.
From Verif Require SpecInfo ModelCmap ModelContent SpecContent SpecForm PropForm.
From Verif Require Import Bytes ModelFloat ModelBuf ModelObject ModelChunk ModelColor ModelSmall ModelPdf ModelTw ModelEnums ModelRoles ModelTwArgs
  ModelTwFiles ModelTwGraphics ModelTwAnnot ModelTwForms ModelTwAttr ModelTwXObj ModelTwFonts ModelTwDoc ModelFontDesc ModelDoc
  SpecLex SpecObj SpecText SpecMeans SpecRenum SpecChunk SpecFile SpecPdf SpecTyped SpecColor SpecSmall SpecTw SpecEnums SpecRoles SpecTwArgs
  SpecTwFiles SpecTwGraphics SpecTwAnnot SpecTwForms SpecTwAttr SpecTwXObj SpecTwFonts SpecTwDoc SpecFontDesc SpecDoc SpecPages SpecExtract SpecNav SpecViews SpecTagged SpecPaint SpecFunctions SpecActions SpecPresent SpecColors SpecImages SpecAppear SpecAttrs SpecMarks SpecFields SpecBack
  ProofBasic ProofTree ProofTyped ProofTw ProofTwDoc PropDoc PropPdf2 PropPages PropExtract PropNav PropTagged PropInfo PropPaint PropFunctions PropColors PropActions PropPresent PropImages PropAppear PropAttrs PropFields.
Import ListNotations.
Local Open Scope Z_scope.

Section Walk.
  Variables (resolved : Z -> option indirect) (ops : list doc_op).
  Hypothesis R : Forall (fun op => doc_op_reads op resolved) ops.

  Lemma item_parts_found calls x v : item_parts_written calls x -> OutlineItem_reads calls v -> exists r, (read_item_parts resolved) v = Some r /\ item_parts_is x r.
  Proof using Type.
    intros (H0 & H1 & H2 & H3 & H4) Q. destruct (dict_is _ _ Q) as [d ->]. destruct x as [p0 p1 p2 p3 p4].
    cbn [ot_title ot_parent ot_count ot_color ot_flags] in *.
    entries H0 OutlineItem_head OutlineItem_doc is_textlike.
    entries H1 OutlineItem_head OutlineItem_doc is_ref.
    entries H2 OutlineItem_head OutlineItem_doc is_int.
    entries H3 OutlineItem_head OutlineItem_doc is_reals.
    destruct (related_found (lit "C") is_reals _ _ _ _ p3 Q H3 numbers_found) as (r3 & E3 & X3).
    exists (mkItemParts p0 p1 p2 r3 p4).
    split; [|unfold item_parts_is; repeat (split; [first [reflexivity|assumption]|]); first [reflexivity|assumption]].
    unfold read_item_parts. cbn [object_dict bind].
    rewrite (text_option_found _ _ (lit "Title") p0 Q H0). cbn [bind].
    rewrite (same_found (lit "Parent") is_ref _ _ _ p1 Q H1 id_found). cbn [bind].
    rewrite (same_found (lit "Count") is_int _ _ _ p2 Q H2 whole_found). cbn [bind].
    rewrite E3. cbn [bind].
    rewrite (part_same (lit "F") (is_flags OutlineItemFlags_pos) _ (fun l x => x = positions_of OutlineItemFlags_pos l) _ _ d p4 Q) with (2 := H4); [|intros c H; entries H OutlineItem_head OutlineItem_doc (is_flags OutlineItemFlags_pos); exact H|exact (flags_found OutlineItemFlags_pos)]. cbn [bind].
    reflexivity.
  Qed.

  Fixpoint item_size (t : item f32) : nat := match t with Item _ _ kids => S (fold_right Nat.add 0%nat (map item_size kids)) end.
  Definition item_sizes (l : list (item f32)) : nat := fold_right Nat.add 0%nat (map item_size l).
  Definition head_item (l : list (item f32)) : option Z := match l with t :: _ => Some (item_id t) | [] => None end.
  (** The items in reverse: each after the one it comes before. *)
  Fixpoint chain (l : list (item f32)) : Prop := match l with [] => True | t :: l => item_written ops (head_item l) t /\ chain l end.
  Lemma chain_of l : forall acc, chain acc -> items_written ops (head_item acc) l -> chain (rev l ++ acc).
  Proof using Type.
    induction l as [|t l IH]; intros acc A W; [exact A|]. destruct W as [W1 W2]. cbn [rev]. rewrite <- app_assoc. apply IH; [split; assumption|exact W2].
  Qed.
  Lemma kids_chain kids : (fix all (prev : option Z) (l : list (item f32)) {struct l} : Prop :=
    match l with [] => True | t :: l => item_written ops prev t /\ all (Some (item_id t)) l end) None kids -> chain (rev kids).
  Proof using Type.
    intro W. rewrite <- (app_nil_r (rev kids)). apply chain_of; [exact Logic.I|]. cbn [head_item].
    assert (G : forall p, (fix all (prev : option Z) (l : list (item f32)) {struct l} : Prop :=
      match l with [] => True | t :: l => item_written ops prev t /\ all (Some (item_id t)) l end) p kids -> items_written ops p kids); [|exact (G None W)].
    clear W. induction kids as [|t kids IH]; intros p W; [exact Logic.I|]. destruct W as [W1 W2]. split; [exact W1|exact (IH _ W2)].
  Qed.
  Lemma sizes_rev l : item_sizes (rev l) = item_sizes l.
  Proof using Type.
    unfold item_sizes. induction l as [|t l IH]; [reflexivity|]. cbn [rev]. rewrite map_app, fold_right_app. cbn [map fold_right].
    rewrite <- IH. generalize (map item_size (rev l)). clear. intro l. induction l as [|a l IH]; cbn [fold_right]; [lia|rewrite IH; lia].
  Qed.
  Lemma items_back : forall m t l, (item_sizes (t :: l) <= m)%nat -> chain (t :: l) -> exists rs, Forall2 item_is (rev (t :: l)) rs /\
    forall n, (item_sizes (t :: l) <= n)%nat -> read_items_back resolved n (VRef (item_id t) 0) = Some rs.
  Proof using R.
    induction m as [|m IH]; intros [id own kids] l Hm W.
    { exfalso. unfold item_sizes in Hm. cbn [map fold_right item_size] in Hm. lia. }
    change (item_sizes (Item id own kids :: l)) with (S (item_sizes kids) + item_sizes l)%nat in *.
    destruct W as [W1 W2]. cbn [item_written] in W1. destruct W1 as [(calls & H1 & H2 & H3 & H4) W1]. apply kids_chain in W1.
    entries H3 OutlineItem_head OutlineItem_doc is_ref. entries H4 OutlineItem_head OutlineItem_doc is_ref.
    destruct (found resolved ops R _ _ H1) as (i & E & v & -> & D). destruct (item_parts_found calls own v H2 D) as (o & X & Y). destruct (dict_is _ _ D) as [d ->].
    assert (A : exists ks, Forall2 item_is kids (match ks with Some l => l | None => [] end) /\ forall n, (item_sizes kids <= n)%nat ->
      optional (lit "Last") d (read_items_back resolved n) = Some ks).
    { unfold last_item in H3. pose proof (sizes_rev kids) as Hk. rewrite <- Hk in Hm |- *. clear Hk. cut (exists ks, Forall2 item_is (rev (rev kids)) (match ks with Some l => l | None => [] end) /\ forall n, (item_sizes (rev kids) <= n)%nat -> optional (lit "Last") d (read_items_back resolved n) = Some ks); [rewrite rev_involutive; exact (fun x => x)|].
      destruct (rev kids) as [|b r]; cbn [option_map entry_or_none] in H3.
      - exists None. split; [constructor|]. intros n _. unfold optional. rewrite (dict_lookup_none _ _ _ D H3). reflexivity.
      - destruct (dict_lookup _ _ _ _ D H3) as (v & L & ->). destruct (IH b r) as (ks & F & G); [lia|exact W1|]. exists (Some ks). split; [exact F|].
        intros n Hn. unfold optional. rewrite L, (G n Hn). reflexivity. }
    assert (B : exists bs, Forall2 item_is (rev l) (match bs with Some l => l | None => [] end) /\ forall n, (item_sizes l <= n)%nat ->
      optional (lit "Prev") d (read_items_back resolved n) = Some bs).
    { destruct l as [|b r]; cbn [head_item option_map entry_or_none] in H4.
      - exists None. split; [constructor|]. intros n _. unfold optional. rewrite (dict_lookup_none _ _ _ D H4). reflexivity.
      - destruct (dict_lookup _ _ _ _ D H4) as (v & L & ->). destruct (IH b r) as (bs & F & G); [lia|exact W2|]. exists (Some bs). split; [exact F|].
        intros n Hn. unfold optional. rewrite L, (G n Hn). reflexivity. }
    destruct A as (ks & A1 & A2), B as (bs & B1 & B2). eexists. split; [cbn [rev]; apply Forall2_app; [exact B1|constructor; [exact (item_is_intro id _ _ _ _ Y A1)|constructor]]|].
    intros [|n] Hn; [lia|]. cbn [read_items_back item_id read_id bind object_dict]. rewrite E. cbn [bind].
    assert (X' : read_item_parts resolved (VRef id 0) = Some o) by (unfold read_item_parts in *; cbn [object_dict] in *; rewrite E; exact X).
    rewrite X'. cbn [bind]. rewrite A2 by lia. cbn [bind]. rewrite B2 by lia. reflexivity.
  Qed.

  (** The way up. *)
  Definition above_found (above : list (Z * Z)) (v : val) : Prop := exists m, forall n, (m <= n)%nat -> read_above resolved n v = Some above.
  Lemma parent_found d id (parent : option Z) above pv : resolved id = Some (IObj id 0 (VDict d)) ->
    lookup (lit "Parent") d = option_map (fun p => VRef p 0) parent ->
    match parent with
    | None => above = []
    | Some p => exists node count rest, above = (p, count) :: rest /\ resolved p = Some (IObj p 0 (VDict node)) /\ lookup (lit "Count") node = Some (VInt count) /\ above_found rest (VRef p 0)
    end -> pv = VRef id 0 -> above_found above pv.
  Proof using Type.
    intros E L P ->. destruct parent as [p|]; cbn [option_map] in L.
    - destruct P as (node & count & rest & -> & E' & C & m & H). exists (S m). intros [|n] Hn; [lia|]. cbn [read_above object_dict]. rewrite E. cbn [bind]. rewrite L. cbn [read_id bind object_dict].
      rewrite E'. cbn [bind]. unfold required. rewrite C. cbn [bind read_int]. rewrite H by lia. reflexivity.
    - subst above. exists 1%nat. intros [|n] Hn; [lia|]. cbn [read_above object_dict]. rewrite E. cbn [bind]. rewrite L. reflexivity.
  Qed.
  Definition known_above (parent : option Z) (above : list (Z * Z)) : Prop :=
    match parent with
    | None => above = []
    | Some p => exists node count rest, above = (p, count) :: rest /\ resolved p = Some (IObj p 0 (VDict node)) /\ lookup (lit "Count") node = Some (VInt count) /\ above_found rest (VRef p 0)
    end.
  Lemma parent_entry xs d parent : is_dict xs (VDict d) -> entries_for (lit "Parent") xs = entry_or_none (lit "Parent") (option_map is_ref parent) ->
    lookup (lit "Parent") d = option_map (fun p => VRef p 0) parent.
  Proof using Type.
    intros D H. destruct parent as [p|]; cbn [option_map entry_or_none] in *; [|exact (dict_lookup_none _ _ _ D H)]. destruct (dict_lookup _ _ _ _ D H) as (v & L & ->). exact L.
  Qed.
  Lemma tree_above : forall t parent above, known_above parent above -> parents_written ops parent t ->
    Forall (fun p => above_found (snd p) (VRef (fst p) 0)) (pages_above above t) /\ map fst (pages_above above t) = it_pages t.
  Proof using R.
    fix IH 1. intros [id|id kids] parent above K W; cbn [parents_written pages_above] in *.
    - destruct W as (calls & I & H). entries H Page_head Page_doc is_ref. destruct (found resolved ops R _ _ I) as (i & E & v & -> & D). destruct (dict_is _ _ D) as [d ->].
      split; [|reflexivity]. constructor; [|constructor]. exact (parent_found d id parent above _ E (parent_entry _ _ _ D H) K eq_refl).
    - destruct W as [(calls & I & H & C) W]. entries H Pages_head Pages_doc is_ref. entries C Pages_head Pages_doc is_int.
      destruct (found resolved ops R _ _ I) as (i & E & v & -> & D). destruct (dict_is _ _ D) as [d ->].
      pose proof (parent_found d id parent above _ E (parent_entry _ _ _ D H) K eq_refl) as A. destruct (dict_lookup _ _ _ _ D C) as (v & L & ->).
      set (count := Z.of_nat (length (it_pages (ItNode id kids)))) in *.
      assert (K' : known_above (Some id) ((id, count) :: above)) by (exists d, count, above; repeat (split; [first [reflexivity|assumption]|]); exact A).
      clearbody count. cbn [it_pages]. clear - IH W K'. induction kids as [|t kids IHk]; [split; [constructor|reflexivity]|]. destruct W as [W1 W2]. cbn [flat_map].
      destruct (IH t (Some id) _ K' W1) as [A1 A2]. destruct (IHk W2) as [B1 B2]. split; [apply Forall_app; split; assumption|]. rewrite map_app, A2, B2. reflexivity.
  Qed.
End Walk.

(** A reader that starts from the trailer and goes through the outline from its end finds the items, in order and nested as written, with what was given for them. *)
Theorem C91_outline : forall decode ops cat file calls count l,
  finished_document decode ops cat file -> In (DocCatalog cat calls) ops -> outline_back_written ops calls count l ->
  exists rs depth, Forall2 item_is l rs /\ forall n, (depth <= n)%nat -> read_outline_back decode n file = Some (count, rs).
Proof.
  intros decode ops cat file calls count l D I (id & ocalls & W1 & W2 & W3 & W4 & W5).
  entries W1 Catalog_head Catalog_doc is_ref. entries W3 Outline_head Outline_doc is_ref. entries W4 Outline_head Outline_doc is_int.
  destruct (document_facts _ _ _ _ D) as [X _]. destruct (catalog_found _ _ _ _ _ D I) as (c & C1 & C2).
  destruct (dict_lookup _ _ _ _ C2 W1) as (v & L & ->). destruct (found (resolve decode file) ops X _ _ W2) as (i & E & v & -> & M). destruct (dict_is _ _ M) as [d ->].
  assert (S : exists rs depth, Forall2 item_is l rs /\ forall n, (depth <= n)%nat ->
    match lookup (lit "Last") d with None => Some (count, []) | Some v => option_map (pair count) (read_items_back (resolve decode file) n v) end = Some (count, rs)).
  { pose proof (chain_of ops l [] Logic.I W5) as C. rewrite app_nil_r in C. unfold last_item in W3. rewrite <- (rev_involutive l). destruct (rev l) as [|t r]; cbn [option_map entry_or_none] in W3.
    - exists [], 0%nat. split; [constructor|]. intros n _. rewrite (dict_lookup_none _ _ _ M W3). reflexivity.
    - destruct (dict_lookup _ _ _ _ M W3) as (v & L' & ->). destruct (items_back (resolve decode file) ops X _ t r (le_n _) C) as (rs & F & G). exists rs, (item_sizes (t :: r)).
      split; [exact F|]. intros n Hn. rewrite L', (G n Hn). reflexivity. }
  destruct S as (rs & depth & F & G). exists rs, depth. split; [exact F|]. intros n Hn. unfold read_outline_back. rewrite C1. cbn [bind]. unfold required. rewrite L. cbn [bind object_dict].
  rewrite E. cbn [bind]. rewrite (same_found (lit "Count") is_int _ _ _ count M W4 whole_found). cbn [bind]. exact (G n Hn).
Qed.
(** And one that goes up from any page finds the nodes above it, the nearest one first, up to the root, each with the number of the pages in it. *)
Theorem C91_pages : forall decode ops cat file calls tree,
  finished_document decode ops cat file -> In (DocCatalog cat calls) ops -> pages_written ops calls tree -> parents_written ops None tree ->
  exists depth, forall n, (depth <= n)%nat -> read_pages_above decode n file = Some (pages_above [] tree).
Proof.
  intros decode ops cat file calls tree D I P W. destruct (document_facts _ _ _ _ D) as [X _]. destruct (pages_found _ _ _ _ _ _ D I P) as (ds & F & E).
  destruct (tree_above _ ops X tree None [] eq_refl W) as [A B].
  assert (Y : exists m, forall n, (m <= n)%nat -> SpecNav.all_of (map (fun p => option_map (pair (fst p)) (read_above (resolve decode file) n (VRef (fst p) 0))) ds) = Some (pages_above [] tree)).
  { rewrite <- B in F. clear - F A. revert ds F. induction (pages_above [] tree) as [|[id above] l IH]; intros ds F; inversion F as [|? [i e] ? ds' [F1 _] F']; subst; [exists 0%nat; reflexivity|].
    inversion A as [|? ? (m & A1) A2]; subst. destruct (IH A2 ds' F') as (m' & Y). exists (Nat.max m m'). intros n Hn. cbn [map SpecNav.all_of fst snd] in *.
    rewrite A1 by (etransitivity; [apply Nat.le_max_l|exact Hn]). cbn [option_map]. rewrite Y by (etransitivity; [apply Nat.le_max_r|exact Hn]). reflexivity. }
  destruct Y as (m & Y). exists (Nat.max (it_depth tree) m). intros n Hn. unfold read_pages_above. rewrite E by (etransitivity; [apply Nat.le_max_l|exact Hn]). cbn [bind].
  apply Y. etransitivity; [apply Nat.le_max_r|exact Hn].
Qed.

(** ** A document with an outline of two levels that is colored and partly closed, and a page tree of two levels *)
Definition back_catalog : Catalog_calls := [Typed (Catalog_pages 2); Typed (Catalog_outlines 20)].
Definition back_sample : list doc_op := [
  DocTyped 20 (Ck_outline [Typed (Outline_first 21); Typed (Outline_last 24); Typed (Outline_count 2)]);
  DocTyped 21 (Ck_outline_item [Typed (OutlineItem_title (TextPlain [65; 960])); Typed (OutlineItem_parent 20); Typed (OutlineItem_next 24); Typed (OutlineItem_first 22);
    Typed (OutlineItem_last 23); Typed (OutlineItem_count (-2))]);
  DocTyped 22 (Ck_outline_item [Typed (OutlineItem_title (TextPlain [66])); Typed (OutlineItem_parent 21); Typed (OutlineItem_next 23)]);
  DocTyped 23 (Ck_outline_item [Typed (OutlineItem_color_rgb f32_zero one f32_zero); Typed (OutlineItem_prev 22); Typed (OutlineItem_parent 21)]);
  DocTyped 24 (Ck_outline_item [Typed (OutlineItem_parent 20); Typed (OutlineItem_flags [OutlineItemFlags_Bold]); Typed (OutlineItem_prev 21)]);
  DocTyped 4 (Ck_page [Typed (Page_parent 3)]);
  DocTyped 5 (Ck_page [Typed (Page_parent 2)]);
  DocTyped 3 (Ck_pages [Typed (Pages_kids [4]); Typed (Pages_parent 2); Typed (Pages_count 1)]);
  DocTyped 2 (Ck_pages [Typed (Pages_kids [3; 5]); Typed (Pages_count 2)]);
  DocCatalog 1 back_catalog].
Definition back_items {N} (zero one : N) : list (item N) := [
  Item 21 (mkItemParts (Some [65; 960]) (Some 20) (Some (-2)) None None) [
    Item 22 (mkItemParts (Some [66]) (Some 21) None None None) [];
    Item 23 (mkItemParts None (Some 21) None (Some [zero; one; zero]) None) []];
  Item 24 (mkItemParts None (Some 20) None None (Some [2])) []].
Definition back_tree : id_tree := ItNode 2 [ItNode 3 [ItPage 4]; ItPage 5].
Ltac back_in := cbn [back_sample In]; tauto.
Ltac back_item := eexists; split; [back_in|]; split; [repeat (split; [reflexivity|]); first [reflexivity|eexists; split; reflexivity]|]; split; reflexivity.
Example C91_case : outline_back_written back_sample back_catalog (Some 2) (back_items f32_zero one) /\
  pages_written back_sample back_catalog back_tree /\ parents_written back_sample None back_tree /\
  pages_above [] back_tree = [(4, [(3, 1); (2, 2)]); (5, [(2, 2)])].
Proof.
  split; [|split; [|split; [|reflexivity]]].
  - eexists _, _. split; [reflexivity|]. split; [back_in|]. split; [reflexivity|]. split; [reflexivity|].
    split; [split; [back_item|]|split; [split; [back_item|exact Logic.I]|exact Logic.I]].
    split; [split; [back_item|exact Logic.I]|split; [split; [back_item|exact Logic.I]|exact Logic.I]].
  - split; [reflexivity|]. split; [eexists; split; [back_in|reflexivity]|]. split; [split; [eexists; split; [back_in|reflexivity]|]|split; [eexists; back_in|exact Logic.I]].
    split; [eexists; back_in|exact Logic.I].
  - split; [eexists; split; [back_in|]; split; reflexivity|]. split; [split; [eexists; split; [back_in|]; split; reflexivity|]|split; [eexists; split; [back_in|reflexivity]|exact Logic.I]].
    split; [eexists; split; [back_in|reflexivity]|exact Logic.I].
Qed.
(** And the file is really read so. *)
Example C91_file : exists file, finished_document no_filter back_sample 1 file /\
  read_outline_back no_filter 4 file = Some (Some 2, back_items (VInt 0) (VInt 1)) /\ read_pages_above no_filter 4 file = Some (pages_above [] back_tree).
Proof.
  assert (X : match doc_run back_sample (pdf_with_settings true) with
              | Some p => match finish p with Some f => (blen f <=? 10 ^ 10, (read_outline_back no_filter 4 f, read_pages_above no_filter 4 f)) | None => (false, (None, None)) end
              | None => (false, (None, None)) end = (true, (Some (Some 2, back_items (VInt 0) (VInt 1)), Some (pages_above [] back_tree)))) by (vm_compute; reflexivity).
  destruct (doc_run back_sample (pdf_with_settings true)) as [p|] eqn:R; [|discriminate].
  destruct (finish p) as [file|] eqn:F; [|discriminate]. exists file.
  split; [apply (finished_table _ _ _ _ true p); [|exact R|exact F| |apply Z.leb_le; exact (f_equal fst X)|reflexivity]|].
  - repeat (apply Forall_cons; [cbn [doc_op_ok op_typed]; repeat split|]); apply Forall_nil.
  - unfold ids_below; repeat constructor.
  - split; [exact (f_equal (fun x => fst (snd x)) X)|exact (f_equal (fun x => snd (snd x)) X)].
Qed.

Print Assumptions C91_outline.
Print Assumptions C91_pages.
