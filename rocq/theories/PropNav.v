(** C65-C68: embedded files, bookmarks, page labels and links, from the trailer on. *)

From Coq Require Import ZArith List Bool Lia.
From Verif Require ModelCmap ModelContent SpecContent ProofAssembled PropPdf.
From Verif Require Import Bytes ModelFloat ModelBuf ModelObject ModelChunk ModelColor ModelSmall ModelPdf ModelTw ModelEnums ModelRoles ModelTwArgs
  ModelTwFiles ModelTwGraphics ModelTwAnnot ModelTwForms ModelTwAttr ModelTwXObj ModelTwFonts ModelTwDoc ModelFontDesc ModelDoc
  SpecLex SpecObj SpecText SpecMeans SpecRenum SpecChunk SpecFile SpecPdf SpecTyped SpecColor SpecSmall SpecTw SpecEnums SpecRoles SpecTwArgs
  SpecTwFiles SpecTwGraphics SpecTwAnnot SpecTwForms SpecTwAttr SpecTwXObj SpecTwFonts SpecTwDoc SpecFontDesc SpecDoc SpecPages SpecExtract SpecNav
  ProofBasic ProofTree ProofTyped ProofTw ProofTwDoc PropDoc PropPdf2 PropPages PropExtract.
Import ListNotations.
Local Open Scope Z_scope.

Lemma document_facts decode ops cat file : finished_document decode ops cat file ->
  Forall (fun op => doc_op_reads op (resolve decode file)) ops /\
  exists entries trailer, read_file decode file = Some (entries, trailer) /\ lookup (lit "Root") trailer = Some (VRef cat 0).
Proof.
  intros [pretty p K R F B L C|pretty p xref_id K R I B F L C|pretty mops p -> K R F B L C|pretty mops p xref_id -> K R I B F L C].
  - split; [apply (C57_typed_objects_are_found decode pretty ops p file K R F B L)|exact (C57_root decode pretty ops p file cat K R F B L C)].
  - split; [apply (C57_typed_objects_are_found_stream decode pretty ops p xref_id file K R I B F L)|
            exact (C57_root_stream decode pretty ops p xref_id file cat K R I B F L C)].
  - destruct (ProofAssembled.effective_document mops pretty p K R) as (l & le & S1 & S2 & _ & S4 & _ & S6 & S7 & S8 & _). rewrite <- S6 in B.
    destruct (PropPdf.C23_every_object_is_found decode pretty l p file S1 S2 F B L) as [X1 _]. split; [apply S7; exact X1|].
    destruct (C29_finish decode pretty l p file S1 S2 F B L) as (body & section & entries & trailer & _ & _ & _ & _ & _ & _ & E & _ & T).
    exists entries, trailer. split; [exact E|]. rewrite T; [|discriminate]. rewrite <- (doc_catalog_plain _ _ S4), <- S8 in C.
    change (trailer_value l (lit "Root")) with (option_map (fun id => VRef id 0) (catalog_of l)). rewrite C. reflexivity.
  - destruct (ProofAssembled.effective_document mops pretty p K R) as (l & le & S1 & S2 & _ & S4 & _ & S6 & S7 & S8 & _). rewrite <- S6 in B.
    destruct (C27_every_object_is_found decode pretty l p xref_id file S1 S2 I B F L) as [X1 _]. split; [apply S7; exact X1|].
    destruct (C29_stream decode pretty l p xref_id file S1 S2 I B F L) as (body & section & entries & trailer & _ & _ & _ & _ & _ & E & _ & _ & T).
    exists entries, trailer. split; [exact E|]. rewrite T; [|discriminate|].
    2:{ unfold stream_keys. cbn [In]. intros [H|[H|[H|[H|[]]]]]; discriminate H. }
    rewrite <- (doc_catalog_plain _ _ S4), <- S8 in C.
    change (trailer_value l (lit "Root")) with (option_map (fun id => VRef id 0) (catalog_of l)). rewrite C. reflexivity.
Qed.

Lemma catalog_found decode ops cat file calls : finished_document decode ops cat file -> In (DocCatalog cat calls) ops ->
  exists d, document_catalog decode file = Some d /\ is_dict (writer_doc Catalog_head Catalog_doc calls) (VDict d).
Proof.
  intros D I. destruct (document_facts _ _ _ _ D) as (X & entries & trailer & T1 & T2).
  rewrite Forall_forall in X. destruct (X _ I) as (i & E1 & v & -> & M). destruct (dict_is _ _ M) as [d ->].
  exists d. split; [|exact M]. unfold document_catalog, bind, required, bind. rewrite T1. cbn [snd]. rewrite T2. cbn [object_dict]. rewrite E1. reflexivity.
Qed.

Lemma all_of_map {A B} (f : A -> option B) (g : A -> B) l : Forall (fun a => f a = Some (g a)) l -> all_of (map f l) = Some (map g l).
Proof. induction 1 as [|a l H _ IH]; [reflexivity|]. cbn [map all_of]. rewrite H, IH. reflexivity. Qed.
Lemma optional_found k P xs d {A} (f : val -> option A) (x : option A) : is_dict xs (VDict d) -> entries_for k xs = entry_or_none k P ->
  match P, x with
  | None, None => True
  | Some P, Some x => forall v, P v -> f v = Some x
  | _, _ => False
  end -> optional k d f = Some x.
Proof.
  intros D E H. unfold optional. destruct P as [P|], x as [x|]; try contradiction; cbn [entry_or_none] in E.
  - destruct (dict_lookup _ _ _ _ D E) as (v & L & Q). rewrite L, (H v Q). reflexivity.
  - rewrite (dict_lookup_none _ _ _ D E). reflexivity.
Qed.

Section Walk.
  Variables (decode : option val -> bytes -> option bytes) (resolved : Z -> option indirect) (ops : list doc_op).
  Hypothesis R : Forall (fun op => doc_op_reads op resolved) ops.

  (** *** Pages *)
  Fixpoint it_depth (t : id_tree) : nat :=
    match t with ItPage _ => 1%nat | ItNode _ kids => S (fold_right Nat.max 0%nat (map it_depth kids)) end.
  Lemma walk_pages : forall t, id_tree_written ops t -> exists ds,
    Forall2 (fun id e => fst e = id /\ resolved id = Some (IObj id 0 (VDict (snd e)))) (it_pages t) ds /\
    forall n, (it_depth t <= n)%nat -> page_dicts resolved n (VRef (it_id t) 0) = Some ds.
  Proof using R.
    fix IH 1. intros [id|id kids] W; cbn [id_tree_written it_pages it_id it_depth] in *.
    - destruct W as (calls & H). destruct (found resolved ops R _ _ H) as (i & E & v & -> & D). destruct (dict_is _ _ D) as [d ->].
      exists [(id, d)]. split; [constructor; [split; [reflexivity|exact E]|constructor]|]. intros [|n] L; [inversion L|].
      cbn [page_dicts]. rewrite E. destruct (dict_first _ _ _ _ D) as (t & L1 & P). rewrite L1. unfold is_name in P. subst t. reflexivity.
    - destruct W as [(calls & H1 & H2) W]. apply kids_entry_of in H2.
      assert (A : exists ds, Forall2 (fun id e => fst e = id /\ resolved id = Some (IObj id 0 (VDict (snd e)))) (flat_map it_pages kids) ds /\
        forall n, (fold_right Nat.max 0 (map it_depth kids) <= n)%nat ->
          concat_all (map (page_dicts resolved n) (map (fun r => VRef r 0) (map it_id kids))) = Some ds).
      { clear H2. induction kids as [|t kids IHk]; [exists []; split; [constructor|reflexivity]|].
        destruct W as [W1 W2]. destruct (IH t W1) as (p1 & F1 & D1). destruct (IHk W2) as (p2 & F2 & D2).
        exists (p1 ++ p2). split; [apply Forall2_app; assumption|]. intros n L. cbn [map fold_right] in L. cbn [map concat_all].
        rewrite D1 by (etransitivity; [apply Nat.le_max_l|exact L]). rewrite D2 by (etransitivity; [apply Nat.le_max_r|exact L]). reflexivity. }
      destruct A as (ds & F & D). exists ds. split; [exact F|]. intros [|n] L; [inversion L|]. apply le_S_n in L.
      destruct (found resolved ops R _ _ H1) as (i & E & v & -> & X). destruct (dict_is _ _ X) as [d ->].
      cbn [page_dicts]. rewrite E. destruct (dict_first _ _ _ _ X) as (t & L1 & P). rewrite L1. unfold is_name in P. subst t.
      change (bytes_eqb (lit "Pages") (lit "Pages")) with true. cbv iota.
      destruct (dict_lookup _ _ _ _ X H2) as (v & L2 & vs & -> & Q). rewrite L2. apply refs_found in Q. subst vs. exact (D n L).
  Qed.
  Lemma pages_ids ids ds : Forall2 (fun id (e : Z * list (bytes * val)) => fst e = id /\ resolved id = Some (IObj id 0 (VDict (snd e)))) ids ds -> map fst ds = ids.
  Proof using Type. induction 1 as [|id e ids ds [H _] F IH]; [reflexivity|]. cbn [map]. rewrite H, IH. reflexivity. Qed.

  (** *** Trees *)
  Section Tree.
    Context {K V C : Type} (kids_of : C -> list (list Z)) (entries_of : C -> list (list (K * prim))) (object : list C -> chunk_call)
      (reads_ : C -> entry_spec) (leaf : bytes) (pairs : list val -> option (list (K * val))).
    Hypothesis kids_read : forall c, entries_for (lit "Kids") [reads_ c] = map (fun ids => (lit "Kids", is_refs ids)) (kids_of c).
    Hypothesis entries_read : forall c, entries_for leaf [reads_ c] = map (fun es => (leaf, pairs_are pairs es)) (entries_of c).
    Lemma kids_reads calls : entries_for (lit "Kids") (map reads_ calls) = map (fun ids => (lit "Kids", is_refs ids)) (flat_map kids_of calls).
    Proof using kids_read.
      induction calls as [|c calls IH]; [reflexivity|]. cbn [map flat_map]. rewrite map_app, <- IH, <- kids_read, <- entries_for_app. reflexivity.
    Qed.
    Lemma entries_reads calls : entries_for leaf (map reads_ calls) = map (fun es => (leaf, pairs_are pairs es)) (flat_map entries_of calls).
    Proof using entries_read.
      induction calls as [|c calls IH]; [reflexivity|]. cbn [map flat_map]. rewrite map_app, <- IH, <- entries_read, <- entries_for_app. reflexivity.
    Qed.
    Hypothesis object_reads : forall id calls i, chunk_call_reads id (object calls) i -> is_object id (is_dict (map reads_ calls)) i.
    Fixpoint tn_depth (t : tree_node K V) : nat :=
      match t with TnLeaf _ => 1%nat | TnNode kids => S (fold_right Nat.max 0%nat (map (fun k => tn_depth (snd k)) kids)) end.
    Lemma walk_tree_node : forall t calls, tree_node_written kids_of entries_of object ops calls t ->
      forall v, (exists d, object_dict resolved v = Some d /\ is_dict (map reads_ calls) (VDict d)) ->
      forall n, (tn_depth t <= n)%nat ->
        tree_entries resolved leaf pairs n v = Some (map (fun e => (fst e, VRef (fst (snd e)) 0)) (tn_entries t)).
    Proof using R object_reads kids_read entries_read.
      fix IH 1. intros [es|kids] calls W v (d & E & D) [|n] L; try (inversion L; fail); cbn [tree_node_written tn_entries tn_depth] in *.
      - destruct W as [W1 W2]. apply (f_equal (map (fun ids => (lit "Kids", is_refs ids)))) in W1. rewrite <- kids_reads in W1.
        apply (f_equal (map (fun es => (leaf, pairs_are pairs es)))) in W2. rewrite <- entries_reads in W2.
        cbn [tree_entries]. unfold bind. rewrite E. rewrite (dict_lookup_none _ _ _ D W1).
        destruct (dict_lookup _ _ _ _ D W2) as (x & L2 & vs & ps & -> & P & F). rewrite L2, P. f_equal.
        clear - F. remember (map (fun e : K * (Z * V) => (fst e, PRef (fst (snd e)))) es) as l eqn:El. revert es El.
        induction F as [|a b l ps [H1 H2] F IH]; intros [|e es] El; try discriminate; [reflexivity|]. cbn [map] in El. injection El as -> ->.
        cbn [fst snd] in *. cbn [map]. rewrite <- (IH es eq_refl). f_equal. destruct b as [k v]. cbn [fst snd] in *. subst k.
        inversion H2. subst. reflexivity.
      - destruct W as [W1 W2]. apply (f_equal (map (fun ids => (lit "Kids", is_refs ids)))) in W1. rewrite <- kids_reads in W1.
        cbn [tree_entries]. unfold bind. rewrite E. apply le_S_n in L.
        destruct (dict_lookup _ _ _ _ D W1) as (x & L2 & vs & -> & Q). rewrite L2. apply refs_found in Q. subst vs.
        clear W1 L2. induction kids as [|[id t] kids IHk]; [reflexivity|]. destruct W2 as [(kc & W3 & W4) W5].
        cbn [map fold_right snd] in L. cbn [map concat_all fst flat_map snd].
        rewrite (IH t kc W4) with (n := n); [|clear - R object_reads kids_read entries_read W3|etransitivity; [apply Nat.le_max_l|exact L]].
        + rewrite (IHk W5) by (etransitivity; [apply Nat.le_max_r|exact L]). cbn [option_map]. rewrite map_app. reflexivity.
        + destruct (found resolved ops R _ _ W3) as (i & E & X). apply object_reads in X. destruct X as (v & -> & D).
          destruct (dict_is _ _ D) as [d ->]. exists d. split; [|exact D]. cbn [object_dict]. rewrite E. reflexivity.
    Qed.
  End Tree.
  Lemma walk_name_tree {V} (t : tree_node bytes V) calls v d n : name_tree_written ops calls t ->
    object_dict resolved v = Some d -> is_name_tree calls (VDict d) -> (tn_depth t <= n)%nat ->
    tree_entries resolved (lit "Names") read_name_pairs n v = Some (map (fun e => (fst e, VRef (fst (snd e)) 0)) (tn_entries t)).
  Proof using R.
    intros W E D. refine (walk_tree_node _ _ Ck_name_tree name_tree_reads (lit "Names") read_name_pairs _ _ _ t calls W v _ n);
      [each_call|each_call|intros ? ? ? H; exact H|exists d; split; assumption].
  Qed.
  Lemma walk_number_tree {V} (t : tree_node Z V) calls v d n : number_tree_written ops calls t ->
    object_dict resolved v = Some d -> is_number_tree calls (VDict d) -> (tn_depth t <= n)%nat ->
    tree_entries resolved (lit "Nums") read_number_pairs n v = Some (map (fun e => (fst e, VRef (fst (snd e)) 0)) (tn_entries t)).
  Proof using R.
    intros W E D. refine (walk_tree_node _ _ Ck_number_tree number_tree_reads (lit "Nums") read_number_pairs _ _ _ t calls W v _ n);
      [each_call|each_call|intros ? ? ? H; exact H|exists d; split; assumption].
  Qed.

  (** *** Embedded files *)
  Lemma embedded_stream fid data fcalls content : In (DocTyped fid (Ck_embedded_file data fcalls)) ops ->
    stored_with decode fcalls data content -> stream_content decode resolved fid = Some content.
  Proof using R.
    intros H (f & S1 & S2). destruct (found resolved ops R _ _ H) as (i & E & vs & -> & D). unfold stream_content. rewrite E.
    change (lookup (lit "Filter") ((lit "Length", VInt (blen data)) :: vs)) with (lookup (lit "Filter") vs).
    apply (stream_called_entries _ _ _ is_filter EmbeddedFile_head Stream_doc EmbeddedFile_doc) in S1; [|reflexivity|each_call|each_call]. destruct f as [f|].
    - destruct (dict_lookup _ _ _ _ D S1) as (v & L & P). rewrite L. unfold is_filter in P. subst v. exact S2.
    - rewrite (dict_lookup_none _ _ _ D S1). cbn [undone] in S2. subst. reflexivity.
  Qed.
  Lemma text_found t v : is_text t v -> read_textstring v = Some t.
  Proof using Type. intros (s & -> & H). exact H. Qed.
  Lemma attachment_found id key name content : attachment_written decode ops id name content ->
    read_attachment decode resolved (key, VRef id 0) = Some (mkAttachment key name content).
  Proof using R.
    intros (calls & fid & e & data & fcalls & H1 & H2 & H3 & He & H4 & H5).
    entries H2 FileSpec_head FileSpec_doc is_text.
    entries H3 FileSpec_head FileSpec_doc
      (fun x => match x with inl id => is_dict [(lit "F", is_ref id)] | inr id => is_dict [(lit "F", is_ref id); (lit "UF", is_ref id)] end).
    destruct (found resolved ops R _ _ H1) as (i & E & v & -> & D). destruct (dict_is _ _ D) as [d ->].
    unfold read_attachment. cbn [snd fst object_dict]. rewrite E. cbn [bind].
    rewrite (optional_found _ _ _ _ _ name D H2); [|destruct name as [t|]; [intros v Q; exact (text_found t v Q)|exact I]]. cbn [bind].
    unfold required.
    assert (X : exists ef files, lookup (lit "EF") d = Some ef /\ ef = VDict files /\ lookup (lit "F") files = Some (VRef fid 0)).
    { destruct He as [-> | ->]; destruct (dict_lookup _ _ _ _ D H3) as (ef & L & Q); destruct (dict_is _ _ Q) as [files ->]; exists (VDict files), files;
        (split; [exact L|split; [reflexivity|]]); destruct (dict_first _ _ _ _ Q) as (x & L2 & P); rewrite L2; unfold is_ref in P; subst x; reflexivity. }
    destruct X as (ef & files & -> & -> & L2). cbn [bind object_dict]. rewrite L2. cbn [bind read_id].
    rewrite (embedded_stream fid data fcalls content H4 H5). reflexivity.
  Qed.
End Walk.

(** A reader that starts from the trailer lists the embedded files in the order of the name tree, each with its name there, its
    file name and exactly its contents. *)
Theorem C65_attachments : forall decode ops cat file calls t,
  finished_document decode ops cat file -> In (DocCatalog cat calls) ops ->
  attachments_written decode ops calls t ->
  exists depth, forall n, (depth <= n)%nat -> read_attachments decode n file = Some (asked_attachments t).
Proof.
  intros decode ops cat file calls t D I (ncalls & tcalls & W1 & W2 & W3 & W4).
  entries W1 Catalog_head Catalog_doc Names_reads. entries W2 Names_head Names_doc is_name_tree.
  destruct (document_facts _ _ _ _ D) as [X _]. destruct (catalog_found _ _ _ _ _ D I) as (c & C1 & C2).
  exists (tn_depth t). intros n Hn. unfold read_attachments. rewrite C1. cbn [bind]. unfold required at 1.
  destruct (dict_lookup _ _ _ _ C2 W1) as (nv & L1 & Q1). rewrite L1. cbn [bind]. destruct (dict_is _ _ Q1) as [nd ->]. cbn [object_dict bind].
  unfold required. destruct (dict_lookup _ _ _ _ Q1 W2) as (tv & L2 & Q2). rewrite L2. cbn [bind].
  destruct (dict_is _ _ Q2) as [d ->]. rewrite (walk_name_tree (resolve decode file) ops X t tcalls (VDict d) d n W3 eq_refl Q2 Hn).
  cbn [bind]. rewrite map_map. unfold asked_attachments. apply all_of_map. clear - X W4. induction W4 as [|e l H _ IH]; constructor; [|exact IH].
  apply (attachment_found decode (resolve decode file) ops X). exact H.
Qed.

(** ** Places *)
Lemma explicit_found pages p x v : Destination_reads (place_calls p) v -> asked_explicit pages p = Some x ->
  exists r view l, v = VArr (VRef r 0 :: VName view :: l) /\ option_map (fun n => (n, view)) (position r pages) = Some x.
Proof.
  intros (vs & -> & F) A. destruct p as [r c]. cbn [place_calls fst snd flat_map item_doc Destination_doc app] in F. unfold asked_explicit in A. cbn [fst snd] in A.
  inversion F as [|P v Ps vs' H1 F1]; subst. unfold is_ref in H1. subst v.
  destruct (position r pages) as [n|] eqn:En; [|discriminate]. cbn [bind] in A.
  assert (X : exists view l, view_name c = Some view /\ vs' = VName view :: l).
  { destruct c; cbn [view_name] in *; try discriminate; cbn [Destination_doc app] in F1; inversion F1 as [|P' v' Ps' vs'' H2 F2]; subst;
      unfold is_name in H2; subst v'; eexists; eexists; split; reflexivity. }
  destruct X as (view & l & Ev & ->). rewrite Ev in A. exists r, view, l. split; [reflexivity|]. rewrite En. exact A.
Qed.
Definition place_argument_reads (x : Destination_calls + bytes) : val -> Prop := match x with inl calls => Destination_reads calls | inr n => is_name n end.
Definition place_reads (p : place) : val -> Prop := place_argument_reads (place_argument p).
Definition dests_known (named : list (bytes * explicit_place)) (dests : option (list (bytes * val))) : Prop :=
  forall n p, named_place named n = Some p -> exists d v, dests = Some d /\ lookup n d = Some v /\ Destination_reads (place_calls p) v.
Lemma place_found pages named dests p x v : dests_known named dests -> place_reads p v -> asked_place pages named p = Some x ->
  read_place pages dests v = Some x.
Proof.
  intros K P A. destruct p as [p|n]; unfold place_reads in P; cbn [place_argument place_argument_reads asked_place] in *.
  - destruct (explicit_found pages p x v P A) as (r & view & l & -> & E). exact E.
  - unfold is_name in P. subst v. destruct (named_place named n) as [p|] eqn:En; [|discriminate]. cbn [bind] in A.
    destruct (K n p En) as (d & v & -> & L & Q). cbn [read_place]. rewrite L. cbn [bind].
    destruct (explicit_found pages p x v Q A) as (r & view & l & -> & E). exact E.
Qed.
Lemma dests_found decode ops cat file calls named : finished_document decode ops cat file -> In (DocCatalog cat calls) ops ->
  named_written ops calls named ->
  exists dests, document_dests decode file = Some dests /\ dests_known named dests.
Proof.
  intros D I W. destruct (catalog_found _ _ _ _ _ D I) as (c & C1 & C2). destruct (document_facts _ _ _ _ D) as [X _].
  unfold document_dests. rewrite C1. cbn [bind]. unfold optional. destruct W as [[-> W]|(id & W1 & W2)].
  - entries W Catalog_head Catalog_doc is_ref. rewrite (dict_lookup_none _ _ _ C2 W). exists None. split; [reflexivity|]. intros n p H. discriminate.
  - entries W1 Catalog_head Catalog_doc is_ref.
    destruct (dict_lookup _ _ _ _ C2 W1) as (v & L & Q). unfold is_ref in Q. subst v. rewrite L. cbn [object_dict].
    destruct (found (resolve decode file) ops X _ _ W2) as (i & E & v & -> & M). destruct (dict_is _ _ M) as [d ->]. rewrite E.
    exists (Some d). split; [reflexivity|]. intros n p H. exists d.
    destruct M as (d' & Ed & F). injection Ed as <-. clear - F H.
    remember (map _ _) as xs eqn:Ex in F. revert named H Ex. induction F as [|x e xs d [A B] F IH]; intros [|[m q] named] H Ex; try discriminate.
    cbn [map fst snd] in Ex. injection Ex as -> ->. cbn [fst snd] in *. destruct e as [k v]. cbn [fst snd] in *. subst k.
    cbn [named_place] in H. cbn [lookup]. destruct (bytes_eqb n m).
    + injection H as <-. exists v. split; [reflexivity|]. split; [reflexivity|exact B].
    + destruct (IH named H eq_refl) as (v' & _ & L & Q). exists v'. split; [reflexivity|]. split; [exact L|exact Q].
Qed.
Lemma pages_found decode ops cat file calls tree : finished_document decode ops cat file -> In (DocCatalog cat calls) ops ->
  pages_written ops calls tree ->
  exists ds, Forall2 (fun id e => fst e = id /\ resolve decode file id = Some (IObj id 0 (VDict (snd e)))) (it_pages tree) ds /\
    forall n, (it_depth tree <= n)%nat -> document_pages decode n file = Some ds.
Proof.
  intros D I [W1 W2]. apply root_entry in W1. destruct (catalog_found _ _ _ _ _ D I) as (c & C1 & C2). destruct (document_facts _ _ _ _ D) as [X _].
  destruct (walk_pages (resolve decode file) ops X tree W2) as (ds & F & P). exists ds. split; [exact F|]. intros n Hn.
  unfold document_pages. rewrite C1. cbn [bind]. unfold required. destruct (dict_lookup _ _ _ _ C2 W1) as (v & L & Q). unfold is_ref in Q. subst v.
  rewrite L. cbn [bind]. apply P. exact Hn.
Qed.

(** ** Bookmarks *)
Fixpoint bm_size (b : bookmark) : nat := match b with Bookmark _ _ _ kids => S (fold_right Nat.add 0%nat (map bm_size kids)) end.
Definition bm_sizes (l : list bookmark) : nat := fold_right Nat.add 0%nat (map bm_size l).
Lemma kids_written ops l : (fix all l := match l with [] => True | b :: l => bookmark_written ops b (first_id l) /\ all l end) l -> bookmarks_written ops l.
Proof. induction l as [|b l IH]; intro H; [exact I|]. destruct H as [H1 H2]. split; [exact H1|exact (IH H2)]. Qed.
Lemma bookmarks_found resolved ops pages named dests : Forall (fun op => doc_op_reads op resolved) ops -> dests_known named dests ->
  forall n b l rs, (bm_sizes (b :: l) <= n)%nat -> bookmarks_written ops (b :: l) ->
  all_of (map (asked_bookmark pages named) (b :: l)) = Some rs ->
  read_items resolved pages dests n (VRef (bm_id b) 0) = Some rs.
Proof.
  intros R K. induction n as [|n IH]; intros [id title target kids] l rs Hn W A.
  { exfalso. unfold bm_sizes in Hn. cbn [map fold_right bm_size] in Hn. lia. }
  change (bm_sizes (Bookmark id title target kids :: l)) with (S (bm_sizes kids) + bm_sizes l)%nat in Hn.
  destruct W as [W1 W2]. cbn [bookmark_written] in W1. destruct W1 as [(calls & H1 & H2 & H3 & H4 & H5) W1]. apply kids_written in W1.
  entries H2 OutlineItem_head OutlineItem_doc is_textlike. entries H3 OutlineItem_head OutlineItem_doc place_argument_reads.
  entries H4 OutlineItem_head OutlineItem_doc is_ref. entries H5 OutlineItem_head OutlineItem_doc is_ref.
  cbn [map all_of asked_bookmark] in A. cbn [read_items bm_id object_dict].
  destruct (found resolved ops R _ _ H1) as (i & E & v & -> & D). destruct (dict_is _ _ D) as [d ->]. rewrite E. cbn [bind].
  unfold required. destruct (dict_lookup _ _ _ _ D H2) as (tv & L & Q). rewrite L. cbn [bind]. rewrite (text_found title tv Q). cbn [bind].
  destruct (match target with None => Some None | Some p => option_map Some (asked_place pages named p) end) as [tr|] eqn:Et; [|discriminate].
  cbn [bind] in A. rewrite (optional_found _ _ _ _ _ tr D H3).
  2:{ destruct target as [p|]; cbn [option_map].
      - destruct (asked_place pages named p) as [x|] eqn:Ep; [|discriminate]. apply some_inj in Et. subst tr. intros v Q'.
        exact (place_found pages named dests p x v K Q' Ep).
      - apply some_inj in Et. subst tr. exact I. }
  cbn [bind]. destruct (all_of (map (asked_bookmark pages named) kids)) as [ks|] eqn:Ek; [|discriminate]. cbn [option_map] in A.
  destruct (all_of (map (asked_bookmark pages named) l)) as [ls|] eqn:El; [|discriminate]. cbn [option_map] in A. apply some_inj in A. subst rs.
  rewrite (optional_found _ _ _ _ _ (match kids with [] => None | _ => Some ks end) D H4).
  2:{ destruct kids as [|b kids]; [exact I|]. cbn [first_id option_map]. intros v Q'. unfold is_ref in Q'. subst v.
      apply IH with (l := kids); [clear - Hn; lia|exact W1|exact Ek]. }
  cbn [bind]. rewrite (optional_found _ _ _ _ _ (match l with [] => None | _ => Some ls end) D H5).
  2:{ destruct l as [|b l]; [exact I|]. cbn [first_id option_map]. intros v Q'. unfold is_ref in Q'. subst v.
      apply IH with (l := l); [clear - Hn; lia|exact W2|exact El]. }
  cbn [bind]. f_equal. f_equal; [f_equal; destruct kids; [apply some_inj in Ek; exact Ek|reflexivity]|].
  destruct l; [apply some_inj in El; exact El|reflexivity].
Qed.

(** A reader that starts from the trailer finds the bookmarks, in order and nested as written, with their titles and with the number of
    the page (and the view) that each one leads to, directly or by a name. *)
Theorem C66_bookmarks : forall decode ops cat file calls tree named l reads_,
  finished_document decode ops cat file -> In (DocCatalog cat calls) ops ->
  pages_written ops calls tree -> named_written ops calls named -> outline_written ops calls l ->
  all_of (map (asked_bookmark (it_pages tree) named) l) = Some reads_ ->
  exists depth, forall n, (depth <= n)%nat -> read_bookmarks decode n file = Some reads_.
Proof.
  intros decode ops cat file calls tree named l reads_ D I P N (oid & ocalls & O1 & O2 & O3 & O4) A.
  entries O1 Catalog_head Catalog_doc is_ref. entries O3 Outline_head Outline_doc is_ref.
  destruct (document_facts _ _ _ _ D) as [X _]. destruct (catalog_found _ _ _ _ _ D I) as (c & C1 & C2).
  destruct (pages_found _ _ _ _ _ _ D I P) as (ds & F & E). destruct (dests_found _ _ _ _ _ _ D I N) as (dests & E2 & K).
  exists (it_depth tree + bm_sizes l)%nat. intros n Hn. unfold read_bookmarks. rewrite E by lia. cbn [bind]. rewrite E2. cbn [bind]. rewrite C1. cbn [bind].
  unfold required. destruct (dict_lookup _ _ _ _ C2 O1) as (v & L & Q). unfold is_ref in Q. subst v. rewrite L. cbn [bind object_dict].
  destruct (found (resolve decode file) ops X _ _ O2) as (i & E3 & v & -> & M). destruct (dict_is _ _ M) as [d ->]. rewrite E3. cbn [bind].
  destruct l as [|b l]; cbn [first_id option_map entry_or_none] in O3.
  - rewrite (dict_lookup_none _ _ _ M O3). exact A.
  - destruct (dict_lookup _ _ _ _ M O3) as (v & L2 & Q). unfold is_ref in Q. subst v. rewrite L2.
    rewrite (pages_ids _ _ _ F). apply (bookmarks_found (resolve decode file) ops (it_pages tree) named dests X K n b l reads_); [lia|exact O4|exact A].
Qed.

(** ** Links *)
Lemma named_is {E} (table : list (bytes * E)) x v : is_named table x v -> exists n, read_name v = Some n /\ by_name n table = Some x.
Proof. intros (n & -> & H). exists n. split; [reflexivity|exact H]. Qed.
Lemma by_name_in {E} n (x : E) table : by_name n table = Some x -> In (n, x) table.
Proof.
  induction table as [|[m y] t IH]; [discriminate|]. cbn [by_name]. destruct (bytes_eqb n m) eqn:E1; intro H.
  - apply some_inj in H. subst. apply bytes_eqb_spec in E1. subst. left. reflexivity.
  - right. exact (IH H).
Qed.
Lemma annot_found resolved ops pages named dests id a l : Forall (fun op => doc_op_reads op resolved) ops -> dests_known named dests ->
  annot_written ops id a -> asked_annot pages named a = Some l -> read_annotation resolved pages dests (VRef id 0) = Some l.
Proof.
  intros R K (calls & H1 & H2) A. destruct (found resolved ops R _ _ H1) as (i & E & v & -> & D). destruct (dict_is _ _ D) as [d ->].
  unfold read_annotation. cbn [object_dict]. rewrite E. cbn [bind]. unfold required at 1.
  assert (T : forall n k, by_name n AnnotationType_table = Some k -> bytes_eqb n (lit "Link") = true -> k = AnnotationType_Link).
  { intros n k Hb He. apply bytes_eqb_spec in He. subst n. apply some_inj in Hb. symmetry. exact Hb. }
  assert (T' : forall n, by_name n AnnotationType_table = Some AnnotationType_Link -> bytes_eqb n (lit "Link") = true).
  { intros n Hb. apply by_name_in in Hb. apply bytes_eqb_spec. cbn [In AnnotationType_table] in Hb.
    repeat (destruct Hb as [Hb|Hb]; [first [discriminate Hb|injection Hb as <-; reflexivity]|]). destruct Hb. }
  assert (S1 : forall n, by_name n ActionType_table = Some ActionType_GoTo -> bytes_eqb n (lit "GoTo") = true).
  { intros n Hb. apply by_name_in in Hb. apply bytes_eqb_spec. cbn [In ActionType_table] in Hb.
    repeat (destruct Hb as [Hb|Hb]; [first [discriminate Hb|injection Hb as <-; reflexivity]|]). destruct Hb. }
  assert (S2 : forall n, by_name n ActionType_table = Some ActionType_Uri -> bytes_eqb n (lit "GoTo") = false /\ bytes_eqb n (lit "URI") = true).
  { intros n Hb. apply by_name_in in Hb. assert (n = lit "URI") as ->; [|split; reflexivity]. cbn [In ActionType_table] in Hb.
    repeat (destruct Hb as [Hb|Hb]; [first [discriminate Hb|injection Hb as <-; reflexivity]|]). destruct Hb. }
  destruct a as [p|u|kind]; cbn [asked_annot] in A.
  - destruct H2 as (H2 & acalls & H3 & H4 & H5). entries H2 Annotation_head Annotation_doc is_AnnotationType.
    entries H3 Annotation_head Annotation_doc Action_reads. entries H4 Action_head Action_doc is_ActionType.
    entries H5 Action_head Action_doc place_argument_reads. destruct (dict_lookup _ _ _ _ D H2) as (tv & L & Q). rewrite L. cbn [bind].
    destruct (named_is _ _ _ Q) as (n & N1 & N2). rewrite N1. cbn [bind]. rewrite (T' n N2).
    destruct (dict_lookup _ _ _ _ D H3) as (av & L2 & Q2). rewrite L2. destruct (dict_is _ _ Q2) as [ad ->]. cbn [object_dict bind].
    unfold required. destruct (dict_lookup _ _ _ _ Q2 H4) as (sv & L3 & Q3). rewrite L3. cbn [bind].
    destruct (named_is _ _ _ Q3) as (s & N3 & N4). rewrite N3. cbn [bind]. rewrite (S1 s N4).
    destruct (dict_lookup _ _ _ _ Q2 H5) as (dv & L5 & Q5). rewrite L5. cbn [bind].
    destruct (asked_place pages named p) as [x|] eqn:Ep; [|discriminate]. rewrite (place_found pages named dests p x dv K Q5 Ep). exact A.
  - destruct H2 as (H2 & acalls & H3 & H4 & H5). entries H2 Annotation_head Annotation_doc is_AnnotationType.
    entries H3 Annotation_head Annotation_doc Action_reads. entries H4 Action_head Action_doc is_ActionType.
    entries H5 Action_head Action_doc is_str. destruct (dict_lookup _ _ _ _ D H2) as (tv & L & Q). rewrite L. cbn [bind].
    destruct (named_is _ _ _ Q) as (n & N1 & N2). rewrite N1. cbn [bind]. rewrite (T' n N2).
    destruct (dict_lookup _ _ _ _ D H3) as (av & L2 & Q2). rewrite L2. destruct (dict_is _ _ Q2) as [ad ->]. cbn [object_dict bind].
    unfold required. destruct (dict_lookup _ _ _ _ Q2 H4) as (sv & L3 & Q3). rewrite L3. cbn [bind].
    destruct (named_is _ _ _ Q3) as (s & N3 & N4). rewrite N3. cbn [bind]. destruct (S2 s N4) as [-> ->].
    destruct (dict_lookup _ _ _ _ Q2 H5) as (dv & L5 & Q5). rewrite L5. cbn [bind]. unfold is_str in Q5. subst dv. exact A.
  - destruct H2 as [H2 H3]. entries H3 Annotation_head Annotation_doc is_AnnotationType. destruct (dict_lookup _ _ _ _ D H3) as (tv & L & Q). rewrite L. cbn [bind].
    destruct (named_is _ _ _ Q) as (n & N1 & N2). rewrite N1. cbn [bind]. destruct (bytes_eqb n (lit "Link")) eqn:En; [|exact A].
    exfalso. apply H2. exact (T n kind N2 En).
Qed.

(** A reader that starts from the trailer finds on every page the links that were put there, in order, each with the number of the page
    (and the view) that it leads to, directly or by a name, or with its address. *)
Theorem C68_links : forall decode ops cat file calls tree named annots links,
  finished_document decode ops cat file -> In (DocCatalog cat calls) ops ->
  pages_written ops calls tree -> named_written ops calls named -> Forall2 (page_annots_written ops) (it_pages tree) annots ->
  asked_links (it_pages tree) named annots = Some links ->
  exists depth, forall n, (depth <= n)%nat -> read_links decode n file = Some links.
Proof.
  intros decode ops cat file calls tree named annots links D I P N F2 A.
  destruct (document_facts _ _ _ _ D) as [X _].
  destruct (pages_found _ _ _ _ _ _ D I P) as (ds & F & E). destruct (dests_found _ _ _ _ _ _ D I N) as (dests & E2 & K).
  exists (it_depth tree). intros n Hn. unfold read_links. rewrite (E n Hn). cbn [bind]. rewrite E2. cbn [bind]. rewrite (pages_ids _ _ _ F).
  unfold asked_links in A. clear E P. revert F F2 A. generalize (it_pages tree) at 1 2 as pages. intros pages F. revert annots links.
  induction F as [|id e pages ds [_ F1] F IH]; intros annots links F2 A; inversion F2 as [|id' l pages' annots' G1 G2]; subst.
  - exact A.
  - cbn [map all_of] in A. cbn [map all_of].
    destruct (concat_all (map (fun a => asked_annot (it_pages tree) named (snd a)) l)) as [x|] eqn:Ex; [|discriminate].
    destruct (all_of (map (fun l => concat_all (map (fun a => asked_annot (it_pages tree) named (snd a)) l)) annots')) as [xs|] eqn:Exs; [|discriminate].
    rewrite (IH annots' xs G2 Exs). apply some_inj in A. subst links.
    assert (Y : read_page_links (resolve decode file) (it_pages tree) dests (snd e) = Some x); [|rewrite Y; reflexivity].
    destruct G1 as (pcalls & J1 & J2 & J3). destruct (found (resolve decode file) ops X _ _ J1) as (i & E & v & -> & M).
    rewrite F1 in E. apply some_inj in E. assert (v = VDict (snd e)) as -> by congruence. unfold read_page_links.
    destruct J2 as [[-> J2]|J2].
    + entries J2 Page_head Page_doc is_refs. rewrite (dict_lookup_none _ _ _ M J2). exact Ex.
    + entries J2 Page_head Page_doc is_refs. destruct (dict_lookup _ _ _ _ M J2) as (v & L & vs & -> & Q). rewrite L. apply refs_found in Q. subst vs. clear - J3 Ex X K.
      revert x Ex. induction J3 as [|[aid a] l H J3 IHl]; intros x Ex; [exact Ex|]. cbn [map concat_all fst snd] in *.
      destruct (asked_annot (it_pages tree) named a) as [y|] eqn:Ey; [|discriminate]. rewrite (annot_found _ _ _ _ _ _ _ _ X K H Ey).
      destruct (concat_all (map (fun a0 => asked_annot (it_pages tree) named (snd a0)) l)) as [ys|]; [|discriminate].
      rewrite (IHl ys eq_refl). exact Ex.
Qed.

(** ** Page labels *)
Lemma label_found resolved ops key id l : Forall (fun op => doc_op_reads op resolved) ops -> label_written ops id l ->
  read_label resolved (key, VRef id 0) = Some (key, l).
Proof.
  intros R (calls & H1 & H2 & H3 & H4 & H5). entries H3 PageLabel_head PageLabel_doc is_NumberingStyle.
  entries H4 PageLabel_head PageLabel_doc is_textlike. entries H5 PageLabel_head PageLabel_doc is_int. rewrite Forall_forall in R. pose proof (R _ H1) as X. cbn [doc_op_reads op_items] in X.
  destruct (good_PageLabel calls H2) as [G1 G2]. unfold fine in G1. apply andb_true_iff in G1. destruct G1 as [G1 G3].
  assert (G4 : body_readable (BObj (PageLabel_obj calls)) = true) by (cbn [body_readable]; rewrite G1, (names_nonempty_separable _ G3); reflexivity).
  destruct (X _ (or_introl eq_refl) G4) as (i & E & M). cbn [fst] in E. inversion M as [id' o v M' Ei|]; subst. clear M. rename M' into M. specialize (G2 v M). destruct (dict_is _ _ G2) as [d ->].
  unfold read_label. cbn [snd fst object_dict]. rewrite E. cbn [bind]. destruct l as [st pr n0]. cbn [lb_style lb_prefix lb_start] in *.
  rewrite (optional_found _ _ _ _ _ st G2 H3).
  2:{ destruct st as [st|]; [|exact I]. cbn [option_map]. intros v Q. destruct (named_is _ _ _ Q) as (n & N1 & N2). rewrite N1. exact N2. }
  cbn [bind]. rewrite (optional_found _ _ _ _ _ pr G2 H4).
  2:{ destruct pr as [pr|]; [|exact I]. cbn [option_map]. intros v Q. exact (text_found pr v Q). }
  cbn [bind]. rewrite (optional_found _ _ _ _ _ n0 G2 H5); [reflexivity|].
  destruct n0 as [n0|]; [|exact I]. cbn [option_map]. intros v Q. unfold is_int in Q. subst v. reflexivity.
Qed.

(** A reader that starts from the trailer computes for every page the label that the program asked for. *)
Theorem C67_page_labels : forall decode ops cat file calls tree t,
  finished_document decode ops cat file -> In (DocCatalog cat calls) ops ->
  pages_written ops calls tree -> labels_written ops calls t ->
  exists depth, forall n, (depth <= n)%nat -> read_labels decode n file = Some (asked_labels t (List.length (it_pages tree))).
Proof.
  intros decode ops cat file calls tree t D I P (tcalls & W1 & W2 & W3). entries W1 Catalog_head Catalog_doc is_number_tree.
  destruct (document_facts _ _ _ _ D) as [X _]. destruct (catalog_found _ _ _ _ _ D I) as (c & C1 & C2).
  destruct (pages_found _ _ _ _ _ _ D I P) as (ds & F & E). exists (it_depth tree + tn_depth t)%nat. intros n Hn.
  unfold read_labels. rewrite E by lia. cbn [bind]. rewrite C1. cbn [bind]. unfold required.
  destruct (dict_lookup _ _ _ _ C2 W1) as (tv & L & Q). rewrite L. cbn [bind].
  destruct (dict_is _ _ Q) as [d ->]. rewrite (walk_number_tree (resolve decode file) ops X t tcalls (VDict d) d n W2 eq_refl Q) by lia.
  cbn [bind]. rewrite map_map. rewrite (all_of_map _ (fun e => (fst e, snd (snd e)))).
  - cbn [bind]. unfold asked_labels. rewrite <- (pages_ids _ _ _ F), map_length. reflexivity.
  - clear - X W3. induction W3 as [|e l H _ IH]; constructor; [|exact IH]. exact (label_found _ _ _ _ _ X H).
Qed.

(** ** A document *)

(** Two pages; two embedded files, one in each leaf of a name tree; three bookmarks, the second below the first; one named destination; three
    annotations, on the second page two links and a square; page labels i and A-7. *)
Definition nav_catalog : Catalog_calls := [
  Typed (Catalog_pages 2); Typed (Catalog_destinations 20); Typed (Catalog_outlines 21);
  Typed (Catalog_names [Typed (Names_embedded_files [NtKids [30; 31]])]);
  Typed (Catalog_page_labels [MtNums [(0, PRef 40); (1, PRef 41)]])].
Definition nav_sample : list doc_op := [
  DocTyped 4 (Ck_page [Typed (Page_parent 2)]);
  DocTyped 5 (Ck_page [Typed (Page_annotations [10; 11; 12]); Typed (Page_parent 2)]);
  DocTyped 2 (Ck_pages [Typed (Pages_kids [4; 5]); Typed (Pages_count 2)]);
  DocTyped 10 (Ck_annotation [Typed (Annotation_subtype AnnotationType_Link);
    Typed (Annotation_action [Typed (Action_action_type ActionType_GoTo); Typed (Action_destination_named (lit "start"))])]);
  DocTyped 11 (Ck_annotation [Typed (Annotation_subtype AnnotationType_Square)]);
  DocTyped 12 (Ck_annotation [Typed (Annotation_action [Typed (Action_uri (lit "a:b")); Typed (Action_action_type ActionType_Uri)]);
    Typed (Annotation_subtype AnnotationType_Link)]);
  DocTyped 20 (Ck_destinations [(lit "end", [TypedItem (Destination_page 5); TypedItem Destination_fit]);
    (lit "start", [TypedItem (Destination_page 4); TypedItem (Destination_xyz f32_zero f32_zero None)])]);
  DocTyped 21 (Ck_outline [Typed (Outline_first 22); Typed (Outline_last 24)]);
  DocTyped 22 (Ck_outline_item [Typed (OutlineItem_title (TextPlain [65; 960])); Typed (OutlineItem_next 24); Typed (OutlineItem_first 23);
    Typed (OutlineItem_last 23); Typed (OutlineItem_count (-1)); Typed (OutlineItem_dest_name (lit "start"))]);
  DocTyped 23 (Ck_outline_item [Typed (OutlineItem_title (TextPlain [66])); Typed (OutlineItem_parent 22);
    Typed (OutlineItem_dest [TypedItem (Destination_page 5); TypedItem Destination_fit])]);
  DocTyped 24 (Ck_outline_item [Typed (OutlineItem_prev 22); Typed (OutlineItem_title (TextPlain []))]);
  DocTyped 30 (Ck_name_tree [NtNames [(lit "a", PRef 32)]; NtLimits (lit "a") (lit "a")]);
  DocTyped 31 (Ck_name_tree [NtLimits (lit "b") (lit "b"); NtNames [(lit "b", PRef 33)]]);
  DocTyped 32 (Ck_file_spec [Typed (FileSpec_path (lit "a.txt")); Typed (FileSpec_unic_file [97; 128512]); Typed (FileSpec_embedded_file_with_unicode 34)]);
  DocTyped 33 (Ck_file_spec [Typed (FileSpec_embedded_file 35)]);
  DocTyped 34 (Ck_embedded_file (lit "hello") []);
  DocTyped 35 (Ck_embedded_file [] [STyped (EmbeddedFile_subtype (lit "text/plain"))]);
  DocOther (PdfObject 40 (PageLabel_obj [Typed (PageLabel_style NumberingStyle_LowerRoman)]));
  DocOther (PdfObject 41 (PageLabel_obj [Typed (PageLabel_offset 7); Typed (PageLabel_prefix (TextPlain [65; 45])); Typed (PageLabel_style NumberingStyle_Arabic)]));
  DocCatalog 1 nav_catalog].
Definition nav_tree : id_tree := ItNode 2 [ItPage 4; ItPage 5].
Definition nav_files : tree_node bytes (option (list Z) * bytes) :=
  TnNode [(30, TnLeaf [(lit "a", (32, (Some [97; 128512], lit "hello")))]); (31, TnLeaf [(lit "b", (33, (None, [])))])].
Definition nav_named : list (bytes * explicit_place) := [(lit "end", (5, Destination_fit)); (lit "start", (4, Destination_xyz f32_zero f32_zero None))].
Definition nav_bookmarks : list bookmark :=
  [Bookmark 22 [65; 960] (Some (Named (lit "start"))) [Bookmark 23 [66] (Some (Explicit (5, Destination_fit))) []]; Bookmark 24 [] None []].
Definition nav_annots : list (list (Z * annot)) :=
  [[]; [(10, LinkTo (Named (lit "start"))); (11, OtherAnnotation AnnotationType_Square); (12, LinkToUri (lit "a:b"))]].
Definition nav_labels : tree_node Z label :=
  TnLeaf [(0, (40, mkLabel (Some NumberingStyle_LowerRoman) None None)); (1, (41, mkLabel (Some NumberingStyle_Arabic) (Some [65; 45]) (Some 7)))].

Lemma nav_finished : Forall doc_op_ok nav_sample /\ ids_below (doc_ids nav_sample) /\ doc_catalog nav_sample = Some 1.
Proof.
  split; [repeat (apply Forall_cons; [cbn [doc_op_ok op_typed]; repeat split|]); apply Forall_nil|].
  split; [unfold ids_below; repeat constructor|reflexivity].
Qed.
Example C65_case : attachments_written no_filter nav_sample nav_catalog nav_files /\
  asked_attachments nav_files = [mkAttachment (lit "a") (Some [97; 128512]) (lit "hello"); mkAttachment (lit "b") None []].
Proof.
  split; [|reflexivity]. eexists _, _. split; [reflexivity|]. split; [reflexivity|]. split.
  - split; [reflexivity|]. split; [eexists; split; [cbn [nav_sample In]; tauto|split; reflexivity]|].
    split; [eexists; split; [cbn [nav_sample In]; tauto|split; reflexivity]|exact I].
  - apply Forall_cons; [|apply Forall_cons; [|apply Forall_nil]]; cbn [fst snd].
    + eexists _, 34, _, _, _. split; [cbn [nav_sample In]; tauto|]. split; [reflexivity|]. split; [reflexivity|]. split; [right; reflexivity|].
      split; [cbn [nav_sample In]; tauto|]. exists None; split; reflexivity.
    + eexists _, 35, _, _, _. split; [cbn [nav_sample In]; tauto|]. split; [reflexivity|]. split; [reflexivity|]. split; [left; reflexivity|].
      split; [cbn [nav_sample In]; tauto|]. exists None; split; reflexivity.
Qed.
Lemma nav_pages : pages_written nav_sample nav_catalog nav_tree.
Proof.
  split; [reflexivity|]. split; [eexists; split; [cbn [nav_sample In]; tauto|reflexivity]|].
  split; [eexists; cbn [nav_sample In]; tauto|]. split; [eexists; cbn [nav_sample In]; tauto|exact I].
Qed.
Lemma nav_named_written : named_written nav_sample nav_catalog nav_named.
Proof. right. exists 20. split; [reflexivity|]. cbn [nav_sample In]. tauto. Qed.
Example C66_case : pages_written nav_sample nav_catalog nav_tree /\
  named_written nav_sample nav_catalog nav_named /\
  outline_written nav_sample nav_catalog nav_bookmarks /\
  all_of (map (asked_bookmark (it_pages nav_tree) nav_named) nav_bookmarks) =
    Some [BookmarkRead [65; 960] (Some (0%nat, lit "XYZ")) [BookmarkRead [66] (Some (1%nat, lit "Fit")) []]; BookmarkRead [] None []].
Proof.
  split; [exact nav_pages|]. split; [exact nav_named_written|]. split; [|reflexivity].
  eexists 21, _. split; [reflexivity|]. split; [cbn [nav_sample In]; tauto|]. split; [reflexivity|].
  split; [|split; [|exact I]].
  - split; [eexists; split; [cbn [nav_sample In]; tauto|repeat split]|]. split; [|exact I].
    split; [eexists; split; [cbn [nav_sample In]; tauto|repeat split]|exact I].
  - split; [eexists; split; [cbn [nav_sample In]; tauto|repeat split]|exact I].
Qed.
Example C67_case : labels_written nav_sample nav_catalog nav_labels /\
  asked_labels nav_labels 2 = [[105]; [65; 45; 55]].
Proof.
  split; [|reflexivity]. eexists. split; [reflexivity|]. split; [split; reflexivity|].
  apply Forall_cons; [|apply Forall_cons; [|apply Forall_nil]]; cbn [fst snd].
  - eexists. split; [cbn [nav_sample In]; tauto|]. repeat split.
  - eexists. split; [cbn [nav_sample In]; tauto|]. repeat split.
Qed.
Example C68_case : Forall2 (page_annots_written nav_sample) (it_pages nav_tree) nav_annots /\
  asked_links (it_pages nav_tree) nav_named nav_annots = Some [[]; [LinkPage 0 (lit "XYZ"); LinkUri (lit "a:b")]].
Proof.
  split; [|reflexivity]. constructor; [|constructor; [|constructor]].
  - eexists. split; [cbn [nav_sample In]; tauto|]. split; [left; split; reflexivity|apply Forall_nil].
  - eexists. split; [cbn [nav_sample In]; tauto|]. split; [right; reflexivity|].
    apply Forall_cons; [|apply Forall_cons; [|apply Forall_cons; [|apply Forall_nil]]]; cbn [fst snd].
    + eexists. split; [cbn [nav_sample In]; tauto|]. split; [reflexivity|]. eexists. split; [reflexivity|]. split; reflexivity.
    + eexists. split; [cbn [nav_sample In]; tauto|]. split; [discriminate|reflexivity].
    + eexists. split; [cbn [nav_sample In]; tauto|]. split; [reflexivity|]. eexists. split; [reflexivity|]. split; reflexivity.
Qed.
(** And the file is really read so. *)
Example C65_C68_file : exists file, finished_document no_filter nav_sample 1 file /\
  read_attachments no_filter 2 file = Some [mkAttachment (lit "a") (Some [97; 128512]) (lit "hello"); mkAttachment (lit "b") None []] /\
  read_bookmarks no_filter 3 file =
    Some [BookmarkRead [65; 960] (Some (0%nat, lit "XYZ")) [BookmarkRead [66] (Some (1%nat, lit "Fit")) []]; BookmarkRead [] None []] /\
  read_labels no_filter 2 file = Some [[105]; [65; 45; 55]] /\
  read_links no_filter 2 file = Some [[]; [LinkPage 0 (lit "XYZ"); LinkUri (lit "a:b")]].
Proof.
  assert (X : match doc_run nav_sample (pdf_with_settings true) with
              | Some p => match finish p with
                          | Some f => (blen f <=? 10 ^ 10, (read_attachments no_filter 2 f, read_bookmarks no_filter 3 f, read_labels no_filter 2 f, read_links no_filter 2 f))
                          | None => (false, (None, None, None, None)) end
              | None => (false, (None, None, None, None)) end =
    (true, (Some [mkAttachment (lit "a") (Some [97; 128512]) (lit "hello"); mkAttachment (lit "b") None []],
      Some [BookmarkRead [65; 960] (Some (0%nat, lit "XYZ")) [BookmarkRead [66] (Some (1%nat, lit "Fit")) []]; BookmarkRead [] None []],
      Some [[105]; [65; 45; 55]], Some [[]; [LinkPage 0 (lit "XYZ"); LinkUri (lit "a:b")]]))) by (vm_compute; reflexivity).
  destruct (doc_run nav_sample (pdf_with_settings true)) as [p|] eqn:R; [|discriminate].
  destruct (finish p) as [file|] eqn:F; [|discriminate]. exists file. destruct nav_finished as (K & B & C).
  split; [apply (finished_table _ _ _ _ true p K R F B); [apply Z.leb_le; exact (f_equal fst X)|exact C]|].
  pose proof (f_equal snd X) as Y. cbn [snd] in Y. injection Y as Y1 Y2 Y3 Y4. repeat split; assumption.
Qed.

Print Assumptions C65_attachments.
Print Assumptions C66_bookmarks.
Print Assumptions C67_page_labels.
Print Assumptions C68_links.
