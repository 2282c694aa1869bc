(** C69, C70: the logical structure of tagged documents, and the text of its parts. *)

From Coq Require Import ZArith List Bool Lia.
From Verif Require ModelCmap SpecCmap ModelContent SpecContent.
From Verif Require Import Bytes ModelFloat ModelBuf ModelObject ModelChunk ModelColor ModelSmall ModelPdf ModelTw ModelEnums ModelRoles ModelTwArgs
  ModelTwFiles ModelTwGraphics ModelTwAnnot ModelTwForms ModelTwAttr ModelTwXObj ModelTwFonts ModelTwDoc ModelFontDesc ModelDoc
  SpecLex SpecObj SpecText SpecMeans SpecRenum SpecChunk SpecFile SpecPdf SpecTyped SpecColor SpecSmall SpecTw SpecEnums SpecRoles SpecTwArgs
  SpecTwFiles SpecTwGraphics SpecTwAnnot SpecTwForms SpecTwAttr SpecTwXObj SpecTwFonts SpecTwDoc SpecFontDesc SpecDoc SpecPages SpecExtract SpecNav SpecViews SpecTagged
  ProofBasic ProofTree ProofTyped ProofTw ProofTwDoc PropDoc PropPdf2 PropPages PropExtract PropNav.
Import ListNotations.
Local Open Scope Z_scope.

(** ** Pages *)
Definition view_is (p : page_asked) (v : page_view) : Prop :=
  fst (fst v) = pa_id p /\ Resources_reads (pa_resources p) (snd (fst v)) /\ page_reads (pa_calls p) (snd v).
Section Walk.
  Variables (decode : option val -> bytes -> option bytes) (resolved : Z -> option indirect) (ops : list doc_op).
  Hypothesis R : Forall (fun op => doc_op_reads op resolved) ops.
  Fixpoint vt_depth (t : view_tree) : nat :=
    match t with VtPage _ _ _ => 1%nat | VtNode _ _ kids => S (fold_right Nat.max 0%nat (map vt_depth kids)) end.
  Lemma own_found xs d res inherited iv : is_dict xs (VDict d) ->
    entries_for (lit "Resources") xs = entry_or_none (lit "Resources") (option_map Resources_reads res) -> Resources_reads inherited iv ->
    Resources_reads (or_inherited inherited res) (match lookup (lit "Resources") d with Some r => r | None => iv end).
  Proof using Type.
    intros D W K. destruct res as [rc|]; cbn [option_map entry_or_none or_inherited] in *.
    - destruct (dict_lookup _ _ _ _ D W) as (v & L & P). rewrite L. exact P.
    - rewrite (dict_lookup_none _ _ _ D W). exact K.
  Qed.
  Lemma walk_views : forall t inherited iv, view_tree_written decode ops t -> Resources_reads inherited iv ->
    exists vs, Forall2 view_is (vt_pages inherited t) vs /\
      forall n, (vt_depth t <= n)%nat -> page_views decode resolved n iv (VRef (vt_id t) 0) = Some vs.
  Proof using R.
    fix IH 1. intros [id res contents|id res kids] inherited iv W K; cbn [view_tree_written vt_pages vt_id vt_depth] in *.
    - destruct W as (calls & H1 & H2 & H3). apply page_resources_entry in H2. destruct (operations_found decode resolved ops R _ _ H3) as (l & M & P).
      destruct (found resolved ops R _ _ H1) as (i & E & v & -> & D). destruct (dict_is _ _ D) as [d ->].
      pose proof (own_found _ _ _ _ _ D H2 K) as K'.
      exists [(id, match lookup (lit "Resources") d with Some r => r | None => iv end, l)]. split.
      { constructor; [|constructor]. split; [reflexivity|]. split; [exact K'|exact M]. }
      intros [|n] L; [inversion L|]. cbn [page_views]. rewrite E.
      destruct (dict_first _ _ _ _ D) as (t & L1 & Q). rewrite L1. unfold is_name in Q. subst t.
      change (bytes_eqb (lit "Page") (lit "Pages")) with false. change (bytes_eqb (lit "Page") (lit "Page")) with true. cbv iota zeta.
      rewrite (P d D). reflexivity.
    - destruct W as [(calls & H1 & H2 & H3) W]. apply node_resources_entry in H2. apply kids_entry_of in H3.
      destruct (found resolved ops R _ _ H1) as (i & E & v & -> & D). destruct (dict_is _ _ D) as [d ->].
      pose proof (own_found _ _ _ _ _ D H2 K) as K'.
      assert (A : exists vs, Forall2 view_is (flat_map (vt_pages (or_inherited inherited res)) kids) vs /\
        forall n, (fold_right Nat.max 0 (map vt_depth kids) <= n)%nat ->
          concat_all (map (page_views decode resolved n (match lookup (lit "Resources") d with Some r => r | None => iv end))
            (map (fun r => VRef r 0) (map vt_id kids))) = Some vs).
      { clear H3. induction kids as [|t kids IHk]; [exists []; split; [constructor|reflexivity]|].
        destruct W as [W1 W2]. destruct (IH t _ _ W1 K') as (p1 & F1 & D1). destruct (IHk W2) as (p2 & F2 & D2).
        exists (p1 ++ p2). split; [apply Forall2_app; assumption|]. intros n L. cbn [map fold_right] in L. cbn [map concat_all].
        rewrite D1 by (etransitivity; [apply Nat.le_max_l|exact L]). rewrite D2 by (etransitivity; [apply Nat.le_max_r|exact L]). reflexivity. }
      destruct A as (vs & F & P). exists vs. split; [exact F|]. intros [|n] L; [inversion L|]. apply le_S_n in L.
      cbn [page_views]. rewrite E. destruct (dict_first _ _ _ _ D) as (t & L1 & Q). rewrite L1. unfold is_name in Q. subst t.
      change (bytes_eqb (lit "Pages") (lit "Pages")) with true. cbv iota zeta.
      destruct (dict_lookup _ _ _ _ D H3) as (v & L2 & vs' & -> & Q). rewrite L2. apply refs_found in Q. subst vs'. exact (P n L).
  Qed.
  Lemma page_fonts_found res rv fonts : Resources_reads res rv -> fonts_written decode ops res fonts -> fonts_are decode resolved fonts rv.
  Proof using R.
    intros P [[[-> W]|W] F]; destruct (dict_is _ _ P) as [r ->].
    - intro n. exact I.
    - apply fonts_entry in W. destruct (dict_lookup _ _ _ _ P W) as (w & L2 & P2).
      unfold as_references in P2. rewrite map_map in P2. cbn [fst snd] in P2. inversion P2 as [| | | | | | | | | | | |? ws M]; subst. intro n. unfold resource_font. rewrite L2. exact (fonts_found decode resolved ops R fonts ws F M n).
  Qed.
End Walk.
Lemma views_found decode ops cat file calls tree : finished_document decode ops cat file -> In (DocCatalog cat calls) ops ->
  views_written decode ops calls tree ->
  exists vs, Forall2 view_is (vt_pages [] tree) vs /\ forall n, (vt_depth tree <= n)%nat -> document_views decode n file = Some vs.
Proof.
  intros D I [W1 W2]. apply root_entry in W1. destruct (catalog_found _ _ _ _ _ D I) as (c & C1 & C2). destruct (document_facts _ _ _ _ D) as [X _].
  destruct (walk_views decode (resolve decode file) ops X tree [] (VDict []) W2) as (vs & F & P); [exists []; split; [reflexivity|constructor]|].
  exists vs. split; [exact F|]. intros n Hn.
  unfold document_views. rewrite C1. cbn [bind]. unfold required. destruct (dict_lookup _ _ _ _ C2 W1) as (v & L & Q). unfold is_ref in Q. subst v.
  rewrite L. cbn [bind]. apply P. exact Hn.
Qed.
Lemma view_ids ps vs : Forall2 view_is ps vs -> map (fun v => fst (fst v)) vs = map pa_id ps.
Proof. induction 1 as [|p v ps vs [H _] F IH]; [reflexivity|]. cbn [map]. rewrite H, IH. reflexivity. Qed.

(** ** Marked content *)
Lemma marked_found es : forall ws m, marked_id es = Some m -> Forall2 (fun e e' => fst e = fst e' /\ means (snd e) (snd e')) es ws ->
  match m with Some m => lookup (lit "MCID") ws = Some (VInt m) | None => lookup (lit "MCID") ws = None end.
Proof.
  induction es as [|[k o] es IH]; intros ws m H F; inversion F as [|? [k' v] ? ws' [A B] F']; subst.
  - apply some_inj in H. subst m. reflexivity.
  - cbn [fst snd] in *. subst k'. cbn [marked_id] in H. cbn [lookup]. destruct (bytes_eqb (lit "MCID") k).
    + destruct o as [[]| |]; try discriminate. apply some_inj in H. subst m. inversion B; subst. reflexivity.
    + exact (IH ws' m H F').
Qed.
Lemma mark_is s c op s' : SpecContent.ccall_means c op -> asked_mark s c = Some s' -> mark_step s op = Some s'.
Proof.
  intros [F E] A. destruct op as [vs k]. cbn [fst snd] in F, E.
  destruct c; cbn [asked_mark] in A;
    try (apply some_inj in A; subst s'; cbn [SpecContent.iso_operation] in E; try match type of E with context [match ?x with _ => _ end] => destruct x end;
         cbn [snd] in E; subst k; reflexivity).
  - cbn [SpecContent.iso_operation snd] in E. subst k. cbn [existsb] in A.
    destruct (bytes_eqb operator (lit "BMC")) eqn:E1; [discriminate|]. destruct (bytes_eqb operator (lit "BDC")) eqn:E2; [discriminate|].
    destruct (bytes_eqb operator (lit "EMC")) eqn:E3; [discriminate|]. cbn [orb] in A. unfold mark_step. rewrite E1, E2, E3. exact A.
  - destruct m as [es|n]; cbn [SpecContent.iso_operation fst snd SpecContent.properties] in E, F; subst k;
      inversion F as [|? v1 ? vs1 M1 F1]; subst; inversion F1 as [|? v2 ? vs2 M2 F2]; subst; inversion F2; subst.
    + inversion M2 as [| | | | | | | | | | | |? ws M]; subst.
      destruct (marked_id es) as [m|] eqn:Em; [|discriminate]. apply some_inj in A. subst s'.
      change (match lookup (lit "MCID") ws with Some (VInt m) => Some (Some m :: s) | Some _ => None | None => Some (None :: s) end = Some (m :: s)).
      pose proof (marked_found es ws m Em M) as L. destruct m; rewrite L; reflexivity.
    + inversion M2; subst. exact A.
  - cbn [SpecContent.iso_operation snd] in E. subst k. exact A.
Qed.
Lemma pieces_are fonts font : (forall n, knows (named_font fonts n) (font n)) -> forall calls ops st rs s l,
  Forall2 SpecContent.ccall_means calls ops -> state_is st rs -> asked_pieces fonts st s calls = Some l -> read_pieces font rs s ops = Some l.
Proof.
  intros KF calls ops st rs s l F. revert st rs s l. induction F as [|c op calls ops M F IH]; intros st rs s l S A; [exact A|].
  cbn [asked_pieces] in A. destruct (asked_step fonts st c) as [[a st']|] eqn:Q; [|discriminate]. cbn [bind fst snd] in A.
  destruct (step_is _ _ _ _ _ _ _ _ KF S M Q) as (rs' & R & S'). cbn [read_pieces]. rewrite R. cbn [bind fst snd].
  destruct (asked_mark s c) as [s'|] eqn:Q2; [|discriminate]. rewrite (mark_is _ _ _ _ M Q2). cbn [bind] in *.
  destruct (asked_pieces fonts st' s' calls) as [b|] eqn:B; [|discriminate]. rewrite (IH _ _ _ _ S' B). exact A.
Qed.

(** A reader that starts from the trailer finds on every page the pieces of text in order, each with the identifier of the innermost
    marked-content sequence around it that has one. *)
Theorem C70_marked_text : forall decode ops cat file calls tree marked,
  finished_document decode ops cat file -> In (DocCatalog cat calls) ops ->
  views_written decode ops calls tree ->
  Forall2 (marked_page decode ops) (vt_pages [] tree) marked ->
  exists depth, forall n, (depth <= n)%nat -> read_marked decode n file = Some marked.
Proof.
  intros decode ops cat file calls tree marked D I W M. destruct (document_facts _ _ _ _ D) as [X _].
  destruct (views_found _ _ _ _ _ _ D I W) as (vs & F & P). exists (vt_depth tree). intros n Hn. unfold read_marked. rewrite (P n Hn). cbn [bind].
  clear - M F X. revert marked M. induction F as [|p v ps vs (H1 & H2 & H3) F IH]; intros marked M; inversion M as [|? l ? ls (fonts & M1 & M2) M']; subst; [reflexivity|].
  cbn [map all_of]. rewrite (pieces_are fonts _ (page_fonts_found decode (resolve decode file) ops X _ _ _ H2 M1) _ _ (None, []) (None, []) [] l H3 (conj I (Forall2_nil _)) M2).
  rewrite (IH ls M'). reflexivity.
Qed.

(** ** The structure tree *)
Lemma role_map_found m : forall d, RoleMap_reads m (VDict d) -> forall n,
  match lookup n d with Some (VName x) => read_role x | _ => None end = mapped_role m n.
Proof.
  intros d (d' & E & F). injection E as <-. revert d F. induction m as [|[k r|k x] m IH]; intros d F n; cbn [map flat_map raw_doc RoleMap_doc app] in F;
    inversion F as [|? [k' v] ? d' [A B] F']; subst; [reflexivity| |]; cbn [fst snd] in *; subst k'; cbn [lookup mapped_role];
    (destruct (bytes_eqb n k); [|exact (IH d' F' n)]).
  - destruct B as (x & -> & B). exact B.
  - unfold is_name in B. subst v. reflexivity.
Qed.
Fixpoint tag_depth (t : tag) : nat :=
  match t with TagElement _ _ _ _ _ _ kids => S (fold_right Nat.max 0%nat (map tag_depth kids)) | _ => 1%nat end.

Section Structure.
  Variables (resolved : Z -> option indirect) (ops : list doc_op) (pages : list Z) (m : RoleMap_calls) (rm : list (bytes * val)).
  Hypothesis R : Forall (fun op => doc_op_reads op resolved) ops.
  Hypothesis M : forall n, match lookup n rm with Some (VName x) => read_role x | _ => None end = mapped_role m n.

  Lemma namespace_found id uri : namespace_written ops id uri -> read_namespace resolved (VRef id 0) = Some uri.
  Proof using R.
    intros (calls & H1 & H2). entries H2 Namespace_head Namespace_doc is_text. destruct (found resolved ops R _ _ H1) as (i & E & v & -> & D). destruct (dict_is _ _ D) as [d ->].
    unfold read_namespace. cbn [object_dict]. rewrite E. cbn [bind]. unfold required. destruct (dict_lookup _ _ _ _ D H2) as (v & L & Q).
    rewrite L. cbn [bind]. exact (text_found uri v Q).
  Qed.
  Definition kind_is (x : kind_argument) : val -> Prop := match x with ArgRole r => is_StructRole r | ArgRole2 r => is_StructRole2 r | ArgName n => is_name n end.
  Lemma kind_found calls d k : is_dict (writer_doc StructElement_head StructElement_doc calls) (VDict d) -> kind_written ops calls k ->
    exists s n ns, lookup (lit "S") d = Some s /\ read_name s = Some n /\ optional (lit "NS") d (read_namespace resolved) = Some ns /\
      read_kind rm n ns = Some (asked_kind m k).
  Proof using R M.
    intros D W. destruct k as [r|r id|n|n id uri]; cbn [kind_written] in W.
    - destruct W as [W1 W2]. entries W1 StructElement_head StructElement_doc kind_is. entries W2 StructElement_head StructElement_doc is_ref. destruct (dict_lookup _ _ _ _ D W1) as (s & L & n & -> & Q). exists (VName n), n, None.
      split; [exact L|]. split; [reflexivity|]. split; [exact (optional_found _ None _ _ _ None D W2 I)|].
      cbn [read_kind]. unfold read_role. rewrite Q. reflexivity.
    - destruct W as (W1 & W2 & W3). entries W1 StructElement_head StructElement_doc kind_is. entries W2 StructElement_head StructElement_doc is_ref.
      destruct (dict_lookup _ _ _ _ D W1) as (s & L & n & -> & Q). exists (VName n), n, (Some pdf2_namespace).
      split; [exact L|]. split; [reflexivity|]. split.
      + apply (optional_found _ (Some (is_ref id)) _ _ _ (Some pdf2_namespace) D W2). intros v P. unfold is_ref in P. subst v. exact (namespace_found _ _ W3).
      + cbn [read_kind]. destruct (list_eq_dec Z.eq_dec pdf2_namespace pdf2_namespace) as [_|N]; [|congruence]. rewrite Q. reflexivity.
    - destruct W as (W1 & W2 & W3). entries W1 StructElement_head StructElement_doc kind_is. entries W2 StructElement_head StructElement_doc is_ref.
      destruct (dict_lookup _ _ _ _ D W1) as (s & L & Q). unfold kind_is, is_name in Q. subst s. exists (VName n), n, None.
      split; [exact L|]. split; [reflexivity|]. split; [exact (optional_found _ None _ _ _ None D W2 I)|].
      cbn [read_kind asked_kind]. rewrite W3, <- M. destruct (lookup n rm) as [[]|]; reflexivity.
    - destruct W as (W1 & W2 & W3 & W4). entries W1 StructElement_head StructElement_doc kind_is. entries W2 StructElement_head StructElement_doc is_ref.
      destruct (dict_lookup _ _ _ _ D W1) as (s & L & Q). unfold kind_is, is_name in Q. subst s. exists (VName n), n, (Some uri).
      split; [exact L|]. split; [reflexivity|]. split.
      + apply (optional_found _ (Some (is_ref id)) _ _ _ (Some uri) D W2). intros v P. unfold is_ref in P. subst v. exact (namespace_found _ _ W3).
      + cbn [read_kind]. destruct (list_eq_dec Z.eq_dec uri pdf2_namespace) as [N|_]; [contradiction|reflexivity].
  Qed.
  Lemma text_option_found xs d k t : is_dict xs (VDict d) -> entries_for k xs = entry_or_none k (option_map is_textlike (option_map TextPlain t)) -> optional k d read_textstring = Some t.
  Proof using Type.
    intros D W. apply (optional_found _ _ _ _ _ t D W). destruct t as [t|]; [|exact I]. cbn [option_map]. intros v Q. exact (text_found t v Q).
  Qed.
  Lemma id_option_found xs d k t : is_dict xs (VDict d) -> entries_for k xs = entry_or_none k (option_map is_ref t) -> optional k d read_id = Some t.
  Proof using Type.
    intros D W. apply (optional_found _ _ _ _ _ t D W). destruct t as [t|]; [|exact I]. cbn [option_map]. intros v Q. unfold is_ref in Q. subst v. reflexivity.
  Qed.
  Definition tag_item (t : tag) : val -> Prop :=
    match t with
    | TagElement id _ _ _ _ _ _ => is_ref id
    | TagContent m => is_int m
    | TagContentRef _ _ _ _ calls => MarkedRef_reads calls
    | TagObject _ calls => ObjectRef_reads calls
    end.
  (** Children: none, one, or an array of them. *)
  Definition kids_entry (xs : list entry_spec) (kids : list (val -> Prop)) : Prop :=
    let e := entries_for (lit "K") xs in
    (kids = [] /\ e = []) \/ (exists k, kids = [k] /\ e = [(lit "K", k)]) \/ exists P, e = [(lit "K", P)] /\ forall v, P v -> is_array kids v.
  Definition child_reads (c : StructChildren_call) : val -> Prop :=
    match c with
    | StructChildren_struct_element id => is_ref id
    | StructChildren_marked_content_id m => is_int m
    | StructChildren_marked_content_ref calls => MarkedRef_reads calls
    | StructChildren_object_ref calls => ObjectRef_reads calls
    end.
  Lemma children_items l : flat_map (item_doc StructChildren_doc) (map TypedItem (map tag_child l)) = map tag_item l.
  Proof using Type. induction l as [|[] l IH]; [reflexivity| | | |]; cbn; f_equal; exact IH. Qed.
  Lemma children_entry calls l : children_given calls (map tag_child l) -> kids_entry (writer_doc StructElement_head StructElement_doc calls) (map tag_item l).
  Proof using Type.
    set (P := fun x : StructChildren_call + StructChildren_calls => match x with inl c => child_reads c | inr cs => StructChildren_reads cs end).
    intros [[E H]|[(c & E & H)|H]]; entries H StructElement_head StructElement_doc P.
    - left. split; [destruct l; [reflexivity|discriminate]|exact H].
    - right. left. exists (child_reads c). split; [|exact H]. destruct l as [|t [|]]; try discriminate. injection E as <-. destruct t; reflexivity.
    - right. right. exists (is_array (map tag_item l)). split; [|intros v Q; exact Q]. rewrite H. unfold P, StructChildren_reads, array_reads.
      rewrite children_items. reflexivity.
  Qed.
  Lemma root_children_entry calls ids l : root_children_given calls ids -> map tag_child l = map StructChildren_struct_element ids ->
    kids_entry (writer_doc StructTreeRoot_head StructTreeRoot_doc calls) (map tag_item l).
  Proof using Type.
    intros H E. assert (T : map tag_item l = map is_ref ids).
    { clear H. revert ids E. induction l as [|t l IH]; intros [|id ids] E; try discriminate E; [reflexivity|]. cbn [map] in E. injection E as E1 E2.
      cbn [map]. rewrite <- (IH ids E2). destruct t; try discriminate E1. injection E1 as ->. reflexivity. }
    rewrite T. destruct H as [[-> H]|[(id & -> & H)|H]];
      entries H StructTreeRoot_head StructTreeRoot_doc (fun x => match x with inl id => is_ref id | inr ids => is_refs ids end).
    - left. split; [reflexivity|exact H].
    - right. left. exists (is_ref id). split; [reflexivity|exact H].
    - right. right. exists (is_refs ids). split; [exact H|]. intros v (vs & -> & F). exists vs. split; [reflexivity|].
      clear - F. induction F; constructor; assumption.
  Qed.
  Lemma kids_found {A} xs d (l : list tag) (f : val -> option A) (g : tag -> option A) (r : list A) : is_dict xs (VDict d) -> kids_entry xs (map tag_item l) ->
    (forall t, In t l -> forall v a, tag_item t v -> g t = Some a -> f v = Some a) -> all_of (map g l) = Some r ->
    match lookup (lit "K") d with
    | None => Some []
    | Some (VArr l) => all_of (map f l)
    | Some v => option_map (fun t => [t]) (f v)
    end = Some r.
  Proof using Type.
    intros D W H G. destruct W as [[E W]|[(k & E & W)|W]].
    - rewrite (dict_lookup_none _ _ _ D W). destruct l; [exact G|discriminate].
    - destruct l as [|t [|]]; try discriminate. injection E as <-. destruct (dict_lookup _ _ _ _ D W) as (v & L & Q). rewrite L.
      cbn [map all_of] in G. destruct (g t) as [a|] eqn:Eg; [|discriminate]. rewrite <- G. clear G.
      pose proof (H t (or_introl eq_refl) v a Q Eg) as Y.
      assert (N : forall l, v <> VArr l); [|destruct v; try (rewrite Y; reflexivity); exfalso; exact (N _ eq_refl)].
      intros vs ->. destruct t; cbn [tag_item] in Q; try discriminate Q; destruct Q as (? & Q & _); discriminate Q.
    - destruct W as (P & W & WP). destruct (dict_lookup _ _ _ _ D W) as (v & L & Q). apply WP in Q. destruct Q as (vs & -> & Q). rewrite L. clear - Q H G. revert vs Q r G.
      induction l as [|t l IH]; intros vs Q r G; inversion Q as [|? v ? vs' Q1 Q2]; subst; [exact G|]. cbn [map all_of] in *.
      destruct (g t) as [a|] eqn:Eg; [|discriminate]. rewrite (H t (or_introl eq_refl) v a Q1 Eg).
      destruct (all_of (map g l)) as [b|]; [|discriminate]. rewrite (IH (fun t I => H t (or_intror I)) vs' Q2 b eq_refl). exact G.
  Qed.
  Lemma depth_in t l : In t l -> (tag_depth t <= fold_right Nat.max 0 (map tag_depth l))%nat.
  Proof using Type. induction l as [|x l IH]; [intros []|]; intros [->|H]; cbn [map fold_right]; [apply Nat.le_max_l|]. etransitivity; [exact (IH H)|apply Nat.le_max_r]. Qed.
  Lemma all_in l : (fix all l := match l with [] => True | t :: l => tag_written ops t /\ all l end) l -> forall t, In t l -> tag_written ops t.
  Proof using Type. induction l as [|x l IH]; intros W t; [intros []|]; destruct W as [H1 H2]; intros [<-|H]; [exact H1|exact (IH H2 t H)]. Qed.

  Lemma tag_found : forall n t page v a, (tag_depth t <= n)%nat -> tag_written ops t -> tag_item t v -> asked_tag m pages page t = Some a ->
    read_tag resolved pages rm n page v = Some a.
  Proof using R M.
    induction n as [|n IH]; intros t page v a L W Q A; [destruct t; inversion L|].
    destruct t as [id kind title alt actual pg kids|mcid|own stream owner mcid calls|id calls]; cbn [tag_item asked_tag tag_depth] in *.
    - apply le_S_n in L. cbn [tag_written] in W. destruct W as [(calls & H1 & H2 & H3 & H4 & H5 & H6 & H7) W]. unfold is_ref in Q. subst v.
      entries H3 StructElement_head StructElement_doc is_textlike. entries H4 StructElement_head StructElement_doc is_textlike.
      entries H5 StructElement_head StructElement_doc is_textlike. entries H6 StructElement_head StructElement_doc is_ref. apply children_entry in H7.
      destruct (found resolved ops R _ _ H1) as (i & E & v & -> & D). destruct (dict_is _ _ D) as [d ->].
      cbn [read_tag object_dict]. rewrite E. cbn [bind]. unfold required at 1.
      destruct (dict_first _ _ _ _ D) as (t & L1 & Q). rewrite L1. unfold is_name in Q. subst t. cbn [bind read_name].
      rewrite (id_option_found _ _ _ _ D H6). cbn [bind]. change (bytes_eqb (lit "StructElem") (lit "StructElem")) with true. cbv iota.
      destruct (kind_found _ _ _ D H2) as (s & nm & ns & K1 & K2 & K3 & K4). unfold required. rewrite K1. cbn [bind]. rewrite K2. cbn [bind].
      rewrite K3. cbn [bind]. rewrite K4. cbn [bind]. rewrite (text_option_found _ _ _ _ D H3). cbn [bind].
      rewrite (text_option_found _ _ _ _ D H4). cbn [bind]. rewrite (text_option_found _ _ _ _ D H5). cbn [bind].
      destruct (all_of (map (asked_tag m pages pg) kids)) as [r|] eqn:Er; [|discriminate].
      rewrite (kids_found _ _ kids (read_tag resolved pages rm n pg) (asked_tag m pages pg) r D H7); [exact A| |exact Er].
      intros t It v b Q G. apply (IH t pg v b); [|exact (all_in _ W t It)|exact Q|exact G]. etransitivity; [exact (depth_in t kids It)|exact L].
    - unfold is_int in Q. subst v. exact A.
    - cbn [tag_written] in W. destruct W as (H1 & H2 & H2' & H3). entries H1 MarkedRef_head MarkedRef_doc is_ref. entries H2 MarkedRef_head MarkedRef_doc is_ref. entries H2' MarkedRef_head MarkedRef_doc is_ref.
      entries H3 MarkedRef_head MarkedRef_doc is_int. destruct (dict_is _ _ Q) as [d ->]. cbn [read_tag object_dict bind]. unfold required at 1.
      destruct (dict_first _ _ _ _ Q) as (t & L1 & P). rewrite L1. unfold is_name in P. subst t. cbn [bind read_name].
      rewrite (id_option_found _ _ _ _ Q H1). cbn [bind].
      change (bytes_eqb (lit "MCR") (lit "StructElem")) with false. change (bytes_eqb (lit "MCR") (lit "MCR")) with true. cbv iota.
      destruct (match own with Some p => Some p | None => page end) as [p|]; [|discriminate]. cbn [bind] in *.
      destruct (position p pages) as [k|]; [|discriminate]. cbn [bind option_map] in *. rewrite (id_option_found _ _ _ _ Q H2). cbn [bind]. rewrite (id_option_found _ _ _ _ Q H2'). cbn [bind].
      unfold required. destruct (dict_lookup _ _ _ _ Q H3) as (v & L2 & P). rewrite L2. unfold is_int in P. subst v. exact A.
    - cbn [tag_written] in W. destruct W as (H1 & pg & X). entries H1 ObjectRef_head ObjectRef_doc is_ref. entries X ObjectRef_head ObjectRef_doc is_ref.
      destruct (dict_is _ _ Q) as [d ->]. cbn [read_tag object_dict bind]. unfold required at 1.
      destruct (dict_first _ _ _ _ Q) as (t & L1 & P). rewrite L1. unfold is_name in P. subst t. cbn [bind read_name].
      rewrite (id_option_found _ _ _ _ Q X). cbn [bind].
      change (bytes_eqb (lit "OBJR") (lit "StructElem")) with false. change (bytes_eqb (lit "OBJR") (lit "MCR")) with false.
      change (bytes_eqb (lit "OBJR") (lit "OBJR")) with true. cbv iota.
      unfold required. destruct (dict_lookup _ _ _ _ Q H1) as (v & L2 & P). rewrite L2. unfold is_ref in P. subst v. exact A.
  Qed.
End Structure.

(** A reader that starts from the trailer finds the structure tree as it was written: the elements in order and nested, each with the type
    asked for (standard, mapped to a standard one, or of a namespace), its title, alternative and replacement text, and its content
    items with the number of the page each is on. *)
Theorem C69_structure : forall decode ops cat file calls tree role_map l structure,
  finished_document decode ops cat file -> In (DocCatalog cat calls) ops ->
  views_written decode ops calls tree -> structure_written ops calls role_map l ->
  asked_structure role_map (map pa_id (vt_pages [] tree)) l = Some structure ->
  exists depth, forall n, (depth <= n)%nat -> read_structure decode n file = Some structure.
Proof.
  intros decode ops cat file calls tree role_map l structure D I V (rcalls & ids & W1 & W2 & W3 & W4 & W5) A.
  entries W1 Catalog_head Catalog_doc StructTreeRoot_reads. entries W2 StructTreeRoot_head StructTreeRoot_doc RoleMap_reads.
  pose proof (root_children_entry _ _ _ W3 W4) as W3'. clear W3 W4. rename W3' into W3.
  destruct (document_facts _ _ _ _ D) as [X _]. destruct (catalog_found _ _ _ _ _ D I) as (c & C1 & C2).
  destruct (views_found _ _ _ _ _ _ D I V) as (vs & F & P).
  exists (vt_depth tree + fold_right Nat.max 0 (map tag_depth l))%nat. intros n Hn. unfold read_structure. rewrite P by lia. cbn [bind].
  unfold document_structure. rewrite C1. cbn [bind]. unfold required at 1. destruct (dict_lookup _ _ _ _ C2 W1) as (v & L & Q).
  rewrite L. cbn [bind]. destruct (dict_is _ _ Q) as [root ->]. cbn [object_dict bind].
  set (m := match role_map with Some m => m | None => [] end) in A.
  assert (Y : exists rm, optional (lit "RoleMap") root (object_dict (resolve decode file)) = Some rm /\
    forall n, match lookup n (match rm with Some m => m | None => [] end) with Some (VName x) => read_role x | _ => None end = mapped_role m n).
  { unfold optional. destruct role_map as [rc|]; cbn [option_map entry_or_none] in W2.
    - destruct (dict_lookup _ _ _ _ Q W2) as (v & L2 & Q2). rewrite L2. destruct (dict_is _ _ Q2) as [d ->]. exists (Some d). split; [reflexivity|].
      exact (role_map_found rc d Q2).
    - rewrite (dict_lookup_none _ _ _ Q W2). exists None. split; reflexivity. }
  destruct Y as (rm & Y1 & Y2). rewrite Y1. cbn [bind]. rewrite (view_ids _ _ F). cbv zeta.
  apply (kids_found _ _ l _ (asked_tag m (map pa_id (vt_pages [] tree)) None) structure Q W3); [|exact A].
  intros t It v a Qt At. rewrite Forall_forall in W5.
  apply (tag_found (resolve decode file) ops _ m _ X Y2 n t None v a); [pose proof (depth_in t l It); lia|exact (W5 t It)|exact Qt|exact At].
Qed.

(** So it also gets the text of every part of the structure. *)
Theorem C70_tagged_text : forall decode ops cat file calls tree role_map l structure marked,
  finished_document decode ops cat file -> In (DocCatalog cat calls) ops ->
  views_written decode ops calls tree -> structure_written ops calls role_map l ->
  asked_structure role_map (map pa_id (vt_pages [] tree)) l = Some structure ->
  Forall2 (marked_page decode ops) (vt_pages [] tree) marked ->
  exists depth, forall n, (depth <= n)%nat -> read_tagged decode n file = Some (map (with_texts marked) structure).
Proof.
  intros decode ops cat file calls tree role_map l structure marked D I V S A M.
  destruct (C69_structure _ _ _ _ _ _ _ _ _ D I V S A) as (d1 & H1). destruct (C70_marked_text _ _ _ _ _ _ _ D I V M) as (d2 & H2).
  exists (d1 + d2)%nat. intros n Hn. unfold read_tagged. rewrite H1 by lia. cbn [bind]. rewrite H2 by lia. reflexivity.
Qed.

Lemma find_found resolved ops k : Forall (fun op => doc_op_reads op resolved) ops -> forall (es : list (Z * (Z * list Z))) ids,
  Forall (fun e => In (DocOther (PdfObject (fst (snd e)) (OArray (map (fun r => OPrim (PRef r)) (snd (snd e)))))) ops /\
                   forallb ref_ok (snd (snd e)) = true) es ->
  find_key k (map (fun e => (fst e, snd (snd e))) es) = Some ids ->
  bind (find_key k (map (fun e => (fst e, VRef (fst (snd e)) 0)) es)) (fun v => bind (read_id v) (fun id =>
        match resolved id with Some (IObj _ _ (VArr l)) => all_of (map read_id l) | _ => None end)) = Some ids.
Proof.
  intros R es ids F. rewrite Forall_forall in R. induction F as [|[n [id l]] es [H1 H2] F IH]; [discriminate|]. cbn [map find_key fst snd] in *.
  destruct (k =? n); [|exact IH]. intro E. apply some_inj in E. subst ids. cbn [bind read_id].
  assert (G : body_readable (BObj (OArray (map (fun r => OPrim (PRef r)) l))) = true).
  { cbn [body_readable]. apply andb_true_intro. split.
    - cbn [obj_ok]. rewrite forallb_map. exact H2.
    - apply names_nonempty_separable. cbn [names_nonempty]. rewrite forallb_map. apply forallb_forall. reflexivity. }
  destruct (R _ H1 _ (or_introl eq_refl) G) as (i & E & M). cbn [fst] in E. rewrite E. inversion M as [id' o v M' Ei|]; subst.
  inversion M' as [| | | | | | | | | | |? ws Q|]; subst. clear - Q. revert ws Q. induction l as [|r l IHl]; intros ws Q; cbn [map] in Q; inversion Q as [|? v ? ws' Q1 Q2]; subst; [reflexivity|].
  inversion Q1; subst. cbn [map all_of read_id]. rewrite (IHl ws' Q2). reflexivity.
Qed.

(** From a page's marked-content identifiers a reader gets back to the elements that the program named for them. *)
Theorem C69_parents : forall decode ops cat file calls tree t keys parents,
  finished_document decode ops cat file -> In (DocCatalog cat calls) ops ->
  pages_written ops calls tree -> parents_written ops calls t -> Forall2 (key_written ops) (it_pages tree) keys ->
  asked_parents t keys = Some parents ->
  exists depth, forall n, (depth <= n)%nat -> read_parents decode n file = Some parents.
Proof.
  intros decode ops cat file calls tree t keys parents D I P (rcalls & tcalls & W1 & W2 & W3 & W4) K A.
  entries W1 Catalog_head Catalog_doc StructTreeRoot_reads. entries W2 StructTreeRoot_head StructTreeRoot_doc is_number_tree.
  destruct (document_facts _ _ _ _ D) as [X _]. destruct (catalog_found _ _ _ _ _ D I) as (c & C1 & C2).
  destruct (pages_found _ _ _ _ _ _ D I P) as (ds & F & E). exists (it_depth tree + tn_depth t)%nat. intros n Hn.
  unfold read_parents. rewrite E by lia. cbn [bind]. unfold document_structure. rewrite C1. cbn [bind]. unfold required at 1.
  destruct (dict_lookup _ _ _ _ C2 W1) as (v & L & Q). rewrite L. cbn [bind]. destruct (dict_is _ _ Q) as [root ->]. cbn [object_dict bind].
  unfold required. destruct (dict_lookup _ _ _ _ Q W2) as (tv & L2 & Q2). rewrite L2. cbn [bind].
  destruct (dict_is _ _ Q2) as [d ->]. rewrite (walk_number_tree (resolve decode file) ops X t tcalls (VDict d) d n W3 eq_refl Q2) by lia.
  cbn [bind]. clear - X F K A W4. unfold asked_parents in A. revert keys parents K A.
  induction F as [|id e ids ds [_ F1] F IH]; intros keys parents K A; inversion K as [|? key ? keys' (pcalls & J1 & J2) K']; subst; [exact A|].
  entries J2 Page_head Page_doc is_int.
  destruct (found (resolve decode file) ops X _ _ J1) as (i & E & v & -> & M). rewrite F1 in E. apply some_inj in E.
  assert (v = VDict (snd e)) as -> by congruence. cbn [map all_of] in *.
  rewrite (optional_found _ _ _ _ _ key M J2); [|destruct key as [k|]; [cbn [option_map]; intros v Qv; unfold is_int in Qv; subst v; reflexivity|exact I]].
  cbn [bind].
  destruct (match key with None => Some [] | Some k => find_key k (map (fun e => (fst e, snd (snd e))) (tn_entries t)) end) as [ids'|] eqn:Ek; [|discriminate].
  assert (Y : match key with
    | None => Some []
    | Some k => bind (find_key k (map (fun e => (fst e, VRef (fst (snd e)) 0)) (tn_entries t))) (fun v => bind (read_id v) (fun id =>
        match resolve decode file id with Some (IObj _ _ (VArr l)) => all_of (map read_id l) | _ => None end))
    end = Some ids').
  { destruct key as [k|]; [|exact Ek]. exact (find_found _ _ _ X _ _ W4 Ek). }
  rewrite Y. destruct (all_of (map _ keys')) as [r|] eqn:Er; [|discriminate]. rewrite (IH keys' r K' Er). exact A.
Qed.

(** ** A document *)

(** A tagged document of two pages: a figure (a mapped type) with an alternative text, two paragraphs (one of PDF 2.0), a formula of
    another namespace, marked content on both pages, and a link annotation as an object. *)
Definition tag_page1 : list ModelContent.ccall :=
  [ModelContent.CSetFont (lit "F") f32_zero; ModelContent.CShow [x41];
   ModelContent.CBeginMarkedContentWithProperties (lit "P") (ModelContent.MarkDict [(lit "Lang", OPrim (PStr [])); (lit "MCID", OPrim (PInt 0))]);
   ModelContent.CShow [x02]; ModelContent.CBeginMarkedContent (lit "Span"); ModelContent.CShow [x41]; ModelContent.CEndMarkedContent; ModelContent.CEndMarkedContent;
   ModelContent.CBeginMarkedContentWithProperties (lit "Fig") (ModelContent.MarkDict [(lit "MCID", OPrim (PInt 1))]); ModelContent.CEndMarkedContent].
Definition tag_page2 : list ModelContent.ccall :=
  [ModelContent.CBeginMarkedContentWithProperties (lit "P") (ModelContent.MarkDict [(lit "MCID", OPrim (PInt 0))]);
   ModelContent.CSetFont (lit "F") f32_zero; ModelContent.CShow [x41; x41]; ModelContent.CEndMarkedContent].
Definition tag_resources : Resources_calls := [Typed (Resources_fonts [(lit "F", OPrim (PRef 11))])].
Definition tag_fonts : font_set := [(lit "F", (11, Some (ModelCmap.GU8, text_map8)))].
Definition tag_roles : RoleMap_calls := [RoleMap_insert (lit "Fig") StructRole_Figure; RoleMap_pair (lit "Q") (lit "P")].
Definition tag_catalog : Catalog_calls := [
  Typed (Catalog_pages 2);
  Typed (Catalog_struct_tree_root [Typed (StructTreeRoot_child 20); Typed (StructTreeRoot_role_map tag_roles);
    Typed (StructTreeRoot_parent_tree [MtNums [(0, PRef 30); (1, PRef 31)]])])].
Definition tag_sample : list doc_op := [
  DocTyped 4 (Ck_page [Typed (Page_contents 7); Typed (Page_struct_parents 0)]);
  DocTyped 5 (Ck_page [Typed (Page_struct_parents 1); Typed (Page_contents 8)]);
  DocTyped 2 (Ck_pages [Typed (Pages_kids [4; 5]); Typed (Pages_resources tag_resources)]);
  DocTyped 7 (Ck_stream (content_of tag_page1) []);
  DocTyped 8 (Ck_stream (content_of tag_page2) []);
  DocTyped 11 (Ck_type1_font [Typed (Type1Font_to_unicode 13)]);
  DocTyped 13 (Ck_cmap text_cmap8 []);
  DocTyped 20 (Ck_struct_element [Typed (StructElement_kind StructRole_Document); Typed (StructElement_children [
    TypedItem (StructChildren_struct_element 21); TypedItem (StructChildren_struct_element 22); TypedItem (StructChildren_struct_element 23);
    TypedItem (StructChildren_object_ref [Typed (ObjectRef_object 40)])])]);
  DocTyped 21 (Ck_struct_element [Typed (StructElement_kind_2 StructRole2_P 50); Typed (StructElement_page 4); Typed (StructElement_children [
    TypedItem (StructChildren_marked_content_id 0); TypedItem (StructChildren_marked_content_ref [Typed (MarkedRef_page 5); Typed (MarkedRef_marked_content_id 0)])])]);
  DocTyped 22 (Ck_struct_element [Typed (StructElement_custom_kind (lit "Fig")); Typed (StructElement_alt (TextPlain [97; 960]));
    Typed (StructElement_marked_content_child [Typed (MarkedRef_marked_content_id 1); Typed (MarkedRef_page 4)])]);
  DocTyped 23 (Ck_struct_element [Typed (StructElement_custom_kind (lit "math")); Typed (StructElement_namespace 51)]);
  DocTyped 50 (Ck_namespace [Typed (Namespace_ns pdf2_namespace)]);
  DocTyped 51 (Ck_namespace [Typed Namespace_mathml_3_0_ns]);
  DocTyped 40 (Ck_annotation [Typed (Annotation_subtype AnnotationType_Link)]);
  DocOther (PdfObject 30 (OArray [OPrim (PRef 21); OPrim (PRef 22)]));
  DocOther (PdfObject 31 (OArray [OPrim (PRef 21)]));
  DocCatalog 1 tag_catalog].
Definition tag_views : view_tree := VtNode 2 (Some tag_resources) [VtPage 4 None (OneStream tag_page1); VtPage 5 None (OneStream tag_page2)].
Definition tag_tree : list tag :=
  [TagElement 20 (KindRole StructRole_Document) None None None None
    [TagElement 21 (KindRole2 StructRole2_P 50) None None None (Some 4)
       [TagContent 0; TagContentRef (Some 5) None None 0 [Typed (MarkedRef_page 5); Typed (MarkedRef_marked_content_id 0)]];
     TagElement 22 (KindCustom (lit "Fig")) None (Some [97; 960]) None None
       [TagContentRef (Some 4) None None 1 [Typed (MarkedRef_marked_content_id 1); Typed (MarkedRef_page 4)]];
     TagElement 23 (KindForeign (lit "math") 51 (ascii "https://www.w3.org/1998/Math/MathML")) None None None None [];
     TagObject 40 [Typed (ObjectRef_object 40)]]].
Definition tag_result : list tagged :=
  [TgElement (IsRole StructRole_Document) None None None
    [TgElement (IsRole2 StructRole2_P) None None None [TgText [102; 105; 65]; TgText [65; 65]];
     TgElement (IsMapped (lit "Fig") StructRole_Figure) None (Some [97; 960]) None [TgText []];
     TgElement (IsForeign (ascii "https://www.w3.org/1998/Math/MathML") (lit "math")) None None None [];
     TgObject 40]].

Lemma tag_finished : Forall doc_op_ok tag_sample /\ ids_below (doc_ids tag_sample) /\ doc_catalog tag_sample = Some 1.
Proof.
  split; [repeat (apply Forall_cons; [cbn [doc_op_ok op_typed]; repeat split|]); apply Forall_nil|].
  split; [unfold ids_below; repeat constructor|reflexivity].
Qed.
Lemma content_case ops calls id : In (DocTyped id (Ck_stream (content_of calls) [])) ops -> forallb (SpecContent.ccall_ok false) calls = true ->
  ModelContent.content_run calls (ModelContent.content_with_settings false) <> None -> content_written no_filter ops calls id.
Proof.
  intros H1 H2 H3. exists [], (content_of calls), false. unfold content_of in *.
  destruct (ModelContent.content_run calls (ModelContent.content_with_settings false)) as [c|] eqn:Q; [|congruence].
  exists c. split; [exact H1|]. split; [exact H2|]. split; [reflexivity|exists None; split; reflexivity].
Qed.
Example C69_case : views_written no_filter tag_sample tag_catalog tag_views /\
  structure_written tag_sample tag_catalog (Some tag_roles) tag_tree /\
  asked_structure (Some tag_roles) (map pa_id (vt_pages [] tag_views)) tag_tree = Some
    [TrElement (IsRole StructRole_Document) None None None
      [TrElement (IsRole2 StructRole2_P) None None None [TrContent 0 None None 0; TrContent 1 None None 0];
       TrElement (IsMapped (lit "Fig") StructRole_Figure) None (Some [97; 960]) None [TrContent 0 None None 1];
       TrElement (IsForeign (ascii "https://www.w3.org/1998/Math/MathML") (lit "math")) None None None [];
       TrObject 40]].
Proof.
  split; [|split; [|vm_compute; reflexivity]].
  - split; [reflexivity|]. split; [eexists; split; [cbn [tag_sample In]; tauto|split; reflexivity]|].
    split; [|split; [|exact I]]; (eexists; split; [cbn [tag_sample In]; tauto|split; [reflexivity|]]; eexists; split; [reflexivity|]);
      (apply content_case; [cbn [tag_sample In]; tauto|vm_compute; reflexivity|vm_compute; discriminate]).
  - eexists _, [20]. split; [reflexivity|]. split; [reflexivity|]. split; [right; left; eexists; split; reflexivity|].
    split; [reflexivity|]. apply Forall_cons; [|apply Forall_nil].
    split; [eexists; split; [cbn [tag_sample In]; tauto|]; repeat split; right; right; reflexivity|].
    split; [|split; [|split; [|split; [|exact I]]]].
    + split; [eexists; split; [cbn [tag_sample In]; tauto|]|split; [exact I|split; [repeat split|exact I]]].
      split; [split; [reflexivity|split; [reflexivity|eexists; split; [cbn [tag_sample In]; tauto|reflexivity]]]|]. repeat split. right. right. reflexivity.
    + split; [eexists; split; [cbn [tag_sample In]; tauto|]|split; [repeat split|exact I]].
      split; [repeat split|]. repeat split. right. left. eexists. split; reflexivity.
    + split; [eexists; split; [cbn [tag_sample In]; tauto|]|exact I].
      split; [split; [reflexivity|split; [reflexivity|split; [eexists; split; [cbn [tag_sample In]; tauto|reflexivity]|vm_compute; discriminate]]]|].
      repeat split. left. split; reflexivity.
    + split; [reflexivity|exists None; reflexivity].
Qed.
Example C70_case : exists marked, Forall2 (marked_page no_filter tag_sample) (vt_pages [] tag_views) marked /\
  exists structure, asked_structure (Some tag_roles) (map pa_id (vt_pages [] tag_views)) tag_tree = Some structure /\
  map (with_texts marked) structure = tag_result.
Proof.
  assert (F : fonts_written no_filter tag_sample tag_resources tag_fonts).
  { split; [right; reflexivity|]. apply Forall_cons; [|apply Forall_nil]. cbn [fst snd].
    eexists _, 13, text_cmap8, [], (lit "N"), text_info, ModelCmap.WHorizontal.
    split; [right; right; right; right; right; left; reflexivity|]. split; [reflexivity|].
    split; [cbn [tag_sample In]; tauto|]. split; [split; [reflexivity|repeat constructor; discriminate]|]. exists None; split; reflexivity. }
  eexists. split.
  - constructor; [|constructor; [|constructor]]; (exists tag_fonts; split; [exact F|vm_compute; reflexivity]).
  - eexists. split; [vm_compute; reflexivity|vm_compute; reflexivity].
Qed.
Example C69_parents_case : parents_written tag_sample tag_catalog (TnLeaf [(0, (30, [21; 22])); (1, (31, [21]))]) /\
  Forall2 (key_written tag_sample) [4; 5] [Some 0; Some 1] /\
  pages_written tag_sample tag_catalog (ItNode 2 [ItPage 4; ItPage 5]) /\
  asked_parents (TnLeaf [(0, (30, [21; 22])); (1, (31, [21]))]) [Some 0; Some 1] = Some [[21; 22]; [21]].
Proof.
  split; [|split; [|split; [|reflexivity]]].
  - eexists _, _. split; [reflexivity|]. split; [reflexivity|]. split; [split; reflexivity|].
    repeat apply Forall_cons; try apply Forall_nil; (split; [cbn [tag_sample In fst snd map]; tauto|reflexivity]).
  - constructor; [|constructor; [|constructor]]; eexists; (split; [cbn [tag_sample In]; tauto|reflexivity]).
  - split; [reflexivity|]. split; [eexists; split; [cbn [tag_sample In]; tauto|reflexivity]|].
    split; [eexists; cbn [tag_sample In]; tauto|]. split; [eexists; cbn [tag_sample In]; tauto|exact I].
Qed.
(** And the file is really read so. *)
Example C69_C70_file : exists file, finished_document no_filter tag_sample 1 file /\
  read_tagged no_filter 4 file = Some tag_result /\ read_parents no_filter 4 file = Some [[21; 22]; [21]].
Proof.
  assert (X : match doc_run tag_sample (pdf_with_settings true) with
              | Some p => match finish p with Some f => (blen f <=? 10 ^ 10, (read_tagged no_filter 4 f, read_parents no_filter 4 f)) | None => (false, (None, None)) end
              | None => (false, (None, None)) end = (true, (Some tag_result, Some [[21; 22]; [21]]))) by (vm_compute; reflexivity).
  destruct (doc_run tag_sample (pdf_with_settings true)) as [p|] eqn:R; [|discriminate].
  destruct (finish p) as [file|] eqn:F; [|discriminate]. exists file. destruct tag_finished as (K & B & C).
  split; [apply (finished_table _ _ _ _ true p K R F B); [apply Z.leb_le; exact (f_equal fst X)|exact C]|].
  pose proof (f_equal snd X) as Y. cbn [snd] in Y. injection Y as Y1 Y2. split; assumption.
Qed.

(** But with [Namespace::pdf_2_ns] the elements of PDF 2.0 are not recognised: it does not write the name of that namespace. *)
Definition pdf2_sample : list doc_op := [
  DocTyped 2 (Ck_pages [Typed (Pages_kids [])]);
  DocTyped 20 (Ck_struct_element [Typed (StructElement_kind_2 StructRole2_P 50)]);
  DocTyped 50 (Ck_namespace [Typed Namespace_pdf_2_ns]);
  DocCatalog 1 [Typed (Catalog_pages 2); Typed (Catalog_struct_tree_root [Typed (StructTreeRoot_child 20)])]].
Theorem C69_pdf_2_ns_refuted : exists file, finished_document no_filter pdf2_sample 1 file /\
  read_structure no_filter 2 file = Some [TrElement (IsForeign (ascii "https://www.iso.org/pdf2/ssn") (lit "P")) None None None []] /\
  ascii "https://www.iso.org/pdf2/ssn" <> pdf2_namespace.
Proof.
  assert (X : match doc_run pdf2_sample (pdf_with_settings true) with
              | Some p => match finish p with Some f => (blen f <=? 10 ^ 10, read_structure no_filter 2 f) | None => (false, None) end
              | None => (false, None) end =
    (true, Some [TrElement (IsForeign (ascii "https://www.iso.org/pdf2/ssn") (lit "P")) None None None []])) by (vm_compute; reflexivity).
  destruct (doc_run pdf2_sample (pdf_with_settings true)) as [p|] eqn:R; [|discriminate].
  destruct (finish p) as [file|] eqn:F; [|discriminate]. exists file.
  split; [apply (finished_table _ _ _ _ true p); [|exact R|exact F| |apply Z.leb_le; exact (f_equal fst X)|reflexivity]|].
  - repeat (apply Forall_cons; [cbn [doc_op_ok op_typed]; repeat split|]); apply Forall_nil.
  - unfold ids_below; repeat constructor.
  - split; [exact (f_equal snd X)|vm_compute; discriminate].
Qed.

Print Assumptions C69_structure.
Print Assumptions C69_parents.
Print Assumptions C70_tagged_text.
