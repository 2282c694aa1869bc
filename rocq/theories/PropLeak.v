(** C96: writers that are leaked, and renumbering from chunks with damaged objects. *)

From Coq Require Import ZArith List Lia Bool Permutation ZifyBool.
From Verif Require Import Bytes ModelFloat ModelBuf ModelObject ModelRenumber ModelChunk ModelApi ModelPdf ModelCrash ModelLeak SpecLex SpecObj SpecMeans
  SpecRenum SpecChunk SpecApi SpecFile SpecPdf SpecCrash SpecLeak ProofBasic ProofObj ProofRenumTree ProofChunk ProofApi ProofPdf ProofFile3 ProofCrash ProofLeak PropPdf2 PropCrash.
Import ListNotations.
Local Open Scope Z_scope.

(** ** Documents *)

(** Whatever happened to the writers of other objects: finishing works exactly if no id is used twice, every whole object is found in the finished
    file, unused ids resolve to nothing, and the header and the trailer are what was asked for. *)
Theorem C96_document : forall pretty ops p,
  Forall leak_op_typed ops -> leak_pdf_run ops (pdf_with_settings pretty) = Some p ->
  exists l, document_leaves ops l /\
    ((exists file, finish p = Some file) <-> NoDup (map left_id l)) /\
    forall decode file, ids_below (map left_id l) -> finish p = Some file -> blen file <= 10 ^ 10 ->
      (forall it, In (Whole it) l -> body_readable (snd it) = true -> exists i, resolve decode file (fst it) = Some i /\ item_means it i) /\
      (forall id, ~ In id (map left_id l) -> resolve decode file id = None) /\
      (exists rest, file = header_of (leak_header_calls ops) ++ rest) /\
      exists entries trailer, read_file decode file = Some (entries, trailer) /\
        forall key, key <> lit "Size" -> lookup key trailer = trailer_value (leak_header_calls ops) key.
Proof.
  intros pretty ops p F R. destruct (run_leak ops [] [] _ _ F (start_crash pretty) R) as (k & S & V & Sd & So). cbn [app] in S.
  exists (lefts k). split; [exact V|]. split; [exact (st_finish _ _ _ S Sd)|]. intros decode file HB HF HL.
  exact (st_document _ _ _ S Sd So (leak_header_typed ops F) (leak_header_fit ops) decode file HB HF HL).
Qed.
Theorem C96_document_stream : forall pretty ops p,
  Forall leak_op_typed ops -> leak_pdf_run ops (pdf_with_settings pretty) = Some p ->
  exists l, document_leaves ops l /\
    forall decode xref_id file, id_ok xref_id = true -> ids_below (xref_id :: map left_id l) -> finished_with_stream decode p xref_id file -> blen file < 2 ^ 64 ->
      (forall it, In (Whole it) l -> body_readable (snd it) = true -> exists i, resolve decode file (fst it) = Some i /\ item_means it i) /\
      (forall id, id <> xref_id -> ~ In id (map left_id l) -> resolve decode file id = None) /\
      (exists rest, file = header_of (leak_header_calls ops) ++ rest) /\
      exists entries trailer, read_file decode file = Some (entries, trailer) /\
        forall key, key <> lit "Size" -> ~ In key stream_keys -> lookup key trailer = trailer_value (leak_header_calls ops) key.
Proof.
  intros pretty ops p F R. destruct (run_leak ops [] [] _ _ F (start_crash pretty) R) as (k & S & V & Sd & So). cbn [app] in S.
  exists (lefts k). split; [exact V|]. intros decode xid file HX HB HF HL.
  exact (st_document_stream _ _ _ S Sd So (leak_header_typed ops F) (leak_header_fit ops) decode xid file HX HB HF HL).
Qed.

(** ** Which objects are whole *)

Lemma map_calls_inj a : forall b, map LCall a = map LCall b -> a = b.
Proof. induction a as [|x a IH]; intros [|y b] E; try discriminate; [reflexivity|]. cbn [map] in E. injection E as -> E. rewrite (IH _ E). reflexivity. Qed.
Lemma not_lost calls : consumed calls -> ~ something_lost (map LCall calls).
Proof.
  intros C [H|H]; apply in_map_iff in H as (c & E & H); [discriminate|]. injection E as ->. exact (C H).
Qed.
Lemma tree_consumed calls o : tree_so_far calls o -> consumed calls.
Proof.
  intros (n & E) H. assert (Q : In CAbandon (calls_of o)).
  { rewrite <- E. apply in_or_app. left. unfold expanded. apply in_flat_map. exists CAbandon. split; [exact H|left; reflexivity]. }
  clear E H. revert Q. induction o as [p|l IH|l IH] using obj_ind'; cbn [calls_of].
  - intros [Q|[]]; discriminate.
  - intros [Q|Q]; [discriminate|]. apply in_app_or in Q. destruct Q as [Q|[Q|[]]]; [|discriminate]. apply in_flat_map in Q as (x & X & [Q|Q]); [discriminate|].
    rewrite Forall_forall in IH. exact (IH x X Q).
  - intros [Q|Q]; [discriminate|]. apply in_app_or in Q. destruct Q as [Q|[Q|[]]]; [|discriminate]. apply in_flat_map in Q as (x & X & [Q|Q]); [discriminate|].
    rewrite Forall_forall in IH. exact (IH x X Q).
Qed.
Lemma dict_so_far calls es : entries_so_far calls es -> tree_so_far (CDict :: calls) (ODict es).
Proof. intros (n & E). exists n. unfold expanded. cbn [flat_map expand app calls_of]. fold (expanded calls). f_equal. exact E. Qed.

(** An object is damaged only if one of its own writers was forgotten, one of its own places was left unused, or it was cut short at an open place. *)
Theorem C96_object_leaves_one : forall id cs x y, object_leaves id cs x -> object_leaves id cs y -> x = y.
Proof.
  intros id cs x y X Y.
  destruct X as [c1 o1 E1 T1|c1 E1 C1 O1|L1], Y as [c2 o2 E2 T2|c2 E2 C2 O2|L2]; try reflexivity.
  - rewrite E1 in E2. apply map_calls_inj in E2. subst c2. destruct (C79_one_tree _ _ T1) as [_ Q]. rewrite (Q _ T2). reflexivity.
  - rewrite E1 in E2. apply map_calls_inj in E2. subst c2. destruct (C79_one_tree _ _ T1) as [Q _]. destruct (Q O2).
  - rewrite E1 in L2. destruct (not_lost _ (tree_consumed _ _ T1) L2).
  - rewrite E1 in E2. apply map_calls_inj in E2. subst c2. destruct (C79_one_tree _ _ T2) as [Q _]. destruct (Q O1).
  - rewrite E2 in L1. destruct (not_lost _ (tree_consumed _ _ T2) L1).
Qed.
Theorem C96_stream_leaves_one : forall id data cs x y, stream_leaves id data cs x -> stream_leaves id data cs y -> x = y.
Proof.
  assert (K : forall calls, stream_stops_open calls -> stops_open (CDict :: calls)).
  { intros calls [(b & E)|(b & k & E)]; [right; left; exists (CDict :: b)|right; right; exists (CDict :: b), k]; unfold expanded; cbn [flat_map expand app]; fold (expanded calls); rewrite E; reflexivity. }
  intros id data cs x y X Y.
  destruct X as [c1 o1 B1 E1 T1|c1 B1 E1 C1 O1|B1 L1|B1], Y as [c2 o2 B2 E2 T2|c2 B2 E2 C2 O2|B2 L2|B2]; try reflexivity; try (exfalso; lia).
  - rewrite E1 in E2. apply map_calls_inj in E2. subst c2. destruct (C79_one_tree _ _ (dict_so_far _ _ T1)) as [_ Q]. pose proof (Q _ (dict_so_far _ _ T2)) as Z. injection Z as ->. reflexivity.
  - rewrite E1 in E2. apply map_calls_inj in E2. subst c2. destruct (C79_one_tree _ _ (dict_so_far _ _ T1)) as [Q _]. destruct (Q (K _ O2)).
  - rewrite E1 in L2. destruct (not_lost c1) in L2; [|exact L2]. intro H. exact (tree_consumed _ _ (dict_so_far _ _ T1) (or_intror H)).
  - rewrite E1 in E2. apply map_calls_inj in E2. subst c2. destruct (C79_one_tree _ _ (dict_so_far _ _ T2)) as [Q _]. destruct (Q (K _ O1)).
  - rewrite E2 in L1. destruct (not_lost c2) in L1; [|exact L1]. intro H. exact (tree_consumed _ _ (dict_so_far _ _ T2) (or_intror H)).
Qed.

(** An object or a stream that was written regularly is whole, whatever the other operations are. *)
Lemma leaves_each ops l : document_leaves ops l -> forall op, In op ops -> exists l', op_leaves op l' /\ incl l' l.
Proof.
  induction 1 as [|op ops l l' L L' IH]; intros o H; [destruct H|]. destruct H as [<-|H].
  - exists l. split; [exact L|]. apply incl_appl. apply incl_refl.
  - destruct (IH o H) as (x & X & I). exists x. split; [exact X|]. apply incl_appr. exact I.
Qed.
Theorem C96_others_object : forall ops l id calls o, document_leaves ops l -> In (LpObject id (map LCall calls)) ops -> expanded calls = calls_of o ->
  In (Whole (id, BObj o)) l.
Proof.
  intros ops l id calls o V H E. destruct (leaves_each ops l V _ H) as (l' & L & I). inversion L as [i c x X| | | | | | | | |]; subst.
  apply I. left. apply (C96_object_leaves_one id (map LCall calls)); [exact X|]. eapply OV_tree; [reflexivity|]. exists 0%nat. cbn [repeat]. rewrite app_nil_r. exact E.
Qed.
Theorem C96_others_stream : forall ops l id data calls es, document_leaves ops l -> In (LpStream id data (map LCall calls)) ops ->
  blen data <= i32_max -> expanded calls = inserts es ++ [CDrop] -> In (Whole (id, BStream es data)) l.
Proof.
  intros ops l id data calls es V H B E. destruct (leaves_each ops l V _ H) as (l' & L & I). inversion L as [|i d c x X| | | | | | | |]; subst.
  apply I. left. apply (C96_stream_leaves_one id data (map LCall calls)); [exact X|]. eapply SV_stream; [exact B|reflexivity|]. exists 0%nat. cbn [repeat]. rewrite app_nil_r. exact E.
Qed.

(** ** Renumbering *)

(** Renumbering does not panic of itself, whatever is damaged in the source. *)
Theorem C96_renumber_never_panics : forall h c tgt T (f : T -> Z -> option (Z * T)) s, leak_hist_typed h -> answers f -> leak_hist_run h = Some c ->
  caught_renumber_into f c tgt s <> None.
Proof. intros h c tgt T f s F Hf R. exact (hist_total h F T f s c tgt Hf R). Qed.

(** With a function that only looks at the number: the whole objects of the result are those of the source, renumbered. *)
Lemma answering_pure g o : forall t, map_refs_st (answering (fun (_ : unit) id => Some (g id, tt))) o (Some t) = (map_refs g o, Some tt).
Proof.
  induction o as [p|l IH|l IH] using obj_ind'; intros []; cbn [map_refs_st map_refs].
  - destruct p; reflexivity.
  - assert (X : thread (map_refs_st (answering (fun (_ : unit) id => Some (g id, tt)))) l (Some tt) = (map (map_refs g) l, Some tt)).
    { induction IH as [|a l H1 H2 IHl]; [reflexivity|]. rewrite thread_cons, H1, IHl. reflexivity. }
    rewrite X. reflexivity.
  - match goal with |- context [thread ?G l _] => assert (X : thread G l (Some tt) = (map (fun e => (fst e, map_refs g (snd e))) l, Some tt)) end.
    { induction IH as [|a l H1 H2 IHl]; [reflexivity|]. rewrite thread_cons, H1, IHl. reflexivity. }
    rewrite X. reflexivity.
Qed.
Lemma answering_pure_body g bd : map_body_st (answering (fun (_ : unit) id => Some (g id, tt))) bd (Some tt) = (map_body g bd, Some tt).
Proof.
  destruct bd as [o|es d]; cbn [map_body_st map_body]; [rewrite answering_pure; reflexivity|].
  pose proof (answering_pure g (ODict es) tt) as Q. cbn [map_refs_st map_refs] in Q. unfold map_entries_st, map_entries.
  destruct (thread _ es _) as [es' t]. injection Q as -> ->. reflexivity.
Qed.
Theorem C96_renumber_pure : forall (g : Z -> Z) l out, copies (fun (_ : unit) id => Some (g id, tt)) l tt out -> whole out = map (map_item g) (whole l).
Proof.
  intros g l out H. remember tt as t eqn:Et in H at 2. clear Et. induction H as [t|x l t F|id bd l t new t1 bd' t2 out F M C IH|id bd l t new t1 bd' F M|id l t new t1 out F C IH|id l t new t1 t2 out F A C IH|id l t new t1 t2 id2 F A N];
    try discriminate.
  - reflexivity.
  - injection F as <- <-. rewrite answering_pure_body in M. injection M as <- <-. cbn [whole flat_map app map]. fold (whole out) (whole l). rewrite IH. reflexivity.
  - injection F as <- <-. rewrite answering_pure_body in M. discriminate.
  - exact IH.
  - exact IH.
Qed.

(** ** A case *)

(** A page whose resource dictionary is forgotten; an array that is forgotten while the dictionary around it is closed; a stream that is forgotten; an
    object that is not used; a chunk that has all of this, renumbered.  The damaged objects cannot be read, all others can. *)
Definition leak_source : leak_hist :=
  KkObject (KkObject (KkObject (KkObject (KkNew false)
    1 [LCall CDict; LCall (CPair (lit "A") (PInt 1)); LForget])
    2 [LCall CArray; LCall (CItem (PRef 1)); LCall (CItem (PRef 4)); LCall CDrop])
    3 [LCall CDict; LCall (CInsert (lit "B")); LCall CArray; LCall (CItem (PRef 2)); LForget; LCall CDrop])
    4 [LCall (CPrimitive (PRef 2))].
Definition leak_ops : list leak_op :=
  [ LpObject 1 [LCall CDict; LCall (CPair (lit "Type") (PName (lit "Page"))); LCall (CInsert (lit "Resources")); LCall CDict; LForget; LForget];
    LpObject 2 [LCall CArray; LCall (CItems [PInt 1; PInt 2]); LCall CDrop];
    LpStream 3 (lit "data") [LCall (CPair (lit "N") (PInt 3)); LForget];
    LpStream 4 (lit "data") [LCall (CPair (lit "N") (PInt 3)); LCall CDrop];
    LpObject 5 [LCall CAbandon];
    LpRenumber leak_source unit (fun _ id => Some (id mod 100 + 10, tt)) tt;
    LpCatalog 6 [LCall (CInsert (lit "Names")); LCall CDict; LForget; LCall CDrop];
    LpObject 7 [LCall (CPrimitive (PInt 7))] ].
Definition leak_left : list left :=
  [ Damaged 1; Whole (2, BObj (OArray [OPrim (PInt 1); OPrim (PInt 2)])); Damaged 3; Whole (4, BStream [(lit "N", OPrim (PInt 3))] (lit "data")); Damaged 5;
    Whole (12, BObj (OArray [OPrim (PRef 11); OPrim (PRef 14)])); Damaged 13; Whole (14, BObj (OPrim (PRef 12))); Damaged 6; Whole (7, BObj (OPrim (PInt 7))) ].
Example C96_case :
  Forall leak_op_typed leak_ops /\ document_leaves leak_ops leak_left /\ NoDup (map left_id leak_left) /\ ids_below (map left_id leak_left) /\
  match leak_pdf_run leak_ops pdf_new with
  | Some p =>
      match finish p with
      | Some file => map (resolve no_filter file) [1; 2; 3; 4; 5; 6; 7; 11; 12; 13; 14] =
          [ None; Some (IObj 2 0 (VArr [VInt 1; VInt 2])); None; Some (IStream 4 0 [(lit "Length", VInt 4); (lit "N", VInt 3)] (lit "data"));
            None; None; Some (IObj 7 0 (VInt 7)); None; Some (IObj 12 0 (VArr [VRef 11 0; VRef 14 0])); None; Some (IObj 14 0 (VRef 12 0)) ]
      | None => False
      end
  | None => False
  end.
Proof.
  split.
  { unfold leak_ops. repeat (apply Forall_cons); try apply Forall_nil; try (split; reflexivity).
    split; [cbn [leak_hist_typed leak_source]; repeat split|]. intros t id n t' E. injection E as <- _.
    pose proof (Z.mod_pos_bound id 100 ltac:(lia)). unfold id_ok, i32_max. lia. }
  split.
  { change leak_left with ([Damaged 1] ++ [Whole (2, BObj (OArray [OPrim (PInt 1); OPrim (PInt 2)]))] ++ [Damaged 3] ++
      [Whole (4, BStream [(lit "N", OPrim (PInt 3))] (lit "data"))] ++ [Damaged 5] ++
      [Whole (12, BObj (OArray [OPrim (PRef 11); OPrim (PRef 14)])); Damaged 13; Whole (14, BObj (OPrim (PRef 12)))] ++ [Damaged 6] ++ [Whole (7, BObj (OPrim (PInt 7)))] ++ []).
    apply D_op; [apply OpV_object; apply OV_lost; left; cbn; tauto|].
    apply D_op; [apply OpV_object; apply (OV_tree _ _ [CArray; CItems [PInt 1; PInt 2]; CDrop]); [reflexivity|exists 0%nat; reflexivity]|].
    apply D_op; [apply OpV_stream; apply SV_lost; [vm_compute; discriminate|left; cbn; tauto]|].
    apply D_op; [apply OpV_stream; apply (SV_stream _ _ _ [CPair (lit "N") (PInt 3); CDrop]); [vm_compute; discriminate|reflexivity|exists 0%nat; reflexivity]|].
    apply D_op; [apply OpV_object; apply OV_lost; right; cbn; tauto|].
    apply D_op.
    { apply (OpV_renumber leak_source unit _ tt [Damaged 1; Whole (2, BObj (OArray [OPrim (PRef 1); OPrim (PRef 4)])); Damaged 3; Whole (4, BObj (OPrim (PRef 2)))]).
      - change [Damaged 1; Whole (2, BObj (OArray [OPrim (PRef 1); OPrim (PRef 4)])); Damaged 3; Whole (4, BObj (OPrim (PRef 2)))]
          with (((([] ++ [Damaged 1]) ++ [Whole (2, BObj (OArray [OPrim (PRef 1); OPrim (PRef 4)]))]) ++ [Damaged 3]) ++ [Whole (4, BObj (OPrim (PRef 2)))]).
        apply V_object; [apply V_object; [apply V_object; [apply V_object; [apply V_new|]|]|]|].
        + apply OV_lost. left. cbn. tauto.
        + apply (OV_tree _ _ [CArray; CItem (PRef 1); CItem (PRef 4); CDrop]); [reflexivity|exists 0%nat; reflexivity].
        + apply OV_lost. left. cbn. tauto.
        + apply (OV_tree _ _ [CPrimitive (PRef 2)]); [reflexivity|exists 0%nat; reflexivity].
      - eapply Cp_left_out; [reflexivity|]. eapply (Cp_whole _ 2 _ _ _ 12); [reflexivity|reflexivity|].
        eapply (Cp_damaged _ 3 _ _ 13); [reflexivity|apply As_none|]. eapply (Cp_whole _ 4 _ _ _ 14); [reflexivity|reflexivity|]. apply Cp_end. }
    apply D_op; [apply OpV_catalog; apply OV_lost; left; cbn; tauto|].
    apply D_op; [apply OpV_object; apply (OV_tree _ _ [CPrimitive (PInt 7)]); [reflexivity|exists 0%nat; reflexivity]|]. apply D_none. }
  split; [cbn; repeat (constructor; [cbn; intuition lia|]); constructor|]. split; [repeat constructor|]. vm_compute. reflexivity.
Qed.

Print Assumptions C96_document.
Print Assumptions C96_document_stream.
Print Assumptions C96_object_leaves_one.
Print Assumptions C96_stream_leaves_one.
Print Assumptions C96_others_object.
Print Assumptions C96_others_stream.
Print Assumptions C96_renumber_never_panics.
Print Assumptions C96_renumber_pure.
