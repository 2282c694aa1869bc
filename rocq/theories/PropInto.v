(** Property C31: renumbering into a chunk or a document that has been written to already. *)

From Coq Require Import ZArith List Lia Bool ZifyBool.
From Verif Require Import Bytes ModelFloat ModelBuf ModelObject ModelRenumber ModelChunk ModelPdf ModelCrash SpecLex SpecObj SpecMeans SpecRenum SpecChunk SpecFile SpecPdf
  SpecOnto ProofBasic ProofObj ProofChunk ProofChunk2 PropChunk PropRenum PropOnto.
Import ListNotations.
Local Open Scope Z_scope.

Lemma made_with_anew p l : made_with (written_anew p l) = p.
Proof.
  unfold written_anew. assert (X : forall h, made_with h = p -> made_with (fold_left write_item l h) = p); [|apply X; reflexivity].
  induction l as [|[id b] l IH]; intros h E; [exact E|]. cbn [fold_left]. apply IH. destruct b; exact E.
Qed.
Lemma put_same c a b x y : same_chunk a b -> put_together c a x -> put_together c b y -> same_chunk x y.
Proof. intros (A & B & _) (X1 & X2 & X3) (Y1 & Y2 & Y3). unfold same_chunk. rewrite X1, X2, X3, Y1, Y2, Y3, A, B. auto. Qed.

Section Renumbered.
  Context {T : Type} (f : T -> Z -> Z * T) (s : T) (k : hist) (p : bool).
  (** The objects of [k], with the numbers the closure gives. *)
  Definition rewritten : hist := written_anew p (fst (thread (map_item_st f) (hist_items k) s)).
  Context (d : chunk) (Tk : hist_typed k) (U : hist_uniform p k) (K : run k = Some d) (F : forall t id, id_ok (fst (f t id)) = true).

  Lemma apart : exists a b, run (HRenumber (HNew p) k T f s) = Some a /\ run rewritten = Some b /\ same_chunk a b.
  Proof using Tk U K F.
    destruct (C31_renumber_is_rewriting p k d T f s Tk U K F) as (c' & s' & w & A & B & C & D). exists c', w.
    split; [cbn [run]; rewrite K; cbn [option_map]; rewrite A; reflexivity|]. split; [exact B|]. split; [exact C|]. split; [exact D|].
    assert (P : forall h c, run h = Some c -> c_pretty c = made_with h).
    { intros h c R. pose proof (run_onto (chunk_with_settings (made_with h)) (HNew (made_with h)) eq_refl h eq_refl) as M.
      rewrite R in M. destruct (run (onto _ h)); cbn [alike_with] in M; [|contradiction M]. destruct M as [_ E]. exact E. }
    transitivity p; [|symmetry; rewrite (P _ _ B); apply made_with_anew].
    assert (R : run (HRenumber (HNew p) k T f s) = Some c') by (cbn [run]; rewrite K; cbn [option_map]; rewrite A; reflexivity).
    rewrite (P _ _ R). reflexivity.
  Qed.
End Renumbered.

(** A chunk with any history [h]; a source with any history [k] (with the settings of the chunk).  Renumbering the source into the chunk gives what
    one gets by writing the renumbered objects to the chunk in place. *)
Theorem C31_in_place : forall h c k d T (f : T -> Z -> Z * T) s,
  run h = Some c -> hist_typed k -> hist_uniform (c_pretty c) k -> run k = Some d -> (forall t id, id_ok (fst (f t id)) = true) ->
  exists x y, run (HRenumber h k T f s) = Some x /\ run (onto h (rewritten f s k (c_pretty c))) = Some y /\ same_chunk x y.
Proof.
  intros h c k d T f s R Tk U K F. destruct (apart f s k (c_pretty c) d Tk U K F) as (a & b & A & B & E).
  pose proof (C107_chunks h (HRenumber (HNew (c_pretty c)) k T f s) c R eq_refl) as X. rewrite A in X. cbn [onto] in X.
  pose proof (C107_chunks h (rewritten f s k (c_pretty c)) c R (made_with_anew _ _)) as Y. rewrite B in Y.
  destruct (run (HRenumber h k T f s)) as [x|]; cbn [alike_with] in X; [|contradiction X].
  destruct (run (onto h (rewritten f s k (c_pretty c)))) as [y|]; cbn [alike_with] in Y; [|contradiction Y].
  exists x, y. split; [reflexivity|]. split; [reflexivity|]. exact (put_same c a b x y E X Y).
Qed.

(** Likewise for documents, and for the files they are finished to. *)
Theorem C31_documents : forall p k d T (f : T -> Z -> Z * T) s,
  hist_typed k -> hist_uniform (c_pretty (p_chunk p)) k -> run k = Some d -> (forall t id, id_ok (fst (f t id)) = true) ->
  exists q q', pdf_step (PdfRenumber k T f s) p = Some q /\ pdf_run (directly (rewritten f s k (c_pretty (p_chunk p)))) p = Some q' /\ same_pdf q q' /\ same_files q q'.
Proof.
  intros p k d T f s Tk U K F. set (pr := c_pretty (p_chunk p)) in *. destruct (apart f s k pr d Tk U K F) as (a & b & A & B & E).
  pose proof (run_directly p (HRenumber (HNew pr) k T f s) eq_refl) as X. rewrite A in X. cbn [directly app pdf_run] in X.
  pose proof (run_directly p (rewritten f s k pr) (made_with_anew _ _)) as Y. rewrite B in Y.
  destruct (pdf_step (PdfRenumber k T f s) p) as [q|]; cbn [alike_with] in X; [|contradiction X].
  destruct (pdf_run (directly (rewritten f s k pr)) p) as [q'|]; cbn [alike_with] in Y; [|contradiction Y].
  destruct X as ([X _] & X1 & X2 & X3), Y as ([Y _] & Y1 & Y2 & Y3).
  assert (M : same_pdf q q') by (split; [exact (put_same _ a b _ _ E X Y)|]; split; [congruence|]; split; congruence).
  exists q, q'. split; [reflexivity|]. split; [reflexivity|]. split; [exact M|apply same_pdf_files, M].
Qed.

(** ** Closures that may panic

    A closure like [|r| Ref::new(r.get() + 10)] does not answer for every number.  If the renumbering returns all the same, it has done what it
    does with any closure that gives the answers for all numbers which the first one gives where it does not panic. *)
Definition agrees {T} (f : T -> Z -> option (Z * T)) (g : T -> Z -> Z * T) : Prop := forall t id r, f t id = Some r -> g t id = r.

Lemma agrees_renumber {T} (f : T -> Z -> option (Z * T)) g : agrees f g -> forall source target s x s',
  caught_renumber_into f source target s = Some (x, Some s') -> chunk_renumber_into g source target s = Some (x, s').
Proof.
  intros A source target s x s'. unfold caught_renumber_into, chunk_renumber_into.
  assert (P : forall fuel slice seen written b s b' s', caught_patch_loop f fuel slice seen written b s = Some (b', Some s') ->
    patch_loop g fuel slice seen written b s = Some (b', s')).
  { clear -A. induction fuel as [|fuel IH]; intros slice seen written b s b' s'; [discriminate|]. cbn [caught_patch_loop patch_loop].
    destruct (nth_error slice seen) as [c|]; [|destruct (slice_get _ _ _); [congruence|discriminate]].
    destruct (beq c x52).
    - destruct (validate_ref _) as [[[head id] gen]|]; [|apply IH]. pose proof (A s id) as As. destruct (f s id) as [[new s1]|]; [|discriminate].
      rewrite (As _ eq_refl). destruct (slice_get _ _ _); [apply IH|discriminate].
    - destruct (beq c x25); [apply IH|]. destruct (beq c x28); [apply IH|].
      destruct (_ && _ && _); [destruct (slice_get _ _ _); [congruence|discriminate]|apply IH]. }
  assert (L : forall src offs pretty b o s b' o' s', caught_renumber_loop f src offs pretty b o s = Some (b', o', Some s') ->
    renumber_loop g src offs pretty b o s = Some (b', o', s')).
  { clear -P A. induction offs as [|[id off] offs IH]; intros pretty b o s b' o' s'; cbn [caught_renumber_loop renumber_loop]; [congruence|].
    pose proof (A s id) as As. destruct (f s id) as [[new s1]|]; [|discriminate]. rewrite (As _ eq_refl).
    destruct (slice_get _ _ _) as [sl|]; [|discriminate]. destruct (extract_object sl) as [[gen sl']|]; [|apply IH].
    unfold patch_object. destruct (caught_patch_loop _ _ _ _ _ _ _) as [[b2 [s2|]]|] eqn:E; [|discriminate|discriminate]. rewrite (P _ _ _ _ _ _ _ _ E). apply IH. }
  destruct (caught_renumber_loop _ _ _ _ _ _ _) as [[[b o] s2]|] eqn:E; [|discriminate]. intro H.
  assert (H1 : x = mkChunk b o (c_pretty target)) by congruence. assert (H2 : s2 = Some s') by congruence. subst. rewrite (L _ _ _ _ _ _ _ _ _ E). reflexivity.
Qed.

Theorem C31_panicking_closure : forall h c k d T (f : T -> Z -> option (Z * T)) (g : T -> Z -> Z * T) s x s',
  run h = Some c -> hist_typed k -> hist_uniform (c_pretty c) k -> run k = Some d ->
  agrees f g -> (forall t id, id_ok (fst (g t id)) = true) ->
  caught_renumber_into f d c s = Some (x, Some s') ->
  run (HRenumber h k T g s) = Some x /\
  exists y, run (onto h (rewritten g s k (c_pretty c))) = Some y /\ same_chunk x y.
Proof.
  intros h c k d T f g s x s' R Tk U K A F E. apply (agrees_renumber f g A) in E.
  destruct (C31_in_place h c k d T g s R Tk U K F) as (x' & y & X & Y & M).
  assert (X' : run (HRenumber h k T g s) = Some x) by (cbn [run]; rewrite R, K, E; reflexivity).
  split; [exact X'|]. exists y. split; [exact Y|]. assert (x' = x) by congruence. subst x'. exact M.
Qed.

(** It does return if it answers for every number that occurs in the source. *)
Definition answers_on {T} (f : T -> Z -> option (Z * T)) (g : T -> Z -> Z * T) (ids : list Z) : Prop := forall t id, In id ids -> f t id = Some (g t id).
Lemma answers_app {T} (f : T -> Z -> option (Z * T)) g a b : answers_on f g (a ++ b) -> answers_on f g a /\ answers_on f g b.
Proof. intro H. split; intros t id I; apply H, in_app_iff; auto. Qed.

Lemma logged_patch {T} (f : T -> Z -> option (Z * T)) g : forall fuel slice seen written b s L b' s' L',
  patch_loop (logged g) fuel slice seen written b (s, L) = Some (b', (s', L')) ->
  exists M, L' = L ++ M /\ (answers_on f g M -> caught_patch_loop f fuel slice seen written b s = Some (b', Some s')).
Proof.
  assert (Done : forall (b b' : buf) (s s' : T) (L L' : list Z), Some (b, (s, L)) = Some (b', (s', L')) ->
    exists M, L' = L ++ M /\ (answers_on f g M -> Some (b, Some s) = Some (b', Some s'))).
  { intros b b' s s' L L' E. exists []. rewrite app_nil_r. split; [congruence|]. intros _. congruence. }
  induction fuel as [|fuel IH]; intros slice seen written b s L b' s' L'; [discriminate|]. cbn [caught_patch_loop patch_loop].
  destruct (nth_error slice seen) as [c|]; [|destruct (slice_get _ _ _); [apply Done|discriminate]].
  destruct (beq c x52).
  - destruct (validate_ref _) as [[[head id] gen]|]; [|apply IH]. unfold logged at 1. cbn [fst snd]. destruct (g s id) as [new s1] eqn:G.
    destruct (slice_get _ _ _) as [t|]; [|discriminate]. intro E. apply IH in E as (M & E1 & E2). exists (id :: M). rewrite <- app_assoc in E1. split; [exact E1|].
    intro A. rewrite (A s id (or_introl eq_refl)), G. apply E2. intros t' i I. apply A. right. exact I.
  - destruct (beq c x25); [apply IH|]. destruct (beq c x28); [apply IH|].
    destruct (_ && _ && _); [destruct (slice_get _ _ _); [apply Done|discriminate]|apply IH].
Qed.
Lemma logged_loop {T} (f : T -> Z -> option (Z * T)) g src : forall offs pretty b o s L b' o' s' L',
  renumber_loop (logged g) src offs pretty b o (s, L) = Some (b', o', (s', L')) ->
  exists M, L' = L ++ M /\ (answers_on f g M -> caught_renumber_loop f src offs pretty b o s = Some (b', o', Some s')).
Proof.
  induction offs as [|[id off] offs IH]; intros pretty b o s L b' o' s' L'; cbn [caught_renumber_loop renumber_loop].
  - intro E. exists []. rewrite app_nil_r. split; [congruence|]. intros _. congruence.
  - unfold logged at 1. cbn [fst snd]. destruct (g s id) as [new s1] eqn:G.
    destruct (slice_get _ _ _) as [sl|]; [|discriminate]. destruct (extract_object sl) as [[gen sl']|].
    + unfold patch_object. destruct (patch_loop _ _ _ _ _ _ _) as [[b2 [s2 L2]]|] eqn:E; [|discriminate]. intro E3.
      apply (logged_patch f g) in E as (M & E1 & E2). apply IH in E3 as (N & E3 & E4). exists (id :: M ++ N). split.
      { rewrite E3, E1, <- !app_assoc. reflexivity. }
      intro A. rewrite (A s id (or_introl eq_refl)), G.
      assert (A' : answers_on f g (M ++ N)) by (intros t i I; apply A; right; exact I). apply answers_app in A' as [A1 A2]. rewrite (E2 A1). exact (E4 A2).
    + intro E. apply IH in E as (M & E1 & E2). exists (id :: M). rewrite <- app_assoc in E1. split; [exact E1|].
      intro A. rewrite (A s id (or_introl eq_refl)), G. apply E2. intros t i I. apply A. right. exact I.
Qed.

Theorem C31_closure_returns : forall h c k d T (f : T -> Z -> option (Z * T)) (g : T -> Z -> Z * T) s,
  hist_typed h -> run h = Some c -> hist_typed k -> hist_uniform (c_pretty c) k -> run k = Some d ->
  answers_on f g (flat_map item_refs (hist_items k)) -> (forall t id, id_ok (fst (g t id)) = true) ->
  exists x y s', caught_renumber_into f d c s = Some (x, Some s') /\ run (onto h (rewritten g s k (c_pretty c))) = Some y /\ same_chunk x y.
Proof.
  intros h c k d T f g s Th R Tk U K A F. destruct (C31_in_place h c k d T g s R Tk U K F) as (x & y & X & Y & M).
  destruct (C32_calls_in_order k d h c T g s Tk K Th R) as (x' & s' & E1 & E2). cbn [run] in X. rewrite R, K, E1 in X. cbn [option_map fst] in X.
  exists x', y, s'. split; [|split; [exact Y|]]; [|congruence].
  unfold chunk_renumber_into in E2. unfold caught_renumber_into.
  destruct (renumber_loop _ _ _ _ _ _ _) as [[[b o] [s2 L2]]|] eqn:E; [|discriminate].
  apply (logged_loop f g) in E as (N & E3 & E4). cbn [app] in E3. subst L2.
  assert (N = flat_map item_refs (hist_items k)) by congruence. subst N. rewrite (E4 A). congruence.
Qed.

(** A concrete case: a page tree node in the chunk, and a part in which objects 1 and 2 refer to each other. *)
Definition into_first : hist := HObject (HNew true) 1 (ODict [(lit "Kids", OArray [OPrim (PRef 12)])]).
Definition into_part : hist :=
  HStream (HObject (HNew true) 1 (OArray [OPrim (PRef 2); OPrim (PInt 3)])) 2 [(lit "Font", OPrim (PRef 1))] (lit "(1 0 R) Tj").
Definition into_map (t : unit) (id : Z) : Z * unit := (if id =? 1 then 11 else if id =? 2 then 12 else 99, t).
Example C31_in_place_case :
  hist_typed into_part /\ hist_uniform true into_part /\ (forall t id, id_ok (fst (into_map t id)) = true) /\
  hist_items (rewritten into_map tt into_part true) =
    [(11, BObj (OArray [OPrim (PRef 12); OPrim (PInt 3)])); (12, BStream [(lit "Font", OPrim (PRef 11))] (lit "(1 0 R) Tj"))] /\
  option_map c_offsets (run (HRenumber into_first into_part unit into_map tt)) = Some [(1, 0); (11, 39); (12, 67)].
Proof.
  split; [cbn; auto|]. split; [reflexivity|]. split; [intros t id; cbn [into_map fst]; destruct (id =? 1); [|destruct (id =? 2)]; reflexivity|].
  split; [reflexivity|]. vm_compute. reflexivity.
Qed.

(** The closure [|r| Ref::new(r.get() + 10)], and one that answers always. *)
Definition plus_ten (t : unit) (id : Z) : option (Z * unit) := if id_ok (id + 10) then Some (id + 10, t) else None.
Definition plus_ten_total (t : unit) (id : Z) : Z * unit := if id_ok (id + 10) then (id + 10, t) else (1, t).
Example C31_panicking_closure_case :
  agrees plus_ten plus_ten_total /\ (forall t id, id_ok (fst (plus_ten_total t id)) = true) /\
  (match run into_first, run into_part with
   | Some c, Some d => option_map (fun r => (c_offsets (fst r), snd r)) (caught_renumber_into plus_ten d c tt)
   | _, _ => None
   end) = Some ([(1, 0); (11, 39); (12, 67)], Some tt).
Proof.
  split; [|split].
  - intros t id r E. unfold plus_ten, plus_ten_total in *. destruct (id_ok (id + 10)); [congruence|discriminate].
  - intros t id. unfold plus_ten_total. destruct (id_ok (id + 10)) eqn:E; [exact E|reflexivity].
  - vm_compute. reflexivity.
Qed.

Example C31_closure_returns_case :
  hist_typed into_first /\ flat_map item_refs (hist_items into_part) = [1; 2; 2; 1] /\ answers_on plus_ten plus_ten_total (flat_map item_refs (hist_items into_part)).
Proof.
  split; [cbn; auto|]. split; [reflexivity|]. intros t id I. unfold plus_ten, plus_ten_total. destruct (id_ok (id + 10)) eqn:E; [reflexivity|exfalso].
  cbn in I. destruct I as [<-|[<-|[<-|[<-|[]]]]]; discriminate E.
Qed.

Print Assumptions C31_closure_returns.
Print Assumptions C31_panicking_closure.
Print Assumptions C31_in_place.
Print Assumptions C31_documents.
