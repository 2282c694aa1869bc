(** Property C107: parts can be written separately. *)

From Coq Require Import ZArith List Lia Bool ZifyBool.
From Verif Require Import Bytes ModelFloat ModelBuf ModelObject ModelRenumber ModelChunk ModelApi ModelPdf ModelCrash ModelLeak ModelContent ModelOps
  SpecLex SpecObj SpecMeans SpecRenum SpecChunk SpecApi SpecFile SpecPdf SpecLimits SpecGrow SpecOnto ProofBasic ProofObj ProofParse ProofTree ProofRenum ProofRenumTree ProofXref
  ProofChunk ProofChunkParse ProofChunk2 ProofFile ProofFile2 ProofPdf ProofFile3 ProofFile4 PropChunk PropPdf PropPdf2 PropSerial PropGrow ProofLimits ProofLimits2 ProofLimits3.
Import ListNotations.
Local Open Scope Z_scope.

Section Moved.
  Context (pre : bytes).
  (** [b'] is [b] further back in a document. *)
  Definition mv (b b' : buf) : Prop := inner b' = pre ++ inner b.
  Definition ne (b : buf) : Prop := inner b <> [].

  Lemma ne_grows a b : grows a b -> ne a -> ne b.
  Proof. intros [m E] N. unfold ne. rewrite E. intro H. apply app_eq_nil in H. apply N, H. Qed.
  Lemma mv_last b b' : mv b b' -> ne b -> last_byte (inner b') = last_byte (inner b).
  Proof. intros -> N. apply last_byte_app_ne, N. Qed.

  Lemma mv_extend s b b' : mv b b' -> mv (extend s b) (extend s b').
  Proof. unfold mv. intro H. cbn [extend inner]. rewrite H. symmetry. apply app_assoc. Qed.
  Lemma mv_push c b b' : mv b b' -> mv (push c b) (push c b'). Proof. apply mv_extend. Qed.
  Lemma mv_lims f g b b' : mv b b' -> mv (with_limits f b) (with_limits g b'). Proof. exact (fun H => H). Qed.
  Lemma mv_int z b b' : mv b b' -> mv (push_int z b) (push_int z b').
  Proof. intro H. apply mv_extend, mv_lims, H. Qed.
  Lemma mv_if (c : bool) x y x' y' : mv x x' -> mv y y' -> mv (if c then x else y) (if c then x' else y').
  Proof. destruct c; auto. Qed.
  Lemma mv_endobj i p b b' : mv b b' -> mv (endobj i p b) (endobj i p b').
  Proof. unfold mv. intro H. rewrite !endobj_inner, H. symmetry. apply app_assoc. Qed.
  Lemma mv_primitive w p b b' : mv b b' -> ne b -> mv (obj_primitive w p b) (obj_primitive w p b').
  Proof.
    intros H N. pose proof (mv_last _ _ H N) as L. unfold mv in *. rewrite !obj_primitive_inner, L, H. symmetry. apply app_assoc.
  Qed.
  Lemma mv_obj o w b b' : mv b b' -> ne b -> mv (write_obj o w b) (write_obj o w b').
  Proof.
    intros H N. pose proof (mv_last _ _ H N) as L. unfold mv in *. rewrite !(write_obj_inner o), L, H. symmetry. apply app_assoc.
  Qed.
  Lemma mv_name k b b' : mv b b' -> mv (write_name k b) (write_name k b').
  Proof. intro H. apply mv_extend, mv_lims, H. Qed.

  (** A writer and a buffer. *)
  Definition mvp {W} (x x' : W * buf) : Prop := fst x' = fst x /\ mv (snd x) (snd x').

  Lemma mv_array_push a b b' : mv b b' -> mvp (array_push a b) (array_push a b').
  Proof. intro H. unfold array_push. destruct (negb _); [destruct (a_pretty a)|]; split; try reflexivity; try (apply mv_push); exact H. Qed.
  Lemma mv_array_drop a b b' : mv b b' -> mv (array_drop a b) (array_drop a b').
  Proof. intro H. apply mv_endobj, mv_push, mv_lims, H. Qed.
  Lemma mv_array_start w b b' : mv b b' -> mvp (array_start w b) (array_start w b').
  Proof. intro H. split; [reflexivity|apply mv_push, H]. Qed.
  Lemma mv_dict_start w b b' : mv b b' -> mvp (dict_start w b) (dict_start w b').
  Proof. intro H. split; [reflexivity|apply mv_extend, H]. Qed.
  Lemma mv_dict_insert k d b b' : mv b b' -> mvp (dict_insert k d b) (dict_insert k d b').
  Proof.
    intro H. unfold dict_insert. cbn [d_pretty d_indent]. destruct (d_pretty d); (split; [reflexivity|]); cbn [snd].
    - apply mv_push, mv_name, mv_extend, mv_push, H.
    - apply mv_name, H.
  Qed.
  Lemma mv_dict_drop d b b' : mv b b' -> mv (dict_drop d b) (dict_drop d b').
  Proof.
    intro H. unfold dict_drop. apply mv_endobj, mv_extend. apply mv_if; [apply mv_extend, mv_push|]; apply mv_lims, H.
  Qed.
  Lemma mv_stream_drop data d b b' : mv b b' -> mv (stream_drop data d b) (stream_drop data d b').
  Proof.
    intro H. unfold stream_drop. cbn zeta.
    assert (K : forall x x', mv x x' -> mv (extend ([x0a] ++ lit "endobj" ++ [x0a]) (extend ([x0a] ++ lit "endstream") (extend data
        (extend ([x0a] ++ lit "stream" ++ [x0a]) (extend [x3e; x3e] x)))))
      (extend ([x0a] ++ lit "endobj" ++ [x0a]) (extend ([x0a] ++ lit "endstream") (extend data
        (extend ([x0a] ++ lit "stream" ++ [x0a]) (extend [x3e; x3e] x')))))).
    { intros x x' X. do 5 apply mv_extend. exact X. }
    destruct (d_pretty d); [apply mv_extend|]; apply K; [apply mv_extend|]; apply mv_lims, H.
  Qed.
  Lemma mv_stream_start w data b b' : mv b b' -> alike_with mvp (stream_start w data b) (stream_start w data b').
  Proof.
    intro H. unfold stream_start. pose proof (mv_dict_start w b b' H) as [E1 M1].
    assert (N1 : ne (snd (dict_start w b))). { unfold dict_start, ne. cbn [snd extend inner]. intro X. apply app_eq_nil in X as [_ X]. discriminate X. }
    destruct (dict_start w b) as [d b1], (dict_start w b') as [d' b1']. cbn [fst snd] in *. subst d'.
    destruct (blen data <=? i32_max); [|exact Logic.I].
    pose proof (mv_dict_insert (lit "Length") d b1 b1' M1) as [E2 M2]. pose proof (g_dict_insert b1 (lit "Length") d b1 (g_refl _)) as G.
    destruct (dict_insert (lit "Length") d b1) as [[w2 d2] b2], (dict_insert (lit "Length") d b1') as [[w2' d2'] b2']. cbn [fst snd] in *.
    assert (w2' = w2) as -> by congruence. assert (d2' = d2) as -> by congruence. split; [reflexivity|]. cbn [snd].
    apply mv_primitive; [exact M2|exact (ne_grows _ _ G N1)].
  Qed.

  (** ** Calls *)
  Lemma mv_items l : forall a b b', mv b b' -> ne b ->
    mvp (fold_left (fun ab p => array_item p ab) l (a, b)) (fold_left (fun ab p => array_item p ab) l (a, b')).
  Proof.
    induction l as [|p l IH]; intros a b b' H N; [split; [reflexivity|exact H]|]. cbn [fold_left]. unfold array_item at 2 4. cbn [fst snd].
    pose proof (mv_array_push a b b' H) as [E M]. pose proof (g_array_push b a b (g_refl _)) as G.
    destruct (array_push a b) as [[w a1] b1], (array_push a b') as [[w' a1'] b1']. cbn [fst snd] in *.
    assert (w' = w) as -> by congruence. assert (a1' = a1) as -> by congruence. pose proof (ne_grows _ _ G N) as N1.
    apply IH; [apply mv_primitive; assumption|]. exact (ne_grows _ _ (g_primitive _ w p _ (g_refl _)) N1).
  Qed.
  Lemma mv_pairs l : forall d b b', mv b b' -> ne b ->
    mvp (fold_left (fun db e => dict_pair (fst e) (snd e) db) l (d, b)) (fold_left (fun db e => dict_pair (fst e) (snd e) db) l (d, b')).
  Proof.
    induction l as [|[k p] l IH]; intros d b b' H N; [split; [reflexivity|exact H]|]. cbn [fold_left]. unfold dict_pair at 2 4. cbn [fst snd].
    pose proof (mv_dict_insert k d b b' H) as [E M]. pose proof (g_dict_insert b k d b (g_refl _)) as G.
    destruct (dict_insert k d b) as [[w a1] b1], (dict_insert k d b') as [[w' a1'] b1']. cbn [fst snd] in *.
    assert (w' = w) as -> by congruence. assert (a1' = a1) as -> by congruence. pose proof (ne_grows _ _ G N) as N1.
    apply IH; [apply mv_primitive; assumption|]. exact (ne_grows _ _ (g_primitive _ w p _ (g_refl _)) N1).
  Qed.

  Lemma mv_step c st b b' : mv b b' -> ne b -> alike_with mvp (api_step c (st, b)) (api_step c (st, b')).
  Proof.
    intros H N.
    pose proof (fun a => mv_array_push a b b' H) as AP. pose proof (fun k d => mv_dict_insert k d b b' H) as DI.
    pose proof (fun a => ne_grows _ _ (g_array_push b a b (g_refl _)) N) as NA.
    pose proof (fun k d => ne_grows _ _ (g_dict_insert b k d b (g_refl _)) N) as ND.
    destruct c; destruct st as [|[w|a|d|data d] st]; cbn [api_step]; try exact Logic.I.
    - split; [reflexivity|apply mv_primitive; assumption].
    - split; [reflexivity|apply mv_push, H].
    - split; [reflexivity|apply mv_extend, H].
    - specialize (AP a) as [E M]. destruct (array_push a b) as [[w1 a1] b1], (array_push a b') as [[w1' a1'] b1']. cbn [fst snd] in *.
      assert (w1' = w1) as -> by congruence. assert (a1' = a1) as -> by congruence. split; [reflexivity|exact M].
    - unfold array_item. cbn [fst snd]. specialize (AP a) as [E M]. specialize (NA a).
      destruct (array_push a b) as [[w1 a1] b1], (array_push a b') as [[w1' a1'] b1']. cbn [fst snd] in *.
      assert (w1' = w1) as -> by congruence. assert (a1' = a1) as -> by congruence. split; [reflexivity|apply mv_primitive; assumption].
    - pose proof (mv_items l a b b' H N) as [E M]. destruct (fold_left _ l (a, b)) as [a1 b1], (fold_left _ l (a, b')) as [a1' b1']. cbn [fst snd] in *.
      subst a1'. split; [reflexivity|exact M].
    - specialize (DI key d) as [E M]. destruct (dict_insert key d b) as [[w1 a1] b1], (dict_insert key d b') as [[w1' a1'] b1']. cbn [fst snd] in *.
      assert (w1' = w1) as -> by congruence. assert (a1' = a1) as -> by congruence. split; [reflexivity|exact M].
    - specialize (DI key d) as [E M]. destruct (dict_insert key d b) as [[w1 a1] b1], (dict_insert key d b') as [[w1' a1'] b1']. cbn [fst snd] in *.
      assert (w1' = w1) as -> by congruence. assert (a1' = a1) as -> by congruence. split; [reflexivity|exact M].
    - unfold dict_pair. cbn [fst snd]. specialize (DI key d) as [E M]. specialize (ND key d).
      destruct (dict_insert key d b) as [[w1 a1] b1], (dict_insert key d b') as [[w1' a1'] b1']. cbn [fst snd] in *.
      assert (w1' = w1) as -> by congruence. assert (a1' = a1) as -> by congruence. split; [reflexivity|apply mv_primitive; assumption].
    - unfold dict_pair. cbn [fst snd]. specialize (DI key d) as [E M]. specialize (ND key d).
      destruct (dict_insert key d b) as [[w1 a1] b1], (dict_insert key d b') as [[w1' a1'] b1']. cbn [fst snd] in *.
      assert (w1' = w1) as -> by congruence. assert (a1' = a1) as -> by congruence. split; [reflexivity|apply mv_primitive; assumption].
    - pose proof (mv_pairs l d b b' H N) as [E M]. destruct (fold_left _ l (d, b)) as [a1 b1], (fold_left _ l (d, b')) as [a1' b1']. cbn [fst snd] in *.
      subst a1'. split; [reflexivity|exact M].
    - pose proof (mv_pairs l d b b' H N) as [E M]. destruct (fold_left _ l (d, b)) as [a1 b1], (fold_left _ l (d, b')) as [a1' b1']. cbn [fst snd] in *.
      subst a1'. split; [reflexivity|exact M].
    - split; [reflexivity|apply mv_array_drop, H].
    - split; [reflexivity|apply mv_dict_drop, H].
    - split; [reflexivity|apply mv_stream_drop, H].
    - split; [reflexivity|exact H].
  Qed.
  Lemma mv_leak_run cs : forall st b b', mv b b' -> ne b -> alike_with mvp (leak_run cs (st, b)) (leak_run cs (st, b')).
  Proof.
    induction cs as [|c cs IH]; intros st b b' H N; cbn [leak_run]; [split; [reflexivity|exact H]|]. destruct c as [c|]; cbn [leak_step].
    - pose proof (mv_step c st b b' H N) as S1.
      destruct (api_step c (st, b)) as [[st1 b1]|] eqn:E1, (api_step c (st, b')) as [[st1' b1']|]; cbn [alike_with] in S1; try contradiction S1; [|exact Logic.I].
      destruct S1 as [ES M]. cbn [fst snd] in *. subst st1'. apply IH; [exact M|]. exact (ne_grows _ _ (g_step _ _ _ E1) N).
    - destruct st as [|w st]; [exact Logic.I|]. apply IH; assumption.
  Qed.
  Lemma mv_unwind st : forall b b', mv b b' -> mv (unwind st b) (unwind st b').
  Proof.
    induction st as [|[w|a|d|data d] st IH]; intros b b' H; cbn [unwind]; [exact H|apply IH, H| | |]; apply IH;
      [apply mv_array_drop|apply mv_dict_drop|apply mv_stream_drop]; exact H.
  Qed.

  Lemma mv_entries l : forall d b b', mv b b' -> ne b -> mvp (write_entries l d b) (write_entries l d b').
  Proof.
    induction l as [|[k v] l IH]; intros d b b' H N; [split; [reflexivity|exact H]|]. cbn [write_entries].
    pose proof (mv_dict_insert k d b b' H) as [E M]. pose proof (g_dict_insert b k d b (g_refl _)) as G.
    destruct (dict_insert k d b) as [[w a1] b1], (dict_insert k d b') as [[w' a1'] b1']. cbn [fst snd] in *.
    assert (w' = w) as -> by congruence. assert (a1' = a1) as -> by congruence. pose proof (ne_grows _ _ G N) as N1.
    apply IH; [apply mv_obj; assumption|]. exact (ne_grows _ _ (g_obj _ v w _ (g_refl _)) N1).
  Qed.
  Lemma mv_stream w es data b b' : mv b b' -> ne b -> alike_with mv (write_stream w es data b) (write_stream w es data b').
  Proof.
    intros H N. unfold write_stream. pose proof (mv_stream_start w data b b' H) as S1.
    destruct (stream_start w data b) as [[d b1]|] eqn:E1, (stream_start w data b') as [[d' b1']|]; cbn [alike_with] in S1; try contradiction S1; [|exact Logic.I].
    destruct S1 as [ES M]. cbn [fst snd] in *. subst d'.
    assert (N1 : ne b1) by exact (ne_grows _ _ (g_stream_start _ _ _ _ _ _ (g_refl _) E1) N).
    pose proof (mv_entries es d b1 b1' M N1) as [ED M2]. destruct (write_entries es d b1) as [d2 b2], (write_entries es d b1') as [d2' b2'].
    cbn [fst snd] in *. subst d2'. apply mv_stream_drop, M2.
  Qed.
  Lemma mv_indirect id p b b' : mv b b' -> mvp (obj_indirect id p b) (obj_indirect id p b') /\ ne (snd (obj_indirect id p b)).
  Proof.
    intro H. split; [split; [reflexivity|apply mv_extend, mv_int, H]|]. unfold ne. cbn [obj_indirect snd extend inner].
    intro X. apply app_eq_nil in X as [_ X]. discriminate X.
  Qed.

  (** ** Copies *)
  Section Copies.
    Context {T : Type}.
    Lemma mv_patch (f : T -> Z -> Z * T) fuel slice : forall seen written b b' t, mv b b' ->
      alike_with (fun x y => mv (fst x) (fst y) /\ snd y = snd x) (patch_loop f fuel slice seen written b t) (patch_loop f fuel slice seen written b' t).
    Proof.
      induction fuel as [|fuel IH]; intros seen written b b' t H; [exact Logic.I|]. cbn [patch_loop].
      assert (Last : alike_with (fun x y : buf * T => mv (fst x) (fst y) /\ snd y = snd x)
          match slice_get slice written (length slice) with Some x => Some (extend x b, t) | None => None end
          match slice_get slice written (length slice) with Some x => Some (extend x b', t) | None => None end).
      { destruct (slice_get slice written (length slice)); [|exact Logic.I]. split; [apply mv_extend, H|reflexivity]. }
      destruct (nth_error slice seen) as [c|]; [|exact Last].
      destruct (beq c x52); [|destruct (beq c x25); [|destruct (beq c x28); [|destruct (_ && validate_stream (firstn seen slice))]]].
      - destruct (validate_ref _) as [[[head id] gen]|]; [|exact (IH _ _ _ _ _ H)].
        destruct (f t id) as [new t1]. destruct (slice_get slice written head) as [x|]; [|exact Logic.I].
        apply IH. do 2 apply mv_push. apply mv_int, mv_push, mv_int, mv_extend, H.
      - exact (IH _ _ _ _ _ H).
      - exact (IH _ _ _ _ _ H).
      - exact Last.
      - exact (IH _ _ _ _ _ H).
    Qed.
    Lemma mv_caught_patch (f : T -> Z -> option (Z * T)) fuel slice : forall seen written b b' t, mv b b' ->
      alike_with (fun x y => mv (fst x) (fst y) /\ snd y = snd x)
        (caught_patch_loop f fuel slice seen written b t) (caught_patch_loop f fuel slice seen written b' t).
    Proof.
      induction fuel as [|fuel IH]; intros seen written b b' t H; [exact Logic.I|]. cbn [caught_patch_loop].
      assert (Last : alike_with (fun x y : buf * option T => mv (fst x) (fst y) /\ snd y = snd x)
          match slice_get slice written (length slice) with Some x => Some (extend x b, Some t) | None => None end
          match slice_get slice written (length slice) with Some x => Some (extend x b', Some t) | None => None end).
      { destruct (slice_get slice written (length slice)); [|exact Logic.I]. split; [apply mv_extend, H|reflexivity]. }
      destruct (nth_error slice seen) as [c|]; [|exact Last].
      destruct (beq c x52); [|destruct (beq c x25); [|destruct (beq c x28); [|destruct (_ && validate_stream (firstn seen slice))]]].
      - destruct (validate_ref _) as [[[head id] gen]|]; [|exact (IH _ _ _ _ _ H)].
        destruct (f t id) as [[new t1]|]; [|split; [exact H|reflexivity]]. destruct (slice_get slice written head) as [x|]; [|exact Logic.I].
        apply IH. do 2 apply mv_push. apply mv_int, mv_push, mv_int, mv_extend, H.
      - exact (IH _ _ _ _ _ H).
      - exact (IH _ _ _ _ _ H).
      - exact Last.
      - exact (IH _ _ _ _ _ H).
    Qed.

    Definition moved (offs : list (Z * Z)) : list (Z * Z) := map (fun e => (fst e, blen pre + snd e)) offs.
    Definition mv3 {U} (o0 : list (Z * Z)) (x y : buf * list (Z * Z) * U) : Prop :=
      mv (fst (fst x)) (fst (fst y)) /\ snd (fst y) = o0 ++ moved (snd (fst x)) /\ snd y = snd x.
    Lemma moved_snoc o0 offs id b b' : mv b b' -> (o0 ++ moved offs) ++ [(id, blen (inner b'))] = o0 ++ moved (offs ++ [(id, blen (inner b))]).
    Proof. intros ->. unfold moved. rewrite map_app. cbn [map fst snd]. rewrite blen_app, app_assoc. reflexivity. Qed.

    Lemma mv_renumber (f : T -> Z -> Z * T) src o0 offsets pretty : forall b b' offs t, mv b b' ->
      alike_with (mv3 o0) (renumber_loop f src offsets pretty b offs t) (renumber_loop f src offsets pretty b' (o0 ++ moved offs) t).
    Proof.
      induction offsets as [|[id off] l IH]; intros b b' offs t H; cbn [renumber_loop]; [split; [exact H|split; reflexivity]|].
      destruct (f t id) as [new t1]. destruct (slice_get _ _ _) as [slice|]; [|exact Logic.I].
      destruct (extract_object slice) as [[gen sl]|]; [|exact (IH _ _ _ _ H)]. unfold patch_object. cbn zeta.
      rewrite (moved_snoc o0 offs new b b' H).
      assert (G : mv (extend (lit " obj" ++ [x0a]) (push_int gen (push x20 (push_int new b)))) (extend (lit " obj" ++ [x0a]) (push_int gen (push x20 (push_int new b'))))).
      { apply mv_extend, mv_int, mv_push, mv_int, H. }
      pose proof (mv_patch f (Datatypes.S (length sl)) sl 0 0 _ _ t1 G) as P.
      destruct (patch_loop f _ sl 0 0 (extend _ (push_int gen (push x20 (push_int new b)))) t1) as [[b1 t2]|],
        (patch_loop f _ sl 0 0 (extend _ (push_int gen (push x20 (push_int new b')))) t1) as [[b1' t2']|]; cbn [alike_with] in P; try contradiction P; [|exact Logic.I].
      destruct P as [M E]. cbn [fst snd] in *. subst t2'. apply IH. apply mv_if; [apply mv_extend|]; apply mv_extend, M.
    Qed.
    Lemma mv_caught_renumber (f : T -> Z -> option (Z * T)) src o0 offsets pretty : forall b b' offs t, mv b b' ->
      alike_with (mv3 o0) (caught_renumber_loop f src offsets pretty b offs t) (caught_renumber_loop f src offsets pretty b' (o0 ++ moved offs) t).
    Proof.
      induction offsets as [|[id off] l IH]; intros b b' offs t H; cbn [caught_renumber_loop]; [split; [exact H|split; reflexivity]|].
      destruct (f t id) as [[new t1]|]; [|split; [exact H|split; reflexivity]]. destruct (slice_get _ _ _) as [slice|]; [|exact Logic.I].
      destruct (extract_object slice) as [[gen sl]|]; [|exact (IH _ _ _ _ H)]. cbn zeta.
      rewrite (moved_snoc o0 offs new b b' H).
      assert (G : mv (extend (lit " obj" ++ [x0a]) (push_int gen (push x20 (push_int new b)))) (extend (lit " obj" ++ [x0a]) (push_int gen (push x20 (push_int new b'))))).
      { apply mv_extend, mv_int, mv_push, mv_int, H. }
      pose proof (mv_caught_patch f (Datatypes.S (length sl)) sl 0 0 _ _ t1 G) as P.
      destruct (caught_patch_loop f _ sl 0 0 (extend _ (push_int gen (push x20 (push_int new b)))) t1) as [[b1 t2]|],
        (caught_patch_loop f _ sl 0 0 (extend _ (push_int gen (push x20 (push_int new b')))) t1) as [[b1' t2']|]; cbn [alike_with] in P; try contradiction P; [|exact Logic.I].
      destruct P as [M E]. cbn [fst snd] in *. subst t2'. destruct t2 as [t2|].
      - apply IH. apply mv_if; [apply mv_extend|]; apply mv_extend, M.
      - split; [exact M|split; reflexivity].
    Qed.
  End Copies.
End Moved.

(** ** Chunks *)
Section Chunks.
  Context (first : chunk).
  Local Notation PRE := (chunk_bytes first).
  (** [whole] is [first] and [part], and [part] has the settings of [first]. *)
  Definition pt (part whole : chunk) : Prop := put_together first part whole /\ c_pretty part = c_pretty first.

  Lemma pt_new : pt (chunk_with_settings (c_pretty first)) first.
  Proof. repeat split; cbn [chunk_with_settings chunk_bytes c_buf buf_new inner c_offsets map]; rewrite app_nil_r; reflexivity. Qed.
  Lemma pt_mv d c : pt d c -> mv PRE (c_buf d) (c_buf c). Proof. intros [(B & _) _]. exact B. Qed.
  Lemma pt_pretty d c : pt d c -> c_pretty c = c_pretty d. Proof. intros [(_ & _ & B) C]. congruence. Qed.
  Lemma pt_make b b' offs pd pw : mv PRE b b' -> pd = c_pretty first -> pw = c_pretty first ->
    pt (mkChunk b offs pd) (mkChunk b' (c_offsets first ++ moved PRE offs) pw).
  Proof. intros H -> ->. repeat split. exact H. Qed.
  Lemma pt_offsets d c : pt d c -> c_offsets c = c_offsets first ++ moved PRE (c_offsets d).
  Proof. intros [(_ & B & _) _]. exact B. Qed.

  (** The new offset, and the writer on both sides. *)
  Lemma pt_indirect id d c : pt d c ->
    fst (chunk_indirect id c) = fst (chunk_indirect id d) /\ pt (snd (chunk_indirect id d)) (snd (chunk_indirect id c)) /\
    ne (c_buf (snd (chunk_indirect id d))).
  Proof.
    intro H. pose proof (pt_mv _ _ H) as M. pose proof (pt_pretty _ _ H) as P. pose proof (pt_offsets _ _ H) as O. destruct H as [_ Q].
    unfold chunk_indirect. rewrite P. pose proof (mv_indirect PRE id (c_pretty d) _ _ M) as [[E MI] N].
    destruct (obj_indirect id (c_pretty d) (c_buf d)) as [w b], (obj_indirect id (c_pretty d) (c_buf c)) as [w' b']. cbn [fst snd c_buf] in *. subst w'.
    split; [reflexivity|]. split; [|exact N].
    unfold chunk_len, chunk_bytes at 2. rewrite O, (moved_snoc PRE (c_offsets first) (c_offsets d) id (c_buf d) (c_buf c) M). apply pt_make; assumption.
  Qed.
  Lemma pt_buf b b' d c : pt d c -> mv PRE b b' -> pt (mkChunk b (c_offsets d) (c_pretty d)) (mkChunk b' (c_offsets c) (c_pretty c)).
  Proof. intros H M. rewrite (pt_offsets _ _ H), (pt_pretty _ _ H). destruct H as [_ Q]. apply pt_make; assumption. Qed.

  Lemma pt_object id o d c : pt d c -> pt (chunk_object id o d) (chunk_object id o c).
  Proof.
    intro H. pose proof (pt_indirect id d c H) as (E & P & N). unfold chunk_object.
    destruct (chunk_indirect id d) as [w d1], (chunk_indirect id c) as [w' c1]. cbn [fst snd] in *. subst w'.
    apply pt_buf; [exact P|]. apply mv_obj; [apply pt_mv, P|exact N].
  Qed.
  Lemma pt_stream id es data d c : pt d c -> alike_with pt (chunk_stream id es data d) (chunk_stream id es data c).
  Proof.
    intro H. pose proof (pt_indirect id d c H) as (E & P & N). unfold chunk_stream.
    destruct (chunk_indirect id d) as [w d1], (chunk_indirect id c) as [w' c1]. cbn [fst snd] in *. subst w'.
    pose proof (mv_stream PRE w es data (c_buf d1) (c_buf c1) (pt_mv _ _ P) N) as M.
    destruct (write_stream w es data (c_buf d1)), (write_stream w es data (c_buf c1)); cbn [alike_with] in *; try contradiction M; [|exact Logic.I].
    apply pt_buf; assumption.
  Qed.
  Lemma pt_leaked_object id cs d c : pt d c -> alike_with pt (leaked_object id cs d) (leaked_object id cs c).
  Proof.
    intro H. pose proof (pt_indirect id d c H) as (E & P & N). unfold leaked_object.
    destruct (chunk_indirect id d) as [w d1], (chunk_indirect id c) as [w' c1]. cbn [fst snd] in *. subst w'.
    pose proof (mv_leak_run PRE cs [WObj w] (c_buf d1) (c_buf c1) (pt_mv _ _ P) N) as M.
    destruct (leak_run cs ([WObj w], c_buf d1)) as [[st b]|], (leak_run cs ([WObj w], c_buf c1)) as [[st' b']|]; cbn [alike_with] in *; try contradiction M; [|exact Logic.I].
    destruct M as [ES M]. cbn [fst snd] in *. subst st'. apply pt_buf; [exact P|apply mv_unwind, M].
  Qed.
  Lemma pt_leaked_stream id data cs d c : pt d c -> alike_with pt (leaked_stream id data cs d) (leaked_stream id data cs c).
  Proof.
    intro H. pose proof (pt_indirect id d c H) as (E & P & N). unfold leaked_stream.
    destruct (chunk_indirect id d) as [w d1], (chunk_indirect id c) as [w' c1]. cbn [fst snd] in *. subst w'.
    pose proof (mv_stream_start PRE w data (c_buf d1) (c_buf c1) (pt_mv _ _ P)) as S1.
    destruct (stream_start w data (c_buf d1)) as [[d2 b1]|] eqn:E1, (stream_start w data (c_buf c1)) as [[d2' b1']|]; cbn [alike_with] in S1; try contradiction S1.
    - destruct S1 as [ES M]. cbn [fst snd] in *. subst d2'.
      assert (N1 : ne b1) by exact (ne_grows _ _ (g_stream_start _ _ _ _ _ _ (g_refl _) E1) N).
      pose proof (mv_leak_run PRE cs [WStream data d2] b1 b1' M N1) as M2.
      destruct (leak_run cs ([WStream data d2], b1)) as [[st b]|], (leak_run cs ([WStream data d2], b1')) as [[st' b']|]; cbn [alike_with] in *; try contradiction M2; [|exact Logic.I].
      destruct M2 as [ES M2]. cbn [fst snd] in *. subst st'. apply pt_buf; [exact P|apply mv_unwind, M2].
    - pose proof (mv_dict_start PRE w _ _ (pt_mv _ _ P)) as [ES M]. destruct (dict_start w (c_buf d1)) as [d2 b], (dict_start w (c_buf c1)) as [d2' b'].
      cbn [fst snd alike_with] in *. subst d2'. apply pt_buf; [exact P|apply mv_dict_drop, M].
  Qed.
  Lemma pt_extend o d c : pt d c -> pt (chunk_extend o d) (chunk_extend o c).
  Proof.
    intro H. pose proof (pt_mv _ _ H) as M. pose proof (pt_pretty _ _ H) as P. pose proof (pt_offsets _ _ H) as O. destruct H as [_ Q].
    unfold chunk_extend. rewrite O, P.
    assert (L : chunk_len c = blen PRE + chunk_len d) by (unfold chunk_len; rewrite <- blen_app; f_equal; exact M).
    assert (X : (c_offsets first ++ moved PRE (c_offsets d)) ++ map (fun e => (fst e, chunk_len c + snd e)) (c_offsets o) =
      c_offsets first ++ moved PRE (c_offsets d ++ map (fun e => (fst e, chunk_len d + snd e)) (c_offsets o))).
    { rewrite <- app_assoc. f_equal. unfold moved. rewrite map_app. f_equal. rewrite map_map. apply map_ext. intro e. cbn [fst snd]. rewrite L. f_equal. lia. }
    rewrite X. apply pt_make; [|exact Q|exact Q]. unfold mv in *. cbn [extend_buf inner]. rewrite M. symmetry. apply app_assoc.
  Qed.
  Lemma pt_merge l d c : pt d c -> pt (chunk_merge_limits l d) (chunk_merge_limits l c).
  Proof. intro H. apply pt_buf; [exact H|]. apply mv_lims, pt_mv, H. Qed.
  Lemma pt_renumber {T} (f : T -> Z -> Z * T) src d c s : pt d c ->
    alike_with (fun x y => pt (fst x) (fst y)) (chunk_renumber_into f src d s) (chunk_renumber_into f src c s).
  Proof.
    intro H. unfold chunk_renumber_into. rewrite (pt_offsets _ _ H), (pt_pretty _ _ H).
    pose proof (mv_renumber PRE f (chunk_bytes src) (c_offsets first) (c_offsets src) (c_pretty d)
      (with_limits (fun m => merge m (chunk_limits src)) (c_buf d)) (with_limits (fun m => merge m (chunk_limits src)) (c_buf c)) (c_offsets d) s
      (mv_lims PRE _ _ _ _ (pt_mv _ _ H))) as M. destruct H as [_ Q].
    destruct (renumber_loop _ _ _ _ _ (c_offsets d) s) as [[[b offs] t]|], (renumber_loop _ _ _ _ _ (_ ++ _) s) as [[[b' offs'] t']|];
      cbn [alike_with] in *; try contradiction M; [|exact Logic.I].
    destruct M as (M & E & _). cbn [fst snd] in *. subst offs'. apply pt_make; assumption.
  Qed.
  Lemma pt_caught_renumber {T} (f : T -> Z -> option (Z * T)) src d c s : pt d c ->
    alike_with (fun x y => pt (fst x) (fst y)) (caught_renumber_into f src d s) (caught_renumber_into f src c s).
  Proof.
    intro H. unfold caught_renumber_into. rewrite (pt_offsets _ _ H), (pt_pretty _ _ H).
    pose proof (mv_caught_renumber PRE f (chunk_bytes src) (c_offsets first) (c_offsets src) (c_pretty d)
      (with_limits (fun m => merge m (chunk_limits src)) (c_buf d)) (with_limits (fun m => merge m (chunk_limits src)) (c_buf c)) (c_offsets d) s
      (mv_lims PRE _ _ _ _ (pt_mv _ _ H))) as M. destruct H as [_ Q].
    destruct (caught_renumber_loop _ _ _ _ _ (c_offsets d) s) as [[[b offs] t]|], (caught_renumber_loop _ _ _ _ _ (_ ++ _) s) as [[[b' offs'] t']|];
      cbn [alike_with] in *; try contradiction M; [|exact Logic.I].
    destruct M as (M & E & _). cbn [fst snd] in *. subst offs'. apply pt_make; assumption.
  Qed.
End Chunks.

Lemma run_onto c h : run h = Some c -> forall k, made_with k = c_pretty c -> alike_with (pt c) (run k) (run (onto h k)).
Proof.
  intros R k. induction k as [p|k IH id o|k IH id es data|k IH other _|k IH l|k IH source _ T f s]; cbn [made_with onto run]; intro Q.
  - rewrite R, Q. apply pt_new.
  - specialize (IH Q). destruct (run k), (run (onto h k)); cbn [alike_with option_map] in *; try contradiction IH; [|exact Logic.I]. apply pt_object, IH.
  - specialize (IH Q). destruct (run k), (run (onto h k)); cbn [alike_with] in *; try contradiction IH; [|exact Logic.I]. apply pt_stream, IH.
  - specialize (IH Q). destruct (run k), (run (onto h k)); cbn [alike_with] in *; try contradiction IH; [|exact Logic.I].
    destruct (run other) as [o|]; [|exact Logic.I]. apply pt_extend, IH.
  - specialize (IH Q). destruct (run k), (run (onto h k)); cbn [alike_with option_map] in *; try contradiction IH; [|exact Logic.I]. apply pt_merge, IH.
  - specialize (IH Q). destruct (run k) as [d|], (run (onto h k)) as [d'|]; cbn [alike_with] in *; try contradiction IH; [|exact Logic.I].
    destruct (run source) as [src|]; [|exact Logic.I]. pose proof (pt_renumber c f src d d' s IH) as M.
    destruct (chunk_renumber_into f src d s), (chunk_renumber_into f src d' s); cbn [alike_with option_map] in *; try contradiction M; [|exact Logic.I]. exact M.
Qed.
Lemma leak_run_onto c h : leak_hist_run h = Some c -> forall k, leak_made_with k = c_pretty c -> alike_with (pt c) (leak_hist_run k) (leak_hist_run (leak_onto h k)).
Proof.
  intros R k. induction k as [p|k IH id cs|k IH id data cs|k IH other _|k IH l|k IH source _ T f s]; cbn [leak_made_with leak_onto leak_hist_run]; intro Q.
  - rewrite R, Q. apply pt_new.
  - specialize (IH Q). destruct (leak_hist_run k), (leak_hist_run (leak_onto h k)); cbn [alike_with] in *; try contradiction IH; [|exact Logic.I]. apply pt_leaked_object, IH.
  - specialize (IH Q). destruct (leak_hist_run k), (leak_hist_run (leak_onto h k)); cbn [alike_with] in *; try contradiction IH; [|exact Logic.I]. apply pt_leaked_stream, IH.
  - specialize (IH Q). destruct (leak_hist_run k), (leak_hist_run (leak_onto h k)); cbn [alike_with] in *; try contradiction IH; [|exact Logic.I].
    destruct (leak_hist_run other) as [o|]; [|exact Logic.I]. apply pt_extend, IH.
  - specialize (IH Q). destruct (leak_hist_run k), (leak_hist_run (leak_onto h k)); cbn [alike_with option_map] in *; try contradiction IH; [|exact Logic.I]. apply pt_merge, IH.
  - specialize (IH Q). destruct (leak_hist_run k) as [d|], (leak_hist_run (leak_onto h k)) as [d'|]; cbn [alike_with] in *; try contradiction IH; [|exact Logic.I].
    destruct (leak_hist_run source) as [src|]; [|exact Logic.I]. pose proof (pt_caught_renumber c f src d d' s IH) as M.
    destruct (caught_renumber_into f src d s), (caught_renumber_into f src d' s); cbn [alike_with option_map] in *; try contradiction M; [|exact Logic.I]. exact M.
Qed.

(** A part written into a new chunk with the same settings is, byte for byte, what the same calls add to a chunk that has been begun; the objects
    are recorded under the same numbers, further back by the length of the first part.  The calls panic in the one place if they panic in the
    other. *)
Theorem C107_chunks : forall h k c, run h = Some c -> made_with k = c_pretty c ->
  alike_with (put_together c) (run k) (run (onto h k)).
Proof.
  intros h k c R Q. pose proof (run_onto c h R k Q) as M. destruct (run k), (run (onto h k)); cbn [alike_with] in *; try contradiction M; [|exact Logic.I].
  apply M.
Qed.
Theorem C107_leaked_chunks : forall h k c, leak_hist_run h = Some c -> leak_made_with k = c_pretty c ->
  alike_with (put_together c) (leak_hist_run k) (leak_hist_run (leak_onto h k)).
Proof.
  intros h k c R Q. pose proof (leak_run_onto c h R k Q) as M.
  destruct (leak_hist_run k), (leak_hist_run (leak_onto h k)); cbn [alike_with] in *; try contradiction M; [|exact Logic.I]. apply M.
Qed.

Lemma together_same c d x y : put_together c d x -> put_together c d y -> same_chunk x y.
Proof. intros (A & B & C) (A' & B' & C'). unfold same_chunk. rewrite A, B, C. auto. Qed.
Lemma extend_together d c : put_together c d (chunk_extend d c).
Proof. repeat split. Qed.

(** So [extend] by a part written separately is the same as writing it in place. *)
Theorem C107_extend : forall h k c, run h = Some c -> made_with k = c_pretty c ->
  alike_with same_chunk (run (HExtend h k)) (run (onto h k)).
Proof.
  intros h k c R Q. pose proof (C107_chunks h k c R Q) as M. cbn [run]. rewrite R.
  destruct (run k) as [d|], (run (onto h k)) as [x|]; cbn [alike_with] in *; try contradiction M; [|exact Logic.I].
  exact (together_same c d _ _ (extend_together d c) M).
Qed.
Theorem C107_leaked_extend : forall h k c, leak_hist_run h = Some c -> leak_made_with k = c_pretty c ->
  alike_with same_chunk (leak_hist_run (KkExtend h k)) (leak_hist_run (leak_onto h k)).
Proof.
  intros h k c R Q. pose proof (C107_leaked_chunks h k c R Q) as M. cbn [leak_hist_run]. rewrite R.
  destruct (leak_hist_run k) as [d|], (leak_hist_run (leak_onto h k)) as [x|]; cbn [alike_with] in *; try contradiction M; [|exact Logic.I].
  exact (together_same c d _ _ (extend_together d c) M).
Qed.

(** ** Documents *)
Lemma out_entries p q N : p_catalog p = p_catalog q -> p_info p = p_info q -> p_file_id p = p_file_id q -> trailer_entries p N = trailer_entries q N.
Proof. intros A B C. unfold trailer_entries. rewrite A, B, C. reflexivity. Qed.
Lemma same_pdf_files p q : same_pdf p q -> same_files p q.
Proof.
  intros ((B & O & P) & Ca & In & Fi).
  assert (X : pdf_bytes p = pdf_bytes q) by exact B.
  assert (S1 : forall id flt, finish_stream_inner p id flt = finish_stream_inner q id flt).
  { intros id flt. rewrite !finish_stream_form. cbv zeta. rewrite X, O, P. destruct (write_offsets _) as [[N es]|]; [|reflexivity].
    destruct (flt _) as [data f]. unfold stream_entries. rewrite (out_entries p q N Ca In Fi). reflexivity. }
  split; [|split; intros; apply S1].
  rewrite !finish_form, X, O, P. destruct (write_offsets _) as [[N es]|]; [|reflexivity]. cbn [option_map fst snd].
  rewrite (out_entries p q N Ca In Fi). reflexivity.
Qed.

Definition ptd (p : pdf) (d : chunk) (p' : pdf) : Prop :=
  pt (p_chunk p) d (p_chunk p') /\ p_catalog p' = p_catalog p /\ p_info p' = p_info p /\ p_file_id p' = p_file_id p.
Lemma run_directly p : forall k, made_with k = c_pretty (p_chunk p) -> alike_with (ptd p) (run k) (pdf_run (directly k) p).
Proof.
  assert (Snoc : forall ops op q, pdf_run (ops ++ [op]) q = match pdf_run ops q with Some r => pdf_step op r | None => None end).
  { induction ops as [|o ops IH]; intros op q; cbn [app pdf_run]; [destruct (pdf_step op q); reflexivity|]. destruct (pdf_step o q); [apply IH|reflexivity]. }
  intro k. induction k as [pr|k IH id o|k IH id es data|k IH other _|k IH l|k IH source _ T f s]; cbn [made_with directly run]; intro Q; rewrite ?Snoc.
  - cbn [pdf_run]. rewrite Q. split; [apply pt_new|auto].
  - specialize (IH Q). destruct (run k), (pdf_run (directly k) p); cbn [alike_with option_map] in *; try contradiction IH; [|exact Logic.I].
    destruct IH as [IH R]. split; [apply pt_object, IH|exact R].
  - specialize (IH Q). destruct (run k) as [d|], (pdf_run (directly k) p) as [p1|]; cbn [alike_with] in *; try contradiction IH; [|exact Logic.I].
    destruct IH as [IH R]. cbn [pdf_step]. pose proof (pt_stream _ id es data _ _ IH) as M.
    destruct (chunk_stream id es data d), (chunk_stream id es data (p_chunk p1)); cbn [alike_with option_map] in *; try contradiction M; [|exact Logic.I].
    split; [exact M|exact R].
  - specialize (IH Q). destruct (run k) as [d|], (pdf_run (directly k) p) as [p1|]; cbn [alike_with] in *; try contradiction IH; [|exact Logic.I].
    destruct IH as [IH R]. cbn [pdf_step]. destruct (run other) as [o|]; [|exact Logic.I]. split; [apply pt_extend, IH|exact R].
  - specialize (IH Q). destruct (run k), (pdf_run (directly k) p); cbn [alike_with option_map] in *; try contradiction IH; [|exact Logic.I].
    destruct IH as [IH R]. split; [apply pt_merge, IH|exact R].
  - specialize (IH Q). destruct (run k) as [d|], (pdf_run (directly k) p) as [p1|]; cbn [alike_with] in *; try contradiction IH; [|exact Logic.I].
    destruct IH as [IH R]. cbn [pdf_step]. destruct (run source) as [src|]; [|exact Logic.I]. pose proof (pt_renumber _ f src d (p_chunk p1) s IH) as M.
    destruct (chunk_renumber_into f src d s), (chunk_renumber_into f src (p_chunk p1) s); cbn [alike_with option_map] in *; try contradiction M; [|exact Logic.I].
    split; [exact M|exact R].
Qed.
Lemma leak_run_directly p : forall k, leak_made_with k = c_pretty (p_chunk p) -> alike_with (ptd p) (leak_hist_run k) (leak_pdf_run (leak_directly k) p).
Proof.
  assert (Snoc : forall ops op q, leak_pdf_run (ops ++ [op]) q = match leak_pdf_run ops q with Some r => leak_pdf_step op r | None => None end).
  { induction ops as [|o ops IH]; intros op q; cbn [app leak_pdf_run]; [destruct (leak_pdf_step op q); reflexivity|]. destruct (leak_pdf_step o q); [apply IH|reflexivity]. }
  intro k. induction k as [pr|k IH id cs|k IH id data cs|k IH other _|k IH l|k IH source _ T f s]; cbn [leak_made_with leak_directly leak_hist_run]; intro Q; rewrite ?Snoc.
  - cbn [leak_pdf_run]. rewrite Q. split; [apply pt_new|auto].
  - specialize (IH Q). destruct (leak_hist_run k) as [d|], (leak_pdf_run (leak_directly k) p) as [p1|]; cbn [alike_with] in *; try contradiction IH; [|exact Logic.I].
    destruct IH as [IH R]. cbn [leak_pdf_step]. unfold on_chunk_opt. pose proof (pt_leaked_object _ id cs _ _ IH) as M.
    destruct (leaked_object id cs d), (leaked_object id cs (p_chunk p1)); cbn [alike_with option_map] in *; try contradiction M; [|exact Logic.I].
    split; [exact M|exact R].
  - specialize (IH Q). destruct (leak_hist_run k) as [d|], (leak_pdf_run (leak_directly k) p) as [p1|]; cbn [alike_with] in *; try contradiction IH; [|exact Logic.I].
    destruct IH as [IH R]. cbn [leak_pdf_step]. unfold on_chunk_opt. pose proof (pt_leaked_stream _ id data cs _ _ IH) as M.
    destruct (leaked_stream id data cs d), (leaked_stream id data cs (p_chunk p1)); cbn [alike_with option_map] in *; try contradiction M; [|exact Logic.I].
    split; [exact M|exact R].
  - specialize (IH Q). destruct (leak_hist_run k) as [d|], (leak_pdf_run (leak_directly k) p) as [p1|]; cbn [alike_with] in *; try contradiction IH; [|exact Logic.I].
    destruct IH as [IH R]. cbn [leak_pdf_step]. destruct (leak_hist_run other) as [o|]; [|exact Logic.I]. split; [apply pt_extend, IH|exact R].
  - specialize (IH Q). destruct (leak_hist_run k), (leak_pdf_run (leak_directly k) p); cbn [alike_with option_map] in *; try contradiction IH; [|exact Logic.I].
    destruct IH as [IH R]. split; [apply pt_merge, IH|exact R].
  - specialize (IH Q). destruct (leak_hist_run k) as [d|], (leak_pdf_run (leak_directly k) p) as [p1|]; cbn [alike_with] in *; try contradiction IH; [|exact Logic.I].
    destruct IH as [IH R]. cbn [leak_pdf_step]. unfold on_chunk_opt. destruct (leak_hist_run source) as [src|]; [|exact Logic.I].
    pose proof (pt_caught_renumber _ f src d (p_chunk p1) s IH) as M.
    destruct (caught_renumber_into f src d s), (caught_renumber_into f src (p_chunk p1) s); cbn [alike_with option_map] in *; try contradiction M; [|exact Logic.I].
    split; [exact M|exact R].
Qed.

(** A document extended by a part that was written separately is the document into which the same calls were made directly; and so are the
    finished files, with either kind of cross-reference section. *)
Theorem C107_documents : forall p k, made_with k = c_pretty (p_chunk p) ->
  alike_with (fun q q' => same_pdf q q' /\ same_files q q') (pdf_step (PdfExtend k) p) (pdf_run (directly k) p).
Proof.
  intros p k Q. pose proof (run_directly p k Q) as M. cbn [pdf_step].
  destruct (run k) as [d|], (pdf_run (directly k) p) as [p1|]; cbn [alike_with option_map] in *; try contradiction M; [|exact Logic.I].
  destruct M as ([M _] & A & B & C).
  assert (S1 : same_pdf (on_chunk (chunk_extend d) p) p1).
  { split; [exact (together_same _ _ _ _ (extend_together d (p_chunk p)) M)|]. cbn [on_chunk p_catalog p_info p_file_id]. auto. }
  split; [exact S1|exact (same_pdf_files _ _ S1)].
Qed.
Theorem C107_leaked_documents : forall p k, leak_made_with k = c_pretty (p_chunk p) ->
  alike_with (fun q q' => same_pdf q q' /\ same_files q q') (leak_pdf_step (LpExtend k) p) (leak_pdf_run (leak_directly k) p).
Proof.
  intros p k Q. pose proof (leak_run_directly p k Q) as M. cbn [leak_pdf_step].
  destruct (leak_hist_run k) as [d|], (leak_pdf_run (leak_directly k) p) as [p1|]; cbn [alike_with option_map] in *; try contradiction M; [|exact Logic.I].
  destruct M as ([M _] & A & B & C).
  assert (S1 : same_pdf (on_chunk (chunk_extend d) p) p1).
  { split; [exact (together_same _ _ _ _ (extend_together d (p_chunk p)) M)|]. cbn [on_chunk p_catalog p_info p_file_id]. auto. }
  split; [exact S1|exact (same_pdf_files _ _ S1)].
Qed.

(** ** Limits *)
Lemma onto_typed h : hist_typed h -> forall k, hist_typed k -> hist_typed (onto h k).
Proof.
  intros H k. induction k as [p|k IH id o|k IH id es data|k IH other _|k IH l|k IH source _ T f s]; cbn [hist_typed onto]; intro K; [exact H|..];
    try (apply IH, K); destruct K as [K1 K2]; (split; [apply IH, K1|exact K2]).
Qed.
Lemma onto_merges h : merges_ok h -> forall k, merges_ok k -> merges_ok (onto h k).
Proof.
  intros H k. induction k as [p|k IH id o|k IH id es data|k IH other _|k IH l|k IH source _ T f s]; cbn [merges_ok onto]; intro K; [exact H|..];
    try (apply IH, K); destruct K as [K1 K2]; (split; [apply IH, K1|exact K2]).
Qed.
Lemma renumber_limits {T} (f : T -> Z -> Z * T) h1 h2 c1 c2 c s : hist_typed h1 -> hist_typed h2 -> run h1 = Some c1 -> run h2 = Some c2 ->
  option_map fst (chunk_renumber_into f c2 c1 s) = Some c ->
  chunk_limits c = note_refs (flat_map item_refs (fst (thread (map_item_st f) (hist_items h2) s))) (merge (chunk_limits c1) (chunk_limits c2)).
Proof.
  intros H1 H2 R1 R2 Hr. pose proof (run_holds h1 H1) as P1. pose proof (run_holds h2 H2) as P2.
  destruct (items_fit (hist_items h1)); [|congruence]. destruct (items_fit (hist_items h2)); [|congruence].
  destruct P1 as [x1 [l1 [X1 [X2 [X3 X4]]]]]. destruct P2 as [x2 [l2 [Y1 [Y2 [Y3 Y4]]]]].
  rewrite R1 in X1. apply some_inj in X1. subst x1. rewrite R2 in Y1. apply some_inj in Y1. subst x2.
  pose proof (items_typed h2 H2) as Tt.
  destruct (renumber_holds f [] [] l2 l1 c2 c1 s Y2 X2 ltac:(rewrite Y3; exact Tt)) as [c' [E [_ [_ EL]]]].
  rewrite E in Hr. cbn [option_map fst] in Hr. apply some_inj in Hr. subst c'. rewrite Y3 in EL. exact EL.
Qed.
Lemma limits_onto h c : hist_typed h -> merges_ok h -> run h = Some c -> forall k, hist_typed k -> merges_ok k ->
  forall d w, run k = Some d -> run (onto h k) = Some w -> chunk_limits w = merge (chunk_limits c) (chunk_limits d).
Proof.
  intros Th Mh Rh k. pose proof (proj1 (run_bounds h Th Mh c Rh)) as Lc.
  induction k as [p|k IH id o|k IH id es data|k IH other _|k IH l|k IH source _ T f s]; cbn [hist_typed merges_ok onto run]; intros Tk Mk d w Rk Rw.
  - rewrite Rh in Rw. apply some_inj in Rw. apply some_inj in Rk. subst. change (chunk_limits (chunk_with_settings p)) with limits0.
    symmetry. apply merge_0, Lc.
  - destruct Tk as [T1 T2]. destruct (run k) as [d0|] eqn:E; [|discriminate]. destruct (run (onto h k)) as [w0|] eqn:F; [|discriminate].
    apply some_inj in Rk, Rw. subst d w. specialize (IH T1 Mk d0 w0 eq_refl eq_refl). pose proof (proj1 (run_bounds k T1 Mk d0 E)) as Ld.
    pose proof (item_lim_ok _ T2) as K. rewrite !object_limits by (try assumption; rewrite IH; auto using merge_ok). rewrite IH.
    symmetry. apply merge_assoc; assumption.
  - destruct Tk as [T1 T2]. destruct (run k) as [d0|] eqn:E; [|discriminate]. destruct (run (onto h k)) as [w0|] eqn:F; [|discriminate].
    specialize (IH T1 Mk d0 w0 eq_refl eq_refl). pose proof (proj1 (run_bounds k T1 Mk d0 E)) as Ld. pose proof (item_lim_ok _ T2) as K.
    rewrite (stream_limits _ _ _ _ _ Ld T2 Rk). rewrite (stream_limits _ _ _ _ _ ltac:(rewrite IH; auto using merge_ok) T2 Rw). rewrite IH.
    symmetry. apply merge_assoc; assumption.
  - destruct Tk as [T1 T2], Mk as [M1 M2]. destruct (run k) as [d0|] eqn:E; [|discriminate]. destruct (run (onto h k)) as [w0|] eqn:F; [|discriminate].
    destruct (run other) as [o|] eqn:G; [|discriminate]. apply some_inj in Rk, Rw. subst d w. specialize (IH T1 M1 d0 w0 eq_refl eq_refl).
    change (merge (chunk_limits w0) (chunk_limits o) = merge (chunk_limits c) (merge (chunk_limits d0) (chunk_limits o))). rewrite IH. symmetry.
    apply merge_assoc; [exact Lc|exact (proj1 (run_bounds k T1 M1 d0 E))|exact (proj1 (run_bounds other T2 M2 o G))].
  - destruct Mk as [M1 M2]. apply limits_ok_iff in M2. destruct (run k) as [d0|] eqn:E; [|discriminate]. destruct (run (onto h k)) as [w0|] eqn:F; [|discriminate].
    apply some_inj in Rk, Rw. subst d w. specialize (IH Tk M1 d0 w0 eq_refl eq_refl).
    change (merge (chunk_limits w0) l = merge (chunk_limits c) (merge (chunk_limits d0) l)). rewrite IH. symmetry.
    apply merge_assoc; [exact Lc|exact (proj1 (run_bounds k Tk M1 d0 E))|exact M2].
  - destruct Tk as [T1 [T2 T3]], Mk as [M1 M2]. destruct (run k) as [d0|] eqn:E; [|discriminate].
    destruct (run (onto h k)) as [w0|] eqn:F; [|discriminate]. destruct (run source) as [o|] eqn:G; [|discriminate].
    specialize (IH T1 M1 d0 w0 eq_refl eq_refl).
    rewrite (renumber_limits f k source d0 o d s T1 T2 E G Rk).
    rewrite (renumber_limits f (onto h k) source w0 o w s (onto_typed h Th k T1) T2 F G Rw).
    pose proof (proj1 (run_bounds k T1 M1 d0 E)) as Ld. pose proof (proj1 (run_bounds source T2 M2 o G)) as Lo. rewrite IH.
    set (l := flat_map _ _). pose proof (refs_lim_ok l) as Lr. rewrite !note_refs_merge by auto using merge_ok.
    rewrite <- !merge_assoc by auto using merge_ok. reflexivity.
Qed.

(** The limits are the common maximum, too, so that putting parts together also gives the limits of the chunk written in place. *)
Theorem C107_limits : forall h k c d w, hist_typed h -> merges_ok h -> hist_typed k -> merges_ok k -> made_with k = c_pretty c ->
  run h = Some c -> run k = Some d -> run (onto h k) = Some w ->
  chunk_limits w = merge (chunk_limits c) (chunk_limits d) /\ option_map chunk_limits (run (HExtend h k)) = Some (chunk_limits w).
Proof.
  intros h k c d w Th Mh Tk Mk Q R K W. pose proof (limits_onto h c Th Mh R k Tk Mk d w K W) as E. split; [exact E|].
  cbn [run]. rewrite R, K. cbn [option_map]. f_equal. rewrite E. reflexivity.
Qed.

(** ** A concrete case: a page tree node into the first chunk, then a separate part with a stream, a renumbered object and a merge. *)
Definition case_first : hist := HObject (HNew true) 1 (ODict [(lit "Type", OPrim (PName (lit "Pages"))); (lit "Kids", OArray [OPrim (PRef 2)])]).
Definition case_part (pretty : bool) : hist :=
  HRenumber (HMerge (HStream (HObject (HNew pretty) 2 (OArray [OPrim (PInt 1); ODict [(lit "A", OPrim (PBool true))]])) 3
    [(lit "Filter", OPrim (PName (lit "X")))] (lit "data")) limits0)
    (HObject (HNew false) 1 (ODict [(lit "B", OPrim (PRef 1))])) unit (fun _ i => (if i =? 1 then 7 else 9, tt)) tt.
Example C107_case :
  made_with (case_part true) = true /\ hist_typed case_first /\ hist_typed (case_part true) /\ merges_ok (case_part true) /\
  option_map (fun c => c_offsets c) (run case_first) = Some [(1, 0)] /\
  option_map (fun c => c_offsets c) (run (case_part true)) = Some [(2, 0); (3, 36); (7, 105)] /\
  option_map (fun c => c_offsets c) (run (onto case_first (case_part true))) = Some [(1, 0); (2, 53); (3, 89); (7, 158)].
Proof.
  split; [reflexivity|]. split; [split; [exact Logic.I|reflexivity]|].
  split; [split; [split; [split; [exact Logic.I|reflexivity]|reflexivity]|split; [split; [exact Logic.I|reflexivity]|]]|].
  { intros t i. cbn [fst]. destruct (i =? 1); reflexivity. }
  split; [split; [split; [exact Logic.I|reflexivity]|exact Logic.I]|].
  split; [vm_compute; reflexivity|]. split; vm_compute; reflexivity.
Qed.
(** With other settings the part does look different: the condition is needed. *)
Example C107_settings :
  option_map chunk_bytes (run (HExtend case_first (case_part false))) <> option_map chunk_bytes (run (onto case_first (case_part false))).
Proof. vm_compute. discriminate. Qed.

Print Assumptions C107_chunks.
Print Assumptions C107_leaked_chunks.
Print Assumptions C107_extend.
Print Assumptions C107_leaked_extend.
Print Assumptions C107_documents.
Print Assumptions C107_leaked_documents.
Print Assumptions C107_limits.
