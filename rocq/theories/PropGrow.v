(** Property C106: what is written stays. *)

From Coq Require Import ZArith List Lia Bool ZifyBool.
From Verif Require Import Bytes ModelFloat ModelBuf ModelObject ModelRenumber ModelChunk ModelApi ModelPdf ModelCrash ModelLeak ModelContent ModelOps
  SpecLex SpecObj SpecMeans SpecRenum SpecChunk SpecApi SpecFile SpecPdf SpecLimits SpecGrow ProofBasic ProofObj ProofParse ProofTree ProofRenum ProofXref
  ProofChunk ProofChunkParse ProofChunk2 ProofFile ProofFile2 ProofPdf ProofFile3 ProofFile4 PropChunk PropPdf PropPdf2 PropSerial.
Import ListNotations.
Local Open Scope Z_scope.

(** ** Lists *)
Lemma kept_refl {A} (a : list A) : kept a a.
Proof. exists []. symmetry. apply app_nil_r. Qed.
Lemma kept_trans {A} (a b c : list A) : kept a b -> kept b c -> kept a c.
Proof. intros [x ->] [y ->]. exists (x ++ y). symmetry. apply app_assoc. Qed.
Lemma kept_app {A} (a m : list A) : kept a (a ++ m).
Proof. exists m. reflexivity. Qed.

Lemma from_refl n a : 0 <= n <= blen a -> kept_from n a a.
Proof.
  intro H. exists (firstn (Z.to_nat n) a), (firstn (Z.to_nat n) a), (skipn (Z.to_nat n) a), [].
  assert (L : blen (firstn (Z.to_nat n) a) = n) by (unfold blen in *; rewrite firstn_length; lia).
  rewrite app_nil_r, firstn_skipn. auto.
Qed.
Lemma from_kept n a b c : kept_from n a b -> kept b c -> kept_from n a c.
Proof. intros (h & h' & m & r & A & B & -> & ->) [x ->]. exists h, h', m, (r ++ x). rewrite <- !app_assoc. auto. Qed.
Lemma cut_heads (a b x y : bytes) : a ++ x = b ++ y -> blen a = blen b -> a = b /\ x = y.
Proof.
  revert b. induction a as [|c a IH]; intros [|d b] E L; [auto| | |]; unfold blen in L; cbn [length] in L; try lia.
  cbn [app] in E. injection E as -> E. destruct (IH b E) as [-> ->]; [unfold blen; lia|auto].
Qed.
Lemma from_trans n a b c : kept_from n a b -> kept_from n b c -> kept_from n a c.
Proof.
  intros (h & h' & m & r & A & B & -> & ->) (g & g' & m' & r' & A' & B' & E & ->).
  destruct (cut_heads _ _ _ _ E ltac:(lia)) as [-> <-]. exists h, g', m, (r ++ r'). rewrite <- !app_assoc. auto.
Qed.
Lemma from_blen n a b : kept_from n a b -> n <= blen b.
Proof. intros (h & h' & m & r & A & B & -> & ->). rewrite blen_app. pose proof (blen_nonneg (m ++ r)). lia. Qed.
Lemma from_blen_left n a b : kept_from n a b -> n <= blen a.
Proof. intros (h & h' & m & r & A & B & -> & ->). rewrite blen_app. pose proof (blen_nonneg m). lia. Qed.
Lemma of_kept n a b : 0 <= n <= blen a -> kept a b -> kept_from n a b.
Proof. intros H K. eapply from_kept; [apply from_refl; exact H|exact K]. Qed.

(** ** Buffers *)
Definition grows (b b' : buf) : Prop := kept (inner b) (inner b').
Lemma g_refl b : grows b b. Proof. apply kept_refl. Qed.
Lemma g_trans a b c : grows a b -> grows b c -> grows a c. Proof. apply kept_trans. Qed.
Lemma g_extend s b : grows b (extend s b). Proof. apply kept_app. Qed.
Lemma g_ext a s b : grows a b -> grows a (extend s b).
Proof. intro H. eapply g_trans; [exact H|apply g_extend]. Qed.
Lemma g_push a c b : grows a b -> grows a (push c b). Proof. apply g_ext. Qed.
Lemma g_lims a f b : grows a b -> grows a (with_limits f b). Proof. exact (fun H => H). Qed.
Lemma g_int a z b : grows a b -> grows a (push_int z b). Proof. intro H. apply g_ext, g_lims, H. Qed.
Lemma g_if a (c : bool) x y : grows a x -> grows a y -> grows a (if c then x else y).
Proof. destruct c; auto. Qed.
Lemma g_endobj a i p b : grows a b -> grows a (endobj i p b).
Proof. intro H. unfold grows. rewrite endobj_inner. eapply kept_trans; [exact H|apply kept_app]. Qed.
Lemma g_prim a p b : grows a b -> grows a (write_prim p b).
Proof. intro H. unfold grows. rewrite write_prim_inner. eapply kept_trans; [exact H|apply kept_app]. Qed.
Lemma g_primitive a w p b : grows a b -> grows a (obj_primitive w p b).
Proof. intro H. unfold obj_primitive. apply g_endobj, g_prim. apply g_if; [apply g_ext|]; exact H. Qed.
Lemma g_name a k b : grows a b -> grows a (write_name k b).
Proof. intro H. exact (g_prim a (PName k) b H). Qed.

Lemma g_array_push a ar b : grows a b -> grows a (snd (array_push ar b)).
Proof. intro H. unfold array_push. destruct (negb _); [destruct (a_pretty ar)|]; cbn [snd]; [apply g_push| |]; exact H. Qed.
Lemma g_array_drop a ar b : grows a b -> grows a (array_drop ar b).
Proof. intro H. unfold array_drop. apply g_endobj, g_push, g_lims, H. Qed.
Lemma g_array_start a w b : grows a b -> grows a (snd (array_start w b)).
Proof. intro H. apply g_push, H. Qed.
Lemma g_dict_start a w b : grows a b -> grows a (snd (dict_start w b)).
Proof. intro H. apply g_ext, H. Qed.
Lemma g_dict_insert a k d b : grows a b -> grows a (snd (dict_insert k d b)).
Proof.
  intro H. unfold dict_insert. cbn [d_pretty d_indent].
  destruct (d_pretty d); cbn [snd]; [apply g_push|]; apply g_name; [apply g_ext, g_push|]; exact H.
Qed.
Lemma g_dict_drop a d b : grows a b -> grows a (dict_drop d b).
Proof.
  intro H. unfold dict_drop. apply g_endobj, g_ext. apply g_if; [apply g_ext, g_push|]; apply g_lims, H.
Qed.
Lemma g_stream_drop a data d b : grows a b -> grows a (stream_drop data d b).
Proof.
  intro H. unfold stream_drop. cbn zeta.
  assert (K : grows a (extend ([x0a] ++ lit "endobj" ++ [x0a]) (extend ([x0a] ++ lit "endstream") (extend data
    (extend ([x0a] ++ lit "stream" ++ [x0a]) (extend [x3e; x3e]
      (if d_pretty d then extend [x0a] (with_limits (register_dict_entries (d_len d)) b) else with_limits (register_dict_entries (d_len d)) b))))))).
  { do 5 apply g_ext. apply g_if; [apply g_ext|]; apply g_lims, H. }
  apply g_if; [apply g_ext|]; exact K.
Qed.
Lemma g_stream_start a w data b d b' : grows a b -> stream_start w data b = Some (d, b') -> grows a b'.
Proof.
  intros H E. unfold stream_start in E. pose proof (g_dict_start a w b H) as S1. destruct (dict_start w b) as [d0 b0]. cbn [snd] in S1.
  destruct (blen data <=? i32_max); [|discriminate E].
  pose proof (g_dict_insert a (lit "Length") d0 b0 S1) as S2. destruct (dict_insert (lit "Length") d0 b0) as [[w1 d1] b1]. cbn [snd] in S2.
  apply some_inj in E. assert (b' = obj_primitive w1 (PInt (blen data)) b1) as -> by congruence. apply g_primitive, S2.
Qed.

(** ** The writers, call by call *)
Lemma g_items l : forall a ar b, grows a b -> grows a (snd (fold_left (fun ab p => array_item p ab) l (ar, b))).
Proof.
  induction l as [|p l IH]; intros a ar b H; [exact H|]. cbn [fold_left]. unfold array_item at 2. cbn [fst snd].
  pose proof (g_array_push a ar b H) as S1. destruct (array_push ar b) as [[w ar'] b']. cbn [snd] in S1. apply IH, g_primitive, S1.
Qed.
Lemma g_pairs l : forall a d b, grows a b -> grows a (snd (fold_left (fun db e => dict_pair (fst e) (snd e) db) l (d, b))).
Proof.
  induction l as [|[k p] l IH]; intros a d b H; [exact H|]. cbn [fold_left]. unfold dict_pair at 2. cbn [fst snd].
  pose proof (g_dict_insert a k d b H) as S1. destruct (dict_insert k d b) as [[w d'] b']. cbn [snd] in S1. apply IH, g_primitive, S1.
Qed.

Lemma g_step c s s' : api_step c s = Some s' -> grows (snd s) (snd s').
Proof.
  destruct s as [st b]. cbn [snd]. pose proof (g_refl b) as R.
  pose proof (fun a => g_array_push b a b R) as AP. pose proof (fun k d => g_dict_insert b k d b R) as DI.
  destruct c; destruct st as [|[w|a|d|data d] st]; cbn [api_step]; try discriminate.
  - intro E. apply some_inj in E. rewrite <- E. apply g_primitive, R.
  - pose proof (g_array_start b w b R) as S1. destruct (array_start w b) as [a b1]. intro E. apply some_inj in E. rewrite <- E. exact S1.
  - pose proof (g_dict_start b w b R) as S1. destruct (dict_start w b) as [a b1]. intro E. apply some_inj in E. rewrite <- E. exact S1.
  - specialize (AP a). destruct (array_push a b) as [[w' a'] b1]. intro E. apply some_inj in E. rewrite <- E. exact AP.
  - unfold array_item. cbn [fst snd]. specialize (AP a). destruct (array_push a b) as [[w' a'] b1]. intro E. apply some_inj in E. rewrite <- E.
    apply g_primitive, AP.
  - pose proof (g_items l b a b R) as S1. destruct (fold_left _ l (a, b)) as [a' b1]. intro E. apply some_inj in E. rewrite <- E. exact S1.
  - specialize (DI key d). destruct (dict_insert key d b) as [[w' a'] b1]. intro E. apply some_inj in E. rewrite <- E. exact DI.
  - specialize (DI key d). destruct (dict_insert key d b) as [[w' a'] b1]. intro E. apply some_inj in E. rewrite <- E. exact DI.
  - unfold dict_pair. cbn [fst snd]. specialize (DI key d). destruct (dict_insert key d b) as [[w' a'] b1]. intro E. apply some_inj in E. rewrite <- E.
    apply g_primitive, DI.
  - unfold dict_pair. cbn [fst snd]. specialize (DI key d). destruct (dict_insert key d b) as [[w' a'] b1]. intro E. apply some_inj in E. rewrite <- E.
    apply g_primitive, DI.
  - pose proof (g_pairs l b d b R) as S1. destruct (fold_left _ l (d, b)) as [a' b1]. intro E. apply some_inj in E. rewrite <- E. exact S1.
  - pose proof (g_pairs l b d b R) as S1. destruct (fold_left _ l (d, b)) as [a' b1]. intro E. apply some_inj in E. rewrite <- E. exact S1.
  - intro E. apply some_inj in E. rewrite <- E. apply g_array_drop, R.
  - intro E. apply some_inj in E. rewrite <- E. apply g_dict_drop, R.
  - intro E. apply some_inj in E. rewrite <- E. apply g_stream_drop, R.
  - intro E. apply some_inj in E. rewrite <- E. exact R.
Qed.

(** Any calls on any writers, also with shorthands and with objects that are left unused: what is in the buffer stays there. *)
Theorem C106_writers : forall cs s s', api_run cs s = Some s' -> kept (inner (snd s)) (inner (snd s')).
Proof.
  induction cs as [|c cs IH]; intros s s' E; cbn [api_run] in E; [apply some_inj in E; rewrite E; apply kept_refl|].
  destruct (api_step c s) as [s1|] eqn:E1; [|discriminate E]. eapply kept_trans; [exact (g_step _ _ _ E1)|exact (IH _ _ E)].
Qed.
(** The same if writers are forgotten, and when all that are open are dropped at the end. *)
Theorem C106_leaked_writers : forall cs s s', leak_run cs s = Some s' -> kept (inner (snd s)) (inner (snd s')).
Proof.
  induction cs as [|c cs IH]; intros s s' E; cbn [leak_run] in E; [apply some_inj in E; rewrite E; apply kept_refl|].
  destruct (leak_step c s) as [s1|] eqn:E1; [|discriminate E]. eapply kept_trans; [|exact (IH _ _ E)].
  destruct c as [c|]; cbn [leak_step] in E1; [exact (g_step _ _ _ E1)|]. destruct s as [[|w st] b]; [discriminate E1|].
  apply some_inj in E1. rewrite <- E1. apply kept_refl.
Qed.
Theorem C106_unwinding : forall st b, kept (inner b) (inner (unwind st b)).
Proof.
  induction st as [|[w|a|d|data d] st IH]; intro b; cbn [unwind]; [apply kept_refl|apply IH| | |];
    (eapply kept_trans; [|apply IH]); [apply g_array_drop|apply g_dict_drop|apply g_stream_drop]; apply g_refl.
Qed.

(** ** Whole objects and copies *)
Lemma g_obj a o w b : grows a b -> grows a (write_obj o w b).
Proof. intro H. unfold grows. rewrite write_obj_inner. eapply kept_trans; [exact H|apply kept_app]. Qed.
Lemma g_entries l : forall a d b, grows a b -> grows a (snd (write_entries l d b)).
Proof.
  induction l as [|[k v] l IH]; intros a d b H; [exact H|]. cbn [write_entries].
  pose proof (g_dict_insert a k d b H) as S1. destruct (dict_insert k d b) as [[w d'] b']. cbn [snd] in S1. apply IH, g_obj, S1.
Qed.
Lemma g_stream a w es data b b' : grows a b -> write_stream w es data b = Some b' -> grows a b'.
Proof.
  intros H E. unfold write_stream in E. destruct (stream_start w data b) as [[d b1]|] eqn:ES; [|discriminate E].
  pose proof (g_entries es a d b1 (g_stream_start _ _ _ _ _ _ H ES)) as S1. destruct (write_entries es d b1) as [d' b2]. cbn [snd] in S1.
  apply some_inj in E. rewrite <- E. apply g_stream_drop, S1.
Qed.
Lemma g_indirect a id p b : grows a b -> grows a (snd (obj_indirect id p b)).
Proof. intro H. apply g_ext, g_int, H. Qed.

Section Copies.
  Context {T : Type}.
  Lemma g_patch (f : T -> Z -> Z * T) fuel slice : forall seen written a b t b' t', grows a b ->
    patch_loop f fuel slice seen written b t = Some (b', t') -> grows a b'.
  Proof.
    induction fuel as [|fuel IH]; intros seen written a b t b' t' H E; [discriminate E|]. cbn [patch_loop] in E.
    assert (Last : match slice_get slice written (length slice) with Some x => Some (extend x b, t) | None => None end = Some (b', t') -> grows a b').
    { clear E. destruct (slice_get slice written (length slice)) as [x|]; [|discriminate]. intro E. apply some_inj in E.
      assert (b' = extend x b) as -> by congruence. apply g_ext, H. }
    destruct (nth_error slice seen) as [c|]; [|exact (Last E)].
    destruct (beq c x52); [|destruct (beq c x25); [|destruct (beq c x28); [|destruct (_ && validate_stream (firstn seen slice))]]].
    - destruct (validate_ref _) as [[[head id] gen]|]; [|exact (IH _ _ _ _ _ _ _ H E)].
      destruct (f t id) as [new t1]. destruct (slice_get slice written head) as [x|]; [|discriminate E].
      refine (IH _ _ _ _ _ _ _ _ E). do 2 apply g_push. apply g_int, g_push, g_int, g_ext, H.
    - exact (IH _ _ _ _ _ _ _ H E).
    - exact (IH _ _ _ _ _ _ _ H E).
    - exact (Last E).
    - exact (IH _ _ _ _ _ _ _ H E).
  Qed.
  Lemma g_renumber (f : T -> Z -> Z * T) src offsets pretty : forall a b oa offs t b' offs' t', grows a b -> kept oa offs ->
    renumber_loop f src offsets pretty b offs t = Some (b', offs', t') -> grows a b' /\ kept oa offs'.
  Proof.
    induction offsets as [|[id off] l IH]; intros a b oa offs t b' offs' t' H K E; cbn [renumber_loop] in E.
    - apply some_inj in E. assert (b' = b) as -> by congruence. assert (offs' = offs) as -> by congruence. auto.
    - destruct (f t id) as [new t1]. destruct (slice_get _ _ _) as [slice|]; [|discriminate E].
      destruct (extract_object slice) as [[gen sl]|]; [|exact (IH _ _ _ _ _ _ _ _ H K E)].
      unfold patch_object in E. cbn zeta in E. destruct (patch_loop _ _ _ _ _ _ _) as [[b1 t2]|] eqn:EP; [|discriminate E].
      assert (G : grows a b1). { eapply g_patch; [|exact EP]. apply g_ext, g_int, g_push, g_int, H. }
      refine (IH _ _ _ _ _ _ _ _ _ _ E); [|eapply kept_trans; [exact K|apply kept_app]].
      apply g_if; [apply g_ext|]; apply g_ext, G.
  Qed.
  Lemma g_caught_patch (f : T -> Z -> option (Z * T)) fuel slice : forall seen written a b t b' t', grows a b ->
    caught_patch_loop f fuel slice seen written b t = Some (b', t') -> grows a b'.
  Proof.
    induction fuel as [|fuel IH]; intros seen written a b t b' t' H E; [discriminate E|]. cbn [caught_patch_loop] in E.
    assert (Last : match slice_get slice written (length slice) with Some x => Some (extend x b, Some t) | None => None end = Some (b', t') -> grows a b').
    { clear E. destruct (slice_get slice written (length slice)) as [x|]; [|discriminate]. intro E. apply some_inj in E.
      assert (b' = extend x b) as -> by congruence. apply g_ext, H. }
    destruct (nth_error slice seen) as [c|]; [|exact (Last E)].
    destruct (beq c x52); [|destruct (beq c x25); [|destruct (beq c x28); [|destruct (_ && validate_stream (firstn seen slice))]]].
    - destruct (validate_ref _) as [[[head id] gen]|]; [|exact (IH _ _ _ _ _ _ _ H E)].
      destruct (f t id) as [[new t1]|]; [|apply some_inj in E; assert (b' = b) as -> by congruence; exact H].
      destruct (slice_get slice written head) as [x|]; [|discriminate E].
      refine (IH _ _ _ _ _ _ _ _ E). do 2 apply g_push. apply g_int, g_push, g_int, g_ext, H.
    - exact (IH _ _ _ _ _ _ _ H E).
    - exact (IH _ _ _ _ _ _ _ H E).
    - exact (Last E).
    - exact (IH _ _ _ _ _ _ _ H E).
  Qed.
  Lemma g_caught_renumber (f : T -> Z -> option (Z * T)) src offsets pretty : forall a b oa offs t b' offs' t', grows a b -> kept oa offs ->
    caught_renumber_loop f src offsets pretty b offs t = Some (b', offs', t') -> grows a b' /\ kept oa offs'.
  Proof.
    induction offsets as [|[id off] l IH]; intros a b oa offs t b' offs' t' H K E; cbn [caught_renumber_loop] in E.
    - apply some_inj in E. assert (b' = b) as -> by congruence. assert (offs' = offs) as -> by congruence. auto.
    - destruct (f t id) as [[new t1]|]; [|apply some_inj in E; assert (b' = b) as -> by congruence; assert (offs' = offs) as -> by congruence; auto].
      destruct (slice_get _ _ _) as [slice|]; [|discriminate E].
      destruct (extract_object slice) as [[gen sl]|]; [|exact (IH _ _ _ _ _ _ _ _ H K E)].
      cbn zeta in E. destruct (caught_patch_loop _ _ _ _ _ _ _) as [[b1 t2]|] eqn:EP; [|discriminate E].
      assert (G : grows a b1). { eapply g_caught_patch; [|exact EP]. apply g_ext, g_int, g_push, g_int, H. }
      assert (K2 : kept oa (offs ++ [(new, blen (inner b))])) by (eapply kept_trans; [exact K|apply kept_app]).
      destruct t2 as [t2|].
      + refine (IH _ _ _ _ _ _ _ _ _ K2 E). apply g_if; [apply g_ext|]; apply g_ext, G.
      + apply some_inj in E. assert (b' = b1) as -> by congruence. assert (offs' = offs ++ [(new, blen (inner b))]) as -> by congruence. auto.
  Qed.
End Copies.

(** ** Chunks *)
Definition chunk_kept (c c' : chunk) : Prop := kept (chunk_bytes c) (chunk_bytes c') /\ kept (c_offsets c) (c_offsets c').
Lemma ck_refl c : chunk_kept c c. Proof. split; apply kept_refl. Qed.
Lemma ck_trans a b c : chunk_kept a b -> chunk_kept b c -> chunk_kept a c.
Proof. intros [A B] [C D]. split; eapply kept_trans; eassumption. Qed.

Lemma ck_object id o c : chunk_kept c (chunk_object id o c).
Proof.
  unfold chunk_object, chunk_indirect. pose proof (g_indirect (c_buf c) id (c_pretty c) (c_buf c) (g_refl _)) as G.
  destruct (obj_indirect id (c_pretty c) (c_buf c)) as [w b]. cbn [snd c_buf c_offsets c_pretty] in *.
  split; [exact (g_obj _ o w b G)|apply kept_app].
Qed.
Lemma ck_stream id es data c c' : chunk_stream id es data c = Some c' -> chunk_kept c c'.
Proof.
  unfold chunk_stream, chunk_indirect. pose proof (g_indirect (c_buf c) id (c_pretty c) (c_buf c) (g_refl _)) as G.
  destruct (obj_indirect id (c_pretty c) (c_buf c)) as [w b]. cbn [snd c_buf c_offsets c_pretty] in *.
  destruct (write_stream w es data b) as [b'|] eqn:E; [|discriminate]. intro E'. apply some_inj in E'. rewrite <- E'.
  split; [exact (g_stream _ _ _ _ _ _ G E)|apply kept_app].
Qed.
Lemma ck_extend o c : chunk_kept c (chunk_extend o c).
Proof. split; apply kept_app. Qed.
Lemma ck_merge l c : chunk_kept c (chunk_merge_limits l c).
Proof. split; apply kept_refl. Qed.
Lemma ck_renumber {T} (f : T -> Z -> Z * T) src c t r : chunk_renumber_into f src c t = Some r -> chunk_kept c (fst r).
Proof.
  unfold chunk_renumber_into. destruct (renumber_loop _ _ _ _ _ _ _) as [[[b offs] t']|] eqn:E; [|discriminate]. intro H. apply some_inj in H. rewrite <- H.
  refine (g_renumber f _ _ _ (c_buf c) _ _ _ _ _ _ _ _ (kept_refl _) E); apply g_lims, g_refl.
Qed.
Lemma ck_caught_renumber {T} (f : T -> Z -> option (Z * T)) src c t r : caught_renumber_into f src c t = Some r -> chunk_kept c (fst r).
Proof.
  unfold caught_renumber_into. destruct (caught_renumber_loop _ _ _ _ _ _ _) as [[[b offs] t']|] eqn:E; [|discriminate]. intro H. apply some_inj in H. rewrite <- H.
  refine (g_caught_renumber f _ _ _ (c_buf c) _ _ _ _ _ _ _ _ (kept_refl _) E); apply g_lims, g_refl.
Qed.
Lemma ck_leaked_object id cs c c' : leaked_object id cs c = Some c' -> chunk_kept c c'.
Proof.
  unfold leaked_object, chunk_indirect. pose proof (g_indirect (c_buf c) id (c_pretty c) (c_buf c) (g_refl _)) as G.
  destruct (obj_indirect id (c_pretty c) (c_buf c)) as [w b]. cbn [snd c_buf c_offsets c_pretty] in *.
  destruct (leak_run cs ([WObj w], b)) as [[st b']|] eqn:E; [|discriminate]. intro E'. apply some_inj in E'. rewrite <- E'.
  split; [|apply kept_app]. eapply kept_trans; [exact G|]. eapply kept_trans; [exact (C106_leaked_writers _ _ _ E)|apply C106_unwinding].
Qed.
Lemma ck_leaked_stream id data cs c c' : leaked_stream id data cs c = Some c' -> chunk_kept c c'.
Proof.
  unfold leaked_stream, chunk_indirect. pose proof (g_indirect (c_buf c) id (c_pretty c) (c_buf c) (g_refl _)) as G.
  destruct (obj_indirect id (c_pretty c) (c_buf c)) as [w b]. cbn [snd c_buf c_offsets c_pretty] in *.
  destruct (stream_start w data b) as [[d b1]|] eqn:ES.
  - destruct (leak_run cs ([WStream data d], b1)) as [[st b']|] eqn:E; [|discriminate]. intro E'. apply some_inj in E'. rewrite <- E'.
    split; [|apply kept_app]. eapply kept_trans; [exact (g_stream_start _ _ _ _ _ _ G ES)|]. eapply kept_trans; [exact (C106_leaked_writers _ _ _ E)|apply C106_unwinding].
  - pose proof (g_dict_start _ w b G) as S1. destruct (dict_start w b) as [d b1]. cbn [snd] in S1. intro E'. apply some_inj in E'. rewrite <- E'.
    split; [|apply kept_app]. exact (g_dict_drop _ d b1 S1).
Qed.

(** Whatever is done with a chunk later, its bytes stay at the front, and the objects already in it keep their numbers and positions. *)
Theorem C106_chunks : forall h h' c c', continues h h' -> run h = Some c -> run h' = Some c' ->
  kept (chunk_bytes c) (chunk_bytes c') /\ kept (c_offsets c) (c_offsets c') /\ kept (chunk_refs c) (chunk_refs c') /\ chunk_len c <= chunk_len c'.
Proof.
  intros h h' c c' K R R'. assert (G : chunk_kept c c').
  { revert c' R'. induction K as [h|h h' id o K IH|h h' id es data K IH|h h' other K IH|h h' l K IH|h h' source T f s K IH]; intros c' R'.
    - rewrite R in R'. apply some_inj in R'. rewrite R'. apply ck_refl.
    - cbn [run] in R'. destruct (run h') as [c1|]; [|discriminate R']. cbn [option_map] in R'. apply some_inj in R'. rewrite <- R'.
      eapply ck_trans; [apply IH; [exact R|reflexivity]|apply ck_object].
    - cbn [run] in R'. destruct (run h') as [c1|]; [|discriminate R'].
      eapply ck_trans; [apply IH; [exact R|reflexivity]|exact (ck_stream _ _ _ _ _ R')].
    - cbn [run] in R'. destruct (run h') as [c1|]; [|discriminate R']. destruct (run other) as [o|]; [|discriminate R']. apply some_inj in R'. rewrite <- R'.
      eapply ck_trans; [apply IH; [exact R|reflexivity]|apply ck_extend].
    - cbn [run] in R'. destruct (run h') as [c1|]; [|discriminate R']. cbn [option_map] in R'. apply some_inj in R'. rewrite <- R'.
      eapply ck_trans; [apply IH; [exact R|reflexivity]|apply ck_merge].
    - cbn [run] in R'. destruct (run h') as [c1|]; [|discriminate R']. destruct (run source) as [o|]; [|discriminate R'].
      destruct (chunk_renumber_into f o c1 s) as [r|] eqn:E; [|discriminate R']. cbn [option_map] in R'. apply some_inj in R'. rewrite <- R'.
      eapply ck_trans; [apply IH; [exact R|reflexivity]|exact (ck_renumber _ _ _ _ _ E)]. }
  destruct G as [A [m B]]. split; [exact A|]. split; [exists m; exact B|]. split.
  - exists (map fst m). unfold chunk_refs. rewrite B. apply map_app.
  - destruct A as [x A]. unfold chunk_len. rewrite A, blen_app. pose proof (blen_nonneg x). lia.
Qed.
(** The same if writers are leaked, objects left unused, and panics caught. *)
Theorem C106_leaked_chunks : forall h h' c c', leak_continues h h' -> leak_hist_run h = Some c -> leak_hist_run h' = Some c' ->
  kept (chunk_bytes c) (chunk_bytes c') /\ kept (c_offsets c) (c_offsets c') /\ kept (chunk_refs c) (chunk_refs c') /\ chunk_len c <= chunk_len c'.
Proof.
  intros h h' c c' K R R'. assert (G : chunk_kept c c').
  { revert c' R'. induction K as [h|h h' id cs K IH|h h' id data cs K IH|h h' other K IH|h h' l K IH|h h' source T f s K IH]; intros c' R'.
    - rewrite R in R'. apply some_inj in R'. rewrite R'. apply ck_refl.
    - cbn [leak_hist_run] in R'. destruct (leak_hist_run h') as [c1|]; [|discriminate R'].
      eapply ck_trans; [apply IH; [exact R|reflexivity]|exact (ck_leaked_object _ _ _ _ R')].
    - cbn [leak_hist_run] in R'. destruct (leak_hist_run h') as [c1|]; [|discriminate R'].
      eapply ck_trans; [apply IH; [exact R|reflexivity]|exact (ck_leaked_stream _ _ _ _ _ R')].
    - cbn [leak_hist_run] in R'. destruct (leak_hist_run h') as [c1|]; [|discriminate R']. destruct (leak_hist_run other) as [o|]; [|discriminate R'].
      apply some_inj in R'. rewrite <- R'. eapply ck_trans; [apply IH; [exact R|reflexivity]|apply ck_extend].
    - cbn [leak_hist_run] in R'. destruct (leak_hist_run h') as [c1|]; [|discriminate R']. cbn [option_map] in R'. apply some_inj in R'. rewrite <- R'.
      eapply ck_trans; [apply IH; [exact R|reflexivity]|apply ck_merge].
    - cbn [leak_hist_run] in R'. destruct (leak_hist_run h') as [c1|]; [|discriminate R']. destruct (leak_hist_run source) as [o|]; [|discriminate R'].
      destruct (caught_renumber_into f o c1 s) as [r|] eqn:E; [|discriminate R']. cbn [option_map] in R'. apply some_inj in R'. rewrite <- R'.
      eapply ck_trans; [apply IH; [exact R|reflexivity]|exact (ck_caught_renumber _ _ _ _ _ E)]. }
  destruct G as [A [m B]]. split; [exact A|]. split; [exists m; exact B|]. split.
  - exists (map fst m). unfold chunk_refs. rewrite B. apply map_app.
  - destruct A as [x A]. unfold chunk_len. rewrite A, blen_app. pose proof (blen_nonneg x). lia.
Qed.

(** ** Documents *)
Lemma splice_from new s n : blen new = n -> forall i, 0 <= i -> i + n <= 16 -> 16 <= blen s -> kept_from 16 s (splice (Z.to_nat i) new s).
Proof.
  intros L i I J B. unfold splice. exists (firstn 16 s), (firstn (Z.to_nat i) s ++ new ++ skipn (Z.to_nat i + length new) (firstn 16 s)), (skipn 16 s), [].
  unfold blen in L. assert (N : length new = Z.to_nat n) by lia. assert (S16 : (16 <= length s)%nat) by (unfold blen in B; lia).
  split; [unfold blen; rewrite firstn_length; lia|]. split; [unfold blen; rewrite !app_length, skipn_length, !firstn_length; lia|].
  split; [symmetry; apply firstn_skipn|]. rewrite app_nil_r, <- !app_assoc. do 2 f_equal.
  rewrite <- (firstn_skipn 16 s) at 1. rewrite skipn_app. f_equal.
  replace (Z.to_nat i + length new - length (firstn 16 s))%nat with O by (rewrite firstn_length; lia). reflexivity.
Qed.

Definition doc_kept (p p' : pdf) : Prop := kept_from 16 (pdf_bytes p) (pdf_bytes p') /\ kept (c_offsets (p_chunk p)) (c_offsets (p_chunk p')).
Lemma dk_trans a b c : doc_kept a b -> doc_kept b c -> doc_kept a c.
Proof. intros [A B] [C D]. split; [eapply from_trans|eapply kept_trans]; eassumption. Qed.
Lemma dk_chunk p p' : 16 <= blen (pdf_bytes p) -> chunk_kept (p_chunk p) (p_chunk p') -> doc_kept p p'.
Proof. intros L [A B]. split; [apply of_kept; [lia|exact A]|exact B]. Qed.
Lemma dk_refl p : 16 <= blen (pdf_bytes p) -> doc_kept p p.
Proof. intro L. apply dk_chunk; [exact L|apply ck_refl]. Qed.
Lemma dk_splice i new n p : blen new = n -> 0 <= i -> i + n <= 16 -> 16 <= blen (pdf_bytes p) -> doc_kept p (on_chunk (splice_buf (Z.to_nat i) new) p).
Proof. intros. split; [eapply splice_from; eassumption|apply kept_refl]. Qed.
Lemma dk_version M N p : 16 <= blen (pdf_bytes p) -> doc_kept p (set_version M N p).
Proof.
  intro L. unfold set_version.
  assert (A : doc_kept p (if M <? 10 then on_chunk (splice_buf 5 [zb (48 + M)]) p else p)).
  { destruct (M <? 10); [|apply dk_refl, L]. apply (dk_splice 5 [zb (48 + M)] 1); [reflexivity|lia|lia|exact L]. }
  destruct (N <? 10); [|exact A]. eapply dk_trans; [exact A|]. apply (dk_splice 7 [zb (48 + N)] 1); [reflexivity|lia|lia|].
  destruct A as [A _]. apply (from_blen _ _ _ A).
Qed.
Lemma dk_marker m p : 16 <= blen (pdf_bytes p) -> doc_kept p (set_binary_marker m p).
Proof. intro L. destruct m as [[[a b] c] d]. apply (dk_splice 10 [a; b; c; d] 4); [reflexivity|lia|lia|exact L]. Qed.

Lemma step_chunk op p p' : edits_header op = false -> pdf_step op p = Some p' -> chunk_kept (p_chunk p) (p_chunk p').
Proof.
  destruct op; cbn [edits_header pdf_step]; try discriminate; intros _ E.
  - apply some_inj in E. rewrite <- E. apply ck_object.
  - destruct (chunk_stream _ _ _ _) as [c|] eqn:EC; [|discriminate E]. cbn [option_map] in E. apply some_inj in E. rewrite <- E. exact (ck_stream _ _ _ _ _ EC).
  - destruct (run other) as [o|]; [|discriminate E]. cbn [option_map] in E. apply some_inj in E. rewrite <- E. apply ck_extend.
  - apply some_inj in E. rewrite <- E. apply ck_merge.
  - destruct (run source) as [o|]; [|discriminate E]. destruct (chunk_renumber_into _ _ _ _) as [r|] eqn:EC; [|discriminate E].
    cbn [option_map] in E. apply some_inj in E. rewrite <- E. exact (ck_renumber _ _ _ _ _ EC).
  - apply some_inj in E. rewrite <- E. apply ck_object.
  - apply some_inj in E. rewrite <- E. apply ck_object.
  - apply some_inj in E. rewrite <- E. apply ck_refl.
Qed.
Lemma step_doc op p p' : 16 <= blen (pdf_bytes p) -> pdf_step op p = Some p' -> doc_kept p p'.
Proof.
  intros L E. destruct (edits_header op) eqn:H; [|apply dk_chunk; [exact L|exact (step_chunk _ _ _ H E)]].
  destruct op; try discriminate H; cbn [pdf_step] in E; apply some_inj in E; rewrite <- E; [apply dk_version|apply dk_marker]; exact L.
Qed.
Lemma leak_step_chunk op p p' : leak_edits_header op = false -> leak_pdf_step op p = Some p' -> chunk_kept (p_chunk p) (p_chunk p').
Proof.
  destruct op; cbn [leak_edits_header leak_pdf_step]; try discriminate; intros _ E; unfold on_chunk_opt in E; cbn [p_chunk] in E.
  - destruct (leaked_object _ _ _) as [c|] eqn:EC; [|discriminate E]. cbn [option_map] in E. apply some_inj in E. rewrite <- E. exact (ck_leaked_object _ _ _ _ EC).
  - destruct (leaked_stream _ _ _ _) as [c|] eqn:EC; [|discriminate E]. cbn [option_map] in E. apply some_inj in E. rewrite <- E. exact (ck_leaked_stream _ _ _ _ _ EC).
  - destruct (leak_hist_run other) as [o|]; [|discriminate E]. cbn [option_map] in E. apply some_inj in E. rewrite <- E. apply ck_extend.
  - apply some_inj in E. rewrite <- E. apply ck_merge.
  - destruct (leak_hist_run source) as [o|]; [|discriminate E]. destruct (caught_renumber_into _ _ _ _) as [r|] eqn:EC; [|discriminate E].
    cbn [option_map] in E. apply some_inj in E. rewrite <- E. exact (ck_caught_renumber _ _ _ _ _ EC).
  - destruct (leaked_object _ _ _) as [c|] eqn:EC; [|discriminate E]. cbn [option_map] in E. apply some_inj in E. rewrite <- E. exact (ck_leaked_object _ _ _ _ EC).
  - destruct (leaked_object _ _ _) as [c|] eqn:EC; [|discriminate E]. cbn [option_map] in E. apply some_inj in E. rewrite <- E. exact (ck_leaked_object _ _ _ _ EC).
  - apply some_inj in E. rewrite <- E. apply ck_refl.
Qed.
Lemma leak_step_doc op p p' : 16 <= blen (pdf_bytes p) -> leak_pdf_step op p = Some p' -> doc_kept p p'.
Proof.
  intros L E. destruct (leak_edits_header op) eqn:H; [|apply dk_chunk; [exact L|exact (leak_step_chunk _ _ _ H E)]].
  destruct op; try discriminate H; cbn [leak_pdf_step] in E; apply some_inj in E; rewrite <- E; [apply dk_version|apply dk_marker]; exact L.
Qed.
Lemma run_doc ops : forall p p', 16 <= blen (pdf_bytes p) -> pdf_run ops p = Some p' -> doc_kept p p'.
Proof.
  induction ops as [|op ops IH]; intros p p' L E; cbn [pdf_run] in E; [apply some_inj in E; rewrite <- E; apply dk_refl, L|].
  destruct (pdf_step op p) as [p1|] eqn:E1; [|discriminate E]. pose proof (step_doc _ _ _ L E1) as K.
  eapply dk_trans; [exact K|]. apply IH; [destruct K as [K _]; exact (from_blen _ _ _ K)|exact E].
Qed.
Lemma leak_run_doc ops : forall p p', 16 <= blen (pdf_bytes p) -> leak_pdf_run ops p = Some p' -> doc_kept p p'.
Proof.
  induction ops as [|op ops IH]; intros p p' L E; cbn [leak_pdf_run] in E; [apply some_inj in E; rewrite <- E; apply dk_refl, L|].
  destruct (leak_pdf_step op p) as [p1|] eqn:E1; [|discriminate E]. pose proof (leak_step_doc _ _ _ L E1) as K.
  eapply dk_trans; [exact K|]. apply IH; [destruct K as [K _]; exact (from_blen _ _ _ K)|exact E].
Qed.
Lemma run_chunk ops : forallb (fun op => negb (edits_header op)) ops = true -> forall p p', pdf_run ops p = Some p' -> chunk_kept (p_chunk p) (p_chunk p').
Proof.
  induction ops as [|op ops IH]; intros H p p' E; cbn [pdf_run] in E; [apply some_inj in E; rewrite <- E; apply ck_refl|].
  cbn [forallb] in H. apply andb_true_iff in H. destruct H as [H1 H2]. destruct (pdf_step op p) as [p1|] eqn:E1; [|discriminate E].
  eapply ck_trans; [exact (step_chunk _ _ _ (proj1 (negb_true_iff _) H1) E1)|exact (IH H2 _ _ E)].
Qed.
Lemma new_length pretty : blen (pdf_bytes (pdf_with_settings pretty)) = 16.
Proof. reflexivity. Qed.

(** Finishing adds to the end, with either kind of cross-reference section and any filter. *)
Lemma trailer_kept a b off pad : grows a b -> kept (inner a) (finish_trailer b off pad).
Proof. intro H. exact (g_ext a _ _ (g_ext a _ _ (g_ext a _ _ (g_ext a pad b H)))). Qed.
Lemma finish_kept p file : finish p = Some file -> kept (pdf_bytes p) file.
Proof.
  unfold finish. cbn zeta. destruct (write_offsets _) as [[n es]|]; [|discriminate]. intro E. apply some_inj in E. rewrite <- E.
  apply (trailer_kept (c_buf (p_chunk p))). apply g_obj. do 2 apply g_ext. apply g_push, g_int, g_ext, g_refl.
Qed.
Lemma finish_stream_kept p xid filt file : finish_stream_inner p xid filt = Some file -> kept (pdf_bytes p) file.
Proof.
  unfold finish_stream_inner. cbn zeta. destruct (write_offsets _) as [[n es]|]; [|discriminate].
  destruct (filt _) as [data flt]. pose proof (g_indirect (c_buf (p_chunk p)) xid (c_pretty (p_chunk p)) (c_buf (p_chunk p)) (g_refl _)) as G.
  destruct (obj_indirect xid _ _) as [w b]. cbn [snd] in G. destruct (write_stream w _ data b) as [b'|] eqn:ES; [|discriminate].
  intro E. apply some_inj in E. rewrite <- E. apply (trailer_kept (c_buf (p_chunk p))). exact (g_stream _ _ _ _ _ _ G ES).
Qed.
Theorem C106_finish : forall p file,
  (finish p = Some file \/ (exists xref_id, finish_with_xref_stream p xref_id = Some file) \/
   (exists xref_id filter, finish_with_xref_stream_and_filter p xref_id filter = Some file)) ->
  kept (pdf_bytes p) file.
Proof.
  intros p file [E|[[xid E]|[xid [filt E]]]]; [exact (finish_kept _ _ E)|exact (finish_stream_kept _ _ _ _ E)|exact (finish_stream_kept _ _ _ _ E)].
Qed.

(** Whatever is done with a document later: everything after the first two lines stays where it is, and so do these lines unless the version or the
    marker is set; objects keep their numbers and positions. *)
Theorem C106_documents : forall before later pretty p p',
  pdf_run before (pdf_with_settings pretty) = Some p -> pdf_run later p = Some p' ->
  kept_from 16 (pdf_bytes p) (pdf_bytes p') /\
  (forallb (fun op => negb (edits_header op)) later = true -> kept (pdf_bytes p) (pdf_bytes p')) /\
  kept (c_offsets (p_chunk p)) (c_offsets (p_chunk p')) /\
  (forall file, finish p' = Some file -> kept_from 16 (pdf_bytes p) file).
Proof.
  intros before later pretty p p' E E'. pose proof (run_doc _ _ _ ltac:(rewrite new_length; lia) E) as [K0 _]. apply from_blen in K0.
  pose proof (run_doc _ _ _ K0 E') as [K O]. split; [exact K|]. split; [intro H; apply (run_chunk later H _ _ E')|]. split; [exact O|].
  intros file F. eapply from_kept; [exact K|exact (finish_kept _ _ F)].
Qed.
Theorem C106_leaked_documents : forall before later pretty p p',
  leak_pdf_run before (pdf_with_settings pretty) = Some p -> leak_pdf_run later p = Some p' ->
  kept_from 16 (pdf_bytes p) (pdf_bytes p') /\ kept (c_offsets (p_chunk p)) (c_offsets (p_chunk p')) /\
  (forall file, finish p' = Some file -> kept_from 16 (pdf_bytes p) file).
Proof.
  intros before later pretty p p' E E'. pose proof (leak_run_doc _ _ _ ltac:(rewrite new_length; lia) E) as [K0 _]. apply from_blen in K0.
  pose proof (leak_run_doc _ _ _ K0 E') as [K O]. split; [exact K|]. split; [exact O|].
  intros file F. eapply from_kept; [exact K|exact (finish_kept _ _ F)].
Qed.

(** Every object can be read from its position as soon as it is complete, and the same is read there at any later time and in the finished file. *)
Theorem C106_read_at_once : forall before later pretty p p' file it,
  ops_typed before -> pdf_run before (pdf_with_settings pretty) = Some p -> pdf_run later p = Some p' ->
  (file = pdf_bytes p' \/ finish p' = Some file \/ exists xref_id, finish_with_xref_stream p' xref_id = Some file) ->
  In it (pdf_items before) -> forallb (fun it => body_readable (snd it)) (pdf_items before) = true ->
  exists off i rest rest', In (fst it, off) (c_offsets (p_chunk p)) /\
    parse_indirect (from (pdf_bytes p) off) = Some (i, rest) /\ parse_indirect (from file off) = Some (i, rest') /\ item_means it i.
Proof.
  intros before later pretty p p' file it HT E E' F I A.
  pose proof (run_doc _ _ _ ltac:(rewrite new_length; lia) E) as [K0 _]. apply from_blen in K0.
  assert (K : kept_from 16 (pdf_bytes p) file).
  { eapply from_kept; [exact (proj1 (run_doc _ _ _ K0 E'))|]. destruct F as [->|[F|[xid F]]]; [apply kept_refl|exact (finish_kept _ _ F)|exact (finish_stream_kept _ _ _ _ F)]. }
  destruct (reach _ _ _ HT E) as (k & M & ((Hb & O) & _) & Fit).
  pose proof (all_good k _ M Fit ltac:(apply Forall_forall; apply forallb_forall; exact A)) as GO.
  assert (B : pdf_bytes p = header_of before ++ layout k ++ []) by (unfold pdf_bytes; rewrite Hb, app_nil_r; reflexivity).
  destruct K as (h & h' & body & more & L & L' & E1 & E2).
  assert (LH : blen (header_of before) = blen h) by (rewrite header_of_length, L; reflexivity).
  rewrite B in E1. destruct (cut_heads _ _ _ _ E1 LH) as [<- <-].
  rewrite <- M in I. apply in_map_iff in I. destruct I as (pl & <- & I). apply in_split in I. destruct I as (a & b & EK).
  set (off := 16 + blen (layout a)).
  assert (X : In (off, item_val (pl_item pl)) (combine (offsets 16 k) (map (fun pl => item_val (pl_item pl)) k))).
  { rewrite EK. clear. assert (G : forall base, In (base + blen (layout a), item_val (pl_item pl)) (combine (offsets base (a ++ pl :: b)) (map (fun pl => item_val (pl_item pl)) (a ++ pl :: b)))).
    { induction a as [|q a IH]; intro base; [left; cbn [app offsets offs map snd combine layout flat_map fst]; f_equal; change (blen []) with 0; lia|]. right. cbn [layout flat_map]. fold (layout a). rewrite blen_app.
      replace (base + (blen (placed_bytes q) + blen (layout a))) with (base + blen (placed_bytes q) + blen (layout a)) by lia. apply IH. }
    apply G. }
  destruct (placed_at k (header_of before) [] 16 _ ltac:(rewrite header_of_length; reflexivity) GO X) as [r R].
  destruct (placed_at k h' more 16 _ (eq_sym L') GO X) as [r' R']. cbn [fst snd] in R, R'.
  exists off, (item_val (pl_item pl)), r, r'. split; [|split; [rewrite B; exact R|split; [rewrite E2, app_nil_r; exact R'|]]].
  - rewrite O, L, EK, offs_app. apply in_or_app. right. left. unfold off. reflexivity.
  - rewrite forallb_forall in GO. specialize (GO pl ltac:(rewrite EK; apply in_or_app; right; left; reflexivity)). apply andb_true_iff in GO.
    destruct GO as [GO _]. apply item_val_means, GO.
Qed.

(** ** Contents *)
Lemma g_open_operand a pretty first b : grows a b -> grows a (snd (open_operand pretty first b)).
Proof.
  intro H. unfold open_operand. destruct pretty; [|exact H]. cbn [snd]. destruct (inner b); [exact H|apply g_push, H].
Qed.
Lemma g_op_drop a pretty first o b : grows a b -> grows a (op_drop pretty first o b).
Proof. intro H. unfold op_drop. apply g_ext. apply g_if; [apply g_push|]; exact H. Qed.
Lemma g_operand a pretty first o b : grows a b -> grows a (op_operand pretty first o b).
Proof.
  intro H. unfold op_operand. destruct pretty; apply g_obj; [|exact H]. destruct (inner b); [exact H|apply g_push, H].
Qed.
Lemma g_operands pretty l : forall a first b, grows a b -> grows a (snd (op_operands pretty first l b)).
Proof. induction l as [|o l IH]; intros a first b H; [exact H|]. cbn [op_operands]. apply IH, g_operand, H. Qed.
Lemma g_primitives pretty l : forall a s, grows a (snd s) -> grows a (snd (fold_left (fun s p => operand_primitive pretty p s) l s)).
Proof.
  induction l as [|p l IH]; intros a s H; [exact H|]. cbn [fold_left]. apply IH. unfold operand_primitive.
  pose proof (g_open_operand a pretty (fst s) (snd s) H) as S1. destruct (open_operand pretty (fst s) (snd s)) as [w b]. cbn [snd] in *. apply g_primitive, S1.
Qed.
Lemma g_op_run pretty ocs : forall a s r, grows a (snd s) -> op_run pretty ocs s = Some r -> grows a (snd r).
Proof.
  induction ocs as [|oc ocs IH]; intros a s r H E; cbn [op_run] in E; [apply some_inj in E; rewrite <- E; exact H|].
  destruct oc as [p|l|cs].
  - refine (IH _ _ _ _ E). exact (g_primitives pretty [p] a s H).
  - refine (IH _ _ _ _ E). apply g_primitives, H.
  - pose proof (g_open_operand a pretty (fst s) (snd s) H) as S1. destruct (open_operand pretty (fst s) (snd s)) as [w b]. cbn [snd] in S1.
    destruct (api_run cs ([WObj w], b)) as [[st b']|] eqn:EA; [|discriminate E].
    assert (S2 : grows a b') by (eapply g_trans; [exact S1|exact (C106_writers _ _ _ EA)]).
    destruct st as [|x st].
    + refine (IH _ (false, b') _ S2 E).
    + destruct ocs; [|discriminate E]. apply some_inj in E. rewrite <- E. exact S2.
Qed.
Lemma content_step_kept call c c' : content_step call c = Some c' -> kept (content_bytes c) (content_bytes c').
Proof.
  unfold content_step. destruct (call_allowed call); [|discriminate]. destruct (call_op call) as [l o]. unfold write_op.
  pose proof (g_operands (ct_pretty c) l (ct_buf c) true (ct_buf c) (g_refl _)) as G. destruct (op_operands _ _ _ _) as [first b]. cbn [snd] in G.
  intro E. apply some_inj in E. rewrite <- E. exact (g_op_drop _ _ _ _ _ G).
Qed.

(** Contents: no call changes what is there, whether it is a method, an operation written call by call, or one that is cut short by a panic; finishing
    takes away at most one line end from the end. *)
Theorem C106_contents : forall ops c c', content_op_run ops c = Some c' ->
  kept (content_bytes c) (content_bytes c') /\
  (content_bytes c' = inner (content_finish c') \/ content_bytes c' = inner (content_finish c') ++ [x0a]).
Proof.
  intros ops c c' E. split.
  - revert c E. induction ops as [|op ops IH]; intros c E; cbn [content_op_run] in E; [apply some_inj in E; rewrite E; apply kept_refl|].
    destruct (content_op_step op c) as [c1|] eqn:E1; [|discriminate E]. eapply kept_trans; [|exact (IH _ E)].
    destruct op as [call|o ocs]; cbn [content_op_step] in E1.
    + apply some_inj in E1. rewrite <- E1. destruct (content_step call c) as [c2|] eqn:E2; [exact (content_step_kept _ _ _ E2)|apply kept_refl].
    + unfold op_scope in E1. destruct (op_run _ _ _) as [[[first st] b]|] eqn:ER; [|discriminate E1]. apply some_inj in E1. rewrite <- E1.
      apply (g_op_drop (ct_buf c)). eapply g_trans; [exact (g_op_run _ _ (ct_buf c) (true, ct_buf c) _ (g_refl _) ER)|apply C106_unwinding].
  - unfold content_finish. destruct (last_byte (content_bytes c')) as [x|] eqn:EL; [|left; reflexivity].
    destruct (byte_eq_dec x x0a) as [->|N]; [|left; destruct x; try reflexivity; contradiction N; reflexivity].
    right. cbn [inner]. apply last_byte_some in EL. destruct EL as [t EL]. unfold content_bytes in *. rewrite EL, removelast_last. reflexivity.
Qed.

(** ** Concrete cases *)
Example C106_case :
  let before := [PdfObject 1 (OArray [OPrim (PInt 7)]); PdfStream 2 [] (lit "data")] in
  let later := [PdfVersion 2 0; PdfObject 3 (OPrim PNull); PdfCatalog 4 []] in
  ops_typed before /\ forallb (fun it => body_readable (snd it)) (pdf_items before) = true /\
  option_map (fun p => (blen (pdf_bytes p), c_offsets (p_chunk p))) (pdf_run before (pdf_with_settings false)) = Some (86, [(1, 16); (2, 35)]) /\
  option_map (fun p => (blen (pdf_bytes p), c_offsets (p_chunk p))) (pdf_run (before ++ later) (pdf_with_settings false)) = Some (139, [(1, 16); (2, 35); (3, 86); (4, 106)]) /\
  continues (HObject (HNew true) 1 (OPrim PNull)) (HMerge (HObject (HObject (HNew true) 1 (OPrim PNull)) 2 (OPrim PNull)) limits0) /\
  option_map content_bytes (content_op_run [OpMethod CSaveState] content_new) = Some (lit "q") /\
  option_map content_bytes (content_op_run [OpMethod CSaveState; OpScope (lit "m") [OcObj [CArray; CItem (PInt 1)]]] content_new) = Some (lit "q" ++ [x0a] ++ lit "[1] m").
Proof.
  cbv zeta. split; [|split; [reflexivity|split; [vm_compute; reflexivity|split; [vm_compute; reflexivity|split; [do 3 constructor|split; vm_compute; reflexivity]]]]].
  constructor; [|constructor; [|constructor]]; split; vm_compute; reflexivity.
Qed.

Print Assumptions C106_writers.
Print Assumptions C106_leaked_writers.
Print Assumptions C106_unwinding.
Print Assumptions C106_chunks.
Print Assumptions C106_leaked_chunks.
Print Assumptions C106_finish.
Print Assumptions C106_documents.
Print Assumptions C106_leaked_documents.
Print Assumptions C106_read_at_once.
Print Assumptions C106_contents.
