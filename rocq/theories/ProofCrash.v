(** Proofs: panics that are caught. *)

From Coq Require Import ZArith List Lia Bool ZifyBool.
From Verif Require Import Bytes ModelFloat ModelBuf ModelObject ModelRenumber ModelChunk ModelApi ModelPdf ModelCrash SpecLex SpecObj SpecMeans
  SpecRenum SpecChunk SpecApi SpecPdf SpecFile SpecCrash ProofBasic ProofObj ProofParse ProofTree ProofRenum ProofRenumTree ProofChunk ProofApi ProofChunk2 ProofPdf PropChunk.
Import ListNotations.
Local Open Scope Z_scope.

Lemma some_eq {A} (a b : A) : Some a = Some b -> a = b.
Proof. congruence. Qed.

(** ** Unwinding is dropping *)

Lemma drops_unwind n : forall st b b', api_run (repeat CDrop n) (st, b) = Some ([], b') -> b' = unwind st b.
Proof.
  induction n as [|n IH]; intros st b b' H.
  - cbn [repeat api_run] in H. apply some_eq in H. injection H as -> ->. reflexivity.
  - cbn [repeat api_run] in H. destruct st as [|[w|a|d|data d] st]; cbn [api_step] in H; try discriminate; apply (IH st _ _ H).
Qed.
Definition no_obj (st : list writer) : Prop := Forall (fun w => match w with WObj _ => False | _ => True end) st.
Lemma unwind_drops st : no_obj st -> forall b, api_run (repeat CDrop (length st)) (st, b) = Some ([], unwind st b).
Proof.
  induction 1 as [|w st H F IH]; intro b; [reflexivity|]. cbn [length repeat api_run].
  destruct w as [w|a|d|data d]; [destruct H| | |]; cbn [api_step unwind]; apply IH.
Qed.
Lemma opened_below root b0 st cs b : opened root b0 st cs b -> no_obj (tl st).
Proof.
  induction 1 as [w R|data d es d' b R W|w st cs b l a a' b1 b2 H IH A W|w st cs b l d d' b1 b2 H IH A W|a st cs b w a' b' H IH P|d st cs b k w d' b' H IH P|data d st cs b k w d' b' H IH P];
    cbn [tl] in *; try constructor; try exact IH; exact Logic.I.
Qed.

Lemma run_plain_reached root b0 st0 cs st b : opened root b0 st0 [] b0 -> consumed cs -> api_run cs (st0, b0) = Some (st, b) -> reached root b0 st (expanded cs) b.
Proof.
  intros O C E. apply run_expanded in E. pose proof (run_reached root b0 _ (expanded_plain cs C) _ _ _ _ _ O E) as R. exact R.
Qed.

Lemma close_up root b0 w st cs b : reached root b0 (w :: st) cs b -> match w with WObj _ => False | _ => True end ->
  done root b0 (cs ++ repeat CDrop (S (length st))) (unwind (w :: st) b).
Proof.
  intros R N. cbn [reached] in R. pose proof (opened_below _ _ _ _ _ R) as B. cbn [tl] in B.
  assert (F : no_obj (w :: st)) by (constructor; assumption).
  pose proof (unwind_drops _ F b) as U.
  assert (P : Forall plain (repeat CDrop (length (w :: st)))) by (apply Forall_forall; intros c I; apply repeat_spec in I; subst c; exact Logic.I).
  exact (run_reached root b0 _ P _ _ _ _ _ R U).
Qed.
Lemma open_top root b0 w st cs b : opened root b0 (WObj w :: st) cs b ->
  (cs = [] /\ root = WObj w) \/ (exists before, cs = before ++ [CPush]) \/ (exists before k, cs = before ++ [CInsert k]).
Proof.
  intro H. inversion H; subst; [left; split; reflexivity| | |]; right; [left|right|right]; repeat eexists.
Qed.

(** ** Writing only appends *)

Definition grows (b b' : buf) : Prop := exists j, inner b' = inner b ++ j.
(** ... and by at least one byte. *)
Definition grown (b b' : buf) : Prop := exists j, inner b' = inner b ++ j /\ 0 < blen j.
Lemma grown_trans a b c : grown a b -> grows b c -> grown a c.
Proof.
  intros (j & J & L) (k & K). exists (j ++ k). rewrite K, J, <- app_assoc. split; [reflexivity|]. rewrite blen_app. pose proof (blen_nonneg k). lia.
Qed.
Lemma grown_grows a b c : grows a b -> grown b c -> grown a c.
Proof.
  intros (j & J) (k & K & L). exists (j ++ k). rewrite K, J, <- app_assoc. split; [reflexivity|]. rewrite blen_app. pose proof (blen_nonneg j). lia.
Qed.
Lemma grown_push c b : grown b (push c b).
Proof. exists [c]. split; reflexivity. Qed.
Lemma grows_refl b : grows b b.
Proof. exists []. rewrite app_nil_r. reflexivity. Qed.
Lemma grows_trans a b c : grows a b -> grows b c -> grows a c.
Proof. intros (j & J) (k & K). exists (j ++ k). rewrite K, J, <- app_assoc. reflexivity. Qed.
Lemma grows_extend t b : grows b (extend t b).
Proof. exists t. apply inner_extend. Qed.
Lemma grows_with f b : grows b (with_limits f b).
Proof. exists []. rewrite inner_with, app_nil_r. reflexivity. Qed.
Lemma grows_push c b : grows b (push c b).
Proof. exists [c]. reflexivity. Qed.
Lemma grows_int n b : grows b (push_int n b).
Proof. unfold push_int. eapply grows_trans; [apply grows_with|apply grows_extend]. Qed.
Lemma grows_endobj i p b : grows b (endobj i p b).
Proof. unfold endobj. destruct i; [|apply grows_refl]. destruct p; [eapply grows_trans; apply grows_extend|apply grows_extend]. Qed.
Lemma grows_pushes n c : forall b, grows b (Nat.iter n (push c) b).
Proof. induction n as [|n IH]; intro b; [apply grows_refl|]. cbn. eapply grows_trans; [apply IH|apply grows_push]. Qed.
Lemma grows_primitive w p b : grows b (obj_primitive w p b).
Proof. eexists. apply obj_primitive_inner. Qed.
Lemma grows_obj o w b : grows b (write_obj o w b).
Proof. eexists. apply write_obj_inner. Qed.
Lemma grows_name k b : grows b (write_name k b).
Proof. eapply (grows_trans b (write_prim (PName k) b)); [|apply grows_refl]. eexists. apply write_prim_inner. Qed.
Lemma grows_array_push a b w a' b' : array_push a b = (w, a', b') -> grows b b'.
Proof. unfold array_push. destruct (negb _); [destruct (a_pretty a)|]; intro E; injection E as <- <- <-; try apply grows_refl; apply grows_push. Qed.
Lemma grows_insert k d b w d' b' : dict_insert k d b = (w, d', b') -> grows b b'.
Proof.
  unfold dict_insert. cbn [d_pretty d_indent]. destruct (d_pretty d); intro E; injection E as <- <- <-.
  - eapply grows_trans; [apply grows_push|]. eapply grows_trans; [apply grows_extend|]. eapply grows_trans; [apply grows_name|apply grows_push].
  - apply grows_name.
Qed.
Lemma grows_array_drop a b : grows b (array_drop a b).
Proof. unfold array_drop. eapply grows_trans; [apply grows_with|]. eapply grows_trans; [apply grows_push|apply grows_endobj]. Qed.
Lemma grows_dict_drop d b : grows b (dict_drop d b).
Proof.
  unfold dict_drop. eapply grows_trans; [apply grows_with|]. destruct (_ && _).
  - eapply grows_trans; [apply grows_push|]. eapply grows_trans; [apply grows_extend|]. eapply grows_trans; [apply grows_extend|apply grows_endobj].
  - eapply grows_trans; [apply grows_extend|apply grows_endobj].
Qed.
Lemma grows_stream_drop data d b : grows b (stream_drop data d b).
Proof.
  unfold stream_drop. destruct (d_pretty d); repeat (first [apply grows_refl | eapply grows_trans; [|apply grows_extend]]); apply grows_with.
Qed.
Lemma grows_items l : forall a b a' b', fold_left (fun ab p => array_item p ab) l (a, b) = (a', b') -> grows b b'.
Proof.
  induction l as [|p l IH]; intros a b a' b' E; cbn [fold_left] in E; [injection E as <- <-; apply grows_refl|].
  unfold array_item at 2 in E. cbn [fst snd] in E. destruct (array_push a b) as [[w a1] b1] eqn:P.
  eapply grows_trans; [exact (grows_array_push _ _ _ _ _ P)|]. eapply grows_trans; [apply grows_primitive|]. exact (IH _ _ _ _ E).
Qed.
Lemma grows_pairs l : forall d b d' b', fold_left (fun db e => dict_pair (fst e) (snd e) db) l (d, b) = (d', b') -> grows b b'.
Proof.
  induction l as [|[k p] l IH]; intros d b d' b' E; cbn [fold_left fst snd] in E; [injection E as <- <-; apply grows_refl|].
  unfold dict_pair at 2 in E. cbn [fst snd] in E. destruct (dict_insert k d b) as [[w d1] b1] eqn:P.
  eapply grows_trans; [exact (grows_insert _ _ _ _ _ _ P)|]. eapply grows_trans; [apply grows_primitive|]. exact (IH _ _ _ _ E).
Qed.
Lemma grows_plain c st b st' b' : plain c -> api_step c (st, b) = Some (st', b') -> grows b b'.
Proof.
  intros P E. destruct c as [p| | | |p|l|k|k p|l| |]; cbn [plain] in P; try contradiction;
    destruct st as [|[w|a|d|data d] st]; cbn [api_step] in E; try discriminate.
  - injection E as <- <-. apply grows_primitive.
  - unfold array_start in E. injection E as <- <-. apply grows_push.
  - unfold dict_start in E. injection E as <- <-. apply grows_extend.
  - destruct (array_push a b) as [[w a'] b1] eqn:A. injection E as <- <-. exact (grows_array_push _ _ _ _ _ A).
  - destruct (dict_insert k d b) as [[w d'] b1] eqn:A. injection E as <- <-. exact (grows_insert _ _ _ _ _ _ A).
  - destruct (dict_insert k d b) as [[w d'] b1] eqn:A. injection E as <- <-. exact (grows_insert _ _ _ _ _ _ A).
  - injection E as <- <-. apply grows_array_drop.
  - injection E as <- <-. apply grows_dict_drop.
  - injection E as <- <-. apply grows_stream_drop.
Qed.
Lemma grows_run cs : Forall plain cs -> forall st b st' b', api_run cs (st, b) = Some (st', b') -> grows b b'.
Proof.
  induction 1 as [|c cs P F IH]; intros st b st' b' E; cbn [api_run] in E.
  - injection E as <- <-. apply grows_refl.
  - destruct (api_step c (st, b)) as [[st1 b1]|] eqn:S; [|discriminate].
    eapply grows_trans; [exact (grows_plain _ _ _ _ _ P S)|exact (IH _ _ _ _ E)].
Qed.
Lemma grows_unwind st : forall b, grows b (unwind st b).
Proof.
  induction st as [|[w|a|d|data d] st IH]; intro b; cbn [unwind]; [apply grows_refl|apply IH| | |];
    (eapply grows_trans; [|apply IH]); [apply grows_array_drop|apply grows_dict_drop|apply grows_stream_drop].
Qed.

(** ** Segments of a buffer *)

Inductive seg := SItem (pl : placed) | SJunk (id : Z) (bs : bytes).
Definition seg_id (s : seg) : Z := match s with SItem pl => fst (pl_item pl) | SJunk id _ => id end.
Definition seg_bytes (s : seg) : bytes := match s with SItem pl => placed_bytes pl | SJunk _ bs => bs end.
Definition segs_bytes (l : list seg) : bytes := flat_map seg_bytes l.
Fixpoint seg_offs (base : Z) (l : list seg) : list (Z * Z) :=
  match l with [] => [] | s :: r => (seg_id s, base) :: seg_offs (base + blen (seg_bytes s)) r end.
Definition seg_items (l : list seg) : list item := flat_map (fun s => match s with SItem pl => [pl_item pl] | SJunk _ _ => [] end) l.
Definition seg_damaged (l : list seg) : list Z := flat_map (fun s => match s with SItem _ => [] | SJunk id _ => [id] end) l.
Definition solid (l : list seg) : Prop := Forall (fun s => 0 < blen (seg_bytes s)) l.
Lemma solid_item pl : solid [SItem pl].
Proof. constructor; [apply placed_ne|constructor]. Qed.
Lemma solid_app a b : solid a -> solid b -> solid (a ++ b).
Proof. intros A B. apply Forall_app. split; assumption. Qed.
Definition shows (pfx : bytes) (l : list seg) (c : chunk) : Prop :=
  chunk_bytes c = pfx ++ segs_bytes l /\ c_offsets c = seg_offs (blen pfx) l.

Lemma segs_bytes_app a b : segs_bytes (a ++ b) = segs_bytes a ++ segs_bytes b.
Proof. apply flat_map_app. Qed.
Lemma seg_items_app a b : seg_items (a ++ b) = seg_items a ++ seg_items b.
Proof. apply flat_map_app. Qed.
Lemma seg_damaged_app a b : seg_damaged (a ++ b) = seg_damaged a ++ seg_damaged b.
Proof. apply flat_map_app. Qed.
Lemma seg_offs_app a b : forall base, seg_offs base (a ++ b) = seg_offs base a ++ seg_offs (base + blen (segs_bytes a)) b.
Proof.
  induction a as [|s a IH]; intro base; cbn [app seg_offs].
  - cbn [segs_bytes flat_map]. rewrite blen_nil, Z.add_0_r. reflexivity.
  - rewrite IH. cbn [segs_bytes flat_map]. rewrite blen_app. f_equal. f_equal. f_equal. unfold segs_bytes. lia.
Qed.
Lemma seg_offs_shift l k : forall base, map (fun e => (fst e, k + snd e)) (seg_offs base l) = seg_offs (k + base) l.
Proof. induction l as [|s l IH]; intro base; [reflexivity|]. cbn [seg_offs map fst snd]. rewrite IH. f_equal. f_equal. lia. Qed.
Lemma seg_offs_ids l : forall base, map fst (seg_offs base l) = map seg_id l.
Proof. induction l as [|s l IH]; intro base; [reflexivity|]. cbn [seg_offs map fst]. rewrite IH. reflexivity. Qed.

Lemma shows_app pfx l k c c' : shows pfx l c -> chunk_bytes c' = chunk_bytes c ++ segs_bytes k ->
  c_offsets c' = c_offsets c ++ seg_offs (chunk_len c) k -> shows pfx (l ++ k) c'.
Proof.
  intros [B O] B' O'. split.
  - rewrite B', B, segs_bytes_app, <- app_assoc. reflexivity.
  - rewrite O', O, seg_offs_app. f_equal. f_equal. unfold chunk_len. rewrite B, blen_app. reflexivity.
Qed.

Lemma object_appends c id o : chunk_bytes (chunk_object id o c) = chunk_bytes c ++ segs_bytes [SItem (mkPl (c_pretty c) (c_pretty c) (id, BObj o))] /\
  c_offsets (chunk_object id o c) = c_offsets c ++ seg_offs (chunk_len c) [SItem (mkPl (c_pretty c) (c_pretty c) (id, BObj o))].
Proof.
  assert (H : holds (chunk_bytes c) [] (mkChunk (c_buf c) [] (c_pretty c))) by (split; [symmetry; apply app_nil_r|reflexivity]).
  destruct (object_holds _ _ _ id o H) as [[B _] _]. split; [exact B|reflexivity].
Qed.
Lemma stream_appends c id es data c' : chunk_stream id es data c = Some c' ->
  chunk_bytes c' = chunk_bytes c ++ segs_bytes [SItem (mkPl (c_pretty c) (c_pretty c) (id, BStream es data))] /\
  c_offsets c' = c_offsets c ++ seg_offs (chunk_len c) [SItem (mkPl (c_pretty c) (c_pretty c) (id, BStream es data))] /\ c_pretty c' = c_pretty c.
Proof.
  intro E. assert (H : holds (chunk_bytes c) [] (mkChunk (c_buf c) [] (c_pretty c))) by (split; [symmetry; apply app_nil_r|reflexivity]).
  unfold chunk_stream in E. cbn [chunk_indirect] in E. unfold chunk_indirect in E.
  destruct (obj_indirect id (c_pretty c) (c_buf c)) as [w b] eqn:I. cbn [c_buf c_offsets c_pretty] in E.
  destruct (write_stream w es data b) as [b'|] eqn:W; [|discriminate]. apply some_eq in E. subst c'.
  assert (E' : chunk_stream id es data (mkChunk (c_buf c) [] (c_pretty c)) = Some (mkChunk b' ([] ++ [(id, chunk_len c)]) (c_pretty c))).
  { unfold chunk_stream, chunk_indirect. cbn [c_buf c_offsets c_pretty]. rewrite I. cbn [c_buf c_offsets c_pretty]. rewrite W. reflexivity. }
  destruct (stream_holds _ _ _ id es data _ H E') as [[B _] _]. split; [exact B|]. split; reflexivity.
Qed.
Lemma junk_appends c id w c1 b : chunk_indirect id c = (w, c1) -> grows (c_buf c1) b ->
  exists j, chunk_bytes (mkChunk b (c_offsets c1) (c_pretty c1)) = chunk_bytes c ++ segs_bytes [SJunk id j] /\
    c_offsets (mkChunk b (c_offsets c1) (c_pretty c1)) = c_offsets c ++ seg_offs (chunk_len c) [SJunk id j] /\ c_pretty c1 = c_pretty c /\ solid [SJunk id j].
Proof.
  unfold chunk_indirect. destruct (obj_indirect id (c_pretty c) (c_buf c)) as [w1 b1] eqn:O. intros E (j & G). injection E as <- <-. cbn [c_buf c_offsets c_pretty] in *.
  assert (G2 : grown (c_buf c) b1).
  { unfold obj_indirect in O. injection O as _ <-. eapply grown_grows; [apply grows_int|]. eexists. split; [apply inner_extend|reflexivity]. }
  destruct G2 as (j2 & G2 & G3). exists (j2 ++ j). unfold chunk_bytes. cbn [c_buf segs_bytes flat_map seg_bytes seg_offs seg_id].
  rewrite G, G2, app_nil_r, <- app_assoc. split; [reflexivity|]. split; [reflexivity|]. split; [reflexivity|]. constructor; [|constructor].
  cbn [seg_bytes]. rewrite blen_app. pose proof (blen_nonneg j). lia.
Qed.

(** ** Objects and streams that were cut short *)

Lemma object_total id cs c c' : consumed cs -> caught_object id cs c = Some c' -> exists a d, object_left id cs a d.
Proof.
  intros C E. unfold caught_object in E. destruct (chunk_indirect id c) as [w c1].
  destruct (api_run cs ([WObj w], c_buf c1)) as [[st b]|] eqn:R; [|discriminate].
  pose proof (run_plain_reached (WObj w) (c_buf c1) [WObj w] cs st b (Op_obj _ _ w eq_refl) C R) as Q.
  destruct st as [|x st].
  - cbn [reached] in Q. unfold done in Q. destruct Q as (o & Eo & _). exists [(id, BObj o)], []. apply OL_tree. exists 0%nat. cbn [repeat]. rewrite app_nil_r. exact Eo.
  - destruct x as [w'|a|d|data d].
    + exists [], [id]. apply OL_open. cbn [reached] in Q. apply open_top in Q. destruct Q as [[Q _]|[Q|Q]]; [left; exact Q|right; left; exact Q|right; right; exact Q].
    + pose proof (close_up _ _ _ _ _ _ Q Logic.I) as D. unfold done in D. destruct D as (o & Eo & _). eexists. eexists. apply OL_tree. eexists. exact Eo.
    + pose proof (close_up _ _ _ _ _ _ Q Logic.I) as D. unfold done in D. destruct D as (o & Eo & _). eexists. eexists. apply OL_tree. eexists. exact Eo.
    + pose proof (close_up _ _ _ _ _ _ Q Logic.I) as D. unfold done in D. destruct D as (o & Eo & _). eexists. eexists. apply OL_tree. eexists. exact Eo.
Qed.

Lemma object_same id cs c c' o : caught_object id cs c = Some c' -> tree_so_far cs o -> c' = chunk_object id o c.
Proof.
  intros E (n & T). unfold caught_object in E. unfold chunk_object. destruct (chunk_indirect id c) as [w c1].
  destruct (api_run cs ([WObj w], c_buf c1)) as [[st b]|] eqn:R; [|discriminate]. apply run_expanded in R.
  apply some_eq in E. subst c'. pose proof (run_calls o w [] (c_buf c1)) as Q. rewrite <- T, api_run_app, R in Q.
  apply drops_unwind in Q. rewrite Q. reflexivity.
Qed.

Lemma object_segs id cs c c' a d : consumed cs -> caught_object id cs c = Some c' -> object_left id cs a d ->
  exists k, chunk_bytes c' = chunk_bytes c ++ segs_bytes k /\ c_offsets c' = c_offsets c ++ seg_offs (chunk_len c) k /\ c_pretty c' = c_pretty c /\
    seg_items k = a /\ seg_damaged k = d /\ forallb (fun it => body_fits (snd it)) a = true /\ solid k.
Proof.
  intros C E L. destruct L as [o T|O].
  - rewrite (object_same _ _ _ _ _ E T). destruct (object_appends c id o) as [B F]. eexists. split; [exact B|]. split; [exact F|].
    split; [reflexivity|]. split; [reflexivity|]. split; [reflexivity|]. split; [reflexivity|apply solid_item].
  - unfold caught_object in E. destruct (chunk_indirect id c) as [w c1] eqn:I.
    destruct (api_run cs ([WObj w], c_buf c1)) as [[st b]|] eqn:R; [|discriminate]. apply run_expanded in R.
    apply some_eq in E. subst c'.
    destruct (junk_appends c id w c1 (unwind st b) I) as (j & B & F & P & SO).
    { eapply grows_trans; [exact (grows_run _ (expanded_plain cs C) _ _ _ _ R)|apply grows_unwind]. }
    exists [SJunk id j]. split; [exact B|]. split; [exact F|]. split; [exact P|]. split; [reflexivity|]. split; [reflexivity|]. split; [reflexivity|exact SO].
Qed.

Lemma stream_total id data cs c c' : consumed cs -> caught_stream id data cs c = Some c' -> exists a d, stream_left id data cs a d.
Proof.
  intros C E. destruct (Z_le_gt_dec (blen data) i32_max) as [L|L]; [|eexists; eexists; apply SL_too_long; lia].
  unfold caught_stream in E. destruct (chunk_indirect id c) as [w c1].
  destruct (stream_start w data (c_buf c1)) as [[d0 b0]|] eqn:S.
  2:{ exfalso. unfold stream_start, dict_start in S. destruct (Z.leb_spec (blen data) i32_max); [|lia].
      destruct (dict_insert _ _ _) as [[? ?] ?]. discriminate. }
  destruct (api_run cs ([WStream data d0], b0)) as [[st b]|] eqn:R; [|discriminate].
  pose proof (run_plain_reached (WStream data d0) b0 [WStream data d0] cs st b (Op_stream _ _ data d0 [] d0 b0 eq_refl eq_refl) C R) as Q.
  destruct st as [|x st].
  - cbn [reached] in Q. unfold done in Q. destruct Q as (es & d' & b' & _ & Eo & _). eexists. eexists. apply SL_stream; [exact L|].
    exists 0%nat. cbn [repeat]. rewrite app_nil_r. exact Eo.
  - destruct x as [w'|a|d|data' d].
    + exists [], [id]. apply SL_open; [exact L|]. cbn [reached] in Q. apply open_top in Q. destruct Q as [[_ Q]|[Q|Q]]; [discriminate|left; exact Q|right; exact Q].
    + pose proof (close_up _ _ _ _ _ _ Q Logic.I) as D. unfold done in D. destruct D as (es & d' & b' & _ & Eo & _). eexists. eexists. apply SL_stream; [exact L|]. eexists. exact Eo.
    + pose proof (close_up _ _ _ _ _ _ Q Logic.I) as D. unfold done in D. destruct D as (es & d' & b' & _ & Eo & _). eexists. eexists. apply SL_stream; [exact L|]. eexists. exact Eo.
    + pose proof (close_up _ _ _ _ _ _ Q Logic.I) as D. unfold done in D. destruct D as (es & d' & b' & _ & Eo & _). eexists. eexists. apply SL_stream; [exact L|]. eexists. exact Eo.
Qed.

Lemma stream_same id data cs c c' es : caught_stream id data cs c = Some c' -> blen data <= i32_max -> entries_so_far cs es -> chunk_stream id es data c = Some c'.
Proof.
  intros E L (n & T). unfold caught_stream in E. unfold chunk_stream, write_stream. destruct (chunk_indirect id c) as [w c1].
  destruct (stream_start w data (c_buf c1)) as [[d0 b0]|] eqn:S.
  2:{ exfalso. unfold stream_start, dict_start in S. destruct (Z.leb_spec (blen data) i32_max); [|lia].
      destruct (dict_insert _ _ _) as [[? ?] ?]. discriminate. }
  destruct (api_run cs ([WStream data d0], b0)) as [[st b]|] eqn:R; [|discriminate]. apply run_expanded in R.
  apply some_eq in E. subst c'. pose proof (run_inserts es data [] d0 b0) as Q.
  assert (Q2 : api_run (inserts es ++ [CDrop]) ([WStream data d0], b0) = let '(d, b) := write_entries es d0 b0 in Some ([], stream_drop data d b)).
  { rewrite api_run_app, Q. destruct (write_entries es d0 b0) as [d b1]. reflexivity. }
  rewrite <- T, api_run_app, R in Q2. destruct (write_entries es d0 b0) as [d b1]. apply drops_unwind in Q2. rewrite Q2. reflexivity.
Qed.
Lemma stream_too_long id data cs c c' : caught_stream id data cs c = Some c' -> i32_max < blen data -> c' = chunk_object id (ODict []) c.
Proof.
  intros E L. unfold caught_stream in E. unfold chunk_object. destruct (chunk_indirect id c) as [w c1].
  destruct (stream_start w data (c_buf c1)) as [[d0 b0]|] eqn:S.
  - exfalso. unfold stream_start, dict_start in S. destruct (Z.leb_spec (blen data) i32_max); [lia|discriminate].
  - rewrite write_dict. destruct (dict_start w (c_buf c1)) as [d b]. cbn [write_entries]. apply some_eq in E. subst c'. reflexivity.
Qed.
Lemma stream_segs id data cs c c' a d : consumed cs -> caught_stream id data cs c = Some c' -> stream_left id data cs a d ->
  exists k, chunk_bytes c' = chunk_bytes c ++ segs_bytes k /\ c_offsets c' = c_offsets c ++ seg_offs (chunk_len c) k /\ c_pretty c' = c_pretty c /\
    seg_items k = a /\ seg_damaged k = d /\ forallb (fun it => body_fits (snd it)) a = true /\ solid k.
Proof.
  intros C E L. destruct L as [es L T|L O|L].
  - pose proof (stream_same _ _ _ _ _ _ E L T) as Q. destruct (stream_appends _ _ _ _ _ Q) as (B & F & P). eexists. split; [exact B|]. split; [exact F|].
    split; [exact P|]. split; [reflexivity|]. split; [reflexivity|]. cbn [forallb snd body_fits]. split; [|apply solid_item]. apply andb_true_iff. split; [apply Z.leb_le; exact L|reflexivity].
  - unfold caught_stream in E. destruct (chunk_indirect id c) as [w c1] eqn:I.
    destruct (stream_start w data (c_buf c1)) as [[d0 b0]|] eqn:S.
    2:{ exfalso. unfold stream_start, dict_start in S. destruct (Z.leb_spec (blen data) i32_max); [|lia].
        destruct (dict_insert _ _ _) as [[? ?] ?]. discriminate. }
    destruct (api_run cs ([WStream data d0], b0)) as [[st b]|] eqn:R; [|discriminate]. apply run_expanded in R.
    apply some_eq in E. subst c'.
    destruct (junk_appends c id w c1 (unwind st b) I) as (j & B & F & P & SO).
    { eapply grows_trans; [|eapply grows_trans; [exact (grows_run _ (expanded_plain cs C) _ _ _ _ R)|apply grows_unwind]].
      unfold stream_start, dict_start in S. destruct (blen data <=? i32_max); [|discriminate].
      destruct (dict_insert _ _ _) as [[w' d1] b1] eqn:D. apply some_eq in S. injection S as <- <-.
      eapply grows_trans; [apply grows_extend|]. eapply grows_trans; [exact (grows_insert _ _ _ _ _ _ D)|]. apply grows_primitive. }
    exists [SJunk id j]. split; [exact B|]. split; [exact F|]. split; [exact P|]. split; [reflexivity|]. split; [reflexivity|]. split; [reflexivity|exact SO].
  - rewrite (stream_too_long _ _ _ _ _ E L). destruct (object_appends c id (ODict [])) as [B F]. eexists. split; [exact B|]. split; [exact F|].
    split; [reflexivity|]. split; [reflexivity|]. split; [reflexivity|]. split; [reflexivity|apply solid_item].
Qed.

(** ** Closures that panic *)

Section Mapping.
  Context {T : Type} (f : T -> Z -> option (Z * T)).

  Lemma patch_lost fuel slice : forall seen written b b' r, patch_loop (answering f) fuel slice seen written b None = Some (b', r) -> r = None.
  Proof.
    induction fuel as [|fuel IH]; intros seen written b b' r E; cbn [patch_loop] in E; [discriminate|].
    destruct (nth_error slice seen) as [c|].
    2:{ destruct (slice_get _ _ _); [|discriminate]. congruence. }
    destruct (beq c x52).
    - destruct (validate_ref _) as [[[head id] gen]|]; [|exact (IH _ _ _ _ _ E)]. cbn [answering] in E.
      destruct (slice_get _ _ _); [|discriminate]. exact (IH _ _ _ _ _ E).
    - destruct (beq c x25); [exact (IH _ _ _ _ _ E)|]. destruct (beq c x28); [exact (IH _ _ _ _ _ E)|].
      destruct (_ && _ && _); [|exact (IH _ _ _ _ _ E)]. destruct (slice_get _ _ _); [|discriminate]. congruence.
  Qed.

  Lemma patch_caught fuel slice : forall seen written b s b' r, patch_loop (answering f) fuel slice seen written b (Some s) = Some (b', r) ->
    exists b2, caught_patch_loop f fuel slice seen written b s = Some (b2, r) /\ grows b b2 /\ (r <> None -> b2 = b').
  Proof.
    induction fuel as [|fuel IH]; intros seen written b s b' r E; cbn [patch_loop] in E; [discriminate|]. cbn [caught_patch_loop].
    destruct (nth_error slice seen) as [c|].
    2:{ destruct (slice_get _ _ _); [|discriminate]. apply some_eq in E. injection E as <- <-. eexists. split; [reflexivity|]. split; [apply grows_extend|reflexivity]. }
    destruct (beq c x52).
    - destruct (validate_ref _) as [[[head id] gen]|]; [|exact (IH _ _ _ _ _ _ E)]. cbn [answering] in E.
      destruct (f s id) as [[new s1]|].
      + destruct (slice_get _ _ _) as [t|]; [|discriminate]. destruct (IH _ _ _ _ _ _ E) as (b2 & E2 & G & K).
        exists b2. split; [exact E2|]. split; [|exact K]. eapply grows_trans; [|exact G].
        eapply grows_trans; [apply grows_extend|]. eapply grows_trans; [apply grows_int|]. eapply grows_trans; [apply grows_push|].
        eapply grows_trans; [apply grows_int|]. eapply grows_trans; [apply grows_push|apply grows_push].
      + destruct (slice_get _ _ _) as [t|]; [|discriminate]. apply patch_lost in E. subst r. exists b. split; [reflexivity|]. split; [apply grows_refl|congruence].
    - destruct (beq c x25); [exact (IH _ _ _ _ _ _ E)|]. destruct (beq c x28); [exact (IH _ _ _ _ _ _ E)|].
      destruct (_ && _ && _); [|exact (IH _ _ _ _ _ _ E)]. destruct (slice_get _ _ _); [|discriminate].
      apply some_eq in E. injection E as <- <-. eexists. split; [reflexivity|]. split; [apply grows_extend|reflexivity].
  Qed.

  Lemma loop_caught nl l : forall pfx b o s, forallb item_typed (map pl_item l) = true ->
    exists k b' r, caught_renumber_loop f (pfx ++ layout l) (offs (blen pfx) l) nl b o s = Some (b', o ++ seg_offs (blen (inner b)) k, r) /\
      inner b' = inner b ++ segs_bytes k /\ seg_items k = fst (copied f (map pl_item l) s) /\ seg_damaged k = snd (copied f (map pl_item l) s) /\ solid k.
  Proof.
    induction l as [|pl l IH]; intros pfx b o s Ht.
    - exists [], b, (Some s). cbn [offs caught_renumber_loop seg_offs segs_bytes flat_map]. rewrite !app_nil_r. repeat split. constructor.
    - cbn [map forallb] in Ht. apply andb_true_iff in Ht. destruct Ht as [T1 T2].
      destruct pl as [st nl0 [id bd]]. cbn [pl_item] in T1. unfold item_typed, id_ok in T1. cbn [fst snd] in T1.
      apply andb_true_iff in T1. destruct T1 as [Ti Tb]. apply andb_true_iff in Ti. destruct Ti as [Ti1 Ti2].
      apply Z.ltb_lt in Ti1. apply Z.leb_le in Ti2.
      cbn [offs caught_renumber_loop pl_item fst map copied snd].
      destruct (f s id) as [[new s1]|].
      2:{ exists [], b, None. cbn [seg_offs segs_bytes flat_map]. rewrite !app_nil_r. repeat split. constructor. }
      set (it := mkPl st nl0 (id, bd)).
      assert (Hstop : Z.to_nat (match offs (blen pfx + blen (placed_bytes it)) l with
                [] => blen (pfx ++ layout (it :: l)) | (_, o0) :: _ => o0 end) = (length pfx + length (placed_bytes it))%nat).
      { destruct l as [|pl2 l2]; cbn [offs].
        - cbn [layout flat_map]. rewrite app_nil_r, blen_app. unfold blen. lia.
        - unfold blen. lia. }
      rewrite Hstop. replace (Z.to_nat (blen pfx)) with (length pfx) by (unfold blen; lia).
      cbn [layout flat_map]. fold (layout l). rewrite (slice_head (fun (t : unit) z => (z, t))).
      unfold placed_bytes at 1, it. cbn [pl_style pl_nl pl_item].
      destruct (body_firm st bd Tb) as [F1 F2].
      rewrite (extract_item st nl0 id bd (conj Ti1 Ti2) F1 F2).
      set (b1 := extend (lit " obj" ++ [x0a]) _).
      pose proof (patch_body (answering f) st bd b1 (Some s1) Tb) as PB.
      destruct (map_body_st (answering f) bd (Some s1)) as [bd' r]. unfold patch_object in PB.
      destruct (patch_caught _ _ _ _ _ _ _ _ PB) as (b2 & E2 & G & K). rewrite E2.
      destruct r as [s2|].
      + rewrite (K ltac:(discriminate)). clear E2 G K b2.
        set (pl' := mkPl st nl (new, bd')).
        set (pfx' := pfx ++ placed_bytes it). fold it.
        replace (pfx ++ placed_bytes it ++ layout l) with (pfx' ++ layout l) by (unfold pfx'; rewrite <- app_assoc; reflexivity).
        replace (blen pfx + blen (placed_bytes it)) with (blen pfx') by (unfold pfx'; rewrite blen_app; reflexivity).
        match goal with |- context [caught_renumber_loop f _ _ nl ?BB _ _] => set (b3 := BB) end.
        assert (HBB : inner b3 = inner b ++ placed_bytes pl').
        { unfold b3, b1, put, push, push_int, extend, with_limits, pl', placed_bytes, item_bytes.
          destruct nl; cbn [inner lims pl_item pl_style pl_nl fst snd]; rewrite <- ?app_assoc, ?app_nil_r; reflexivity. }
        destruct (IH pfx' b3 (o ++ [(new, blen (inner b))]) s2 T2) as (k & b' & r & E & B & I & D & SO).
        exists (SItem pl' :: k), b', r. rewrite E. destruct (copied f (map pl_item l) s2) as [ca cd]. cbn [fst snd] in *.
        split; [|split; [|split; [|split]]].
        * rewrite <- app_assoc. cbn [app seg_offs seg_id pl_item fst seg_bytes]. rewrite HBB, blen_app. reflexivity.
        * rewrite B, HBB. cbn [segs_bytes flat_map seg_bytes]. rewrite <- app_assoc. reflexivity.
        * cbn [seg_items flat_map pl_item app]. fold (seg_items k). rewrite I. reflexivity.
        * cbn [seg_damaged flat_map app]. fold (seg_damaged k). exact D.
        * constructor; [apply placed_ne|exact SO].
      + assert (G' : grown b b2).
        { eapply grown_trans; [|exact G]. unfold b1. eapply grown_grows; [apply grows_int|]. eapply grown_trans; [apply grown_push|].
          eapply grows_trans; [apply grows_int|apply grows_extend]. }
        destruct G' as (j & G' & G2). exists [SJunk new j], b2, None. split; [reflexivity|]. cbn [segs_bytes flat_map seg_bytes fst snd]. rewrite app_nil_r.
        split; [exact G'|]. split; [reflexivity|]. split; [reflexivity|]. constructor; [exact G2|constructor].
  Qed.
End Mapping.

Lemma renumber_segs {T} (f : T -> Z -> option (Z * T)) pfx0 l src tgt s : holds pfx0 l src -> forallb item_typed (map pl_item l) = true ->
  exists c' r k, caught_renumber_into f src tgt s = Some (c', r) /\
    chunk_bytes c' = chunk_bytes tgt ++ segs_bytes k /\ c_offsets c' = c_offsets tgt ++ seg_offs (chunk_len tgt) k /\ c_pretty c' = c_pretty tgt /\
    seg_items k = fst (copied f (map pl_item l) s) /\ seg_damaged k = snd (copied f (map pl_item l) s) /\ solid k.
Proof.
  intros [Hb Ho] Ht. unfold caught_renumber_into. rewrite Hb, Ho.
  destruct (loop_caught f (c_pretty tgt) l pfx0 (with_limits (fun m => merge m (chunk_limits src)) (c_buf tgt)) (c_offsets tgt) s Ht) as (k & b' & r & E & B & I & D & SO).
  rewrite E. eexists. exists r, k. split; [reflexivity|]. unfold chunk_bytes, chunk_len. cbn [c_buf c_offsets c_pretty].
  rewrite inner_with in *. split; [exact B|]. repeat split; assumption.
Qed.

(** ** Histories *)

Lemma copied_fits {T} (f : T -> Z -> option (Z * T)) its : forall s, items_fit its = true -> items_fit (fst (copied f its s)) = true.
Proof.
  induction its as [|[id bd] its IH]; intros s H; [reflexivity|]. unfold items_fit in *. cbn [forallb snd] in H. apply andb_true_iff in H. destruct H as [H1 H2].
  cbn [copied fst snd]. destruct (f s id) as [[new t]|]; [|reflexivity].
  destruct (map_body_st (answering f) bd (Some t)) as [bd' [t'|]] eqn:M; [|reflexivity].
  specialize (IH t' H2). destruct (copied f its t') as [a d]. cbn [fst snd forallb] in *. rewrite IH, andb_true_r.
  destruct bd as [o|es data]; cbn [map_body_st] in M.
  - destruct (map_refs_st _ o _) as [o' t2]. injection M as <- _. reflexivity.
  - destruct (map_entries_st _ es _) as [es' t2]. injection M as <- _. exact H1.
Qed.
Lemma copied_ids {T} (f : T -> Z -> option (Z * T)) its : (forall t id n t', f t id = Some (n, t') -> id_ok n = true) ->
  forall s, Forall (fun i => id_ok i = true) (map fst (fst (copied f its s)) ++ snd (copied f its s)).
Proof.
  intro H. induction its as [|[id bd] its IH]; intro s; [constructor|]. cbn [copied fst snd].
  destruct (f s id) as [[new t]|] eqn:F; [|constructor]. apply H in F.
  destruct (map_body_st (answering f) bd (Some t)) as [bd' [t'|]]; [|constructor; [exact F|constructor]].
  specialize (IH t'). destruct (copied f its t') as [a d]. cbn [fst snd map app] in *. constructor; assumption.
Qed.
Lemma object_left_ids id cs a d : id_ok id = true -> object_left id cs a d -> Forall (fun i => id_ok i = true) (map fst a ++ d).
Proof. intros H [o T|O]; repeat constructor; exact H. Qed.
Lemma stream_left_ids id data cs a d : id_ok id = true -> stream_left id data cs a d -> Forall (fun i => id_ok i = true) (map fst a ++ d).
Proof. intros H [es L T|L O|L]; repeat constructor; exact H. Qed.
Lemma ids_join (P : Z -> Prop) (a a' : list item) d d' : Forall P (map fst a ++ d) -> Forall P (map fst a' ++ d') -> Forall P (map fst (a ++ a') ++ d ++ d').
Proof.
  rewrite map_app, !Forall_app. tauto.
Qed.
Lemma left_in_ids h a d : hist_fair h -> left_in h a d -> Forall (fun i => id_ok i = true) (map fst a ++ d).
Proof.
  intros F L. induction L as [p|h id cs a d a' d' L IH O|h id data cs a d a' d' L IH O|h o a d a' d' L IH L' IH'|h l a d L IH|t src T f s a d L IH]; cbn [hist_fair] in F.
  - constructor.
  - destruct F as (F1 & F2 & _). apply ids_join; [apply IH; exact F1|exact (object_left_ids _ _ _ _ F2 O)].
  - destruct F as (F1 & F2 & _). apply ids_join; [apply IH; exact F1|exact (stream_left_ids _ _ _ _ _ F2 O)].
  - destruct F as (F1 & F2). apply ids_join; [apply IH; exact F1|apply IH'; exact F2].
  - apply IH. exact F.
  - destruct F as (F1 & _ & F2). apply ids_join; [apply IH; exact F1|apply copied_ids; exact F2].
Qed.

Lemma source_runs src : hist_typed src -> run src <> None -> exists c l, run src = Some c /\ holds [] l c /\ map pl_item l = hist_items src /\
  items_fit (hist_items src) = true /\ forallb item_typed (map pl_item l) = true.
Proof.
  intros Ht N. pose proof (run_holds src Ht) as R. destruct (items_fit (hist_items src)) eqn:F; [|contradiction].
  destruct R as (c & k & R & K & M & _). exists c, k. split; [exact R|]. split; [exact K|]. split; [exact M|]. split; [reflexivity|].
  rewrite M. apply items_typed. exact Ht.
Qed.

Definition fits (a : list item) : Prop := forallb (fun it => body_fits (snd it)) a = true.
Lemma fits_app a b : fits a -> fits b -> fits (a ++ b).
Proof. unfold fits. intros A B. rewrite forallb_app. apply andb_true_iff. split; assumption. Qed.

Lemma left_total h : forall c, hist_fair h -> caught_run h = Some c -> exists a d, left_in h a d.
Proof.
  induction h as [p|h IH id cs|h IH id data cs|h IH o IHo|h IH l|t IH src T f s]; intros c F R; cbn [caught_run hist_fair] in *.
  - eexists. eexists. apply L_new.
  - destruct F as (F1 & F2 & F3). destruct (caught_run h) as [c1|]; [|discriminate]. destruct (IH c1 F1 eq_refl) as (a & d & L).
    destruct (object_total _ _ _ _ F3 R) as (a' & d' & L'). eexists. eexists. apply L_object; eassumption.
  - destruct F as (F1 & F2 & F3). destruct (caught_run h) as [c1|]; [|discriminate]. destruct (IH c1 F1 eq_refl) as (a & d & L).
    destruct (stream_total _ _ _ _ _ F3 R) as (a' & d' & L'). eexists. eexists. apply L_stream; eassumption.
  - destruct F as (F1 & F2). destruct (caught_run h) as [c1|]; [|discriminate]. destruct (caught_run o) as [c2|]; [|discriminate].
    destruct (IH c1 F1 eq_refl) as (a & d & L). destruct (IHo c2 F2 eq_refl) as (a' & d' & L'). eexists. eexists. apply L_extend; eassumption.
  - destruct (caught_run h) as [c1|]; [|discriminate]. destruct (IH c1 F eq_refl) as (a & d & L). eexists. eexists. apply L_merge. exact L.
  - destruct F as (F1 & _). destruct (caught_run t) as [c1|]; [|discriminate]. destruct (IH c1 F1 eq_refl) as (a & d & L).
    eexists. eexists. apply L_renumber. exact L.
Qed.

Lemma left_shows h a d : left_in h a d -> forall c, hist_fair h -> caught_run h = Some c ->
  exists k, shows [] k c /\ seg_items k = a /\ seg_damaged k = d /\ fits a /\ solid k.
Proof.
  induction 1 as [p|h id cs a d a' d' L IH O|h id data cs a d a' d' L IH O|h o a d a' d' L IH L' IH'|h l a d L IH|t src T f s a d L IH];
    intros c F R; cbn [caught_run hist_fair] in *.
  - apply some_eq in R. subst c. exists []. repeat split. constructor.
  - destruct F as (F1 & F2 & F3). destruct (caught_run h) as [c1|]; [|discriminate]. destruct (IH c1 F1 eq_refl) as (k & S & I & D & Fi & So).
    destruct (object_segs _ _ _ _ _ _ F3 R O) as (k' & B & Of & _ & I' & D' & Fi' & So'). exists (k ++ k').
    split; [exact (shows_app _ _ _ _ _ S B Of)|]. rewrite seg_items_app, seg_damaged_app, I, I', D, D'. split; [reflexivity|]. split; [reflexivity|]. split; [apply fits_app; assumption|apply solid_app; assumption].
  - destruct F as (F1 & F2 & F3). destruct (caught_run h) as [c1|]; [|discriminate]. destruct (IH c1 F1 eq_refl) as (k & S & I & D & Fi & So).
    destruct (stream_segs _ _ _ _ _ _ _ F3 R O) as (k' & B & Of & _ & I' & D' & Fi' & So'). exists (k ++ k').
    split; [exact (shows_app _ _ _ _ _ S B Of)|]. rewrite seg_items_app, seg_damaged_app, I, I', D, D'. split; [reflexivity|]. split; [reflexivity|]. split; [apply fits_app; assumption|apply solid_app; assumption].
  - destruct F as (F1 & F2). destruct (caught_run h) as [c1|]; [|discriminate]. destruct (caught_run o) as [c2|]; [|discriminate]. apply some_eq in R. subst c.
    destruct (IH c1 F1 eq_refl) as (k & S & I & D & Fi & So). destruct (IH' c2 F2 eq_refl) as (k' & S' & I' & D' & Fi' & So'). exists (k ++ k').
    split.
    + destruct S' as [B Of]. apply (shows_app _ _ _ _ _ S).
      * unfold chunk_bytes, chunk_extend, extend_buf. cbn [c_buf inner]. f_equal. exact B.
      * unfold chunk_extend. cbn [c_offsets]. f_equal. rewrite Of, blen_nil, seg_offs_shift. f_equal. lia.
    + rewrite seg_items_app, seg_damaged_app, I, I', D, D'. split; [reflexivity|]. split; [reflexivity|]. split; [apply fits_app; assumption|apply solid_app; assumption].
  - destruct (caught_run h) as [c1|]; [|discriminate]. apply some_eq in R. subst c. exact (IH c1 F eq_refl).
  - destruct F as (F1 & F2 & F3). destruct (caught_run t) as [c1|]; [|discriminate]. destruct (run src) as [cs|] eqn:RS; [|discriminate].
    destruct (source_runs src F2 ltac:(congruence)) as (cs' & l & RS' & Hl & M & Fs & Ty). assert (cs' = cs) by congruence. subst cs'.
    destruct (IH c1 F1 eq_refl) as (k & S & I & D & Fi & So).
    destruct (renumber_segs f [] l cs c1 s Hl Ty) as (c' & r & k' & E & B & Of & P & I' & D' & So'). rewrite E in R. apply some_eq in R. cbn [fst] in R. subst c'.
    exists (k ++ k'). split; [exact (shows_app _ _ _ _ _ S B Of)|]. rewrite seg_items_app, seg_damaged_app, I, I', D, D', M. split; [reflexivity|]. split; [reflexivity|].
    split; [|apply solid_app; assumption]. apply fits_app; [exact Fi|]. apply copied_fits. exact Fs.
Qed.
