(** Streams, chunks, histories and files with explicit i32 arithmetic against the model without. *)

From Coq Require Import ZArith List Lia Bool Sorted.
From Verif Require Import Bytes ModelFloat ModelBuf ModelObject ModelRenumber ModelChunk ModelPdf ModelOverflow SpecLex SpecObj SpecText SpecMeans SpecRenum SpecChunk SpecFile SpecPdf SpecOverflow
  ProofBasic ProofText ProofFloat ProofObj ProofTree ProofLimits ProofXref ProofPdf ProofFile2 ProofFile3 ProofFile4 ProofOverflow.
Import ListNotations.
Local Open Scope Z_scope.


(** ** Streams and chunks *)

Lemma entries_agrees' p es d b : fits (ODict es) = true -> 0 <= d_len d <= i32_max ->
  agrees p (bad_entries p (d_len d) es) (write_entries_in p es d b) (write_entries es d b).
Proof.
  intros F D. apply entries_agrees; [|exact F|exact D]. apply Forall_forall. intros e _ Fe w b0. apply write_obj_agrees. exact Fe.
Qed.
Definition len_entry (data : bytes) : bytes * obj := (lit "Length", OPrim (PInt (blen data))).
Lemma not_over_nonneg p n : 0 <= n -> ~ overflows p (OPrim (PInt n)).
Proof. intros H X. apply overflows_prim in X. unfold bad_prim in X. cbn [deep has_min] in X. lia. Qed.
Lemma bad_stream p data es : bad_entries p 0 (len_entry data :: es) <-> stream_overflows p es.
Proof.
  unfold bad_entries, stream_overflows. cbn [length]. rewrite Nat2Z.inj_succ. split.
  - intros [X|(k & o & [E|I] & X)]; [left; lia| |right; eauto]. exfalso. unfold len_entry in E. injection E as <- <-.
    revert X. apply not_over_nonneg. apply blen_nonneg.
  - intros [X|(k & o & I & X)]; [left; lia|right]. exists k, o. split; [right; exact I|exact X].
Qed.
Lemma write_stream_eq w es data b : blen data <= i32_max -> write_stream w es data b =
  let '(d, b) := dict_start w b in let '(d, b) := write_entries (len_entry data :: es) d b in Some (stream_drop data d b).
Proof.
  intro L. unfold write_stream, stream_start. destruct (dict_start w b) as [d b1]. destruct (Z.leb_spec (blen data) i32_max); [|lia].
  cbn [len_entry write_entries]. destruct (dict_insert (lit "Length") d b1) as [[w' d'] b']. reflexivity.
Qed.
Lemma write_stream_agrees p w es data b : blen data <= i32_max -> fits (ODict es) = true ->
  exists v, write_stream w es data b = Some v /\ agrees p (stream_overflows p es) (write_stream_in p w es data b) v.
Proof.
  intros L F. rewrite write_stream_eq by exact L. unfold write_stream_in.
  destruct (dict_start w b) as [d b1] eqn:E. assert (D : d_len d = 0) by (unfold dict_start in E; injection E as <- _; reflexivity).
  destruct (Z.leb_spec (blen data) i32_max) as [_|X]; [|lia]. fold (len_entry data).
  assert (F' : fits (ODict (len_entry data :: es)) = true).
  { unfold len_entry. cbn [fits forallb snd prim_fits] in *. rewrite F, andb_true_r. unfold in_i32. pose proof (blen_nonneg data). unfold i32_min. lia. }
  pose proof (entries_agrees' p (len_entry data :: es) d b1 F' ltac:(rewrite D; apply i32_max_pos)) as A. rewrite D in A.
  apply (agrees_iff _ _ _ _ _ (bad_stream p data es)) in A.
  pose proof (write_entries_len (len_entry data :: es) d b1) as N. rewrite D in N.
  destruct (write_entries (len_entry data :: es) d b1) as [d' b'] eqn:W. cbn [fst] in N.
  eexists. split; [reflexivity|].
  assert (A' : agrees p (stream_overflows p es) (option_map (fun x => stream_drop_in data (fst x) (snd x)) (write_entries_in p (len_entry data :: es) d b1)) (stream_drop data d' b')).
  - apply (agrees_map' p (stream_overflows p es) _ (d', b')); [exact A|]. intro H. cbn [fst snd]. unfold stream_drop_in. rewrite as_usize_id.
    + destruct d'. reflexivity.
    + rewrite N. unfold stream_overflows in H. cbn [length] in N |- *. lia.
  - destruct (write_entries_in p (len_entry data :: es) d b1) as [[d2 b2]|]; exact A'.
Qed.
Lemma write_stream_long p w es data b : i32_max < blen data -> write_stream w es data b = None /\ write_stream_in p w es data b = None.
Proof.
  intro L. unfold write_stream, stream_start, write_stream_in. destruct (dict_start w b) as [d b1].
  destruct (Z.leb_spec (blen data) i32_max); [lia|]. split; reflexivity.
Qed.

Lemma push_int_pos p id b : 0 <= id <= i32_max -> push_int_in p id b = Some (push_int id b).
Proof.
  intro H. pose proof (push_int_agrees p id b ltac:(unfold i32_min; lia)) as A. unfold agrees in A.
  assert (N : ~ match p with Debug => id = i32_min | Release => False end) by (destruct p; [unfold i32_min; lia|tauto]).
  destruct (push_int_in p id b); [f_equal; apply A; exact N|tauto].
Qed.
Lemma chunk_indirect_eq p id c : id_ok id = true -> chunk_indirect_in p id c = Some (chunk_indirect id c).
Proof.
  unfold id_ok. intro H. unfold chunk_indirect_in. rewrite push_int_pos by lia. unfold chunk_indirect, obj_indirect. reflexivity.
Qed.
Lemma chunk_object_agrees p id o c : id_ok id = true -> fits o = true ->
  agrees p (overflows p o) (chunk_object_in p id o c) (chunk_object id o c).
Proof.
  intros I F. unfold chunk_object_in, chunk_object. rewrite chunk_indirect_eq by exact I. destruct (chunk_indirect id c) as [w c'].
  apply (agrees_map p _ _ _ (fun b => mkChunk b (c_offsets c') (c_pretty c'))). apply write_obj_agrees. exact F.
Qed.
Lemma chunk_stream_agrees p id es data c : id_ok id = true -> blen data <= i32_max -> fits (ODict es) = true ->
  exists v, chunk_stream id es data c = Some v /\ agrees p (stream_overflows p es) (chunk_stream_in p id es data c) v.
Proof.
  intros I L F. unfold chunk_stream_in, chunk_stream. rewrite chunk_indirect_eq by exact I. destruct (chunk_indirect id c) as [w c'].
  destruct (write_stream_agrees p w es data (c_buf c') L F) as (v & -> & A). eexists. split; [reflexivity|].
  apply (agrees_map p _ _ _ (fun b => mkChunk b (c_offsets c') (c_pretty c'))). exact A.
Qed.
Lemma chunk_stream_long p id es data c : id_ok id = true -> i32_max < blen data ->
  chunk_stream id es data c = None /\ chunk_stream_in p id es data c = None.
Proof.
  intros I L. unfold chunk_stream_in, chunk_stream. rewrite chunk_indirect_eq by exact I. destruct (chunk_indirect id c) as [w c'].
  destruct (write_stream_long p w es data (c_buf c') L) as [-> ->]. split; reflexivity.
Qed.

(** ** What is too long is longer than 2 GiB *)

Lemma filter_le {A} f (l : list A) : (length (List.filter f l) <= length l)%nat.
Proof. induction l as [|x l IH]; cbn [List.filter]; [lia|]. destruct (f x); cbn [length]; lia. Qed.
Lemma opened_long s : opened_beyond 0 s -> i32_max < blen s.
Proof.
  intros (pre & post & -> & _ & B). rewrite blen_app. pose proof (blen_nonneg post). pose proof (count_nonneg x29 pre).
  unfold count in B at 1. pose proof (filter_le (beq x28) pre). unfold blen at 1. lia.
Qed.
Lemma str_literal_len whole s : forall bal, blen s <= blen (str_literal whole bal s).
Proof.
  induction s as [|c s IH]; intro bal; cbn [str_literal]; [lia|].
  assert (N : 1 <= blen (snd (str_byte whole bal c))).
  { unfold str_byte. repeat match goal with |- context [if ?x then _ else _] => destruct x | |- context [match bal with _ => _ end] => destruct bal end;
      cbn [snd app]; rewrite ?blen_cons; try (pose proof (blen_nonneg [c])); unfold blen; cbn; lia. }
  destruct (str_byte whole bal c) as [bal' o]. cbn [snd] in N. rewrite blen_app, blen_cons. specialize (IH bal'). lia.
Qed.
Lemma deep_long v : deep v -> i32_max < blen (prim_bytes v).
Proof.
  destruct v; cbn [deep prim_bytes]; try tauto.
  - intros [A O]. unfold str_bytes. rewrite A. rewrite !blen_app. pose proof (opened_long _ O). pose proof (str_literal_len s s None).
    pose proof (blen_nonneg [x28]). pose proof (blen_nonneg [x29]). lia.
  - intros [A O]. unfold text_bytes. rewrite A. unfold str_bytes. rewrite (visible_ascii _ A). rewrite !blen_app. pose proof (opened_long _ O).
    pose proof (str_literal_len (str_utf8 t) (str_utf8 t) None). pose proof (blen_nonneg [x28]). pose proof (blen_nonneg [x29]). lia.
Qed.
Lemma ne_len (s : bytes) : s <> [] -> 1 <= blen s.
Proof. destruct s; [congruence|]. rewrite blen_cons. pose proof (blen_nonneg s). lia. Qed.
Lemma out_items_long pr i l : forall first prev, Z.of_nat (length l) <= blen (out_items pr i first prev l).
Proof.
  induction l as [|o l IH]; intros first prev; cbn [out_items length]; [unfold blen; cbn; lia|].
  rewrite !blen_app. specialize (IH false (last_byte (out pr i o))). pose proof (ne_len _ (out_ne pr i o)).
  match goal with |- _ <= ?x + _ => assert (0 <= x) by apply blen_nonneg end. lia.
Qed.
Lemma out_entries_long pr i l : Z.of_nat (length l) <= blen (out_entries pr i l).
Proof.
  induction l as [|[k o] l IH]; cbn [out_entries length]; [unfold blen; cbn; lia|].
  rewrite !blen_app. pose proof (ne_len _ (out_ne pr i o)). pose proof (blen_nonneg (name_bytes k)).
  repeat match goal with |- context [blen (if ?x then ?y else ?z)] => let H := fresh in pose proof (blen_nonneg (if x then y else z)) as H; revert H; generalize (blen (if x then y else z)); intros ? H end. lia.
Qed.
Lemma out_item_in pr i o l : In o l -> forall first prev, blen (out pr i o) <= blen (out_items pr i first prev l).
Proof.
  induction l as [|x l IH]; [intros []|]. intros I first prev. cbn [out_items]. rewrite !blen_app.
  match goal with |- _ <= ?x + _ => assert (0 <= x) by apply blen_nonneg end. destruct I as [->|I].
  - pose proof (blen_nonneg (out_items pr i false (last_byte (out pr i o)) l)). lia.
  - specialize (IH I false (last_byte (out pr i x))). pose proof (blen_nonneg (out pr i x)). lia.
Qed.
Lemma out_entry_in pr i k o l : In (k, o) l -> blen (out pr i o) <= blen (out_entries pr i l).
Proof.
  induction l as [|[k' x] l IH]; [intros []|]. intro I. cbn [out_entries]. rewrite !blen_app. pose proof (blen_nonneg (name_bytes k')).
  repeat match goal with |- context [blen (if ?x then ?y else ?z)] => let H := fresh in pose proof (blen_nonneg (if x then y else z)) as H; revert H; generalize (blen (if x then y else z)); intros ? H end.
  destruct I as [E|I].
  - injection E as -> ->. pose proof (blen_nonneg (out_entries pr i l)). lia.
  - specialize (IH I). pose proof (blen_nonneg (out pr i x)). lia.
Qed.
Lemma part_len x o : part_of x o -> forall pr i, exists j, blen (out pr j x) <= blen (out pr i o).
Proof.
  induction 1 as [o|x o l I P IH|x k o l I P IH]; intros pr i.
  - exists i. lia.
  - destruct (IH pr i) as [j H]. exists j. rewrite out_array, !blen_app. pose proof (out_item_in pr i o l I true None).
    match goal with |- _ <= ?x + _ => assert (0 <= x) by apply blen_nonneg end. pose proof (blen_nonneg [x5d]). lia.
  - destruct (IH pr (ent_indent i)) as [j H]. exists j. rewrite out_dict, !blen_app. pose proof (out_entry_in pr (ent_indent i) k o l I).
    repeat match goal with |- context [blen (if ?x then ?y else ?z)] => let H := fresh in pose proof (blen_nonneg (if x then y else z)) as H; revert H; generalize (blen (if x then y else z)); intros ? ? end.
    pose proof (blen_nonneg [x3c; x3c]). pose proof (blen_nonneg [x3e; x3e]). lia.
Qed.
Theorem too_long_out o : too_long o -> forall pr i, i32_max < blen (out pr i o).
Proof.
  intros (x & P & X) pr i. destruct (part_len x o P pr i) as [j H]. eapply Z.lt_le_trans; [|exact H]. clear H. destruct x as [v|l|l].
  - cbn [out]. apply deep_long. exact X.
  - rewrite out_array, !blen_app. pose proof (out_items_long pr j l true None). pose proof (blen_nonneg [x5b]). pose proof (blen_nonneg [x5d]). lia.
  - rewrite out_dict, !blen_app. pose proof (out_entries_long pr (ent_indent j) l). pose proof (blen_nonneg [x3c; x3c]). pose proof (blen_nonneg [x3e; x3e]).
    repeat match goal with |- context [blen (if ?x then ?y else ?z)] => let H := fresh in pose proof (blen_nonneg (if x then y else z)) as H; revert H; generalize (blen (if x then y else z)); intros ? ? end. lia.
Qed.
Lemma too_long_written o w b : too_long o -> i32_max < blen (inner (write_obj o w b)).
Proof.
  intro T. rewrite write_obj_inner, !blen_app. pose proof (too_long_out o T (o_pretty w) (o_indent w)).
  pose proof (blen_nonneg (inner b)). pose proof (blen_nonneg (pad_if (o_pad w) (last_byte (inner b)) o)).
  pose proof (blen_nonneg (end_bytes (o_indirect w) (o_pretty w))). lia.
Qed.
Lemma stream_long_written p es w data b v : (p = Debug -> ~ writes_min (ODict es)) -> write_stream w es data b = Some v -> stream_overflows p es ->
  i32_max < blen (inner v).
Proof.
  intros M W S. destruct (Z.leb_spec (blen data) i32_max) as [L|L].
  - rewrite write_stream_eq in W by exact L. destruct (dict_start w b) as [d b1].
    destruct (write_entries_inner (len_entry data :: es)) with (d := d) (b := b1) as [A B].
    { apply Forall_forall. intros e _. apply write_obj_inner. }
    destruct (write_entries (len_entry data :: es) d b1) as [d' b']. cbn [fst snd] in A. apply some_inj in W. subst v.
    assert (X : blen (inner b') <= blen (inner (stream_drop data d' b'))).
    { unfold stream_drop. destruct (d_pretty d'); rewrite !inner_extend, ?inner_with, !blen_app;
        repeat match goal with |- context [blen ?x] => lazymatch goal with H : 0 <= blen x |- _ => fail | _ => pose proof (blen_nonneg x) end end; lia. }
    eapply Z.lt_le_trans; [|exact X]. rewrite A, blen_app. pose proof (blen_nonneg (inner b1)).
    enough (i32_max < blen (out_entries (d_pretty d) (d_indent d) (len_entry data :: es))) by lia.
    destruct S as [S|(k & o & I & [S|[D S]])].
    + pose proof (out_entries_long (d_pretty d) (d_indent d) (len_entry data :: es)) as Y. cbn [length] in Y. lia.
    + pose proof (out_entry_in (d_pretty d) (d_indent d) k o (len_entry data :: es) (or_intror I)).
      pose proof (too_long_out o S (d_pretty d) (d_indent d)). lia.
    + exfalso. apply (M D). destruct S as (x & P & S). exists x. split; [eapply part_entry; eassumption|exact S].
  - destruct (write_stream_long p w es data b L) as [E _]. congruence.
Qed.

Lemma agrees_eq {A} p bad (r : option A) v : agrees p bad r v -> ~ bad -> r = Some v.
Proof. unfold agrees. destruct r; [|tauto]. intros [H _] N. rewrite (H N). reflexivity. Qed.

Lemma chunk_object_eq p id o c : id_ok id = true -> body_plain p (BObj o) -> blen (chunk_bytes (chunk_object id o c)) <= i32_max ->
  chunk_object_in p id o c = Some (chunk_object id o c).
Proof.
  intros I [F M] L. apply (agrees_eq p _ _ _ (chunk_object_agrees p id o c I F)). intros [T|[D W]]; [|exact (M D W)].
  unfold chunk_object in L. destruct (chunk_indirect id c) as [w c']. unfold chunk_bytes in L. cbn [c_buf] in L.
  pose proof (too_long_written o w (c_buf c') T). lia.
Qed.
Lemma chunk_stream_eq p id es data c : id_ok id = true -> body_plain p (BStream es data) ->
  (forall c', chunk_stream id es data c = Some c' -> blen (chunk_bytes c') <= i32_max) ->
  chunk_stream_in p id es data c = chunk_stream id es data c.
Proof.
  intros I [F M] L. destruct (Z.leb_spec (blen data) i32_max) as [B|B].
  - destruct (chunk_stream_agrees p id es data c I B F) as (v & E & A). rewrite E. apply (agrees_eq p _ _ _ A). intro S.
    specialize (L v E). unfold chunk_stream in E. destruct (chunk_indirect id c) as [w c'].
    destruct (write_stream w es data (c_buf c')) as [b|] eqn:W; [|discriminate]. apply some_inj in E. subst v.
    unfold chunk_bytes in L. cbn [c_buf] in L. pose proof (stream_long_written p es w data _ b M W S). lia.
  - destruct (chunk_stream_long p id es data c I B) as [-> ->]. reflexivity.
Qed.

(** ** Renumbering *)

Lemma skip_string_eq p : forall n s d, (length s <= n)%nat -> 1 <= d -> d + blen s <= i32_max -> skip_string_in p d s = Some (skip_string d s).
Proof.
  induction n as [|n IH]; intros s d N D L; (destruct s as [|c s]; [reflexivity|]); [cbn [length] in N; lia|].
  cbn [length] in N. rewrite blen_cons in L. cbn [skip_string_in skip_string].
  pose proof (blen_nonneg s).
  destruct (beq c x28).
  - assert (E : i32_succ p d = Some (d + 1)).
    { unfold i32_succ. destruct p; [destruct (Z.eqb_spec d i32_max); [lia|reflexivity]|]. rewrite wrap_next by (unfold i32_min; lia). reflexivity. }
    rewrite E, IH; [reflexivity|lia|lia|lia].
  - destruct (beq c x29).
    + destruct (Z.eqb_spec d 1) as [->|Ne]; [reflexivity|].
      assert (E : i32_pred p d = Some (d - 1)).
      { unfold i32_pred. destruct p; [destruct (Z.eqb_spec d i32_min); [unfold i32_min in *; lia|reflexivity]|]. rewrite wrap_id by (unfold i32_min; lia). reflexivity. }
      rewrite E, IH; [reflexivity|lia|lia|lia].
    + destruct (beq c x5c).
      * destruct s as [|c' s]; [reflexivity|]. cbn [length] in N. rewrite blen_cons in *. rewrite IH; [reflexivity|lia|lia|lia].
      * rewrite IH; [reflexivity|lia|lia|lia].
Qed.
Lemma skip_string_start p s : blen (x28 :: s) <= i32_max -> skip_string_in p 0 (x28 :: s) = Some (skip_string 0 (x28 :: s)).
Proof.
  intro L. rewrite blen_cons in L. pose proof (blen_nonneg s). cbn [skip_string_in skip_string]. change (beq x28 x28) with true. cbv iota.
  assert (E : i32_succ p 0 = Some 1) by (destruct p; reflexivity). rewrite E. change (0 + 1) with 1.
  rewrite (skip_string_eq p (length s)); [reflexivity|lia|lia|lia].
Qed.

Lemma parse_i32_range ds n : forallb is_digit ds = true -> parse_i32 ds = Some n -> 0 <= n <= i32_max.
Proof.
  unfold parse_i32. destruct ds as [|d ds]; [discriminate|]. intro F. set (l := d :: ds) in *. clearbody l.
  destruct (Z.leb_spec (fold_left (fun a d => 10 * a + (bz d - 48)) l 0) i32_max) as [L|L]; [|discriminate].
  intro E. apply some_inj in E. subst n. split; [|exact L]. clear L.
  assert (G : forall l a, forallb is_digit l = true -> 0 <= a -> 0 <= fold_left (fun a d => 10 * a + (bz d - 48)) l a).
  { clear. induction l as [|c l IH]; intros a F A; cbn [fold_left]; [exact A|]. cbn [forallb] in F. apply andb_prop in F as [F1 F2].
    apply IH; [exact F2|]. unfold is_digit in F1. lia. }
  apply G; [exact F|lia].
Qed.
Lemma eat_len_le q s : (eat_len q s <= length s)%nat.
Proof. induction s as [|c s IH]; cbn [eat_len length]; [lia|]. destruct (q c); lia. Qed.
Lemma eat_suffix_all q s : forallb q (snd (eat_suffix q s)) = true.
Proof.
  unfold eat_suffix. cbn [snd]. rewrite <- (rev_involutive s) at 3. rewrite skipn_rev, rev_length.
  replace (length s - (length s - eat_len q (rev s)))%nat with (eat_len q (rev s)).
  - rewrite forallb_forall. intros c I. apply in_rev in I. revert I. generalize (rev s). intro r.
    induction r as [|x r IH]; cbn [eat_len firstn]; [intros []|]. destruct (q x) eqn:E; cbn [firstn In]; [|intros []].
    intros [<-|I]; [exact E|apply IH; exact I].
  - pose proof (eat_len_le q (rev s)) as L. rewrite rev_length in L. lia.
Qed.
Lemma eat_number_range s n : snd (eat_number_rev s) = Some n -> 0 <= n <= i32_max.
Proof.
  unfold eat_number_rev. pose proof (eat_suffix_all is_digit s) as A. destruct (eat_suffix is_digit s) as [h t]. cbn [snd] in *.
  apply parse_i32_range. exact A.
Qed.
Lemma validate_ref_range s h id gen : validate_ref s = Some (h, id, gen) -> 0 <= gen <= i32_max.
Proof.
  unfold validate_ref. destruct (require_whitespace_rev s) as [p1 w1]. destruct (negb w1); [discriminate|].
  pose proof (eat_number_range p1) as R. destruct (eat_number_rev p1) as [p2 [g|]]; [|discriminate]. cbn [snd] in R.
  destruct (require_whitespace_rev p2) as [p3 w3]. destruct (negb w3); [discriminate|].
  destruct (eat_number_rev p3) as [p4 [i|]]; [|discriminate]. destruct (0 <? i); [|discriminate].
  intro E. injection E as _ _ <-. apply R. reflexivity.
Qed.
Lemma slice_get_len s a b t : slice_get s a b = Some t -> blen t <= blen s.
Proof.
  unfold slice_get. destruct ((a <=? b)%nat && (b <=? length s)%nat); [|discriminate]. intro E. apply some_inj in E. subst t.
  unfold blen. rewrite firstn_length, skipn_length. lia.
Qed.
Lemma extract_range s gen t : extract_object s = Some (gen, t) -> 0 <= gen <= i32_max /\ blen t <= blen s.
Proof.
  unfold extract_object. destruct (memmem_find (lit "obj") s) as [off|]; [|discriminate].
  destruct (require_whitespace_rev (firstn off s)) as [pre w]. pose proof (eat_number_range pre) as R.
  destruct (snd (eat_number_rev pre)) as [g|]; [|discriminate]. destruct (memmem_rfind (lit "endobj") s) as [tl|]; [|discriminate].
  cbv zeta. destruct (slice_get s _ _) as [d|] eqn:E; [|discriminate]. intro H. injection H as <- <-. split; [apply R; reflexivity|].
  eapply slice_get_len. exact E.
Qed.

Section Mapping.
  Context (p : profile) {T : Type} (m : T -> Z -> Z * T) (M : forall t id, id_ok (fst (m t id)) = true).

  Lemma patch_loop_eq slice : blen slice <= i32_max -> forall fuel seen written b s,
    patch_loop_in p m fuel slice seen written b s = patch_loop m fuel slice seen written b s.
  Proof.
    intro L. induction fuel as [|fuel IH]; intros seen written b s; [reflexivity|]. cbn [patch_loop_in patch_loop].
    destruct (nth_error slice seen) as [c|] eqn:Ec; [|reflexivity].
    destruct (beq c x52).
    - destruct (validate_ref (firstn seen slice)) as [[[h id] gen]|] eqn:V; [|apply IH].
      pose proof (M s id) as M0. destruct (m s id) as [new s']. cbn [fst] in M0. unfold id_ok in M0.
      destruct (slice_get slice written h) as [t|]; [|reflexivity].
      apply validate_ref_range in V. rewrite push_int_pos by lia. rewrite push_int_pos by lia. apply IH.
    - destruct (beq c x25); [apply IH|]. destruct (beq c x28) eqn:E28.
      + apply beq_spec in E28. subst c.
        assert (X : exists r, skipn seen slice = x28 :: r).
        { clear - Ec. revert slice Ec. induction seen as [|n IH]; intros [|c s] E; try discriminate; [injection E as ->; exists s; reflexivity|]. apply IH. exact E. }
        destruct X as [r X]. rewrite X. rewrite skip_string_start; [apply IH|]. rewrite <- X. unfold blen in *. rewrite skipn_length. lia.
      + destruct (beq c x73 && _ && _); [reflexivity|apply IH].
  Qed.
  Lemma renumber_loop_eq src pretty : blen src <= i32_max -> forall offsets b offs s,
    renumber_loop_in p m src offsets pretty b offs s = renumber_loop m src offsets pretty b offs s.
  Proof.
    intro L. induction offsets as [|[id off] iter IH]; intros b offs s; [reflexivity|]. cbn [renumber_loop_in renumber_loop].
    pose proof (M s id) as M0. destruct (m s id) as [new s']. cbn [fst] in M0. unfold id_ok in M0.
    destruct (slice_get src _ _) as [slice|] eqn:Es; [|reflexivity]. apply slice_get_len in Es.
    destruct (extract_object slice) as [[gen d]|] eqn:X; [|apply IH]. apply extract_range in X as [X1 X2].
    rewrite push_int_pos by lia. rewrite push_int_pos by lia. rewrite patch_loop_eq by lia. unfold patch_object.
    destruct (patch_loop m _ d 0 0 _ s') as [[b' s2]|]; [apply IH|reflexivity].
  Qed.
  Lemma chunk_renumber_eq source target s : blen (chunk_bytes source) <= i32_max ->
    chunk_renumber_into_in p m source target s = chunk_renumber_into m source target s.
  Proof. intro L. unfold chunk_renumber_into_in, chunk_renumber_into. rewrite renumber_loop_eq by exact L. reflexivity. Qed.
End Mapping.

(** ** Histories *)

Theorem run_eq p h : hist_typed h -> every (call_plain p) h -> every below_2GiB h -> run_in p h = run h.
Proof.
  induction h as [pr|h IH id o|h IH id es data|h IH h2 IH2|h IH l|h IH h2 IH2 T m s]; intros Ht Hp Hb; cbn [run_in].
  - reflexivity.
  - destruct Ht as [Ht Hi]. destruct Hp as [Hc Hp]. destruct Hb as [Hl Hb]. rewrite IH by assumption.
    unfold item_typed in Hi. cbn [fst snd] in Hi. apply andb_prop in Hi as [Hi _]. unfold below_2GiB in Hl. cbn [run] in Hl |- *.
    destruct (run h) as [c|]; [|reflexivity]. cbn [option_map] in *. apply chunk_object_eq; [exact Hi|exact Hc|]. apply Hl. reflexivity.
  - destruct Ht as [Ht Hi]. destruct Hp as [Hc Hp]. destruct Hb as [Hl Hb]. rewrite IH by assumption.
    unfold item_typed in Hi. cbn [fst snd] in Hi. apply andb_prop in Hi as [Hi _]. unfold below_2GiB in Hl. cbn [run] in Hl |- *.
    destruct (run h) as [c|]; [|reflexivity]. apply chunk_stream_eq; [exact Hi|exact Hc|exact Hl].
  - destruct Ht as [Ht Ht2]. destruct Hp as [_ [Hp Hp2]]. destruct Hb as [_ [Hb Hb2]]. rewrite IH, IH2 by assumption. reflexivity.
  - destruct Hp as [_ Hp]. destruct Hb as [_ Hb]. rewrite IH by assumption. reflexivity.
  - destruct Ht as (Ht & Ht2 & Hm). destruct Hp as [_ [Hp Hp2]]. destruct Hb as [_ [Hb Hb2]]. rewrite IH, IH2 by assumption. cbn [run].
    destruct (run h) as [t|]; [|reflexivity]. destruct (run h2) as [c|] eqn:E; [|reflexivity].
    rewrite chunk_renumber_eq; [reflexivity|exact Hm|]. assert (B : below_2GiB h2) by (destruct h2; apply Hb2). apply B. exact E.
Qed.

(** ** Files *)

Lemma succ_eq p n : 0 <= n < i32_max -> i32_succ p n = Some (n + 1).
Proof.
  intro H. unfold i32_succ. destruct p; [destruct (Z.eqb_spec n i32_max); [lia|reflexivity]|].
  rewrite wrap_next by (unfold i32_min; lia). reflexivity.
Qed.
Lemma next_free_eq p rest : Forall (fun i => 0 < i < i32_max) (ids rest) -> forall next, next_free_in p next rest = Some (next_free next rest).
Proof.
  induction rest as [|[u off] rest IH]; intros F next; [reflexivity|]. cbn [ids map fst] in F. inversion F; subst. cbn [next_free_in next_free].
  destruct (next <? u); [reflexivity|]. rewrite succ_eq by lia. apply IH. assumption.
Qed.
Lemma free_run_eq p xl rest object_id : xl <> 0 -> object_id <= i32_max -> Forall (fun i => 0 < i < i32_max) (ids rest) -> forall n start, 0 <= start -> start + Z.of_nat n <= object_id ->
  free_run_in p n start object_id xl rest = Some (free_run n start object_id xl rest).
Proof.
  intros X O F. induction n as [|n IH]; intros start S L; [reflexivity|]. cbn [free_run_in free_run]. rewrite succ_eq by lia.
  replace (if start + 1 =? object_id then next_free_in p (start + 1) rest else Some (start + 1))
    with (Some (if start + 1 =? object_id then next_free (start + 1) rest else start + 1)).
  2:{ destruct (start + 1 =? object_id); [rewrite next_free_eq by exact F; reflexivity|reflexivity]. }
  destruct (Z.eqb_spec xl 0); [contradiction|]. rewrite IH by lia. reflexivity.
Qed.
Lemma free_run_length object_id xl rest : forall n start, length (free_run n start object_id xl rest) = n.
Proof. induction n as [|n IH]; intro a; [reflexivity|]. cbn [free_run length]. rewrite IH. reflexivity. Qed.
Lemma offsets_loop_eq p xl : xl <> 0 -> forall rest, Forall (fun i => 0 < i < i32_max) (ids rest) -> forall written, 0 <= written ->
  offsets_loop_in p written xl rest = offsets_loop written xl rest.
Proof.
  intro X. induction rest as [|[id off] tail IH]; intros F written W; [reflexivity|]. cbn [offsets_loop_in offsets_loop].
  destruct (Z.ltb_spec id written) as [L|L]; [reflexivity|]. pose proof F as F0. cbn [ids map fst] in F. inversion F; subst.
  rewrite free_run_eq; [|exact X|lia|exact F0|lia|lia]. rewrite free_run_length. rewrite succ_eq by lia.
  rewrite IH by (assumption || lia). replace (written + Z.of_nat (Z.to_nat (id - written)) + 1) with (id + 1) by lia. reflexivity.
Qed.
Lemma sorted_ids_small l : ids_small l -> Forall (fun i => 0 < i < i32_max) (ids (sort_pairs l)).
Proof.
  intro H. pose proof (ids_perm _ _ (sort_perm l)) as P. apply Forall_forall. intros i I. unfold ids_small in H. rewrite Forall_forall in H. apply H.
  eapply Permutation.Permutation_in; [apply Permutation.Permutation_sym; exact P|exact I].
Qed.
Lemma last_id_small l : ids_small l -> 0 <= last_id (sort_pairs l) < i32_max.
Proof.
  intro H. pose proof (sorted_ids_small l H) as F. unfold last_id. fold (ids (sort_pairs l)). revert F. generalize (ids (sort_pairs l)).
  intro m. induction m as [|a m IH]; intro F; [cbn [last]; unfold i32_max; lia|]. inversion F; subst. destruct m as [|b m]; [cbn [last]; lia|]. apply IH. assumption.
Qed.
Lemma write_offsets_eq p l : ids_small l -> write_offsets_in p l = write_offsets l.
Proof.
  intro H. unfold write_offsets_in, write_offsets. pose proof (last_id_small l H). rewrite succ_eq by assumption.
  rewrite (wrap_id (1 + last_id (sort_pairs l))) by (unfold i32_min; lia). rewrite Z.add_comm.
  rewrite offsets_loop_eq; [reflexivity|lia|apply sorted_ids_small; exact H|lia].
Qed.

(** The trailer neither has [i32::MIN] in it nor is it of the wrong types. *)
Lemma trailer_plain p N : trailer_ok p -> 0 < N <= i32_max ->
  fits (ODict (trailer_entries p N)) = true /\ ~ writes_min (ODict (trailer_entries p N)).
Proof.
  intros [C I] HN. split.
  - unfold trailer_entries. cbn [fits]. rewrite !forallb_app. cbn [forallb snd fits prim_fits]. unfold in_i32.
    replace (i32_min <=? N) with true by (unfold i32_min; lia). replace (N <=? i32_max) with true by lia. cbn [andb].
    destruct (p_catalog p) as [c|]; destruct (p_info p) as [i|]; destruct (p_file_id p) as [[a b]|];
      cbn [forallb snd fits prim_fits prim_typed andb];
      repeat match goal with
      | H : forall i, Some ?c = Some i -> _ |- _ => specialize (H c eq_refl)
      end;
      rewrite ?andb_true_r; try reflexivity; lia.
  - intros (v & P & M). inversion P as [| |x k o l In0 P']; subst. unfold trailer_entries in In0. rewrite !in_app_iff in In0.
    destruct In0 as [[E|[]]|[In0|[In0|In0]]].
    + injection E as <- <-. inversion P'; subst. cbn [has_min] in M. lia.
    + destruct (p_catalog p); [destruct In0 as [E|[]]|destruct In0]. injection E as <- <-. inversion P'; subst. exact M.
    + destruct (p_info p); [destruct In0 as [E|[]]|destruct In0]. injection E as <- <-. inversion P'; subst. exact M.
    + destruct (p_file_id p) as [[a b]|]; [destruct In0 as [E|[]]|destruct In0]. injection E as <- <-.
      inversion P' as [|x o l In1 P2|]; subst. destruct In1 as [<-|[<-|[]]]; inversion P2; subst; exact M.
Qed.
Lemma finish_trailer_len b off pad : blen (inner b) <= blen (finish_trailer b off pad).
Proof.
  unfold finish_trailer. rewrite !inner_extend. rewrite <- !app_assoc. rewrite blen_app.
  match goal with |- _ <= _ + blen ?x => pose proof (blen_nonneg x) end. lia.
Qed.
Lemma offsets_len_pos l N es : ids_small l -> write_offsets l = Some (N, es) -> 0 < N <= i32_max.
Proof.
  intros S H. unfold write_offsets in H. destruct (offsets_loop _ _ _); [|discriminate]. cbn [option_map] in H. apply some_inj in H.
  apply (f_equal fst) in H. cbn [fst] in H. subst N. pose proof (last_id_small l S). rewrite wrap_id by (unfold i32_min; lia). lia.
Qed.
Theorem finish_eq pr p : ids_small (c_offsets (p_chunk p)) -> trailer_ok p -> (forall file, finish p = Some file -> blen file <= i32_max) ->
  finish_in pr p = finish p.
Proof.
  intros S T L. unfold finish_in, finish in *. rewrite write_offsets_eq by exact S.
  destruct (write_offsets (c_offsets (p_chunk p))) as [[N es]|] eqn:W; [|reflexivity]. pose proof (offsets_len_pos _ _ _ S W) as HN.
  specialize (L _ eq_refl). rewrite push_int_pos by lia. fold (plain_prologue N (c_buf (p_chunk p))).
  set (b := extend (lit "trailer" ++ [x0a]) _) in *. destruct (trailer_plain p N T HN) as [F M].
  erewrite (agrees_eq pr _ _ _ (write_obj_agrees pr _ F _ b)); [reflexivity|]. intros [X|[_ X]]; [|exact (M X)].
  pose proof (finish_trailer_len (write_obj (ODict (trailer_entries p N)) (obj_direct 0 (c_pretty (p_chunk p)) false) b) (blen (inner (c_buf (p_chunk p)))) [x0a]).
  pose proof (too_long_written _ (obj_direct 0 (c_pretty (p_chunk p)) false) b X). lia.
Qed.

Lemma dict_plain_app a b : fits (ODict a) = true /\ ~ writes_min (ODict a) -> fits (ODict b) = true /\ ~ writes_min (ODict b) ->
  fits (ODict (a ++ b)) = true /\ ~ writes_min (ODict (a ++ b)).
Proof.
  intros [F1 M1] [F2 M2]. split; [cbn [fits] in *; rewrite forallb_app, F1, F2; reflexivity|].
  intros (v & P & M). inversion P as [| |x k o l In0 P']; subst. apply in_app_iff in In0. destruct In0 as [In0|In0].
  - apply M1. exists v. split; [eapply part_entry; eassumption|exact M].
  - apply M2. exists v. split; [eapply part_entry; eassumption|exact M].
Qed.
Lemma name_plain k n : fits (ODict [(k, OPrim (PName n))]) = true /\ ~ writes_min (ODict [(k, OPrim (PName n))]).
Proof.
  split; [reflexivity|]. intros (v & P & M). inversion P as [| |x k' o l In0 P']; subst. destruct In0 as [E|[]]. injection E as <- <-.
  inversion P'; subst. exact M.
Qed.
Lemma filter_plain f : fits (ODict (filter_entries f)) = true /\ ~ writes_min (ODict (filter_entries f)).
Proof.
  destruct f as [[f|fs]|]; cbn [filter_entries].
  - apply name_plain.
  - split.
    + cbn [fits forallb snd]. rewrite andb_true_r. apply forallb_forall. intros o I. apply in_map_iff in I as (f & <- & _). reflexivity.
    + intros (v & P & M). inversion P as [| |x k' o l In0 P']; subst. destruct In0 as [E|[]]. injection E as <- <-.
      inversion P' as [|x o l In1 P2|]; subst. apply in_map_iff in In1 as (f & <- & _). inversion P2; subst. exact M.
  - split; [reflexivity|]. intros (v & P & M). inversion P as [| |x k' o l In0 P']; subst. destruct In0.
Qed.
Lemma width_plain fw : 0 <= fw <= 8 -> fits (ODict [(lit "W", OArray [OPrim (PInt 1); OPrim (PInt fw); OPrim (PInt 2)])]) = true /\
  ~ writes_min (ODict [(lit "W", OArray [OPrim (PInt 1); OPrim (PInt fw); OPrim (PInt 2)])]).
Proof.
  intro H. split.
  - cbn [fits forallb snd prim_fits]. unfold in_i32. change ((i32_min <=? 1) && (1 <=? i32_max)) with true. change ((i32_min <=? 2) && (2 <=? i32_max)) with true.
    replace (i32_min <=? fw) with true by (unfold i32_min; lia). replace (fw <=? i32_max) with true by (unfold i32_max; lia). reflexivity.
  - intros (v & P & M). inversion P as [| |x k' o l In0 P']; subst. destruct In0 as [E|[]]. injection E as <- <-.
    inversion P' as [|x o l In1 P2|]; subst. destruct In1 as [<-|[<-|[<-|[]]]]; inversion P2; subst; cbn [has_min] in M; lia.
Qed.
Theorem finish_stream_eq pr p xref_id filter : ids_small (with_xref p xref_id) -> trailer_ok p -> 0 < blen (pdf_bytes p) <= i32_max ->
  (forall file, finish_stream_inner p xref_id filter = Some file -> blen file <= i32_max) ->
  finish_stream_inner_in pr p xref_id filter = finish_stream_inner p xref_id filter.
Proof.
  intros S T B L. unfold finish_stream_inner_in, finish_stream_inner in *. cbv zeta in *.
  change (inner (c_buf (p_chunk p))) with (pdf_bytes p) in *. change (c_offsets (p_chunk p) ++ [(xref_id, blen (pdf_bytes p))]) with (with_xref p xref_id) in *.
  rewrite write_offsets_eq by exact S.
  destruct (write_offsets (with_xref p xref_id)) as [[N es]|] eqn:W; [|reflexivity]. pose proof (offsets_len_pos _ _ _ S W) as HN.
  assert (X : 0 < xref_id < i32_max).
  { unfold ids_small in S. rewrite Forall_forall in S. apply S. unfold with_xref, ids. rewrite map_app. apply in_or_app. right. left. reflexivity. }
  destruct (filter _) as [data flt]. rewrite push_int_pos by lia. unfold obj_indirect in *.
  set (b := extend (lit " 0 obj" ++ [x0a]) _) in *. set (w := mkObjw true 0 _ false) in *.
  match type of L with context [write_stream w ?e data b] => set (entries := e) in *; assert (E : fits (ODict entries) = true /\ ~ writes_min (ODict entries)) end.
  { unfold entries. apply dict_plain_app; [apply name_plain|]. apply dict_plain_app; [apply filter_plain|]. apply dict_plain_app; [apply trailer_plain; assumption|].
    apply width_plain. destruct (field_width_spec (blen (pdf_bytes p))); [|lia]. split; [lia|]. unfold i32_max in B. apply Z.le_lt_trans with 2147483647; [lia|reflexivity]. }
  destruct E as [F M]. destruct (Z.leb_spec (blen data) i32_max) as [D|D].
  - destruct (write_stream_agrees pr w entries data b D F) as (v & E & A). rewrite E in *. specialize (L _ eq_refl).
    erewrite (agrees_eq pr _ _ _ A); [reflexivity|]. intro SO.
    pose proof (stream_long_written pr entries w data b v ltac:(intros _; exact M) E SO). pose proof (finish_trailer_len v (blen (pdf_bytes p)) []). lia.
  - destruct (write_stream_long pr w entries data b D) as [-> ->]. reflexivity.
Qed.

Lemma step_eq pr op p : op_typed op -> op_plain pr op -> (forall p', pdf_step op p = Some p' -> blen (chunk_bytes (p_chunk p')) <= i32_max) ->
  pdf_step_in pr op p = pdf_step op p.
Proof.
  intros T P L. destruct op as [id o|id es data|h|l|h A m s|id es|id es|fid|a b|m]; cbn [op_typed op_plain pdf_step_in pdf_step] in *; try reflexivity.
  - specialize (L _ eq_refl). cbn [on_chunk p_chunk] in L. unfold item_typed in T. cbn [fst] in T. apply andb_prop in T as [T _].
    rewrite chunk_object_eq; [reflexivity|exact T|exact P|exact L].
  - unfold item_typed in T. cbn [fst] in T. apply andb_prop in T as [T _]. rewrite chunk_stream_eq; [reflexivity|exact T|exact P|].
    intros c' E. rewrite E in L. apply (L _ eq_refl).
  - destruct P as [P1 P2]. rewrite run_eq by assumption. reflexivity.
  - destruct P as [P1 P2]. destruct T as [T1 T2]. rewrite run_eq by assumption. destruct (run h) as [c|] eqn:E; [|reflexivity].
    rewrite chunk_renumber_eq; [reflexivity|exact T2|]. assert (B : below_2GiB h) by (destruct h; apply P2). apply B. exact E.
  - destruct T as [T1 T2]. specialize (L _ eq_refl). unfold pdf_catalog, on_chunk in *. cbn [p_chunk p_catalog p_info p_file_id] in *.
    rewrite chunk_object_eq; [reflexivity|exact T1| |exact L]. destruct P as [F M]. split.
    + unfold catalog_obj. cbn [fits forallb snd prim_fits prim_typed andb] in *. exact F.
    + intro D. intros (v & Q & W). inversion Q as [| |x k' o l In0 Q']; subst. destruct In0 as [X|In0].
      * injection X as <- <-. inversion Q'; subst. exact W.
      * apply (M eq_refl). exists v. split; [eapply part_entry; eassumption|exact W].
  - destruct T as [T1 T2]. specialize (L _ eq_refl). unfold pdf_info, on_chunk in *. cbn [p_chunk p_catalog p_info p_file_id] in *.
    rewrite chunk_object_eq; [reflexivity|exact T1|exact P|exact L].
Qed.
Theorem pdf_run_eq pr ops : ops_typed ops -> Forall (op_plain pr) ops -> forall p, always_below_2GiB p ops -> pdf_run_in pr ops p = pdf_run ops p.
Proof.
  intro T. unfold ops_typed in T. induction T as [|op ops Ho T IH]; intros P p L; [reflexivity|]. inversion P as [|? ? P1 P2]; subst. cbn [pdf_run_in pdf_run].
  rewrite step_eq; [|exact Ho|exact P1|].
  - destruct (pdf_step op p) as [p'|] eqn:E; [|reflexivity]. apply IH; [exact P2|]. intros a b q -> R. apply (L (op :: a) b q eq_refl). cbn [pdf_run]. rewrite E. exact R.
  - intros p' E. apply (L [op] ops p' eq_refl). cbn [pdf_run]. rewrite E. reflexivity.
Qed.
