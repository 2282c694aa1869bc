(** C63: debug and release builds write the same, unless an i32 overflows. *)

From Coq Require Import ZArith List Lia Bool.
From Verif Require Import Bytes ModelFloat ModelBuf ModelObject ModelRenumber ModelChunk ModelPdf ModelOverflow SpecLex SpecObj SpecText SpecMeans SpecRenum SpecChunk SpecFile SpecPdf SpecOverflow
  ProofBasic ProofText ProofFloat ProofObj ProofTree ProofLimits ProofChunk ProofXref ProofPdf ProofFile2 ProofFile3 ProofFile4 ProofOverflow ProofOverflow2.
Import ListNotations.
Local Open Scope Z_scope.

(** ** One object *)

(** A debug build panics exactly when an i32 overflows: [i32::MIN] is written (the limits take its absolute value), an array or a
    dictionary gets more than [i32::MAX] items, or a string opens more than [i32::MAX] parentheses.  Otherwise it writes what the
    model without overflow writes. *)
Theorem C63_debug_panics_iff : forall o w b, fits o = true ->
  (write_obj_in Debug o w b = None <-> overflows Debug o) /\
  (~ overflows Debug o -> write_obj_in Debug o w b = Some (write_obj o w b)).
Proof.
  intros o w b F. pose proof (write_obj_agrees Debug o F w b) as A. split; [|apply (agrees_eq _ _ _ _ A)].
  unfold agrees in A. destruct (write_obj_in Debug o w b); split; intro H; try discriminate; [exfalso; apply A; auto|apply A|reflexivity].
Qed.
(** A release build never panics, and writes what the model writes unless something is too long. *)
Theorem C63_release : forall o w b, fits o = true ->
  write_obj_in Release o w b <> None /\ (~ too_long o -> write_obj_in Release o w b = Some (write_obj o w b)).
Proof.
  intros o w b F. split; [apply release_obj|]. intro N. apply (agrees_eq Release _ _ _ (write_obj_agrees Release o F w b)).
  intros [X|[X _]]; [exact (N X)|discriminate].
Qed.
(** So both write the same, if the debug build does not panic. *)
Theorem C63_builds_agree : forall o w b v, fits o = true -> write_obj_in Debug o w b = Some v ->
  write_obj_in Release o w b = Some v /\ v = write_obj o w b.
Proof.
  intros o w b v F E. destruct (C63_debug_panics_iff o w b F) as [P Q].
  assert (N : ~ overflows Debug o) by (intro X; apply P in X; congruence). specialize (Q N). rewrite E in Q. apply some_inj in Q. subst v.
  split; [|reflexivity]. apply C63_release; [exact F|]. intro T. apply N. left. exact T.
Qed.
(** Nothing is too long in an object of at most 2 GiB. *)
Theorem C63_small_objects : forall o w b, fits o = true -> blen (inner (write_obj o w b)) <= i32_max ->
  write_obj_in Release o w b = Some (write_obj o w b) /\
  (write_obj_in Debug o w b = None <-> writes_min o).
Proof.
  intros o w b F L. assert (N : ~ too_long o) by (intro T; pose proof (too_long_written o w b T); lia). split.
  - apply C63_release; assumption.
  - rewrite (proj1 (C63_debug_panics_iff o w b F)). unfold overflows. tauto.
Qed.
(** Streams: also the panic for data of more than [i32::MAX] bytes, which both builds have. *)
Theorem C63_streams : forall p id es data c, id_ok id = true -> fits (ODict es) = true ->
  (blen data <= i32_max ->
     (chunk_stream_in p id es data c = None <-> p = Debug /\ stream_overflows p es) /\
     (~ stream_overflows p es -> chunk_stream_in p id es data c = chunk_stream id es data c)) /\
  (i32_max < blen data -> chunk_stream_in p id es data c = None /\ chunk_stream id es data c = None).
Proof.
  intros p id es data c I F. split.
  - intro L. destruct (chunk_stream_agrees p id es data c I L F) as (v & E & A). split.
    + unfold agrees in A. destruct (chunk_stream_in p id es data c); split; intro H; try discriminate; [destruct H; exfalso; apply A; auto|exact A|reflexivity].
    + intro N. rewrite E. apply (agrees_eq p _ _ _ A N).
  - intro L. destruct (chunk_stream_long p id es data c I L). auto.
Qed.

(** ** Whole histories and files *)

(** As long as no chunk exceeds 2 GiB, and no [i32::MIN] is written in a debug build, both builds do what the model does, including
    renumbering with any closure: every other theorem about chunks is about both. *)
Theorem C63_histories : forall p h, hist_typed h -> every (call_plain p) h -> every below_2GiB h -> run_in p h = run h.
Proof. exact run_eq. Qed.
Theorem C63_files : forall pr pretty ops, ops_typed ops -> Forall (op_plain pr) ops ->
  always_below_2GiB (pdf_with_settings pretty) ops -> ids_below (pdf_ids ops) ->
  pdf_run_in pr ops (pdf_with_settings pretty) = pdf_run ops (pdf_with_settings pretty) /\
  (forall p, pdf_run ops (pdf_with_settings pretty) = Some p -> (forall file, finish p = Some file -> blen file <= i32_max) ->
     finish_in pr p = finish p) /\
  (forall p xref_id filter, pdf_run ops (pdf_with_settings pretty) = Some p -> 0 < xref_id < i32_max ->
     (forall file, finish_stream_inner p xref_id filter = Some file -> blen file <= i32_max) ->
     finish_stream_inner_in pr p xref_id filter = finish_stream_inner p xref_id filter).
Proof.
  intros pr pretty ops T P L B. split; [apply pdf_run_eq; assumption|]. split.
  - intros p R F. apply finish_eq; [eapply reach_small; eassumption|eapply reach_trailer; eassumption|exact F].
  - intros p x filter R X F. apply finish_stream_eq; [|eapply reach_trailer; eassumption| |exact F].
    + pose proof (reach_small pretty ops p T R B) as S. unfold ids_small, with_xref, ids in *. rewrite map_app. apply Forall_app. split; [exact S|]. constructor; [exact X|constructor].
    + split; [|apply (L ops [] p); [rewrite app_nil_r; reflexivity|exact R]].
      destruct (reach pretty ops p T R) as (k & M & ((Hb & _) & _) & _). unfold pdf_bytes. rewrite Hb, blen_app, header_of_length. pose proof (blen_nonneg (layout k)). lia.
Qed.
(** With the object number [i32::MAX], a debug build cannot finish the file. *)
Theorem C63_max_id_debug : forall pretty ops p, ops_typed ops -> pdf_run ops (pdf_with_settings pretty) = Some p ->
  In i32_max (pdf_ids ops) -> finish_in Debug p = None /\ forall xref_id filter, id_ok xref_id = true -> finish_stream_inner_in Debug p xref_id filter = None.
Proof.
  intros pretty ops p T R I.
  assert (K : forall l, Forall (fun i => 0 < i) (ids l) -> (forall i, In i (ids l) -> i <= i32_max) -> In i32_max (ids l) -> write_offsets_in Debug l = None).
  { intros l P U J. unfold write_offsets_in. replace (last_id (sort_pairs l)) with i32_max; [reflexivity|].
    pose proof (ids_perm _ _ (sort_perm l)) as PM.
    rewrite last_id_max; [|apply sort_sorted|].
    - rewrite <- (zmax_perm _ _ PM). pose proof (zmax_ge _ _ J). assert (N : ids l <> []) by (intro E; rewrite E in J; destruct J).
      assert (Q : In (zmax (ids l)) (ids l)) by (apply zmax_in; [exact N|]; intros i H'; rewrite Forall_forall in P; specialize (P i H'); lia). specialize (U _ Q). lia.
    - intros i H. rewrite Forall_forall in P. enough (0 < i) by lia. apply P. eapply Permutation.Permutation_in; [apply Permutation.Permutation_sym; exact PM|exact H]. }
  pose proof (reach_pos ops T) as P. pose proof (all_typed ops T) as A. pose proof (reach_ids pretty ops p T R) as E.
  assert (U : forall i, In i (pdf_ids ops) -> i <= i32_max).
  { intros i H. apply in_map_iff in H as (it & <- & H). rewrite forallb_forall in A. specialize (A it H). unfold item_typed, id_ok in A. lia. }
  split.
  - unfold finish_in. cbv zeta. rewrite K; [reflexivity|rewrite E; exact P|rewrite E; exact U|rewrite E; exact I].
  - intros x filter X. unfold id_ok in X. unfold finish_stream_inner_in. cbv zeta.
    match goal with |- context [write_offsets_in Debug ?l] => assert (D : ids l = pdf_ids ops ++ [x]) by (unfold ids; rewrite map_app; fold (ids (c_offsets (p_chunk p))); rewrite E; reflexivity) end.
    rewrite K; [reflexivity| | |]; rewrite D.
    + apply Forall_app. split; [exact P|]. constructor; [lia|constructor].
    + intros i H. apply in_app_iff in H as [H|[<-|[]]]; [apply U; exact H|lia].
    + apply in_app_iff. left. exact I.
Qed.

(** ** What a release build does instead *)

(** An array of 2^32 + 1 sevens: the count wraps around to 0, and there is no space between the last two of them. *)
Lemma wrap_add m n : wrap_i32 (wrap_i32 m + n) = wrap_i32 (m + n).
Proof.
  unfold wrap_i32. set (k := 2 ^ 32). assert (K : k <> 0) by discriminate.
  replace ((m + 2 ^ 31) mod k - 2 ^ 31 + n + 2 ^ 31) with ((m + 2 ^ 31) mod k + n) by lia.
  rewrite Zplus_mod_idemp_l. f_equal. f_equal. lia.
Qed.
Lemma seven_step a b : a_pretty a = false -> exists s, write_items_in Release [OPrim (PInt 7)] a b =
  Some (mkArrw (a_indirect a) (a_indent a) false (wrap_i32 (a_len a + 1)), s) /\
  inner s = inner b ++ (if negb (a_len a =? 0) && negb (match last_byte (inner b) with Some c => is_delimiter_character c | None => false end) then [x20] else []) ++ [x37] /\
  l_array (lims s) = l_array (lims b).
Proof.
  intro P. cbn [write_items_in]. unfold array_push_in, array_push. cbn [i32_succ]. rewrite P.
  destruct (a_len a =? 0); cbn [negb andb]; cbn [write_obj_in]; unfold obj_primitive_in, obj_direct; cbn [o_pad o_indirect o_pretty andb starts_with_delimiter negb].
  - eexists. split; [reflexivity|]. split; reflexivity.
  - destruct (match last_byte (inner b) with Some c => is_delimiter_character c | None => false end); cbn [negb];
      (eexists; split; [reflexivity|]); (split; [|reflexivity]); unfold extend, with_limits; cbn [inner]; rewrite <- ?app_assoc; reflexivity.
Qed.
Lemma write_items_in_app p l1 l2 : forall a b, write_items_in p (l1 ++ l2) a b =
  match write_items_in p l1 a b with Some (a, b) => write_items_in p l2 a b | None => None end.
Proof.
  induction l1 as [|o l1 IH]; intros a b; [reflexivity|]. cbn [app write_items_in].
  destruct (array_push_in p a b) as [[[w a'] b']|]; [|reflexivity]. destruct (write_obj_in p o w b'); [apply IH|reflexivity].
Qed.
Lemma sevens n : forall a b, a_pretty a = false -> exists s, write_items_in Release (repeat (OPrim (PInt 7)) n) a b =
  Some (mkArrw (a_indirect a) (a_indent a) false (match n with O => a_len a | _ => wrap_i32 (a_len a + Z.of_nat n) end), s) /\
  (exists pre, inner s = inner b ++ pre /\ (n <> O -> exists pre', pre = pre' ++ [x37])) /\ l_array (lims s) = l_array (lims b).
Proof.
  induction n as [|n IH]; intros a b P.
  - exists b. cbn [repeat write_items_in]. split; [destruct a; cbn in P |- *; rewrite P; reflexivity|]. split; [|reflexivity].
    exists []. split; [rewrite app_nil_r; reflexivity|congruence].
  - replace (S n) with (n + 1)%nat by lia. rewrite repeat_app, write_items_in_app.
    destruct (IH a b P) as (s & E & (pre & I & _) & LA). rewrite E. cbn [repeat].
    destruct (seven_step (mkArrw (a_indirect a) (a_indent a) false (match n with O => a_len a | _ => wrap_i32 (a_len a + Z.of_nat n) end)) s eq_refl) as (s' & E' & I' & LA').
    rewrite E'. cbn [a_indirect a_indent a_len]. exists s'. split; [|split; [|congruence]].
    + f_equal. f_equal. f_equal. replace (n + 1)%nat with (S n) by lia. destruct n as [|n]; [cbn; f_equal; lia|]. rewrite wrap_add. f_equal. lia.
    + rewrite I', I. rewrite <- app_assoc. eexists. split; [reflexivity|]. intros _. eexists. rewrite app_assoc. reflexivity.
Qed.
Theorem C63_release_long_array_refuted : exists l, Z.of_nat (length l) = 2 ^ 32 + 1 /\ Forall (fun o => o = OPrim (PInt 7)) l /\
  exists v s, write_obj_in Release (OArray l) (obj_direct 0 false false) buf_new = Some v /\ inner v = s ++ lit "77]" /\ l_array (lims v) = 1.
Proof.
  assert (E : exists n, Z.of_nat n = 2 ^ 32 /\ n <> O) by (exists (Z.to_nat (2 ^ 32)); split; [apply Z2Nat.id; discriminate|]; intro X; apply (f_equal Z.of_nat) in X; rewrite Z2Nat.id in X; discriminate).
  destruct E as (n & E & N). exists (repeat (OPrim (PInt 7)) (n + 1)). split; [rewrite repeat_length, Nat2Z.inj_add, E; reflexivity|].
  split; [apply Forall_forall; intros o I; apply (repeat_spec _ _ _ I)|].
  rewrite write_array_in. unfold array_start, obj_direct. cbn [o_indirect o_indent o_pretty].
  rewrite repeat_app, write_items_in_app. cbn [repeat].
  destruct (sevens n (mkArrw false 0 false 0) (push x5b buf_new) eq_refl) as (s & Es & (pre & I & J) & LA). rewrite Es.
  destruct (J N) as [pre' J']. subst pre. cbn [a_indirect a_indent a_len].
  assert (W : match n with O => 0 | _ => wrap_i32 (0 + Z.of_nat n) end = 0) by (destruct n; [reflexivity|]; rewrite E; reflexivity). rewrite W.
  destruct (seven_step (mkArrw false 0 false 0) s eq_refl) as (s' & Es' & I' & LA'). rewrite Es'. cbn [a_indirect a_indent a_len option_map fst snd].
  eexists. exists (x5b :: pre'). split; [reflexivity|]. unfold array_drop_in. cbn [a_indirect a_pretty a_len endobj]. split.
  - rewrite inner_push, inner_with, I', I. cbn [a_len]. change (negb (0 =? 0)) with false. cbn [andb app]. rewrite <- !app_assoc. reflexivity.
  - cbn [push extend lims with_limits register_array_len l_array]. rewrite LA', LA. reflexivity.
Qed.

(** From 2^31 to 2^32 - 1 items the counter is negative, and the limit is far above the number of items. *)
Theorem C63_release_array_over_reported : forall n, 2 ^ 31 <= n < 2 ^ 32 -> exists l v,
  Z.of_nat (length l) = n /\ Forall (fun o => o = OPrim (PInt 7)) l /\
  write_obj_in Release (OArray l) (obj_direct 0 false false) buf_new = Some v /\ l_array (lims v) = 2 ^ 64 - 2 ^ 32 + n.
Proof.
  intros n Hn. assert (N : Z.of_nat (Z.to_nat n) = n) by (apply Z2Nat.id; lia). assert (NO : Z.to_nat n <> O) by lia.
  set (k := Z.to_nat n) in *. clearbody k. exists (repeat (OPrim (PInt 7)) k).
  rewrite write_array_in. unfold array_start, obj_direct. cbn [o_indirect o_indent o_pretty].
  destruct (sevens k (mkArrw false 0 false 0) (push x5b buf_new) eq_refl) as (s & Es & _ & LA). rewrite Es. cbn [a_indirect a_indent a_len option_map fst snd].
  eexists. split; [rewrite repeat_length; exact N|]. split; [apply Forall_forall; intros o I; apply (repeat_spec _ _ _ I)|]. split; [reflexivity|].
  unfold array_drop_in. cbn [a_indirect a_pretty a_len endobj]. cbn [push extend lims with_limits register_array_len l_array]. rewrite LA.
  assert (W : match k with O => 0 | _ => wrap_i32 (0 + Z.of_nat k) end = n - 2 ^ 32).
  { destruct k as [|k]; [contradiction NO; reflexivity|]. rewrite N. unfold wrap_i32. rewrite Z.add_0_l.
    Z.div_mod_to_equations. lia. }
  rewrite W. unfold as_usize. change (l_array (lims (push x5b buf_new))) with 0.
  replace ((n - 2 ^ 32) mod 2 ^ 64) with (n - 2 ^ 32 + 2 ^ 64) by (rewrite <- (Z.mod_small (n - 2 ^ 32 + 2 ^ 64) (2 ^ 64)) by lia; rewrite <- Zplus_mod_idemp_r, Z_mod_same_full, Z.add_0_r; reflexivity).
  lia.
Qed.

(** A string of 2^32 opening parentheses counts as balanced and is written as it is, so that the string does not end. *)
Lemma balanced_opens n : forall d, is_balanced_in Release d (repeat x28 n) = Some (match n with O => d =? 0 | _ => wrap_i32 (d + Z.of_nat n) =? 0 end).
Proof.
  induction n as [|n IH]; intro d; [reflexivity|]. cbn [repeat is_balanced_in]. change (beq x28 x28) with true. cbv iota. cbn [i32_succ]. rewrite IH.
  f_equal. destruct n as [|n]; [f_equal; f_equal; lia|]. rewrite wrap_add. f_equal. f_equal. lia.
Qed.
Lemma literal_opens whole n : str_literal whole (Some true) (repeat x28 n) = repeat x28 n.
Proof. induction n as [|n IH]; [reflexivity|]. cbn [repeat str_literal]. change (str_byte whole (Some true) x28) with (Some true, [x28]). cbv iota. rewrite IH. reflexivity. Qed.
Lemma ascii_opens n : forallb (fun c => bz c <? 128) (repeat x28 n) = true.
Proof. induction n as [|n IH]; [reflexivity|]. cbn [repeat forallb]. rewrite IH. reflexivity. Qed.
Lemma unread_opens n : forall d, lit_string d (repeat x28 (S n) ++ [x29]) = None.
Proof.
  induction n as [|n IH]; intro d; [reflexivity|]. change (repeat x28 (S (S n)) ++ [x29]) with (x28 :: (repeat x28 (S n) ++ [x29])).
  cbn [lit_string]. change (beq x28 x28) with true. cbv iota. rewrite IH. reflexivity.
Qed.
Theorem C63_release_deep_string_refuted : exists s, blen s = 2 ^ 32 /\ Forall (eq x28) s /\
  exists v, write_obj_in Release (OPrim (PStr s)) (obj_direct 0 false false) buf_new = Some v /\
    inner v = [x28] ++ s ++ [x29] /\ lex_token (inner v) = None /\ parse_object (inner v) = None.
Proof.
  assert (E : exists n, Z.of_nat (S n) = 2 ^ 32).
  { exists (Z.to_nat (2 ^ 32 - 1)). rewrite Nat2Z.inj_succ, Z2Nat.id by discriminate. reflexivity. }
  destruct E as [n E]. exists (repeat x28 (S n)). split; [unfold blen; rewrite repeat_length; exact E|].
  split; [apply Forall_forall; intros o I; symmetry; apply (repeat_spec _ _ _ I)|].
  cbn [write_obj_in]. unfold obj_primitive_in, obj_direct. cbn [o_pad o_indirect o_pretty andb write_prim_in endobj]. unfold write_str_in.
  rewrite ascii_opens.
  assert (L : str_literal_in Release (repeat x28 (S n)) None (repeat x28 (S n)) = Some (repeat x28 (S n))).
  { set (whole := repeat x28 (S n)) at 1. cbn [repeat str_literal_in]. change (beq x28 x28 || beq x28 x29) with true. change (beq x28 x29) with false. cbv iota.
    unfold whole. rewrite balanced_opens. rewrite E. change (wrap_i32 (0 + 2 ^ 32) =? 0) with true. cbn [option_map]. cbv iota.
    change (str_byte (repeat x28 (S n)) (Some true) x28) with (Some true, [x28]). cbv iota. rewrite str_literal_known, literal_opens. reflexivity. }
  rewrite L. cbn [option_map]. eexists. split; [reflexivity|]. unfold buf_new, extend, with_limits. cbn [inner app].
  assert (X : lex_token (x28 :: repeat x28 (S n) ++ [x29]) = None).
  { cbn [lex_token]. rewrite unread_opens. reflexivity. }
  match goal with |- ?x = _ /\ _ => assert (Q : x = x28 :: repeat x28 (S n) ++ [x29]) by reflexivity; rewrite Q end.
  split; [reflexivity|]. split; [exact X|].
  unfold parse_object, parse_objects. set (rest := repeat x28 (S n) ++ [x29]) in *. cbn [objects].
  rewrite blanks_solid by reflexivity. rewrite X. reflexivity.
Qed.

(** ** Cases *)

(** The hypotheses of the file theorem hold of the file of C23; and debug builds panic on [i32::MIN] in an array in a dictionary. *)
Example C63_case_debug :
  write_obj_in Debug (ODict [(lit "A", OArray [OPrim (PInt 3); OPrim (PReal (FFin true 8388608 8))])]) (obj_direct 0 false false) buf_new = None /\
  option_map inner (write_obj_in Release (ODict [(lit "A", OArray [OPrim (PInt 3); OPrim (PReal (FFin true 8388608 8))])]) (obj_direct 0 false false) buf_new) =
    Some (lit "<</A[3 -2147483648]>>").
Proof. split; reflexivity. Qed.
Example C63_case_fits : fits (ODict [(lit "A", OArray [OPrim (PInt 3); OPrim (PReal (FFin true 8388608 8))])]) = true /\
  writes_min (ODict [(lit "A", OArray [OPrim (PInt 3); OPrim (PReal (FFin true 8388608 8))])]).
Proof.
  split; [reflexivity|]. exists (PReal (FFin true 8388608 8)). split; [|split; reflexivity].
  eapply part_entry; [left; reflexivity|]. eapply part_item; [right; left; reflexivity|]. constructor.
Qed.
Definition example_ops : list pdf_op :=
  [PdfObject 7 (ODict [(lit "Kids", OArray [OPrim (PRef 2); OPrim (PInt (-5))])]);
   PdfStream 2 [(lit "A", OPrim (PStr (lit "(a(b)")))] (lit "data");
   PdfExtend (HObject (HNew false) 4 (OPrim (PInt (-3))));
   PdfRenumber (HObject (HNew false) 4 (OArray [OPrim (PRef 4); OPrim (PStr (lit "((x))"))])) unit (fun t id => (if id =? 4 then 9 else 20, t)) tt;
   PdfInfo 3 [];
   PdfCatalog 1 [(lit "Pages", OPrim (PRef 7))]].
Example C63_case_file : ops_typed example_ops /\ Forall (op_plain Debug) example_ops /\ ids_below (pdf_ids example_ops) /\
  always_below_2GiB (pdf_with_settings true) example_ops /\
  option_map (finish_in Debug) (pdf_run_in Debug example_ops (pdf_with_settings true)) = option_map finish (pdf_run example_ops (pdf_with_settings true)).
Proof.
  assert (N : forall l, (forall v, part_of (OPrim v) (ODict l) -> ~ has_min v) -> ~ writes_min (ODict l)) by (intros l H (v & P & M); exact (H v P M)).
  assert (K : forall o, (fix clean (o : obj) : bool := match o with
      | OPrim (PInt n) => - 2 ^ 31 <? n | OPrim (PReal _) | OPrim (PRect _) => false | OPrim _ => true
      | OArray l => forallb clean l | ODict l => forallb (fun e => clean (snd e)) l end) o = true -> ~ writes_min o).
  { induction o as [v|l IH|l IH] using obj_ind'; intros C (x & P & M); cbn in C.
    - inversion P; subst. destruct v; try discriminate; cbn [has_min] in M; try contradiction. cbn in M. lia.
    - inversion P as [|? o ? I Q|]; subst. rewrite Forall_forall in IH. rewrite forallb_forall in C. apply (IH o I (C o I)). exists x. auto.
    - inversion P as [| |? k o ? I Q]; subst. rewrite Forall_forall in IH. rewrite forallb_forall in C. apply (IH (k, o) I (C (k, o) I)). exists x. auto. }
  assert (S : forall h n, option_map (fun c => blen (chunk_bytes c)) (run h) = Some n -> n <= i32_max -> below_2GiB h).
  { intros h n E L c R. rewrite R in E. apply some_inj in E. lia. }
  split; [|split; [|split; [|split]]].
  - unfold ops_typed, example_ops. repeat match goal with |- Forall _ _ => constructor | |- op_typed _ => cbn [op_typed hist_typed] | |- _ /\ _ => split | |- _ = true => vm_compute; reflexivity end; try exact Logic.I.
    intros t id. cbn [fst]. destruct (id =? 4); reflexivity.
  - unfold example_ops. repeat match goal with |- Forall _ _ => constructor | |- op_plain _ _ => cbn [op_plain body_plain every call_plain] | |- _ /\ _ => split | |- _ = true => vm_compute; reflexivity
      | |- _ -> ~ writes_min _ => intros _; apply K; vm_compute; reflexivity end; try exact Logic.I;
      (eapply S; [vm_compute; reflexivity|discriminate]).
  - repeat constructor.
  - assert (G : forall ops p, (fix small (ops : list pdf_op) (p : pdf) : bool := (blen (chunk_bytes (p_chunk p)) <=? i32_max) &&
        match ops with [] => true | op :: r => match pdf_step op p with Some p => small r p | None => true end end) ops p = true -> always_below_2GiB p ops).
    { induction ops as [|op ops IH]; intros p G a b q E R; apply andb_prop in G as [G1 G2].
      - destruct a; [|discriminate]. apply some_inj in R. subst q. lia.
      - destruct a as [|op' a]; [apply some_inj in R; subst q; lia|]. cbn [app] in E. injection E as <- E. cbn [pdf_run] in R.
        destruct (pdf_step op p) as [p'|]; [|discriminate]. apply (IH p' G2 a b q E R). }
    apply G. vm_compute. reflexivity.
  - vm_compute. reflexivity.
Qed.

Print Assumptions C63_debug_panics_iff.
Print Assumptions C63_release.
Print Assumptions C63_builds_agree.
Print Assumptions C63_small_objects.
Print Assumptions C63_streams.
Print Assumptions C63_histories.
Print Assumptions C63_files.
Print Assumptions C63_max_id_debug.
Print Assumptions C63_release_long_array_refuted.
Print Assumptions C63_release_array_over_reported.
Print Assumptions C63_release_deep_string_refuted.
