(** Properties C35..C37 and C49: content streams. *)

From Coq Require Import ZArith List Lia Bool ZifyBool ZifyNat.
From Verif Require Import Bytes ModelFloat ModelBuf ModelObject ModelContent SpecLex SpecObj SpecText SpecMeans SpecContent
  ProofBasic ProofText ProofFloat2 ProofObj ProofParse ProofTree ProofChunkParse ProofContent.
Import ListNotations.
Local Open Scope Z_scope.

(** ** C35 *)

(** Any sequence of operations reads back as the same operations: the same operands before the same
    operators, in order, with nothing run together, in either setting. *)
Theorem C35_operations_round_trip : forall pretty calls c,
  forallb (ccall_ok pretty) calls = true ->
  content_run calls (content_with_settings pretty) = Some c ->
  exists ops, parse_content (content_bytes c) = Some ops /\ Forall2 ccall_means calls ops.
Proof.
  intros p calls c Hok Hr. exists (map call_vals calls). split; [eapply content_parses; eauto|].
  clear Hr. induction calls as [|a r IH]; [constructor|].
  cbn [forallb] in Hok. apply andb_true_iff in Hok. cbn [map]. constructor; [eapply call_means_vals; apply Hok|apply IH, Hok].
Qed.

(** Operations only append. *)
Theorem C35_operations_append : forall calls c c',
  content_run calls c = Some c' -> exists s, content_bytes c' = content_bytes c ++ s.
Proof.
  induction calls as [|call r IH]; intros c c' H.
  - cbn in H. apply some_inj in H. subst. exists []. rewrite app_nil_r. reflexivity.
  - cbn [content_run] in H. destruct (content_step call c) as [c1|] eqn:E; [|discriminate].
    destruct (IH _ _ H) as (s & Hs). unfold content_step in E. destruct (call_allowed call); [|discriminate].
    destruct (call_op call) as [os k]. apply some_inj in E. subst c1. unfold content_bytes in *. cbn [ct_buf] in Hs.
    rewrite write_op_inner, <- app_assoc in Hs. eauto.
Qed.

(** Without empty names (and with finite numbers and proper operators) the side condition holds in both settings. *)
Theorem C35_nonempty_names_suffice : forall pretty c,
  forallb obj_ok (fst (iso_operation c)) = true -> forallb names_nonempty (fst (iso_operation c)) = true ->
  operator_ok (snd (iso_operation c)) = true -> ccall_ok pretty c = true.
Proof.
  intros p c H1 H2 H3. unfold ccall_ok. destruct (iso_operation c) as [os k]. cbn [fst snd] in *. rewrite H1, H3. cbn [andb].
  apply orb_true_iff. right. clear H1. induction os as [|o r IH]; [reflexivity|].
  cbn [forallb operands_apart] in *. apply andb_true_iff in H2. destruct H2 as [Ho Hr].
  rewrite (names_nonempty_separable o Ho), (IH Hr). destruct (is_empty_name o) eqn:E; [|reflexivity].
  destruct o as [q| |]; try discriminate. cbn [names_nonempty] in Ho. rewrite E in Ho. discriminate.
Qed.

(** The side condition on names is needed: in compact mode an empty name runs into the operator. *)
Theorem C35_empty_name_refuted : exists calls c,
  content_run calls (content_with_settings false) = Some c /\ parse_content (content_bytes c) = None /\
  (forall c, In c calls -> ccall_ok true c = true).
Proof.
  exists [CXObject []]. eexists. split; [reflexivity|]. split; [reflexivity|].
  intros c [<-|[]]. reflexivity.
Qed.

Definition example_calls : list ccall :=
  [CSaveState; CTransform (FFin false 8388608 (-23)) f32_zero f32_zero (FFin false 8388608 (-23)) (FFin true 12582912 (-23)) f32_zero;
   CSetDashPattern [FFin false 8388608 (-22); f32_zero] f32_zero; CSetFillPattern [] (lit "P1");
   CBeginText; CSetFont (lit "F1") (FFin false 12582912 (-20)); CShowPositioned [Show (lit "a(b"); Adjust (FFin true 8388608 (-22)); Show []];
   CEndText; CBeginMarkedContentWithProperties (lit "P") (MarkDict [(lit "MCID", OPrim (PInt 3))]); CEndMarkedContent;
   COp (lit "xyz") [OPrim PNull; OArray []; OPrim (PBool true)]; CRestoreState].

Example C35_case :
  (forall p, forallb (ccall_ok p) example_calls = true) /\
  option_map content_bytes (content_run example_calls (content_with_settings false)) =
    Some (lit "q 1 0 0 1 -1.5 0 cm[2 0]0 d/P1 scn" ++ [x0a] ++ lit "BT/F1 12 Tf[(a\(b)-2()]TJ" ++ [x0a] ++
          lit "ET/P<</MCID 3>>BDC" ++ [x0a] ++ lit "EMC null[]true xyz" ++ [x0a] ++ lit "Q").
Proof. split; [intros []; reflexivity|]. vm_compute. reflexivity. Qed.

(** ** C36 *)

(** [finish] drops at most one newline from the end and nothing else, whatever was written. *)
Theorem C36_finish_strips_one_newline : forall c,
  inner (content_finish c) = content_bytes c \/ inner (content_finish c) ++ [x0a] = content_bytes c.
Proof.
  intros [[s l] p d]. unfold content_finish, content_bytes. cbn [ct_buf inner lims].
  destruct s as [|a s _] using rev_ind.
  - left. reflexivity.
  - rewrite last_byte_app. destruct a; try (left; reflexivity). right. cbn [inner]. rewrite removelast_last. reflexivity.
Qed.

(** It leaves the recorded limits alone. *)
Theorem C36_finish_keeps_limits : forall c, lims (content_finish c) = lims (ct_buf c).
Proof.
  intro c. unfold content_finish. destruct (last_byte (content_bytes c)) as [[]|]; reflexivity.
Qed.

(** A finished stream of proper operations reads back like the unfinished one (it is the same text:
    such a stream ends with an operator). *)
Theorem C36_finish_keeps_operations : forall pretty calls c,
  forallb (ccall_ok pretty) calls = true ->
  content_run calls (content_with_settings pretty) = Some c ->
  inner (content_finish c) = content_bytes c /\
  exists ops, parse_content (inner (content_finish c)) = Some ops /\ Forall2 ccall_means calls ops.
Proof.
  intros p calls c Hok Hr.
  assert (E : inner (content_finish c) = content_bytes c).
  { unfold content_finish. destruct (last_byte (content_bytes c)) as [d|] eqn:L; [|reflexivity].
    assert (Hd : is_regular d = true).
    { destruct (content_run_inner _ _ _ Hr (calls_ne _ _ Hok)) as [H1 _]. unfold content_bytes in L. rewrite H1 in L. clear H1 Hr.
      cbn [content_with_settings ct_buf ct_pretty buf_new inner app] in L.
      destruct calls as [|call r _] using rev_ind; [discriminate L|].
      rewrite flat_map_app in L. cbn [flat_map] in L. rewrite app_nil_r in L. rewrite forallb_app in Hok.
      apply andb_true_iff in Hok. destruct Hok as [Hr Hc]. cbn [forallb] in Hc. rewrite andb_true_r in Hc.
      assert (Hne : Forall (u_ne p) (flat_map call_units r)).
      { apply Forall_forall. intros u Hu. apply in_flat_map in Hu. destruct Hu as (x & Hx & Hu).
        rewrite forallb_forall in Hr. pose proof (call_ok_ne _ _ (Hr x Hx)) as Hk. unfold op_ne in Hk.
        unfold call_units in Hu. destruct (call_op x) as [os k]. pose proof (op_units_ne p os k Hk) as Hf.
        rewrite Forall_forall in Hf. apply Hf, Hu. }
      unfold ccall_ok in Hc. rewrite iso_call in Hc. unfold call_units in L at 2. destruct (call_op call) as [os k].
      rewrite !andb_true_iff in Hc. destruct Hc as [[_ Hk] _]. apply operator_ok_spec in Hk. destruct Hk as (Hk & Hreg & _).
      unfold op_units in L. rewrite app_assoc in L. rewrite c_out_app in L by (apply Forall_app; split; [exact Hne|apply operand_units_ne]).
      cbn [c_out u_body] in L. rewrite app_nil_r in L. rewrite app_assoc, last_byte_app_ne in L by exact Hk.
      eapply last_byte_forall; eassumption. }
    destruct d; try reflexivity. discriminate Hd. }
  split; [exact E|]. rewrite E. eapply C35_operations_round_trip; eassumption.
Qed.

(** A page's content may be split over any number of streams, each with its own settings: read one after the other, they
    give the operations of all of them in order. *)
Theorem C36_split_over_streams : forall parts outs,
  Forall2 (fun part out => let '(pretty, calls) := part in
    forallb (ccall_ok pretty) calls = true /\
    exists c, content_run calls (content_with_settings pretty) = Some c /\ out = inner (content_finish c)) parts outs ->
  exists ops, parse_content (join_lines outs) = Some ops /\ Forall2 ccall_means (flat_map snd parts) ops.
Proof.
  intros parts outs H.
  assert (K : Forall (fun x => forallb (ccall_ok (fst x)) (snd x) = true) parts).
  { induction H as [|[p calls] o parts outs [K _] H IH]; constructor; [exact K|exact IH]. }
  exists (map call_vals (flat_map snd parts)). split.
  - apply contents_parse; [exact K|]. clear K. induction H as [|[p calls] o parts outs (K & c & R & ->) H IH]; constructor; [|exact IH].
    exists c. split; [exact R|]. apply (C36_finish_keeps_operations p calls c K R).
  - clear H. induction K as [|[p calls] parts K1 K IH]; [constructor|]. cbn [flat_map fst snd] in *. rewrite map_app.
    apply Forall2_app; [|exact IH]. clear -K1. induction calls as [|a r IH]; [constructor|].
    cbn [forallb] in K1. apply andb_true_iff in K1. cbn [map]. constructor; [eapply call_means_vals; apply K1|apply IH, K1].
Qed.
(** The white space between the parts is needed: a finished stream does not end with any. *)
Theorem C36_split_needs_white_space : exists c1 c2,
  content_run [CSaveState] content_new = Some c1 /\ content_run [CRestoreState] content_new = Some c2 /\
  parse_content (inner (content_finish c1) ++ inner (content_finish c2)) = Some [([], lit "qQ")] /\
  parse_content (join_lines [inner (content_finish c1); []; inner (content_finish c2); []]) = Some [([], lit "q"); ([], lit "Q")].
Proof. do 2 eexists. repeat split; reflexivity. Qed.

(** The newline is dropped when there is one (here after an operator given as text with a newline). *)
Example C36_case :
  option_map (fun c => inner (content_finish c)) (content_run [CSaveState; COp (lit "Q" ++ [x0a]) []] content_new)
    = Some (lit "q" ++ [x0a] ++ lit "Q").
Proof. reflexivity. Qed.

(** ** C37 *)

Lemma content_run_app h1 : forall h2 c, content_run (h1 ++ h2) c =
  match content_run h1 c with Some c' => content_run h2 c' | None => None end.
Proof.
  induction h1 as [|a r IH]; intros h2 c; [reflexivity|]. cbn [app content_run].
  destruct (content_step a c); [apply IH|reflexivity].
Qed.

Lemma content_step_depth call c c' : content_step call c = Some c' -> ct_depth c' = call_depth call (ct_depth c).
Proof.
  unfold content_step. destruct (call_allowed call); [|discriminate]. destruct (call_op call) as [os k].
  intro H. apply some_inj in H. subst. cbn [ct_depth]. unfold write_op. destruct (op_operands _ _ _ _). reflexivity.
Qed.

Lemma depth_after_exists h : forall p c, Z.of_nat (List.length h) < 2 ^ 64 ->
  content_run h (content_with_settings p) = Some c ->
  depth_after h (ct_depth c) /\ 0 <= ct_depth c <= Z.of_nat (List.length h).
Proof.
  induction h as [|call h IH] using rev_ind; intros p c Hlen H.
  - cbn in H. apply some_inj in H. subst. cbn [ct_depth content_with_settings List.length]. split; [constructor|lia].
  - rewrite app_length in *. cbn [List.length] in *. rewrite content_run_app in H.
    destruct (content_run h (content_with_settings p)) as [c1|] eqn:E; [|discriminate].
    destruct (IH p c1 ltac:(lia) E) as [H1 H2].
    cbn [content_run] in H. destruct (content_step call c1) as [c2|] eqn:E2; [|discriminate]. apply some_inj in H. subst c2.
    rewrite (content_step_depth _ _ _ E2).
    assert (Hu : usize_max = 2 ^ 64 - 1) by reflexivity.
    destruct call; cbn [call_depth];
      try (split; [apply DepthOther; [assumption|discriminate|discriminate]|lia]).
    + rewrite Z.min_r by lia. split; [apply DepthSave; assumption|lia].
    + destruct (Z.eq_dec (ct_depth c1) 0) as [Z0|Z0].
      * rewrite Z0 in *. cbn [Z.sub Z.add Z.opp Z.max Z.compare]. split; [apply DepthUnderflow; assumption|lia].
      * rewrite Z.max_r by lia. split; [|lia]. apply DepthRestore; [|lia].
        replace (ct_depth c1 - 1 + 1) with (ct_depth c1) by lia. assumption.
Qed.

(** After any history, the reported depth is the height of the graphics state stack. *)
Theorem C37_depth_is_tracked : forall pretty h c, Z.of_nat (List.length h) < 2 ^ 64 ->
  content_run h (content_with_settings pretty) = Some c -> depth_after h (state_nesting_depth c).
Proof. intros p h c Hl H. eapply depth_after_exists; eassumption. Qed.

(** The height is a function of the history, so this determines it. *)
Theorem C37_depth_is_unique : forall h d, depth_after h d -> forall d', depth_after h d' -> d = d'.
Proof.
  induction 1 as [|h d H IH|h d H IH Hd|h H IH|h c d H IH H1 H2]; intros d' H'.
  - inversion H' as [|? ? ? E|? ? ? ? E|? ? E|? ? ? ? ? ? E]; try reflexivity; destruct h; discriminate.
  - inversion H' as [E|h' d1 H3 E|h' d1 H3 ? E|h' H3 E|h' c d1 H3 ? ? E]; [destruct h; discriminate E| | | |];
      apply app_inj_tail in E; destruct E as [-> E]; try discriminate E; try congruence.
    rewrite (IH _ H3). reflexivity.
  - inversion H' as [E|h' d1 H3 E|h' d1 H3 ? E|h' H3 E|h' c d1 H3 ? ? E]; [destruct h; discriminate E| | | |];
      apply app_inj_tail in E; destruct E as [-> E]; try discriminate E; try congruence.
    + specialize (IH _ H3). lia.
    + specialize (IH _ H3). lia.
  - inversion H' as [E|h' d1 H3 E|h' d1 H3 ? E|h' H3 E|h' c d1 H3 ? ? E]; [destruct h; discriminate E| | | |];
      apply app_inj_tail in E; destruct E as [-> E]; try discriminate E; try congruence.
    specialize (IH _ H3). lia.
  - inversion H' as [E|h' d1 H3 E|h' d1 H3 ? E|h' H3 E|h' c' d1 H3 ? ? E]; [destruct h; discriminate E| | | |];
      apply app_inj_tail in E; destruct E as [-> E]; try congruence. subst. apply IH. assumption.
Qed.

(** Operations other than save and restore leave it alone, and a restore at depth zero is ignored. *)
Theorem C37_other_operations : forall call c c', call <> CSaveState -> call <> CRestoreState ->
  content_step call c = Some c' -> state_nesting_depth c' = state_nesting_depth c.
Proof.
  intros call c c' H1 H2 H. unfold state_nesting_depth. rewrite (content_step_depth _ _ _ H).
  destruct call; cbn [call_depth]; congruence.
Qed.

Lemma balanced_depth h : balanced h -> forall c c', content_run h c = Some c' ->
  0 <= ct_depth c -> ct_depth c + Z.of_nat (List.length h) < 2 ^ 64 -> ct_depth c' = ct_depth c.
Proof.
  induction 1 as [|call H1 H2|h H IH|h k H IH K IK]; intros c c' Hr Hd Hl.
  - cbn in Hr. congruence.
  - cbn [content_run] in Hr. destruct (content_step call c) eqn:E; [|discriminate]. apply some_inj in Hr. subst.
    eapply (C37_other_operations call c c'); eassumption.
  - cbn [content_run] in Hr. cbn [List.length] in Hl. rewrite app_length in Hl. cbn [List.length] in Hl.
    destruct (content_step CSaveState c) as [c1|] eqn:E; [|discriminate].
    rewrite content_run_app in Hr. destruct (content_run h c1) as [c2|] eqn:E2; [|discriminate].
    cbn [content_run] in Hr. destruct (content_step CRestoreState c2) as [c3|] eqn:E3; [|discriminate].
    apply some_inj in Hr. subst. pose proof (content_step_depth _ _ _ E) as D1. pose proof (content_step_depth _ _ _ E3) as D3.
    assert (Hu : usize_max = 2 ^ 64 - 1) by reflexivity.
    cbn [call_depth] in D1, D3. rewrite Z.min_r in D1 by lia.
    rewrite (IH _ _ E2) in D3 by lia. lia.
  - rewrite content_run_app in Hr. destruct (content_run h c) as [c1|] eqn:E; [|discriminate].
    rewrite app_length in Hl. rewrite (IK _ _ Hr).
    + apply (IH _ _ E); lia.
    + rewrite (IH _ _ E) by lia. lia.
    + rewrite (IH _ _ E) by lia. lia.
Qed.

Theorem C37_balanced_is_zero : forall pretty h c, balanced h -> Z.of_nat (List.length h) < 2 ^ 64 ->
  content_run h (content_with_settings pretty) = Some c -> state_nesting_depth c = 0.
Proof.
  intros p h c Hb Hl H. unfold state_nesting_depth. rewrite (balanced_depth h Hb _ _ H); [reflexivity|cbn; lia|].
  cbn [ct_depth content_with_settings]. lia.
Qed.

(** The [q] and [Q] operators that a reader finds are the save and restore calls (unless the caller writes
    these operators through the method for arbitrary operations). *)
Definition no_raw_state_op (c : ccall) : bool :=
  match c with COp k _ => negb (bytes_eqb k (lit "q")) && negb (bytes_eqb k (lit "Q")) | _ => true end.

Theorem C37_tokens_match_calls : forall pretty h c ops,
  forallb (ccall_ok pretty) h = true -> forallb no_raw_state_op h = true ->
  content_run h (content_with_settings pretty) = Some c -> parse_content (content_bytes c) = Some ops ->
  count_op (lit "q") ops = saves h /\ count_op (lit "Q") ops = restores h.
Proof.
  intros p h c ops Hok Hn Hr Hp. destruct (C35_operations_round_trip p h c Hok Hr) as (ops' & Hp' & HF).
  rewrite Hp in Hp'. apply some_inj in Hp'. subst ops'. clear -HF Hn.
  unfold count_op, saves, restores.
  induction HF as [|call op h ops [_ H] HF IH]; [split; reflexivity|].
  cbn [forallb] in Hn. apply andb_true_iff in Hn. destruct Hn as [Hc Hn]. destruct (IH Hn) as [I1 I2].
  cbn [List.filter]. rewrite H, iso_call. destruct call; cbn [call_op snd] in *; try (split; assumption).
  - cbn [no_raw_state_op] in Hc. apply andb_true_iff in Hc. rewrite !negb_true_iff in Hc. destruct Hc as [-> ->]. split; assumption.
  - replace (bytes_eqb (lit "q") (lit "q")) with true by reflexivity.
    replace (bytes_eqb (lit "q") (lit "Q")) with false by reflexivity. cbn [List.length]. lia.
  - replace (bytes_eqb (lit "Q") (lit "q")) with false by reflexivity.
    replace (bytes_eqb (lit "Q") (lit "Q")) with true by reflexivity. cbn [List.length]. lia.
Qed.

Example C37_case :
  balanced example_calls /\
  option_map state_nesting_depth (content_run [CRestoreState; CSaveState; CSaveState; CStroke; CRestoreState] content_new) = Some 1.
Proof.
  split; [|reflexivity]. unfold example_calls.
  match goal with |- balanced (CSaveState :: ?l) => change l with (removelast l ++ [CRestoreState]) end.
  apply BalPair. cbn [removelast]. 
  repeat match goal with |- balanced (?a :: ?b) => apply (BalApp [a] b); [apply BalOther; discriminate|] end. constructor.
Qed.

(** ** C49 *)

Lemma real_means_number r v : means (OPrim (PReal r)) v -> is_number v = true.
Proof. intro H. inversion H as [| | |? ? R| | | | | | | | |]; subst. inversion R; reflexivity. Qed.

Lemma reals_numbers l vs : Forall2 means (reals l) vs -> forallb is_number vs = true.
Proof.
  revert vs. induction l as [|a l IH]; intros vs H; inversion H; subst; [reflexivity|]. cbn [forallb].
  rewrite (real_means_number a) by assumption. apply IH. assumption.
Qed.

Lemma reals_color l vs : Forall2 means (reals l) vs -> color_operands vs = true.
Proof.
  intro H. apply reals_numbers in H. induction vs as [|v vs IH]; [reflexivity|].
  cbn [forallb] in H. apply andb_true_iff in H. destruct H as [H1 H2].
  cbn [color_operands]. rewrite H1, (IH H2). destruct vs; reflexivity.
Qed.

Lemma pattern_color l n vs : Forall2 means (reals l ++ [name n]) vs -> color_operands vs = true.
Proof.
  revert vs. induction l as [|a l IH]; intros vs H; cbn [reals map app] in H; inversion H as [|? v ? vs' H1 H2]; subst.
  - inversion H2; subst. inversion H1; subst. reflexivity.
  - cbn [color_operands]. rewrite (real_means_number a _ H1). fold (reals l) in H2. rewrite (IH _ H2). destruct vs'; reflexivity.
Qed.

Lemma shown_items l vs : Forall2 means (map pos_item_obj l) vs ->
  forallb (fun v => is_number v || match v with VStr _ => true | _ => false end) vs = true.
Proof.
  revert vs. induction l as [|a l IH]; intros vs H; inversion H as [|? v ? vs' H1 H2]; subst; [reflexivity|].
  cbn [forallb]. rewrite (IH _ H2), andb_true_r. destruct a as [s|r]; cbn [pos_item_obj] in H1.
  - inversion H1; subst. reflexivity.
  - rewrite (real_means_number _ _ H1). reflexivity.
Qed.

Lemma mark_properties m v : means (mark_obj m) v -> has_kind KProperties v = true.
Proof. destruct m; intro H; inversion H; subst; reflexivity. Qed.

Lemma int_kind z v : means (OPrim (PInt z)) v -> has_kind KInteger v = true /\ has_kind KNumber v = true.
Proof. intro H. inversion H; subst. split; reflexivity. Qed.
Lemma real_kind r v : means (OPrim (PReal r)) v -> has_kind KNumber v = true.
Proof. intro H. cbn [has_kind]. eapply real_means_number; eassumption. Qed.
Lemma name_kind n v : means (name n) v -> has_kind KName v = true.
Proof. intro H. inversion H; subst. reflexivity. Qed.
Lemma str_kind n v : means (OPrim (PStr n)) v -> has_kind KString v = true.
Proof. intro H. inversion H; subst. reflexivity. Qed.
Lemma reals_kind l v : means (OArray (reals l)) v -> has_kind KNumbers v = true.
Proof. intro H. inversion H; subst. cbn [has_kind]. eapply reals_numbers. eassumption. Qed.
Lemma shown_kind l v : means (OArray (map pos_item_obj l)) v -> has_kind KShown v = true.
Proof. intro H. inversion H; subst. cbn [has_kind]. eapply shown_items. eassumption. Qed.

Ltac sig := match goal with |- context [signature_of ?k operators] =>
  let r := eval vm_compute in (signature_of k operators) in change (signature_of k operators) with r end; cbn [has_signature].
Ltac kinds := repeat match goal with H : Forall2 means _ ?vs |- _ =>
  let v := fresh "v" in inversion H as [|? v ? ? ? ?]; subst; clear H end; cbn [all_kinds];
  repeat first
    [ erewrite real_kind by eassumption | erewrite name_kind by eassumption | erewrite str_kind by eassumption
    | erewrite reals_kind by eassumption | erewrite shown_kind by eassumption | erewrite mark_properties by eassumption
    | erewrite (fun H => proj1 (int_kind _ _ H)) by eassumption | erewrite (fun H => proj2 (int_kind _ _ H)) by eassumption ];
  reflexivity.

(** Every method other than the one for arbitrary operations writes an operator of the standard with
    operands of the types that the standard gives it. *)
Theorem C49_operations_are_well_formed : forall c op,
  named_call c = true -> ccall_means c op -> well_formed op = true.
Proof.
  intros c [vs k] Hn [H1 H2]. rewrite iso_call in H1, H2. cbn [fst snd] in *. unfold well_formed. cbn [fst snd]. subst k.
  destruct c; try discriminate Hn; cbn [call_op fst snd] in *; sig;
    try (eapply reals_color; eassumption); try (eapply pattern_color; eassumption);
    cbn [reals map app] in H1; try fold (reals array) in H1; kinds.
Qed.

(** So what a reader finds in the stream is a sequence of well-formed operations. *)
Theorem C49_streams_are_well_formed : forall pretty calls c ops,
  forallb (ccall_ok pretty) calls = true -> forallb named_call calls = true ->
  content_run calls (content_with_settings pretty) = Some c -> parse_content (content_bytes c) = Some ops ->
  forallb well_formed ops = true.
Proof.
  intros p calls c ops Hok Hn Hr Hp. destruct (C35_operations_round_trip p calls c Hok Hr) as (ops' & Hp' & HF).
  rewrite Hp in Hp'. apply some_inj in Hp'. subst ops'. clear -HF Hn.
  induction HF as [|call op h ops H HF IH]; [reflexivity|]. cbn [forallb] in *. apply andb_true_iff in Hn. destruct Hn as [H1 H2].
  rewrite (C49_operations_are_well_formed call op H1 H). apply IH. assumption.
Qed.

Example C49_case : exists calls ops,
  forallb named_call calls = true /\ forallb (ccall_ok false) calls = true /\
  option_map (fun c => parse_content (content_bytes c)) (content_run calls (content_with_settings false)) = Some (Some ops) /\
  List.length ops = 11%nat /\ forallb well_formed ops = true.
Proof.
  exists (List.filter named_call example_calls). eexists. split; [reflexivity|]. split; [reflexivity|].
  split; [vm_compute; reflexivity|]. split; reflexivity.
Qed.

Print Assumptions C35_operations_round_trip.
Print Assumptions C36_finish_keeps_operations.
Print Assumptions C36_split_over_streams.
Print Assumptions C37_depth_is_tracked.
Print Assumptions C37_tokens_match_calls.
Print Assumptions C49_streams_are_well_formed.
