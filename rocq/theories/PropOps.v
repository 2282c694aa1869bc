(** C81: content streams call by call, and panics that are caught while they are written. *)

From Coq Require Import ZArith List Bool Lia.
From Verif Require Import Bytes ModelFloat ModelBuf ModelObject ModelRenumber ModelChunk ModelApi ModelCrash ModelContent ModelOps SpecLex SpecObj SpecMeans
  SpecApi SpecCrash SpecContent SpecOps ProofBasic ProofApi ProofCrash ProofContent PropContent PropCrash PropGuards.
Import ListNotations.
Local Open Scope Z_scope.

Lemma operand_open pretty first o b : op_operand pretty first o b = let '(w, b) := open_operand pretty first b in write_obj o w b.
Proof. unfold op_operand, open_operand. destruct pretty; [destruct (inner b)|]; reflexivity. Qed.
Lemma op_operands_app pretty l r : forall first b,
  op_operands pretty first (l ++ r) b = let '(f, b) := op_operands pretty first l b in op_operands pretty f r b.
Proof. induction l as [|o l IH]; intros first b; [reflexivity|]. cbn [app op_operands]. apply IH. Qed.
Lemma operand_primitive_spec pretty p s : operand_primitive pretty p s = (false, op_operand pretty (fst s) (OPrim p) (snd s)).
Proof. unfold operand_primitive. rewrite operand_open. destruct (open_operand pretty (fst s) (snd s)). reflexivity. Qed.
Lemma operand_primitives pretty l : forall s, fold_left (fun s p => operand_primitive pretty p s) l s = op_operands pretty (fst s) (map OPrim l) (snd s).
Proof.
  induction l as [|p l IH]; intros s; [destruct s; reflexivity|]. cbn [fold_left map op_operands]. rewrite IH, operand_primitive_spec. reflexivity.
Qed.
Lemma so_far_run pretty ocs os : operands_so_far ocs os -> forall s first st b, op_run pretty ocs s = Some (first, st, b) ->
  (first, unwind st b) = op_operands pretty (fst s) os (snd s).
Proof.
  induction 1 as [|p r os H IH|l r os H IH|cs o r os E H IH|cs o (n & T)]; intros s first st b R; cbn [op_run op_operands] in *.
  - apply some_eq in R. injection R as <- <- <-. reflexivity.
  - rewrite operand_primitive_spec in R. rewrite (IH _ _ _ _ R). reflexivity.
  - rewrite operand_primitives in R. rewrite (IH _ _ _ _ R), op_operands_app. destruct (op_operands pretty (fst s) (map OPrim l) (snd s)); reflexivity.
  - rewrite operand_open. destruct (open_operand pretty (fst s) (snd s)) as [w b0] eqn:O. rewrite O in R || idtac.
    destruct (api_run cs ([WObj w], b0)) as [[st1 b1]|] eqn:Q; [|discriminate]. apply run_expanded in Q. rewrite E in Q.
    rewrite run_calls in Q. apply some_eq in Q. injection Q as <- <-. rewrite (IH _ _ _ _ R). reflexivity.
  - rewrite operand_open. destruct (open_operand pretty (fst s) (snd s)) as [w b0] eqn:O.
    destruct (api_run cs ([WObj w], b0)) as [[st1 b1]|] eqn:Q; [|discriminate]. apply run_expanded in Q.
    pose proof (run_calls o w [] b0) as X. rewrite <- T, api_run_app, Q in X. apply drops_unwind in X.
    destruct st1 as [|x st1]; cbn [op_run fst snd] in R; apply some_eq in R; injection R as <- <- <-; rewrite X; reflexivity.
Qed.

(** Whatever way the operands of an operation are written, in one piece or call by call, to the end or cut short by a panic: the content stream is the
    same as if the operation had been written as a whole, with the operands so far. *)
Theorem C81_operation : forall k ocs os c c', op_scope k ocs c = Some c' -> operands_so_far ocs os -> c' = write_op os k c.
Proof.
  intros k ocs os c c' E H. unfold op_scope in E. destruct (op_run (ct_pretty c) ocs (true, ct_buf c)) as [[[first st] b]|] eqn:R; [|discriminate].
  pose proof (so_far_run _ _ _ H _ _ _ _ R) as X. cbn [fst snd] in X. apply some_eq in E. subst c'. unfold write_op. rewrite <- X. reflexivity.
Qed.

Lemma so_far_total pretty ocs : forall s r, operation_consumed ocs -> op_run pretty ocs s = Some r ->
  (exists os, operands_so_far ocs os) \/ operation_stops_open ocs.
Proof.
  induction ocs as [|c ocs IH]; intros s r C R; [left; eexists; apply OS_none|]. apply Forall_cons_iff in C. destruct C as [C1 C2]. cbn [op_run] in R.
  assert (Later : forall s, op_run pretty ocs s = Some r -> (forall os, operands_so_far ocs os -> exists os', operands_so_far (c :: ocs) os') ->
    (exists os, operands_so_far (c :: ocs) os) \/ operation_stops_open (c :: ocs)).
  { intros s1 R1 K. destruct (IH _ _ C2 R1) as [(os & H)|(before & cs & -> & O)]; [left; exact (K os H)|right]. exists (c :: before), cs. split; [reflexivity|exact O]. }
  destruct c as [p|l|cs].
  - apply (Later _ R). intros os H. eexists. apply OS_operand. exact H.
  - apply (Later _ R). intros os H. eexists. apply OS_operands. exact H.
  - destruct (open_operand pretty (fst s) (snd s)) as [w b0]. destruct (api_run cs ([WObj w], b0)) as [[st1 b1]|] eqn:Q; [|discriminate].
    pose proof (run_plain_reached (WObj w) b0 [WObj w] cs st1 b1 (Op_obj _ _ w eq_refl) C1 Q) as P. destruct st1 as [|x st1].
    + cbn [reached] in P. unfold done in P. destruct P as (o & Eo & _). apply (Later _ R). intros os H. eexists. eapply OS_obj; [exact Eo|exact H].
    + destruct ocs as [|? ?]; [|discriminate]. destruct x as [w'|a|d|data d].
      * right. exists [], cs. split; [reflexivity|]. cbn [reached] in P. apply open_top in P. destruct P as [[P _]|[P|P]]; [left; exact P|right; left; exact P|right; right; exact P].
      * left. pose proof (close_up _ _ _ _ _ _ P Logic.I) as D. unfold done in D. destruct D as (o & Eo & _). eexists. apply OS_cut. eexists. exact Eo.
      * left. pose proof (close_up _ _ _ _ _ _ P Logic.I) as D. unfold done in D. destruct D as (o & Eo & _). eexists. apply OS_cut. eexists. exact Eo.
      * left. pose proof (close_up _ _ _ _ _ _ P Logic.I) as D. unfold done in D. destruct D as (o & Eo & _). eexists. apply OS_cut. eexists. exact Eo.
Qed.
(** At every point of every sequence of calls: either there are operands so far, or a place for a value is open. *)
Theorem C81_every_point : forall k ocs c c', operation_consumed ocs -> op_scope k ocs c = Some c' ->
  (exists os, operands_so_far ocs os) \/ operation_stops_open ocs.
Proof.
  intros k ocs c c' C E. unfold op_scope in E. destruct (op_run (ct_pretty c) ocs (true, ct_buf c)) as [r|] eqn:R; [|discriminate].
  exact (so_far_total _ _ _ _ C R).
Qed.

Lemma refused_allowed c : (refused c /\ call_allowed c = false) \/ (~ refused c /\ call_allowed c = true).
Proof.
  destruct c;
    try (right; split; [intro H; exact H|reflexivity]); cbn [refused call_allowed].
  - pose proof (leb_zero width) as X. unfold nonnegative in X. destruct (f32_leb f32_zero width) eqn:E.
    + right. split; [|reflexivity]. intro N. apply N. apply X. reflexivity.
    + left. split; [|reflexivity]. intro N. apply X in N. discriminate.
  - destruct (Z.leb_spec 0 tolerance), (Z.leb_spec tolerance 100); cbn [andb]; [right; split; [lia|reflexivity]|left; split; [lia|reflexivity]..].
Qed.
Lemma method_step c x : content_step c x = None <-> refused c.
Proof.
  unfold content_step. destruct (refused_allowed c) as [[R A]|[R A]]; rewrite A; [split; [intro; exact R|reflexivity]|].
  destruct (call_op c). split; [discriminate|contradiction].
Qed.

Lemma scope_step k os c : content_step (COp k os) c = Some (write_op os k c).
Proof. unfold content_step. cbn [call_allowed call_op call_depth]. unfold write_op. destruct (op_operands _ _ _ _). reflexivity. Qed.

(** A whole content stream, with any number of panics that are caught: it is the one that the calls amount to. *)
Theorem C81_content : forall ops calls c c', content_op_run ops c = Some c' -> amounts_to ops calls -> content_run calls c = Some c'.
Proof.
  intros ops calls c c' E H. revert c E. induction H as [|m r calls N H IH|m r calls N H IH|k ocs os r calls S H IH]; intros c E; cbn [content_op_run content_op_step content_run] in *.
  - exact E.
  - destruct (content_step m c) as [c1|] eqn:Q; [exact (IH _ E)|]. apply method_step in Q. contradiction.
  - destruct (content_step m c) as [c1|] eqn:Q; [|exact (IH _ E)]. exfalso. apply (method_step m c) in N. congruence.
  - destruct (op_scope k ocs c) as [c1|] eqn:Q; [|discriminate]. rewrite (C81_operation _ _ _ _ _ Q S) in E. rewrite scope_step. exact (IH _ E).
Qed.
Theorem C81_every_run : forall ops c c', content_op_run ops c = Some c' -> ops_consumed ops -> none_stops_open ops -> exists calls, amounts_to ops calls.
Proof.
  induction ops as [|op ops IH]; intros c c' E C N; [eexists; apply AT_none|]. apply Forall_cons_iff in C, N. destruct C as [C1 C2], N as [N1 N2].
  cbn [content_op_run] in E. destruct (content_op_step op c) as [c1|] eqn:Q; [|discriminate]. destruct (IH _ _ E C2 N2) as (calls & H).
  destruct op as [m|k ocs]; cbn [content_op_step] in Q.
  - destruct (refused_allowed m) as [[R _]|[R _]]; eexists; [apply AT_refused|apply AT_method]; eassumption.
  - destruct (C81_every_point _ _ _ _ C1 Q) as [(os & S)|O]; [eexists; eapply AT_scope; eassumption|contradiction].
Qed.
(** So it reads back as these operations. *)
Theorem C81_reads_back : forall pretty ops calls c, content_op_run ops (content_with_settings pretty) = Some c -> amounts_to ops calls ->
  forallb (ccall_ok pretty) calls = true ->
  exists l, parse_content (inner (content_finish c)) = Some l /\ Forall2 ccall_means calls l.
Proof.
  intros pretty ops calls c E H K. pose proof (C81_content _ _ _ _ E H) as R.
  exact (proj2 (C36_finish_keeps_operations pretty calls c K R)).
Qed.
(** Not promised if a place is open: a key without a value makes the whole stream unreadable. *)
Theorem C81_open_refuted : exists ops c, ops_consumed ops /\ content_op_run ops content_new = Some c /\ parse_content (content_bytes c) = None.
Proof.
  exists [OpMethod CSaveState; OpScope (lit "BDC") [OcOperand (PName (lit "P")); OcObj [CDict; CInsert (lit "MCID")]]; OpMethod CRestoreState].
  eexists. split; [|split; [reflexivity|vm_compute; reflexivity]].
  repeat constructor; intros [H|[H|[]]]; discriminate.
Qed.

(** A text operation that is cut short after two of its items, a line width that is refused, a property list that is cut short in a nested array. *)
Definition ops_sample : list content_op := [
  OpMethod CBeginText;
  OpScope (lit "TJ") [OcObj [CArray; CItem (PStr (lit "a")); CItem (PReal f32_zero)]];
  OpMethod CEndText;
  OpMethod (CSetLineWidth (FFin true 8388608 (-23)));
  OpScope (lit "BDC") [OcOperands [PName (lit "P")]; OcObj [CDict; CPair (lit "MCID") (PInt 3); CInsert (lit "X"); CArray; CPush; CDict]];
  OpMethod CEndMarkedContent].
Definition ops_calls : list ccall := [
  CBeginText; COp (lit "TJ") [OArray [OPrim (PStr (lit "a")); OPrim (PReal f32_zero)]]; CEndText;
  COp (lit "BDC") ([OPrim (PName (lit "P"))] ++ [ODict [(lit "MCID", OPrim (PInt 3)); (lit "X", OArray [ODict []])]]);
  CEndMarkedContent].
Example C81_case : ops_consumed ops_sample /\ none_stops_open ops_sample /\ amounts_to ops_sample ops_calls /\
  (forall p, forallb (ccall_ok p) ops_calls = true) /\
  option_map (fun c => inner (content_finish c)) (content_op_run ops_sample (content_with_settings false)) =
    Some (lit "BT[(a)0]TJ" ++ [x0a] ++ lit "ET/P<</MCID 3/X[<<>>]>>BDC" ++ [x0a] ++ lit "EMC").
Proof.
  assert (A : amounts_to ops_sample ops_calls).
  { apply AT_method; [intro H; exact H|]. apply AT_scope; [apply OS_cut; exists 1%nat; reflexivity|]. apply AT_method; [intro H; exact H|].
    apply AT_refused; [intros [H|[_ H]]; [discriminate|]; vm_compute in H; apply H; reflexivity|].
    apply AT_scope; [apply (OS_operands [PName (lit "P")]); apply OS_cut; exists 3%nat; reflexivity|]. apply AT_method; [intro H; exact H|apply AT_none]. }
  split; [unfold ops_consumed, ops_sample, operation_consumed; repeat constructor; unfold consumed; cbn [In]; intuition discriminate|].
  split; [|split; [exact A|split; [intros [|]; reflexivity|vm_compute; reflexivity]]].
  apply Forall_cons; [exact Logic.I|]. apply Forall_cons.
  { intros (before & cs & E & O). destruct before as [|x [|y before]]; try discriminate. injection E as <-.
    revert O. apply (C79_one_tree _ (OArray [OPrim (PStr (lit "a")); OPrim (PReal f32_zero)])). exists 1%nat. reflexivity. }
  apply Forall_cons; [exact Logic.I|]. apply Forall_cons; [exact Logic.I|]. apply Forall_cons.
  { intros (before & cs & E & O). destruct before as [|x [|y [|z before]]]; try discriminate. injection E as _ <-.
    revert O. apply (C79_one_tree _ (ODict [(lit "MCID", OPrim (PInt 3)); (lit "X", OArray [ODict []])])). exists 3%nat. reflexivity. }
  apply Forall_cons; [exact Logic.I|apply Forall_nil].
Qed.

Print Assumptions C81_operation.
Print Assumptions C81_every_point.
Print Assumptions C81_content.
Print Assumptions C81_every_run.
Print Assumptions C81_reads_back.
