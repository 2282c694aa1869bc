(** C101, content streams: how large they get. *)

From Coq Require Import ZArith List Lia Bool ZifyBool.
From Verif Require Import Bytes ModelFloat ModelBuf ModelObject ModelContent SpecContent SpecOverflow SpecCost ProofBasic ProofObj ProofTree ProofContent ProofCost ProofCost2
  PropContent PropCost.
Import ListNotations.
Local Open Scope Z_scope.

(** An operation: the operands with a separator each, the operator with its own. *)
Definition operation_cost (pretty : bool) (op : list obj * bytes) : Z := total (fun o => 1 + cost pretty o) (fst op) + 1 + size (snd op).

Lemma operand_len p first o b : fits o = true ->
  blen (inner b) < blen (inner (op_operand p first o b)) <= blen (inner b) + 1 + cost p o.
Proof.
  intro F. unfold op_operand. destruct p; [|apply (C101_value o 0 false true b F); lia].
  rewrite write_obj_inner. cbn [obj_direct o_pad o_pretty o_indent o_indirect end_bytes pad_if]. rewrite app_nil_r, app_nil_l, blen_app.
  pose proof (value_len true o 0 ltac:(lia) F) as L. pose proof (out_ne true 0 o) as N.
  assert (0 < blen (out true 0 o)) by (destruct (out true 0 o); [congruence|unfold blen; cbn [List.length]; lia]).
  destruct (inner b) as [|x r] eqn:E; [rewrite ?E in *; change (blen []) with 0; lia|]. unfold push, extend. cbn [inner]. rewrite E, blen_app. change (blen [_]) with 1. lia.
Qed.
Lemma operands_len p l : forall first b, forallb fits l = true ->
  let b' := snd (op_operands p first l b) in
  blen (inner b) + size l <= blen (inner b') <= blen (inner b) + total (fun o => 1 + cost p o) l.
Proof.
  induction l as [|o l IH]; intros first b F; cbn [op_operands snd total fold_right forallb] in *; [change (@size obj []) with 0; lia|].
  apply andb_true_iff in F. destruct F as [F1 F2]. pose proof (operand_len p first o b F1). specialize (IH false (op_operand p first o b) F2). cbv zeta in *.
  unfold total in IH. replace (size (o :: l)) with (1 + size l) by (unfold size; cbn [List.length]; lia). lia.
Qed.
Lemma drop_len p first k b : blen (inner b) + blen k <= blen (inner (op_drop p first k b)) <= blen (inner b) + 1 + blen k.
Proof.
  unfold op_drop. destruct (_ && _); unfold push, extend; cbn [inner]; rewrite ?blen_app; [change (blen [_]) with 1|]; lia.
Qed.

(** A content stream is at most as long as its operations cost, and has at least one byte for every operand and all of the operators. *)
Theorem C101_content : forall pretty calls c, forallb (fun call => forallb fits (fst (iso_operation call))) calls = true ->
  content_run calls (content_with_settings pretty) = Some c ->
  total (fun call => size (fst (iso_operation call)) + size (snd (iso_operation call))) calls <= content_len c <=
    total (fun call => operation_cost pretty (iso_operation call)) calls.
Proof.
  intros pretty calls c F H.
  assert (G : forall calls c0 c, ct_pretty c0 = pretty -> forallb (fun call => forallb fits (fst (iso_operation call))) calls = true -> content_run calls c0 = Some c ->
    content_len c0 + total (fun call => size (fst (iso_operation call)) + size (snd (iso_operation call))) calls <= content_len c <=
    content_len c0 + total (fun call => operation_cost pretty (iso_operation call)) calls).
  { clear. induction calls as [|call r IH]; intros c0 c P F H.
    - cbn in H. injection H as <-. cbn [total fold_right]. lia.
    - cbn [content_run] in H. cbn [forallb] in F. apply andb_true_iff in F. destruct F as [F1 F2]. destruct (content_step call c0) as [c1|] eqn:E; [|discriminate].
      unfold content_step in E. destruct (call_allowed call); [|discriminate]. rewrite iso_call in F1.
      assert (L : content_len c0 + (size (fst (iso_operation call)) + size (snd (iso_operation call))) <= content_len c1 <=
        content_len c0 + operation_cost pretty (iso_operation call) /\ ct_pretty c1 = pretty).
      { rewrite iso_call. destruct (call_op call) as [os k]. apply some_inj in E. subst c1. unfold write_op, operation_cost in *. cbn [fst snd] in *.
        pose proof (operands_len (ct_pretty c0) os true (ct_buf c0) F1) as L. cbv zeta in L.
        destruct (op_operands (ct_pretty c0) true os (ct_buf c0)) as [f b]. cbn [fst snd ct_buf ct_pretty ct_depth] in *. unfold content_len, content_bytes. cbn [ct_buf].
        pose proof (drop_len (ct_pretty c0) f k b). rewrite P in *. change (size k) with (blen k). split; [lia|reflexivity]. }
      destruct L as [L P']. specialize (IH c1 c P' F2 H). cbn [total fold_right]. unfold total in IH. lia. }
  specialize (G calls (content_with_settings pretty) c eq_refl F H). unfold content_len at 1 3 in G. cbn in G. exact G.
Qed.

(** The bound is reached when the output is compact; otherwise there is no separator in front of the very first operand. *)
Definition tiny : f32 := FFin true 1 (-149).
Lemma tiny_units p n : forall prev, ends_delim prev = false ->
  blen (c_out p prev (flat_map call_units (repeat (CSetFillGray tiny) n))) = 51 * Z.of_nat n - match prev, n with None, S _ => if p then 1 else 0 | _, _ => 0 end.
Proof.
  assert (P : blen (prim_bytes (PReal tiny)) = 48) by (vm_compute; reflexivity).
  assert (D : last_byte (prim_bytes (PReal tiny)) = Some x31) by (vm_compute; reflexivity).
  induction n as [|n IH]; intros prev E; [cbn [repeat flat_map c_out]; change (blen []) with 0; destruct prev; reflexivity|].
  cbn [repeat flat_map call_units call_op]. unfold op_units. cbn [reals map operand_units app c_out u_body out]. rewrite D, !blen_app, P.
  change (last_byte (lit "g")) with (Some x67). rewrite (IH (Some x67) eq_refl). change (blen (lit "g")) with 1.
  cbn [u_sep]. unfold pad. cbn [SpecMeans.begins_with_delimiter SpecMeans.is_nil]. rewrite E.
  change (is_delimiter_character x31) with false. rewrite orb_true_r. change (blen [if false then x0a else x20]) with 1.
  destruct p, prev; cbn [negb andb]; repeat change (blen [_]) with 1; change (blen []) with 0; lia.
Qed.
Theorem C101_content_attained : forall pretty n, exists c, content_run (repeat (CSetFillGray tiny) (S n)) (content_with_settings pretty) = Some c /\
  content_len c = total (fun call => operation_cost pretty (iso_operation call)) (repeat (CSetFillGray tiny) (S n)) - (if pretty then 1 else 0).
Proof.
  intros pretty n.
  assert (O : operation_cost pretty (iso_operation (CSetFillGray tiny)) = 51) by (destruct pretty; vm_compute; reflexivity).
  assert (T : forall m, total (fun call => operation_cost pretty (iso_operation call)) (repeat (CSetFillGray tiny) m) = 51 * Z.of_nat m).
  { unfold total. induction m as [|m IH]; [reflexivity|]. cbn [repeat fold_right]. rewrite O, IH. lia. }
  assert (R : forall m c0, exists c, content_run (repeat (CSetFillGray tiny) m) c0 = Some c).
  { induction m as [|m IH]; intro c0; [eexists; reflexivity|]. cbn [repeat content_run content_step call_allowed call_op].
    unfold content_step. cbn [call_allowed call_op]. apply IH. }
  destruct (R (S n) (content_with_settings pretty)) as [c H]. exists c. split; [exact H|].
  destruct (content_run_inner _ _ _ H) as [I _]; [apply Forall_forall; intros x Hx; apply repeat_spec in Hx; subst x; unfold op_ne; cbn; discriminate|].
  unfold content_len, content_bytes. rewrite I, T. cbn [content_with_settings ct_buf buf_new inner ct_pretty app]. rewrite tiny_units by reflexivity. cbn [last_byte]. reflexivity.
Qed.

Example C101_content_case :
  forallb (fun call => forallb fits (fst (iso_operation call))) example_calls = true /\
  total (fun call => operation_cost false (iso_operation call)) example_calls = 665 /\
  total (fun call => size (fst (iso_operation call)) + size (snd (iso_operation call))) example_calls = 42 /\
  option_map content_len (content_run example_calls (content_with_settings false)) = Some 100.
Proof. split; [vm_compute; reflexivity|]. split; [vm_compute; reflexivity|]. split; vm_compute; reflexivity. Qed.

Print Assumptions C101_content.
Print Assumptions C101_content_attained.
