(** C61: the generic writers, call by call. *)

From Coq Require Import ZArith List Lia Bool.
From Verif Require Import Bytes ModelFloat ModelBuf ModelObject ModelRenumber ModelChunk ModelApi SpecLex SpecObj SpecMeans SpecChunk SpecApi
  ProofBasic ProofObj ProofLimits ProofApi.
Import ListNotations.
Local Open Scope Z_scope.

(** Whatever calls are made on an object until no writer is open any more, they are the calls for exactly one tree, and what
    is in the buffer is what writing this tree leaves there. *)
Theorem C61_calls_write_a_tree : forall w b cs b',
  consumed cs -> api_run cs ([WObj w], b) = Some ([], b') ->
  exists o, expanded cs = calls_of o /\ b' = write_obj o w b.
Proof.
  intros w b cs b' C R. apply run_expanded in R.
  exact (run_reached (WObj w) b _ (expanded_plain cs C) _ _ _ _ _ (Op_obj (WObj w) b w eq_refl) R).
Qed.
Theorem C61_tree_is_unique : forall o o', calls_of o = calls_of o' -> o = o'.
Proof. intros o o' E. apply (f_equal (fun l => l ++ [])) in E. apply calls_inj in E. exact (proj1 E). Qed.
(** Every tree can be written so, also inside of other writers, and nothing else in the stack is touched. *)
Theorem C61_every_tree_is_written : forall o w st b, api_run (calls_of o) (WObj w :: st, b) = Some (st, write_obj o w b).
Proof. exact run_calls. Qed.
(** The shorthands do what they stand for. *)
Theorem C61_shorthands : forall cs s s', api_run cs s = Some s' -> api_run (expanded cs) s = Some s'.
Proof. exact run_expanded. Qed.

(** The same for the entries of a stream. *)
Theorem C61_calls_write_a_stream : forall data d b cs b',
  consumed cs -> api_run cs ([WStream data d], b) = Some ([], b') ->
  exists es d' b1, expanded cs = inserts es ++ [CDrop] /\ write_entries es d b = (d', b1) /\ b' = stream_drop data d' b1.
Proof.
  intros data d b cs b' C R. apply run_expanded in R.
  assert (O : opened (WStream data d) b [WStream data d] [] b) by exact (Op_stream (WStream data d) b data d [] d b eq_refl eq_refl).
  destruct (run_reached (WStream data d) b _ (expanded_plain cs C) _ _ _ _ _ O R) as (es & d' & b1 & W & E & B).
  exists es, d', b1. split; [exact E|]. split; [exact W|exact B].
Qed.

(** [len] is the number of items (entries) written to this very array (dictionary), and [is_empty] tells whether there are none. *)
Theorem C61_array_len : forall w b cs a st b',
  consumed cs -> api_run cs ([WObj w], b) = Some (WArray a :: st, b') ->
  exists before l, expanded cs = before ++ CArray :: pushes l /\
    writer_len (WArray a) = Some (Z.of_nat (length l)) /\ (writer_is_empty (WArray a) = Some true <-> l = []).
Proof.
  intros w b cs a st b' C R. apply run_expanded in R.
  pose proof (run_reached (WObj w) b _ (expanded_plain cs C) _ _ _ _ _ (Op_obj (WObj w) b w eq_refl) R) as X.
  cbn [reached app] in X. inversion X as [|data d1 es d2 b3 E W E1|w1 st1 cs1 b3 l a1 a2 b4 b5 H2 A W E1| | | |]; subst.
  exists cs1, l. split; [reflexivity|]. pose proof (write_items_len l a1 b4) as L. rewrite W in L. cbn [fst] in L.
  unfold array_start in A. injection A as <- _. cbn [a_len] in L. rewrite Z.add_0_l in L. unfold writer_is_empty. cbn [writer_len option_map]. rewrite L.
  split; [reflexivity|]. destruct l; cbn [length]; split; intro H; try reflexivity; try discriminate.
Qed.
Theorem C61_dict_len : forall w b cs d st b',
  consumed cs -> api_run cs ([WObj w], b) = Some (WDict d :: st, b') ->
  exists before l, expanded cs = before ++ CDict :: inserts l /\
    writer_len (WDict d) = Some (Z.of_nat (length l)) /\ (writer_is_empty (WDict d) = Some true <-> l = []).
Proof.
  intros w b cs d st b' C R. apply run_expanded in R.
  pose proof (run_reached (WObj w) b _ (expanded_plain cs C) _ _ _ _ _ (Op_obj (WObj w) b w eq_refl) R) as X.
  cbn [reached app] in X. inversion X as [|data d1 es d2 b3 E W E1| |w1 st1 cs1 b3 l a1 a2 b4 b5 H2 A W E1| | |]; subst.
  exists cs1, l. split; [reflexivity|]. pose proof (write_entries_len l a1 b4) as L. rewrite W in L. cbn [fst] in L.
  unfold dict_start in A. injection A as <- _. cbn [d_len] in L. rewrite Z.add_0_l in L. unfold writer_is_empty. cbn [writer_len option_map]. rewrite L.
  split; [reflexivity|]. destruct l; cbn [length]; split; intro H; try reflexivity; try discriminate.
Qed.

(** So the histories of the other theorems are all programs: [chunk.indirect(id)] or [chunk.stream(id, data)] and any
    calls until the writer is gone. *)
Theorem C61_chunk_object : forall h c id cs c',
  consumed cs -> run h = Some c -> api_object id cs c = Some c' ->
  exists o, expanded cs = calls_of o /\ run (HObject h id o) = Some c'.
Proof.
  intros h c id cs c' C R E. unfold api_object in E. cbn [run]. rewrite R. cbn [option_map]. unfold chunk_object.
  destruct (chunk_indirect id c) as [w c1]. destruct (api_run cs ([WObj w], c_buf c1)) as [[[|x st] b]|] eqn:A; try discriminate.
  destruct (C61_calls_write_a_tree w _ cs b C A) as (o & E1 & E2). exists o. split; [exact E1|]. rewrite <- E2. exact E.
Qed.
Theorem C61_chunk_stream : forall h c id data cs c',
  consumed cs -> run h = Some c -> api_stream id data cs c = Some c' ->
  exists es, expanded cs = inserts es ++ [CDrop] /\ run (HStream h id es data) = Some c'.
Proof.
  intros h c id data cs c' C R E. unfold api_stream in E. cbn [run]. rewrite R. unfold chunk_stream.
  destruct (chunk_indirect id c) as [w c1]. unfold write_stream. destruct (stream_start w data (c_buf c1)) as [[d b]|]; [|discriminate].
  destruct (api_run cs ([WStream data d], b)) as [[[|x st] b2]|] eqn:A; try discriminate.
  destruct (C61_calls_write_a_stream data d b cs b2 C A) as (es & d' & b1 & E1 & E2 & E3). exists es. split; [exact E1|].
  rewrite E2, <- E3. exact E.
Qed.

(** An [Obj] that is dropped unused leaves an array readable, but it is counted; a dictionary is broken. *)
Theorem C61_abandoned_refuted :
  (exists cs b, api_run cs ([WObj (obj_direct 0 false false)], buf_new) = Some ([], b) /\
     parse_object (inner b) = Some (VArr [VInt 7]) /\ l_array (lims b) = 2) /\
  (exists cs b, api_run cs ([WObj (obj_direct 0 false false)], buf_new) = Some ([], b) /\ parse_object (inner b) = None).
Proof.
  split.
  - exists [CArray; CPush; CAbandon; CItem (PInt 7); CDrop]. eexists. split; [vm_compute; reflexivity|]. split; vm_compute; reflexivity.
  - exists [CDict; CPair (lit "A") (PInt 1); CInsert (lit "B"); CAbandon; CDrop]. eexists. split; [vm_compute; reflexivity|]. vm_compute. reflexivity.
Qed.

Definition sample_calls : list call :=
  [CDict; CPairs [(lit "A", PInt 1); (lit "B", PNull)]; CInsert (lit "C"); CArray; CItems [PInt 2; PInt 3]; CPush; CDict; CDrop; CDrop; CDrop].
Example C61_case :
  consumed sample_calls /\
  (exists b, api_run sample_calls ([WObj (obj_direct 0 false false)], buf_new) = Some ([], b) /\ inner b = lit "<</A 1/B null/C[2 3<<>>]>>") /\
  (exists a st b, api_run (firstn 5 sample_calls) ([WObj (obj_direct 0 false false)], buf_new) = Some (WArray a :: st, b) /\ writer_len (WArray a) = Some 2) /\
  (exists c, api_object 4 sample_calls (chunk_with_settings true) = Some c) /\
  (exists c, api_stream 4 (lit "data") [CPair (lit "N") (PInt 3); CDrop] (chunk_with_settings true) = Some c).
Proof.
  split; [unfold consumed, sample_calls; cbn [In]; intros H; repeat (destruct H as [H|H]; [discriminate|]); exact H|].
  split; [eexists; split; vm_compute; reflexivity|]. split; [eexists; eexists; eexists; split; vm_compute; reflexivity|].
  split; eexists; vm_compute; reflexivity.
Qed.

Print Assumptions C61_calls_write_a_tree.
Print Assumptions C61_tree_is_unique.
Print Assumptions C61_every_tree_is_written.
Print Assumptions C61_shorthands.
Print Assumptions C61_calls_write_a_stream.
Print Assumptions C61_array_len.
Print Assumptions C61_dict_len.
Print Assumptions C61_chunk_object.
Print Assumptions C61_chunk_stream.
Print Assumptions C61_abandoned_refuted.
