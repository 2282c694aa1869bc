(** C12: the constructors without settings give the pretty layout, those with settings the layout asked for. *)

From Coq Require Import ZArith List Lia Bool.
From Verif Require ModelContent.
From Verif Require Import Bytes ModelFloat ModelBuf ModelObject ModelChunk ModelPdf SpecLex SpecObj SpecMeans ProofBasic ProofObj.
Import ListNotations.
Local Open Scope Z_scope.

(** What is written for an object that is not indirect, with the given settings. *)
Definition layout (pretty : bool) (o : obj) : bytes := inner (write_obj o (obj_direct 0 pretty false) buf_new).
Definition object_layout (pretty : bool) (id : Z) (o : obj) : bytes :=
  dec_i id ++ lit " 0 obj" ++ [x0a] ++ layout pretty o ++ [x0a] ++ lit "endobj" ++ [x0a] ++ (if pretty then [x0a] else []).

Lemma object_in pretty id o c : c_pretty c = pretty -> chunk_bytes (chunk_object id o c) = chunk_bytes c ++ object_layout pretty id o.
Proof.
  intros <-. unfold chunk_bytes, chunk_object, chunk_indirect, obj_indirect. cbn [c_buf]. rewrite write_obj_inner.
  cbn [o_pad o_indirect o_pretty o_indent pad_if end_bytes]. unfold object_layout, layout. rewrite write_obj_inner.
  cbn [obj_direct o_pad o_indirect o_pretty o_indent pad_if buf_new inner app end_bytes]. rewrite app_nil_r.
  rewrite inner_extend. unfold push_int. rewrite inner_extend, inner_with, <- !app_assoc. reflexivity.
Qed.

Theorem C12_settings_choose_layout : forall pretty id o,
  chunk_bytes (chunk_object id o (chunk_with_settings pretty)) = object_layout pretty id o /\
  chunk_bytes (chunk_object id o (p_chunk (pdf_with_settings pretty))) = pdf_header ++ object_layout pretty id o.
Proof. intros. split; rewrite (object_in pretty) by reflexivity; reflexivity. Qed.
Theorem C12_default_is_pretty : forall id o,
  chunk_bytes (chunk_object id o chunk_new) = object_layout true id o /\
  chunk_bytes (chunk_object id o (p_chunk pdf_new)) = pdf_header ++ object_layout true id o.
Proof. intros. split; rewrite (object_in true) by reflexivity; reflexivity. Qed.

(** Content streams: an operation with one operand at the start of a stream.  In compact output the operator follows a closing
    delimiter directly, and an operand that does not begin with a delimiter has a blank before it even at the start of a stream. *)
Lemma delimiter_is c : is_delimiter_character c = bmem c (lit "()<>[]/%").
Proof. destruct c; reflexivity. Qed.
Theorem C12_content_settings : forall pretty o k,
  ModelContent.content_bytes (ModelContent.write_op [o] k (ModelContent.content_with_settings pretty)) =
  (if pretty || begins_with_delimiter o then [] else [x20]) ++ layout pretty o ++
  (if pretty || (match last_byte (layout pretty o) with Some c => negb (bmem c (lit "()<>[]/%")) | None => false end) then [x20] else []) ++ k.
Proof.
  intros p o k.
  assert (DE : forall x, match x with Some c => negb (bmem c (lit "()<>[]/%")) | None => false end = match x with Some c => negb (is_delimiter_character c) | None => false end)
    by (intros [c|]; [rewrite delimiter_is|]; reflexivity).
  rewrite DE. clear DE. unfold ModelContent.content_bytes, ModelContent.write_op, ModelContent.content_with_settings.
  cbn [ModelContent.ct_buf ModelContent.ct_pretty ModelContent.op_operands].
  assert (E : exists b, ModelContent.op_operand p true o buf_new = b /\ inner b = (if p || begins_with_delimiter o then [] else [x20]) ++ layout p o).
  { eexists. split; [reflexivity|]. unfold ModelContent.op_operand. destruct p; cbn [buf_new inner orb]; [reflexivity|].
    unfold layout. rewrite !write_obj_inner. cbn [obj_direct o_pad o_indirect o_pretty o_indent pad_if buf_new inner app end_bytes].
    rewrite !app_nil_r. unfold pad. cbn [last_byte]. destruct (begins_with_delimiter o); reflexivity. }
  destruct E as (b & -> & E). unfold ModelContent.op_drop. cbn [ModelContent.ct_buf]. rewrite inner_extend, E.
  assert (N : layout p o <> []).
  { unfold layout. rewrite write_obj_inner. cbn [obj_direct o_pad o_indirect o_pretty o_indent pad_if buf_new inner app end_bytes].
    rewrite app_nil_r. apply out_ne. }
  rewrite last_byte_app_ne by exact N. set (lead := if p || begins_with_delimiter o then [] else [x20]) in *. clearbody lead.
  assert (N' : exists c l, lead ++ layout p o = c :: l).
  { destruct lead as [|c l]; [|exists c, (l ++ layout p o); reflexivity]. destruct (layout p o) as [|c l]; [contradiction|]. exists c, l. reflexivity. }
  destruct N' as (c & l & ->). cbn [negb]. rewrite andb_true_r.
  destruct (p || _); rewrite ?inner_push, E, <- !app_assoc; reflexivity.
Qed.
Theorem C12_content_default_is_pretty : forall o k,
  ModelContent.content_bytes (ModelContent.write_op [o] k ModelContent.content_new) = layout true o ++ [x20] ++ k.
Proof. intros. apply (C12_content_settings true). Qed.

Example C12_default_case :
  chunk_bytes (chunk_object 7 (ODict [(lit "A", OPrim (PInt 1))]) chunk_new) =
    lit "7 0 obj" ++ [x0a] ++ lit "<<" ++ [x0a] ++ lit "  /A 1" ++ [x0a] ++ lit ">>" ++ [x0a] ++ lit "endobj" ++ [x0a; x0a] /\
  chunk_bytes (chunk_object 7 (ODict [(lit "A", OPrim (PInt 1))]) (chunk_with_settings false)) =
    lit "7 0 obj" ++ [x0a] ++ lit "<</A 1>>" ++ [x0a] ++ lit "endobj" ++ [x0a].
Proof. vm_compute. split; reflexivity. Qed.

Print Assumptions C12_settings_choose_layout.
Print Assumptions C12_default_is_pretty.
Print Assumptions C12_content_settings.
Print Assumptions C12_content_default_is_pretty.
