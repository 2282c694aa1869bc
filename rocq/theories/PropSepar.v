(** C13, C09: exactly which values are read as they were written. *)

From Coq Require Import ZArith List Lia Bool.
From Verif Require Import Bytes ModelFloat ModelBuf ModelObject SpecLex SpecObj SpecText SpecMeans ProofObj ProofTree PropPrim PropTree ProofSepar.
Import ListNotations.
Local Open Scope Z_scope.

(** In compact output a value is read as it was written if and only if no empty name in it, as an array item or as a key, is followed directly by a
    number, a boolean, null or a reference. *)
Theorem C13_exactly : forall o b s, obj_ok o = true -> inner (write_obj o (obj_direct 0 false false) b) = inner b ++ s ->
  (separable o = true <-> exists v, parse_object s = Some v /\ means o v).
Proof.
  intros o b s Hok E. assert (Es : s = out false 0 o).
  { rewrite write_obj_inner in E. cbn [obj_direct o_pad o_pretty o_indent o_indirect end_bytes pad_if] in E. rewrite app_nil_r in E. apply app_inv_head in E. symmetry. exact E. }
  split.
  - intro Hs. destruct (C13_otherwise_separated o b Hok) as [_ H]. destruct (H Hs) as (s' & v & E' & P & M). rewrite E' in E. apply app_inv_head in E. subst s'. eauto.
  - intros (v & P & M). destruct (separable o) eqn:S; [reflexivity|]. subst s. destruct (wrong_value o 0 v Hok S P M).
Qed.

(** Deep inside a value, where something else is read without an error. *)
Example C13_exactly_case :
  let o := ODict [(lit "A", OArray [OPrim (PInt 1); OArray [OPrim (PName []); OPrim (PBool true)]]); (lit "B", OPrim (PRef 3))] in
  obj_ok o = true /\ separable o = false /\
  parse_object (inner (write_obj o (obj_direct 0 false false) buf_new)) =
    Some (VDict [(lit "A", VArr [VInt 1; VArr [VName (lit "true")]]); (lit "B", VRef 3 0)]).
Proof. vm_compute. auto. Qed.

(** ** C09 *)

Lemma span_clean s a b : span_z (fun x => negb (x =? esc)) s = (a, b) -> no_esc a = true.
Proof.
  revert a b. induction s as [|c r IH]; intros a b H; cbn [span_z] in H; [injection H as <- <-; reflexivity|].
  destruct (negb (c =? esc)) eqn:E; [|injection H as <- <-; reflexivity]. destruct (span_z (fun x => negb (x =? esc)) r) as [a' b']. injection H as <- <-.
  unfold no_esc. cbn [forallb]. unfold esc in E. rewrite E. exact (IH a' b' eq_refl).
Qed.
Lemma segments_clean : forall f s l, lang_segments f s = Some l -> Forall (fun seg => no_esc (fst seg) = true /\ no_esc (snd seg) = true) l.
Proof.
  induction f as [|f IH]; intros s l H.
  - destruct s; [|discriminate]. injection H as <-. constructor.
  - destruct s as [|c r]; cbn [lang_segments] in H; [injection H as <-; constructor|]. destruct (c =? esc); [|discriminate].
    destruct (span_z (fun x => negb (x =? esc)) r) as [tag r1] eqn:E1. destruct r1 as [|x r2]; [discriminate|].
    destruct (span_z (fun x => negb (x =? esc)) r2) as [text r3] eqn:E2. destruct (lang_segments f r3) as [l'|] eqn:E3; [|discriminate]. injection H as <-.
    constructor; [cbn [fst snd]; split; eapply span_clean; eassumption|eapply IH; exact E3].
Qed.

(** A text with languages is read as it was asked for if and only if there is no escape character in a text or a tag (tags made with [LanguageIdentifier::from_lang] and
    [from_lang_region] never have one, C09). *)
Theorem C09_exactly : forall segs b s, forallb (fun seg => forallb is_scalar (snd seg)) segs = true -> inner (write_prim (PTextLang segs) b) = inner b ++ s ->
  (forallb seg_clean segs = true <-> exists x, next_token s = Some (TStr x, []) /\ lang_decode x = Some (map seg_decoded segs)).
Proof.
  intros segs b s Hs E. split.
  - intro C. destruct (C09_language_text_round_trip segs Hs) as (x & W & _ & D). destruct (W b) as (s' & E' & T). rewrite E' in E. apply app_inv_head in E. subst s'.
    exists x. split; [|exact (D C)]. specialize (T [] ltac:(discriminate)). rewrite app_nil_r in T. exact T.
  - intros (x & _ & D). unfold lang_decode in D. destruct (text_decode x) as [t|]; [|discriminate]. apply segments_clean in D.
    apply Forall_map in D. apply forallb_forall. intros seg Hin. rewrite Forall_forall in D. specialize (D seg Hin). unfold seg_decoded in D. cbn [fst snd] in D.
    unfold seg_clean. destruct D as [-> ->]. reflexivity.
Qed.

Print Assumptions C13_exactly.
Print Assumptions C09_exactly.
