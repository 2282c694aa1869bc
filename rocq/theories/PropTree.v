(** Properties C11..C14: object trees. *)

From Coq Require Import ZArith List Lia Bool ZifyBool ZifyNat.
From Verif Require Import Bytes ModelFloat ModelBuf ModelObject SpecLex SpecObj SpecText SpecMeans SpecStyle
  ProofBasic ProofText ProofFloat2 ProofObj ProofParse ProofTree ProofPrint ProofStyle.
Import ListNotations.
Local Open Scope Z_scope.

(** ** C11 *)

(** Whatever the buffer [b] holds, whatever the writer settings [w] and whatever follows:
    writing [o] appends bytes off which a reader takes exactly one value, which means [o],
    and continues with what follows. *)
Theorem C11_tree_round_trip : forall o w b,
  o_indirect w = false -> obj_ok o = true -> (o_pretty w = true \/ separable o = true) ->
  exists s v, inner (write_obj o w b) = inner b ++ s /\ means o v /\
    forall rest acc fuel, boundary rest -> (List.length (s ++ rest) < fuel)%nat ->
      objects fuel acc (s ++ rest) = objects fuel (v :: acc) rest.
Proof.
  intros o w b Hi Hok Hs.
  exists (pad_if (o_pad w) (last_byte (inner b)) o ++ out (o_pretty w) (o_indent w) o), (obj_val o).
  split; [|split].
  - rewrite (write_obj_inner o w b), Hi. cbn [end_bytes]. rewrite app_nil_r. reflexivity.
  - apply means_val. assumption.
  - intros rest acc fuel Hb Hf. rewrite !objects_objs.
    + rewrite <- app_assoc, objs_ws.
      * apply out_parses; [assumption| |right; assumption]. unfold sep_ok. apply orb_true_iff. exact Hs.
      * unfold pad_if. destruct (o_pad w); [apply pad_ws|reflexivity].
    + rewrite app_length in Hf. lia.
    + assumption.
Qed.

(** The same for the tree as a whole text. *)
Theorem C11_tree_alone : forall o w b,
  o_indirect w = false -> obj_ok o = true -> (o_pretty w = true \/ separable o = true) ->
  exists s v, inner (write_obj o w b) = inner b ++ s /\ parse_object s = Some v /\ means o v.
Proof.
  intros o w b Hi Hok Hs. destruct (C11_tree_round_trip o w b Hi Hok Hs) as (s & v & H1 & H2 & H3).
  exists s, v. split; [exact H1|]. split; [|exact H2].
  specialize (H3 [] [] (S (List.length s)) I). rewrite app_nil_r in H3. specialize (H3 ltac:(lia)).
  unfold parse_object, parse_objects. rewrite H3. rewrite objects_objs by (cbn; lia).
  rewrite objs_end by reflexivity. reflexivity.
Qed.

(** Names without empty ones satisfy the side condition. *)
Theorem C11_nonempty_names_suffice : forall o, names_nonempty o = true -> separable o = true.
Proof. exact names_nonempty_separable. Qed.

Definition example_tree : obj :=
  ODict [(lit "Type", OPrim (PName (lit "Page")));
         (lit "A", OArray [OPrim (PInt 1); OPrim (PStr (lit "s")); OPrim (PBool true); OArray [];
                           OPrim (PRef 7); OPrim (PName (lit "n")); OPrim PNull; ODict []]);
         (lit "Box", OPrim (PRect (mkRect (FFin false 0 (-149)) (FFin true 12582912 (-23))
                                          (FFin false 8388608 (-20)) (FFin false 13421773 (-27)))))].

Example C11_case : obj_ok example_tree = true /\ names_nonempty example_tree = true /\
  inner (write_obj example_tree (obj_direct 0 false false) buf_new) =
    lit "<</Type/Page/A[1(s)true[]7 0 R/n null<<>>]/Box[0 -1.5 8 0.1]>>".
Proof. vm_compute. repeat split; reflexivity. Qed.

(** ** C12 *)

Theorem C12_same_tokens : forall o i j b b',
  obj_ok o = true -> separable o = true ->
  exists pretty compact ts,
    inner (write_obj o (obj_direct i true false) b) = inner b ++ pretty /\
    inner (write_obj o (obj_direct j false false) b') = inner b' ++ compact /\
    tokens pretty = Some ts /\ tokens compact = Some ts /\ blen compact <= blen pretty.
Proof.
  intros o i j b b' Hok Hs.
  exists (out true i o), (out false j o), (obj_toks o).
  split; [|split; [|split; [|split]]].
  - rewrite (write_obj_inner o _ b). cbn. rewrite app_nil_r. reflexivity.
  - rewrite (write_obj_inner o _ b'). cbn. rewrite app_nil_r. reflexivity.
  - apply lexes_tokens. rewrite <- (app_nil_r (out true i o)).
    apply out_lexes; [assumption|reflexivity|right; exact I].
  - apply lexes_tokens. rewrite <- (app_nil_r (out false j o)).
    apply out_lexes; [assumption|exact Hs|right; exact I].
  - apply compact_shorter.
Qed.

Example C12_case :
  inner (write_obj (ODict [(lit "A", OArray [OPrim (PInt 1); OPrim (PName (lit "b"))])]) (obj_direct 0 true false) buf_new) =
    lit "<<" ++ [x0a] ++ lit "  /A [1 /b]" ++ [x0a] ++ lit ">>".
Proof. vm_compute. reflexivity. Qed.

(** ** C13 *)

Lemma span_regular_word w rest : forallb is_regular w = true -> boundary rest -> span is_regular (w ++ rest) = (w, rest).
Proof. intros H1 H2. apply span_all; [assumption|]. destruct rest; [exact I|exact H2]. Qed.

Lemma glued_word w r : forallb is_regular w = true -> boundary r ->
  next_token (x2f :: w ++ r) = match name_decode w with Some n => Some (TName n, r) | None => None end.
Proof.
  intros H Hb. unfold next_token. rewrite blanks_solid by reflexivity. cbn [lex_token].
  rewrite span_regular_word by assumption. reflexivity.
Qed.

(** In compact mode a dictionary entry with an empty key and a value that does not begin
    with a delimiter cannot be read back at all: key and value run together. *)
Theorem C13_empty_name_refuted : forall q b,
  prim_ok q = true -> begins_with_delimiter (OPrim q) = false ->
  exists s, inner (write_obj (ODict [([], OPrim q)]) (obj_direct 0 false false) b) = inner b ++ s /\
    parse_object s = None.
Proof.
  intros q b Hok Hq. exists (out false 0 (ODict [([], OPrim q)])). split.
  - rewrite (write_obj_inner _ _ b). cbn [obj_direct o_indirect o_pad o_pretty o_indent pad_if end_bytes].
    rewrite app_nil_l, app_nil_r. reflexivity.
  - rewrite out_dict. cbn [out_entries andb app]. 
    assert (Hp : pad (last_byte (name_bytes [])) (OPrim q) = []).
    { unfold pad. change (ends_delim (last_byte (name_bytes []))) with true. rewrite andb_false_r. reflexivity. }
    rewrite Hp. change (name_bytes []) with [x2f]. cbn [out app]. rewrite app_nil_r.
    unfold parse_object, parse_objects. rewrite objects_objs by lia.
    assert (H0 : forall r, next_token (x3c :: x3c :: r) = Some (TDictOpen, r)) by reflexivity.
    rewrite (objs_step _ _ _ _ (H0 _)).
    assert (One : forall w, forallb is_regular w = true ->
              objs [] (x2f :: w ++ [x3e; x3e]) = match name_decode w with Some n => Some ([VName n], Some TDictClose, []) | None => None end).
    { intros w Hw. pose proof (glued_word w [x3e; x3e] Hw eq_refl) as Hg.
      destruct (name_decode w) as [n|].
      - rewrite (objs_step _ _ _ _ Hg). reflexivity.
      - unfold objs. cbn [objects]. unfold next_token in Hg. rewrite blanks_solid in * by reflexivity.
        rewrite Hg. reflexivity. }
    assert (Two : forall w, forallb is_regular w = true ->
      match objs [] (x2f :: w ++ [x3e; x3e]) with
      | Some (l, Some TDictClose, r') => match pair_up l with Some d => objs [VDict d] r' | None => None end
      | _ => None
      end = None).
    { intros w Hw. rewrite One by assumption. destruct (name_decode w); reflexivity. }
    destruct q; try discriminate Hq; cbn [prim_bytes prim_ok] in *.
    + rewrite (Two (lit "null")); reflexivity.
    + destruct v; [rewrite (Two (lit "true"))|rewrite (Two (lit "false"))]; reflexivity.
    + rewrite Two; [reflexivity|]. apply dec_i_spec.
    + rewrite Two; [reflexivity|]. destruct (real_ok_good v Hok) as (t & _ & H2 & _). exact H2.
    + rewrite <- app_assoc.
      pose proof (glued_word (dec_i r) (lit " 0 R" ++ [x3e; x3e]) ltac:(apply dec_i_spec) eq_refl) as Hg.
      destruct (name_decode (dec_i r)) as [n|].
      * rewrite (objs_step _ _ _ _ Hg). reflexivity.
      * assert (E : objs [] (x2f :: dec_i r ++ lit " 0 R" ++ [x3e; x3e]) = None).
        { unfold objs. cbn [objects]. unfold next_token in Hg. rewrite blanks_solid in * by reflexivity.
          rewrite Hg. reflexivity. }
        rewrite E. reflexivity.
Qed.

(** The same entry in an array: the name swallows the number. *)
Theorem C13_array_refuted : exists s,
  inner (write_obj (OArray [OPrim (PName []); OPrim (PInt 5)]) (obj_direct 0 false false) buf_new) = s /\
  parse_object s = Some (VArr [VName (lit "5")]).
Proof. eexists. split; [reflexivity|]. vm_compute. reflexivity. Qed.

(** In pretty mode, and in compact mode whenever the next object begins with a delimiter,
    the empty name is kept apart (this is C11 with [separable]). *)
Theorem C13_otherwise_separated : forall o b,
  obj_ok o = true ->
  (exists s v, inner (write_obj o (obj_direct 0 true false) b) = inner b ++ s /\ parse_object s = Some v /\ means o v) /\
  (separable o = true ->
   exists s v, inner (write_obj o (obj_direct 0 false false) b) = inner b ++ s /\ parse_object s = Some v /\ means o v).
Proof.
  intros o b Hok. split; [|intro Hs]; apply C11_tree_alone; auto.
Qed.

Example C13_case : separable (ODict [([], OPrim (PName [])); ([], OArray [OPrim (PName []); OPrim (PStr [])])]) = true /\
  separable (ODict [([], OPrim (PInt 5))]) = false.
Proof. vm_compute. split; reflexivity. Qed.

(** ** C14 *)

(** At every nesting depth (any tree, any starting indentation of a [u8]) lines are
    indented by at most 255 spaces. *)
Theorem C14_indentation_bounded : forall o w b,
  o_indirect w = false -> obj_ok o = true -> 0 <= o_indent w <= 255 ->
  exists s, inner (write_obj o w b) = inner b ++ s /\ indents_bounded s.
Proof.
  intros o w b Hi Hok Hw.
  exists (pad_if (o_pad w) (last_byte (inner b)) o ++ out (o_pretty w) (o_indent w) o). split.
  - rewrite (write_obj_inner o w b), Hi. cbn [end_bytes]. rewrite app_nil_r. reflexivity.
  - unfold indents_bounded. rewrite scan_app.
    replace (indent_scan None (pad_if (o_pad w) (last_byte (inner b)) o)) with (Some (@None Z)).
    + rewrite out_indents by assumption. discriminate.
    + unfold pad_if, pad. destruct (o_pad w); [|reflexivity]. destruct (_ && _); reflexivity.
Qed.

(** The [u8] arithmetic: the indentation of a dictionary writer stays in 2..255, so
    [indent - 2] at its end does not wrap below zero and the nested value is a [u8]. *)
Theorem C14_no_wrap : forall w b,
  0 <= o_indent w <= 255 ->
  2 <= d_indent (fst (dict_start w b)) <= 255 /\ 0 <= d_indent (fst (dict_start w b)) - 2 /\
  (forall k, let '(w', d, _) := dict_insert k (fst (dict_start w b)) b in
     o_indent w' = d_indent d /\ d_indent d = d_indent (fst (dict_start w b))).
Proof.
  intros w b H. unfold dict_start, sat_add_u8. cbn [fst d_indent].
  split; [lia|]. split; [lia|]. intro k. unfold dict_insert. cbn [d_pretty d_indent].
  destruct (o_pretty w); split; reflexivity.
Qed.

(** Two hundred nested dictionaries: still a well-formed text (hypotheses of C11 and C14 hold). *)
Fixpoint nested (n : nat) : obj := match n with O => OPrim PNull | S n => ODict [(lit "K", nested n)] end.
Example C14_case : obj_ok (nested 200) = true /\ names_nonempty (nested 200) = true /\
  indents_bounded (inner (write_obj (nested 200) (obj_direct 0 true false) buf_new)).
Proof.
  assert (H : obj_ok (nested 200) = true) by (vm_compute; reflexivity).
  split; [exact H|]. split; [vm_compute; reflexivity|].
  destruct (C14_indentation_bounded (nested 200) (obj_direct 0 true false) buf_new eq_refl H ltac:(cbn; lia)) as (s & -> & B).
  exact B.
Qed.

Print Assumptions C11_tree_round_trip.
Print Assumptions C12_same_tokens.
Print Assumptions C13_empty_name_refuted.
Print Assumptions C14_indentation_bounded.
