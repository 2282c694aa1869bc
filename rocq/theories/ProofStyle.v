(** Pretty and compact output: lengths and indentation. *)

From Coq Require Import ZArith List Lia Bool ZifyBool ZifyNat.
From Verif Require Import Bytes ModelFloat ModelBuf ModelObject SpecLex SpecObj SpecText SpecMeans SpecStyle
  ProofBasic ProofText ProofFloat2 ProofObj ProofTree ProofPrint.
Import ListNotations.
Local Open Scope Z_scope.

Lemma pad_len prev o : blen (pad prev o) <= 1.
Proof. unfold pad. destruct (_ && _); cbn; lia. Qed.

Lemma compact_shorter o : forall i j, blen (out false i o) <= blen (out true j o).
Proof.
  induction o as [q|l IH|l IH] using obj_ind'; intros i j; [cbn [out]; lia| |].
  - rewrite !out_array, !blen_app.
    assert (G : forall first p1 p2, blen (out_items false i first p1 l) <= blen (out_items true j first p2 l)).
    { induction IH as [|x l Hx HF IHl]; intros first p1 p2; [cbn; lia|]. cbn [out_items]. rewrite !blen_app.
      specialize (Hx i j). specialize (IHl false (last_byte (out false i x)) (last_byte (out true j x))).
      pose proof (pad_len p1 x). assert (blen [x20] = 1) by reflexivity.
      destruct first; rewrite ?blen_nil; lia. }
    specialize (G true None None). lia.
  - rewrite !out_dict, !blen_app. cbn [andb]. rewrite blen_nil.
    assert (G : forall i j, blen (out_entries false i l) <= blen (out_entries true j l)).
    { clear i j. induction IH as [|[k v] l Hx HF IHl]; intros i j; [cbn; lia|]. cbn [out_entries snd] in *. rewrite !blen_app.
      specialize (Hx i j). specialize (IHl i j).
      pose proof (pad_len (last_byte (name_bytes k)) v). assert (blen [x20] = 1) by reflexivity.
      pose proof (blen_nonneg (spaces j)). pose proof (blen_nonneg [x0a]). rewrite blen_nil. lia. }
    specialize (G (ent_indent i) (ent_indent j)).
    pose proof (blen_nonneg (if negb (is_nil l) then [x0a] ++ spaces (ent_indent j - 2) else [])). lia.
Qed.

(** ** Indentation *)

Lemma scan_app st a b : indent_scan st (a ++ b) =
  match indent_scan st a with Some st' => indent_scan st' b | None => None end.
Proof.
  revert st. induction a as [|c a IH]; intro st; [reflexivity|]. cbn [app indent_scan].
  destruct (beq c x0a); [apply IH|]. destruct (beq c x20); [|apply IH].
  destruct st as [k|]; [|apply IH]. destruct (k + 1 <=? 255); [apply IH|reflexivity].
Qed.

Lemma scan_inline s : forallb printable s = true -> indent_scan None s = Some None.
Proof.
  induction s as [|c s IH]; [reflexivity|]. cbn [forallb indent_scan]. intro H. apply andb_true_iff in H.
  destruct H as [Hc Hs]. destruct (beq c x0a) eqn:E; [apply beq_spec in E; subst c; discriminate Hc|].
  destruct (beq c x20); apply IH; assumption.
Qed.

Lemma scan_word st s : forallb printable s = true ->
  match s with c :: _ => beq c x20 = false | [] => False end -> indent_scan st s = Some None.
Proof.
  destruct s as [|c s]; [contradiction|]. cbn [forallb]. intros H Hc. apply andb_true_iff in H. destruct H as [H1 H2].
  cbn [indent_scan]. rewrite Hc. destruct (beq c x0a) eqn:E; [apply beq_spec in E; subst c; discriminate H1|].
  apply scan_inline. assumption.
Qed.

Lemma scan_spaces n : forall k, 0 <= k -> k + Z.of_nat n <= 255 ->
  indent_scan (Some k) (repeat x20 n) = Some (Some (k + Z.of_nat n)).
Proof.
  induction n as [|n IH]; intros k Hk H; [cbn; do 2 f_equal; lia|]. cbn [repeat indent_scan].
  change (beq x20 x0a) with false. change (beq x20 x20) with true. cbv iota.
  destruct (k + 1 <=? 255) eqn:E; [|lia]. rewrite IH by lia. do 2 f_equal. lia.
Qed.

Lemma scan_newline st n : n <= 255 -> exists k, indent_scan st ([x0a] ++ spaces n) = Some (Some k).
Proof.
  intro H. cbn [app indent_scan]. change (beq x0a x0a) with true. cbv iota. unfold spaces.
  eexists. apply scan_spaces; lia.
Qed.

Lemma prim_first_nonspace q : prim_ok q = true ->
  match prim_bytes q with c :: _ => beq c x20 = false | [] => False end.
Proof.
  intro H.
  assert (W : forall w, w <> [] -> forallb is_regular w = true -> match w with c :: _ => beq c x20 = false | [] => False end).
  { intros w Hne Hr. destruct w as [|c w]; [congruence|]. cbn [forallb] in Hr. apply andb_true_iff in Hr.
    destruct Hr as [Hr _]. destruct c; first [discriminate Hr|reflexivity]. }
  destruct q; cbn [prim_bytes prim_ok] in *; try reflexivity.
  - destruct v; reflexivity.
  - apply W; apply dec_i_spec.
  - destruct (real_ok_good v H) as (t & _ & H2 & H3 & _). apply W; assumption.
  - unfold str_bytes. destruct (forallb _ _); exact eq_refl.
  - unfold text_bytes, str_bytes. destruct (forallb is_scalar t), (forallb (fun c => bz c <? 128) (str_utf8 t)), (forallb (fun c => (32 <=? bz c) && (bz c <=? 126)) (str_utf8 t)); exact eq_refl.
  - pose proof (dec_i_spec r) as (_ & H2 & H3). specialize (W _ H3 H2). destruct (dec_i r); [contradiction|]. exact W.
Qed.

Lemma ent_indent_range i : 0 <= i <= 255 -> 2 <= ent_indent i <= 255.
Proof. unfold ent_indent, sat_add_u8. lia. Qed.

Lemma out_indents o : forall p i st, obj_ok o = true -> 0 <= i <= 255 -> indent_scan st (out p i o) = Some None.
Proof.
  induction o as [q|l IH|l IH] using obj_ind'; intros p i st Hok Hi.
  - cbn [out]. apply scan_word; [apply prim_bytes_printable; exact Hok|apply prim_first_nonspace; exact Hok].
  - rewrite out_array, scan_app. change (indent_scan st [x5b]) with (Some (@None Z)). cbv iota.
    assert (G : forall first prev, indent_scan None (out_items p i first prev l) = Some None).
    { cbn [obj_ok] in Hok. induction IH as [|x l Hx HF IHl]; intros first prev; [reflexivity|].
      cbn [forallb out_items] in *. apply andb_true_iff in Hok. destruct Hok as [Ho Hl].
      rewrite scan_app.
      replace (indent_scan None (if first then [] else if p then [x20] else pad prev x)) with (Some (@None Z)).
      - rewrite scan_app, Hx by assumption. apply IHl; assumption.
      - destruct first; [reflexivity|]. destruct p; [reflexivity|]. unfold pad. destruct (_ && _); reflexivity. }
    rewrite scan_app, G. reflexivity.
  - rewrite out_dict, scan_app. change (indent_scan st [x3c; x3c]) with (Some (@None Z)). cbv iota.
    pose proof (ent_indent_range i Hi) as Hj.
    assert (G : indent_scan None (out_entries p (ent_indent i) l) = Some None).
    { cbn [obj_ok] in Hok. induction IH as [|[k v] l Hx HF IHl]; [reflexivity|].
      cbn [forallb out_entries snd] in *. apply andb_true_iff in Hok. destruct Hok as [Ho Hl].
      rewrite scan_app.
      assert (N : forall st, indent_scan st (name_bytes k) = Some None).
      { intro st'. apply scan_word; [apply name_bytes_printable|reflexivity]. }
      assert (E : exists st', indent_scan None (if p then [x0a] ++ spaces (ent_indent i) else []) = Some st').
      { destruct p; [|eexists; reflexivity]. destruct (scan_newline None (ent_indent i)) as [k' E]; [lia|]. rewrite E. eauto. }
      destruct E as [st' E]. rewrite E, scan_app, N, scan_app.
      replace (indent_scan None (if p then [x20] else pad (last_byte (name_bytes k)) v)) with (Some (@None Z)).
      - rewrite scan_app, Hx by (try assumption; lia). apply IHl; assumption.
      - destruct p; [reflexivity|]. unfold pad. destruct (_ && _); reflexivity. }
    rewrite scan_app, G, scan_app.
    destruct (p && negb (is_nil l)); [|reflexivity].
    destruct (scan_newline None (ent_indent i - 2)) as [k' E]; [lia|]. rewrite E. reflexivity.
Qed.
