(** Proofs: reading back what [Pdf::finish] writes. *)

From Coq Require Import ZArith List Lia Bool Permutation Sorted ZifyBool.
From Verif Require Import Bytes ModelFloat ModelBuf ModelObject ModelRenumber ModelChunk ModelPdf SpecLex SpecObj SpecMeans SpecFile
  ProofBasic ProofObj ProofParse ProofTree ProofRenum ProofXref.
Import ListNotations.
Local Open Scope Z_scope.

(** ** Fixed-width entries *)

Definition conv (e : xref_entry) : xentry :=
  match e with Free n g => XFree n g | Used o g => XUsed o g end.

Definition entry_value (e : xref_entry) : Z := match e with Free n _ => n | Used o _ => o end.
Definition entry_gen (e : xref_entry) : Z := match e with Free _ g => g | Used _ g => g end.

Lemma zero_padded_spec w n : 0 <= n < 10 ^ Z.of_nat w -> (0 < w)%nat ->
  length (zero_padded w n) = w /\ forallb is_digit (zero_padded w n) = true /\ digits_val (zero_padded w n) = n.
Proof.
  intros H Hw. unfold zero_padded. pose proof (dec_u_len n w H Hw) as L. repeat split.
  - rewrite app_length, repeat_length. lia.
  - rewrite forallb_app. rewrite dec_u_digits by lia. rewrite andb_true_r.
    induction (w - length (dec_u n))%nat as [|k IH]; [reflexivity|exact IH].
  - rewrite digits_val_app, digits_val_zeros, dec_u_val by lia. lia.
Qed.

Lemma entry20_plain e : 0 <= entry_value e < 10 ^ 10 -> 0 <= entry_gen e < 10 ^ 5 ->
  entry20 (plain_entry e) = Some (conv e) /\ length (plain_entry e) = 20%nat.
Proof.
  intros Hv Hg.
  destruct (zero_padded_spec 10 (entry_value e) Hv ltac:(lia)) as (LA & DA & VA).
  destruct (zero_padded_spec 5 (entry_gen e) Hg ltac:(lia)) as (LB & DB & VB).
  set (A := zero_padded 10 (entry_value e)) in *. set (B := zero_padded 5 (entry_gen e)) in *.
  set (c := match e with Free _ _ => x66 | Used _ _ => x6e end).
  assert (E : plain_entry e = A ++ [x20] ++ B ++ [x20; c; x0d; x0a]) by (destruct e; reflexivity).
  rewrite E. clear E. split; [|rewrite !app_length, LA, LB; reflexivity].
  unfold entry20.
  set (s := A ++ _).
  assert (E10 : firstn 10 s = A) by (unfold s; rewrite <- LA; apply firstn_mid).
  assert (S10 : skipn 10 s = [x20] ++ B ++ [x20; c; x0d; x0a]) by (unfold s; rewrite <- LA; apply skipn_mid).
  assert (S11 : skipn 11 s = B ++ [x20; c; x0d; x0a]).
  { unfold s. rewrite (app_assoc A). replace 11%nat with (length (A ++ [x20])) by (rewrite app_length, LA; reflexivity). apply skipn_mid. }
  assert (S16 : skipn 16 s = [x20; c; x0d; x0a]).
  { unfold s. rewrite (app_assoc A), (app_assoc _ B). replace 16%nat with (length ((A ++ [x20]) ++ B)) by (rewrite !app_length, LA, LB; reflexivity). apply skipn_mid. }
  assert (S17 : skipn 17 s = [c; x0d; x0a]).
  { change [x20; c; x0d; x0a] with ([x20] ++ [c; x0d; x0a]) in s. unfold s. rewrite (app_assoc A), (app_assoc _ B), (app_assoc _ [x20]).
    replace 17%nat with (length (((A ++ [x20]) ++ B) ++ [x20])) by (rewrite !app_length, LA, LB; reflexivity). apply skipn_mid. }
  assert (S18 : skipn 18 s = [x0d; x0a]).
  { change [x20; c; x0d; x0a] with ([x20; c] ++ [x0d; x0a]) in s. unfold s. rewrite (app_assoc A), (app_assoc _ B), (app_assoc _ [x20; c]).
    replace 18%nat with (length (((A ++ [x20]) ++ B) ++ [x20; c])) by (rewrite !app_length, LA, LB; reflexivity). apply skipn_mid. }
  assert (EB : firstn 5 (skipn 11 s) = B) by (rewrite S11, <- LB; apply firstn_mid).
  assert (BL : blen s = 20) by (unfold blen, s; rewrite !app_length, LA, LB; reflexivity).
  rewrite E10, S10, EB, S16, S17, S18, BL, DA, DB. cbn [firstn app].
  assert (T : bytes_eqb [x20] [x20] = true) by reflexivity. rewrite T.
  assert (T2 : bytes_eqb [x0d; x0a] [x0d; x0a] = true) by reflexivity. rewrite T2. rewrite orb_true_r.
  change (20 =? 20) with true. cbn [andb]. unfold c, conv. destruct e; cbn [entry_value entry_gen] in *; congruence.
Qed.

Definition entries_fit (es : list xref_entry) : Prop :=
  Forall (fun e => 0 <= entry_value e < 10 ^ 10 /\ 0 <= entry_gen e < 10 ^ 5) es.

Lemma entries20_plain es : entries_fit es -> forall a rest,
  entries20 (length es) a (flat_map plain_entry es ++ rest) = Some (combine (zrange a (length es)) (map conv es), rest).
Proof.
  induction 1 as [|e es [H1 H2] HF IH]; intros a rest; [reflexivity|].
  destruct (entry20_plain e H1 H2) as [P L].
  cbn [length entries20 flat_map zrange map combine]. rewrite <- app_assoc.
  set (r := flat_map plain_entry es ++ rest) in *.
  assert (F1 : firstn 20 (plain_entry e ++ r) = plain_entry e) by (rewrite <- L; apply firstn_mid).
  assert (F2 : skipn 20 (plain_entry e ++ r) = r) by (rewrite <- L; apply skipn_mid).
  rewrite F1, F2, P. unfold r. rewrite IH. reflexivity.
Qed.

Lemma plain_length es : entries_fit es -> blen (flat_map plain_entry es) = 20 * Z.of_nat (length es).
Proof.
  induction 1 as [|e es [H1 H2] HF IH]; [reflexivity|].
  destruct (entry20_plain e H1 H2) as [_ L]. cbn [flat_map length]. rewrite blen_app, IH. unfold blen. rewrite L. lia.
Qed.

(** ** [startxref] *)

Lemma strip_app p s : strip p (p ++ s) = Some s.
Proof. induction p as [|a p IH]; [reflexivity|]. cbn [app strip]. rewrite beq_refl. exact IH. Qed.

Lemma startxref_read body n : 0 <= n ->
  startxref (body ++ lit "startxref" ++ [x0a] ++ dec_u n ++ [x0a] ++ lit "%%EOF") = Some n.
Proof.
  intro H. unfold startxref. rewrite !rev_app_distr, <- !app_assoc. rewrite strip_app.
  change (rev [x0a]) with [x0a]. cbn [app]. unfold eol_back at 1.
  assert (D : forallb is_digit (rev (dec_u n)) = true).
  { apply forallb_forall. intros c Hc. apply in_rev in Hc.
    pose proof (dec_u_digits n H) as F. rewrite forallb_forall in F. apply F. exact Hc. }
  pose proof (dec_u_ne n H) as NE.
  assert (M : match rev (dec_u n) ++ x0a :: rev (lit "startxref") ++ rev body with
              | x0d :: r => Some r
              | _ => Some (rev (dec_u n) ++ x0a :: rev (lit "startxref") ++ rev body) end
            = Some (rev (dec_u n) ++ x0a :: rev (lit "startxref") ++ rev body)).
  { destruct (rev (dec_u n)) as [|c r] eqn:E; [reflexivity|]. cbn [app].
    cbn [forallb] in D. apply andb_true_iff in D. destruct D as [D _]. destruct c; try reflexivity. discriminate D. }
  rewrite M. rewrite span_all; [|exact D|reflexivity].
  destruct (rev (dec_u n)) as [|c r] eqn:E.
  - exfalso. apply NE. rewrite <- (rev_involutive (dec_u n)), E. reflexivity.
  - assert (X : eol_back (x0a :: rev (lit "startxref") ++ rev body) = Some (rev (lit "startxref") ++ rev body)) by reflexivity.
    rewrite X, strip_app, <- E, rev_involutive, dec_u_val by exact H. reflexivity.
Qed.

(** ** The table *)

Lemma digits_read n rest : 0 <= n -> match rest with [] => True | c :: _ => is_digit c = false end ->
  digits_at (dec_u n ++ rest) = Some (n, rest).
Proof.
  intros H HR. unfold digits_at. rewrite span_all; [|apply dec_u_digits; exact H|exact HR].
  pose proof (dec_u_ne n H) as NE. pose proof (dec_u_val n H) as V. destruct (dec_u n); [congruence|]. rewrite V. reflexivity.
Qed.

Lemma strip_digits n rest : 0 <= n -> strip (lit "trailer") (dec_u n ++ rest) = None.
Proof.
  intro H. pose proof (dec_u_ne n H) as NE. pose proof (dec_u_digits n H) as D. destruct (dec_u n) as [|c r]; [congruence|].
  cbn [forallb] in D. apply andb_true_iff in D. destruct D as [D _]. cbn [app].
  change (lit "trailer") with (x74 :: lit "railer"). cbn [strip].
  destruct (beq x74 c) eqn:E; [|reflexivity]. apply beq_spec in E. subst c. discriminate D.
Qed.

Lemma table_reads N es d rest :
  0 < N -> Z.of_nat (length es) = N -> entries_fit es ->
  obj_ok (ODict d) = true -> separable (ODict d) = true -> forall p,
  xref_table (lit "xref" ++ [x0a] ++ lit "0 " ++ dec_u N ++ [x0a] ++ flat_map plain_entry es ++
              lit "trailer" ++ [x0a] ++ out p 0 (ODict d) ++ [x0a] ++ lit "startxref" ++ [x0a] ++ rest)
  = Some (combine (zrange 0 (length es)) (map conv es), map (fun e => (fst e, obj_val (snd e))) d).
Proof.
  intros HN HL HF Hok Hsep p. unfold xref_table. rewrite strip_app.
  set (body := lit "0 " ++ _). cbn [app]. assert (X : eol (x0a :: body) = Some body) by reflexivity. rewrite X. clear X.
  set (tail := [x0a] ++ out p 0 (ODict d) ++ [x0a] ++ lit "startxref" ++ [x0a] ++ rest).
  assert (E0 : body = dec_u 0 ++ [x20] ++ dec_u N ++ [x0a] ++ flat_map plain_entry es ++ lit "trailer" ++ tail) by reflexivity.
  assert (L0 : exists n, length body = S n) by (eexists; reflexivity). destruct L0 as [n L0]. rewrite L0, E0.
  cbn [subsections]. rewrite strip_digits by lia.
  unfold subsection. rewrite digits_read; [|lia|reflexivity]. rewrite strip_app, digits_read; [|lia|reflexivity].
  assert (X : forall t, eol ([x0a] ++ t) = Some t) by reflexivity. rewrite X. clear X.
  rewrite <- HL at 1. rewrite Nat2Z.id. rewrite entries20_plain by exact HF.
  assert (S : forall m, subsections m (lit "trailer" ++ tail) = Some ([], tail)) by (intros [|m]; cbn [subsections]; rewrite strip_app; reflexivity).
  rewrite S, app_nil_r. clear S.
  fold (objs [] tail). unfold tail. rewrite (objs_ws [] [x0a]) by reflexivity.
  rewrite (out_parses p 0 (ODict d)); [|exact Hok|unfold sep_ok; rewrite Hsep; apply orb_true_r|left; reflexivity].
  rewrite (objs_ws _ [x0a]) by reflexivity.
  assert (T : next_token (lit "startxref" ++ [x0a] ++ rest) = Some (TKeyword (lit "startxref"), [x0a] ++ rest))
    by (apply next_token_word; [discriminate|reflexivity|reflexivity]).
  rewrite (objs_step _ _ _ _ T).
  assert (K1 : bytes_eqb (lit "startxref") (lit "R") = false) by reflexivity.
  assert (K2 : bytes_eqb (lit "startxref") (lit "null") = false) by reflexivity.
  assert (K3 : bytes_eqb (lit "startxref") (lit "true") = false) by reflexivity.
  assert (K4 : bytes_eqb (lit "startxref") (lit "false") = false) by reflexivity.
  rewrite K1, K2, K3, K4. cbn [rev app]. reflexivity.
Qed.
