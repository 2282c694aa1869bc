(** Proofs for C99: a file read through, and its beginning. *)

From Coq Require Import ZArith List Lia Bool ZifyBool.
From Verif Require Import Bytes SpecLex SpecObj SpecFile SpecSerial SpecCut ProofBasic ProofParse ProofXref ProofCut ProofCut2.
Import ListNotations.
Local Open Scope Z_scope.

Lemma blanks_suffix_n : forall n s, (length s <= n)%nat -> exists w, s = w ++ blanks s.
Proof.
  induction n as [|n IH]; intros s H; [destruct s; [exists []; reflexivity|cbn in H; lia]|].
  destruct s as [|c s]; [exists []; reflexivity|]. cbn [length] in H.
  destruct (is_ws c) eqn:W.
  - rewrite blanks_ws by exact W. destruct (IH s) as [w E]; [lia|]. exists (c :: w). cbn [app]. congruence.
  - destruct (beq c x25) eqn:Q; [|rewrite blanks_solid by assumption; exists []; reflexivity].
    apply beq_spec in Q. subst c. rewrite blanks_comment. pose proof (skip_line_len s).
    destruct (IH (skip_line s)) as [w E]; [lia|].
    pose proof (span_split (fun b => negb (bmem b [x0a; x0d])) s) as Sp. fold (skip_line s) in Sp.
    exists (x25 :: fst (span (fun b => negb (bmem b [x0a; x0d])) s) ++ w). cbn [app]. rewrite <- app_assoc, <- E. f_equal. exact Sp.
Qed.

Lemma blanks_suffix s : exists w, s = w ++ blanks s.
Proof. apply (blanks_suffix_n (length s)). lia. Qed.

Lemma indirect_suffix s o r : parse_indirect s = Some (o, r) -> exists w, s = w ++ r.
Proof.
  intro H. pose proof (indirect_len _ _ _ H) as L. rewrite <- (firstn_skipn (length s - length r) s) in H.
  assert (Lu : length (skipn (length s - length r) s) = length r) by (rewrite skipn_length; lia).
  destruct (indirect_res _ _ _ _ H) as (q & E & _); [lia|].
  assert (Eq : q = []) by (destruct q; [reflexivity|]; rewrite E in Lu at 2; rewrite app_length in Lu; cbn [length] in Lu; lia).
  subst q. cbn [app] in E. exists (firstn (length s - length r) s). rewrite E at 2. symmetry. apply firstn_skipn.
Qed.

(** The keywords at which reading through stops are no object, and neither is their beginning. *)
Lemma no_object_at c s : beq c x78 || beq c x73 = true -> parse_indirect (c :: s) = None.
Proof.
  intro H. assert (R : is_regular c = true /\ is_ws c = false /\ beq c x25 = false /\ forall w, number (c :: w) = None).
  { apply orb_true_iff in H. destruct H as [H|H]; apply beq_spec in H; subst c; repeat split; reflexivity. }
  destruct R as (R & W & P & N). unfold parse_indirect, next_token. rewrite blanks_solid by assumption. rewrite lex_token_regular by exact R.
  cbn [span]. rewrite R. destruct (span is_regular s) as [a b]. rewrite N. reflexivity.
Qed.

Lemma blanks_not_blank s c r : blanks s = c :: r -> is_ws c = false /\ beq c x25 = false.
Proof.
  assert (G : forall n s c r, (length s <= n)%nat -> blanks s = c :: r -> is_ws c = false /\ beq c x25 = false).
  { clear. induction n as [|n IH]; intros s c r L H; [destruct s; [discriminate|cbn in L; lia]|].
    destruct s as [|d s]; [discriminate|]. cbn [length] in L. destruct (is_ws d) eqn:W.
    - rewrite blanks_ws in H by exact W. eapply IH; [|exact H]. lia.
    - destruct (beq d x25) eqn:Q.
      + apply beq_spec in Q. subst d. rewrite blanks_comment in H. pose proof (skip_line_len s). eapply IH; [|exact H]. lia.
      + rewrite blanks_solid in H by assumption. injection H as <- <-. split; assumption. }
  apply (G (length s)). lia.
Qed.

Section OneFile.
  Variable file : bytes.

  (** Whether an object ends before position [n]. *)
  Definition within (n : nat) (x : Z * indirect) : bool := end_at file (fst x) <=? Z.of_nat n.

  Lemma end_at_suffix pre s i r : file = pre ++ s -> parse_indirect s = Some (i, r) -> end_at file (blen file - blen s) = blen file - blen r.
  Proof.
    intros E P. unfold end_at. replace (from file (blen file - blen s)) with s; [rewrite P; reflexivity|].
    rewrite E. rewrite blen_app. replace (blen pre + blen s - blen s) with (blen pre) by lia. unfold from, blen. rewrite Nat2Z.id.
    rewrite skipn_app, skipn_all, Nat.sub_diag. reflexivity.
  Qed.

  (** Every object ends after the place where reading began. *)
  Lemma scan_ends : forall f s pre l e, file = pre ++ s -> scan f (blen file) s = Some (l, e) ->
    Forall (fun x => blen file - blen s < end_at file (fst x)) l.
  Proof.
    induction f as [|f IH]; intros s pre l e E H.
    { cbn [scan] in H. destruct (strip (lit "xref") (blanks s)), (strip (lit "startxref") (blanks s)); try discriminate H; injection H as <- _; constructor. }
    cbn [scan] in H. destruct (strip (lit "xref") (blanks s)); [injection H as <- _; constructor|].
    destruct (strip (lit "startxref") (blanks s)); [injection H as <- _; constructor|].
    destruct (parse_indirect (blanks s)) as [[i r]|] eqn:P; [|discriminate H].
    destruct (scan f (blen file) r) as [[l' e']|] eqn:S; [|discriminate H]. injection H as <- _.
    destruct (blanks_suffix s) as [w Ew]. destruct (indirect_suffix _ _ _ P) as [w2 Ew2].
    assert (Eb : file = (pre ++ w) ++ blanks s) by (rewrite <- app_assoc, <- Ew; exact E).
    assert (Er : file = (pre ++ w ++ w2) ++ r) by (rewrite <- !app_assoc, <- Ew2, <- Ew; exact E).
    pose proof (indirect_len _ _ _ P) as L. pose proof (blanks_len s) as L2.
    constructor.
    - cbn [fst]. rewrite (end_at_suffix _ _ _ _ Eb P). unfold blen. lia.
    - eapply Forall_impl; [|exact (IH _ _ _ _ Er S)]. intros x Hx. cbv beta in Hx |- *. unfold blen in *. lia.
  Qed.

  Lemma filter_none {T} (p : T -> bool) l : Forall (fun x => p x = false) l -> List.filter p l = [].
  Proof. induction 1 as [|x l H _ IH]; [reflexivity|]. cbn [List.filter]. rewrite H. exact IH. Qed.

  (** Reading through stops at what is no object. *)
  Lemma stop_front s : (strip (lit "xref") (blanks s) <> None \/ strip (lit "startxref") (blanks s) <> None) ->
    exists k t, blanks s = k :: t /\ beq k x78 || beq k x73 = true.
  Proof.
    destruct (blanks s) as [|k t]; [intros [H|H]; contradiction H; reflexivity|].
    intros [H|H]; exists k, t; (split; [reflexivity|]); cbn [strip lit] in H; destruct k; first [reflexivity|contradiction H; reflexivity].
  Qed.

  Lemma cut_at_stop s1 u : (exists k t, blanks (s1 ++ u) = k :: t /\ beq k x78 || beq k x73 = true) -> parse_indirect (blanks s1) = None.
  Proof.
    intros (k & t & E & H). destruct (blanks s1) as [|c r] eqn:B; [reflexivity|].
    rewrite blanks_ext in E by (rewrite B; discriminate). rewrite B in E. cbn [app] in E. injection E as -> _. apply no_object_at. exact H.
  Qed.

  Lemma salvage_none g size s1 : parse_indirect (blanks s1) = None -> salvage g size s1 = [].
  Proof. intro H. destruct g; [reflexivity|]. cbn [salvage]. rewrite H. reflexivity. Qed.

  Lemma scan_cut : forall f s pre l e, file = pre ++ s -> scan f (blen file) s = Some (l, e) ->
    forall s1 u g n, s = s1 ++ u -> (length s1 <= g)%nat -> Z.of_nat n = blen file - blen u ->
    salvage g (blen file - blen u) s1 = List.filter (within n) l.
  Proof.
    induction f as [|f IH]; intros s pre l e E H s1 u g n Es Lg Hn.
    { assert (X : l = [] /\ (strip (lit "xref") (blanks s) <> None \/ strip (lit "startxref") (blanks s) <> None)).
      { cbn [scan] in H. destruct (strip (lit "xref") (blanks s)) eqn:X1, (strip (lit "startxref") (blanks s)) eqn:X2; try discriminate H;
          injection H as <- _; (split; [reflexivity|]); first [left; discriminate|right; discriminate]. }
      destruct X as [-> X]. apply salvage_none. apply (cut_at_stop s1 u). rewrite <- Es. apply stop_front. exact X. }
    assert (Stop : strip (lit "xref") (blanks s) <> None \/ strip (lit "startxref") (blanks s) <> None -> l = [] -> salvage g (blen file - blen u) s1 = List.filter (within n) l).
    { intros X ->. apply salvage_none. apply (cut_at_stop s1 u). rewrite <- Es. apply stop_front. exact X. }
    cbn [scan] in H. destruct (strip (lit "xref") (blanks s)) eqn:X1; [injection H as <- _; apply Stop; [left; discriminate|reflexivity]|].
    destruct (strip (lit "startxref") (blanks s)) eqn:X2; [injection H as <- _; apply Stop; [right; discriminate|reflexivity]|].
    clear Stop X1 X2.
    destruct (parse_indirect (blanks s)) as [[i r]|] eqn:P; [|discriminate H].
    destruct (scan f (blen file) r) as [[l' e']|] eqn:S; [|discriminate H]. injection H as <- _.
    destruct (blanks_suffix s) as [w Ew]. destruct (indirect_suffix _ _ _ P) as [w2 Ew2].
    assert (Eb : file = (pre ++ w) ++ blanks s) by (rewrite <- app_assoc, <- Ew; exact E).
    assert (Er : file = (pre ++ w ++ w2) ++ r) by (rewrite <- !app_assoc, <- Ew2, <- Ew; exact E).
    pose proof (end_at_suffix _ _ _ _ Eb P) as Ee. pose proof (indirect_len _ _ _ P) as Lr.
    cbn [List.filter]. unfold within at 1. cbn [fst]. rewrite Ee, Hn.
    destruct (Nat.le_gt_cases (length u) (length r)) as [Lu|Lu].
    - destruct (blanks s1) as [|c b1] eqn:B.
      { exfalso. pose proof (blanks_short s1 u B) as Q. rewrite <- Es in Q. lia. }
      assert (Q : blanks s = blanks s1 ++ u) by (rewrite Es; apply blanks_ext; rewrite B; discriminate).
      assert (Qn : blen (blanks s) = blen (blanks s1) + blen u) by (rewrite Q; apply blen_app).
      rewrite Q in P. destruct (indirect_res _ _ _ _ P Lu) as (r1 & Er1 & P1).
      pose proof (indirect_len _ _ _ P1) as L1. pose proof (blanks_len s1) as L2.
      destruct g as [|g]; [lia|]. cbn [salvage]. rewrite P1.
      replace (blen file - blen r <=? blen file - blen u) with true by (unfold blen; lia).
      rewrite (IH r _ _ _ Er S r1 u g n Er1 ltac:(lia) Hn). f_equal. f_equal. lia.
    - replace (blen file - blen r <=? blen file - blen u) with false by (unfold blen; lia).
      rewrite filter_none.
      + apply salvage_none. destruct (blanks s1) as [|c b1] eqn:B; [reflexivity|]. rewrite <- B.
        assert (Q : blanks s = blanks s1 ++ u) by (rewrite Es; apply blanks_ext; rewrite B; discriminate).
        rewrite Q in P. exact (indirect_cut _ _ _ _ P Lu).
      + eapply Forall_impl; [|exact (scan_ends _ _ _ _ _ Er S)]. intros x Hx. cbv beta in Hx |- *. unfold within, blen in *. lia.
  Qed.
End OneFile.

(** Reading depends on what comes after white space and comments only. *)
Lemma scan_blanks f size s s' : blanks s = blanks s' -> scan f size s = scan f size s'.
Proof. intro H. destruct f; cbn [scan]; rewrite H; reflexivity. Qed.

Lemma strip_eq : forall p s t, strip p s = Some t -> s = p ++ t.
Proof.
  induction p as [|a p IH]; intros s t H; [cbn [strip] in H; injection H as ->; reflexivity|].
  destruct s as [|b s]; [discriminate H|]. cbn [strip] in H. destruct (beq a b) eqn:Q; [|discriminate H].
  apply beq_spec in Q. subst b. cbn [app]. f_equal. apply IH. exact H.
Qed.

Lemma header_blank s a b r : header_line s = Some (a, b, r) -> blanks s = blanks r.
Proof.
  unfold header_line. destruct (strip (lit "%PDF-") s) as [t|] eqn:E; [|discriminate].
  assert (Es : s = lit "%PDF-" ++ t).
  { apply strip_eq. exact E. }
  destruct t as [|c [|d [|c2 t]]]; try discriminate; [destruct d; discriminate|].
  destruct d; try discriminate. destruct (is_digit c && is_digit c2) eqn:D; [|discriminate].
  apply andb_true_iff in D. destruct D as [D1 D2].
  destruct (eol t) as [r'|] eqn:El; [|discriminate]. intro H. injection H as _ _ <-. subst s.
  assert (N : forall x, is_digit x = true -> negb (bmem x [x0a; x0d]) = true) by (intro x; destruct x; try discriminate; reflexivity).
  cbn [app lit]. change (lit "%PDF-" ++ c :: x2e :: c2 :: t) with (x25 :: x50 :: x44 :: x46 :: x2d :: c :: x2e :: c2 :: t).
  rewrite blanks_comment. unfold skip_line. 
  assert (Sp : snd (span (fun b => negb (bmem b [x0a; x0d])) (x50 :: x44 :: x46 :: x2d :: c :: x2e :: c2 :: t)) = t).
  { assert (St : forall x q, negb (bmem x [x0a; x0d]) = true -> snd (span (fun b => negb (bmem b [x0a; x0d])) (x :: q)) = snd (span (fun b => negb (bmem b [x0a; x0d])) q)).
    { intros x q Hx. cbn [span]. rewrite Hx. destruct (span (fun b => negb (bmem b [x0a; x0d])) q). reflexivity. }
    rewrite !St by first [reflexivity|apply N; assumption].
    destruct t as [|x t]; [reflexivity|]. destruct x; try discriminate El; reflexivity. }
  rewrite Sp. destruct t as [|x t]; [discriminate El|]. destruct x; try discriminate El.
  - injection El as <-. apply blanks_ws. reflexivity.
  - rewrite blanks_ws by reflexivity. destruct t as [|y t]; [injection El as <-; reflexivity|].
    destruct y; try (injection El as <-; reflexivity).
Qed.

Theorem salvaged_cut file se n : read_serial file = Some se ->
  salvaged (cut n file) = List.filter (within file n) (se_objects se).
Proof.
  unfold read_serial. intro H. destruct (header_line file) as [[[a b] r]|] eqn:Eh; [|discriminate].
  destruct (scan (length r) (blen file) r) as [[l e]|] eqn:S; [|discriminate].
  assert (El : se_objects se = l).
  { destruct (strip (lit "startxref") e) as [q|].
    - destruct (last_lines q); [|discriminate H]. injection H as <-. reflexivity.
    - destruct (table_then e) as [[t q]|]; [|discriminate H]. destruct (last_lines q); [|discriminate H]. injection H as <-. reflexivity. }
  rewrite El. rewrite (scan_blanks _ _ _ _ (eq_sym (header_blank _ _ _ _ Eh))) in S.
  unfold salvaged, cut.
  assert (G : forall m, (m <= length file)%nat -> salvage (length (firstn m file)) (blen (firstn m file)) (firstn m file) = List.filter (within file m) l).
  { intros m Hm. assert (Hu : blen (firstn m file) = blen file - blen (skipn m file)) by (unfold blen; rewrite firstn_length, skipn_length; lia).
    rewrite Hu. eapply (scan_cut file _ _ [] _ _ eq_refl S); [symmetry; apply firstn_skipn|lia|].
    rewrite <- Hu. unfold blen. rewrite firstn_length. lia. }
  destruct (Nat.le_gt_cases n (length file)) as [L|L]; [apply G; exact L|].
  rewrite firstn_all2 by lia. specialize (G (length file) (le_n _)). rewrite firstn_all in G. rewrite G.
  assert (F : Forall (fun x => end_at file (fst x) <= blen file) l).
  { clear. apply Forall_forall. intros x _. unfold end_at. destruct (parse_indirect (from file (fst x))) as [[i q]|]; unfold blen; lia. }
  clear - F L. induction F as [|x l Hx F IH]; [reflexivity|]. cbn [List.filter].
  replace (within file n x) with true by (unfold within, blen in *; lia).
  replace (within file (length file) x) with true by (unfold within, blen in *; lia). rewrite IH. reflexivity.
Qed.

(** What is kept is the front of the list. *)
Lemma scan_front file : forall f s pre l e, file = pre ++ s -> scan f (blen file) s = Some (l, e) ->
  forall n, exists k, List.filter (within file n) l = firstn k l.
Proof.
  induction f as [|f IH]; intros s pre l e E H n.
  { cbn [scan] in H. destruct (strip (lit "xref") (blanks s)), (strip (lit "startxref") (blanks s)); try discriminate H; injection H as <- _; exists O; reflexivity. }
  cbn [scan] in H. destruct (strip (lit "xref") (blanks s)); [injection H as <- _; exists O; reflexivity|].
  destruct (strip (lit "startxref") (blanks s)); [injection H as <- _; exists O; reflexivity|].
  destruct (parse_indirect (blanks s)) as [[i r]|] eqn:P; [|discriminate H].
  destruct (scan f (blen file) r) as [[l' e']|] eqn:S; [|discriminate H]. injection H as <- _.
  destruct (blanks_suffix s) as [w Ew]. destruct (indirect_suffix _ _ _ P) as [w2 Ew2].
  assert (Eb : file = (pre ++ w) ++ blanks s) by (rewrite <- app_assoc, <- Ew; exact E).
  assert (Er : file = (pre ++ w ++ w2) ++ r) by (rewrite <- !app_assoc, <- Ew2, <- Ew; exact E).
  pose proof (end_at_suffix _ _ _ _ _ Eb P) as Ee. cbn [List.filter]. unfold within at 1. cbn [fst]. rewrite Ee.
  destruct (blen file - blen r <=? Z.of_nat n) eqn:C.
  - destruct (IH _ _ _ _ Er S n) as [k Hk]. exists (Datatypes.S k). cbn [firstn]. rewrite Hk. reflexivity.
  - exists O. cbn [firstn]. apply filter_none. eapply Forall_impl; [|exact (scan_ends _ _ _ _ _ _ Er S)].
    intros x Hx. cbv beta in Hx |- *. unfold within. lia.
Qed.

Lemma scan_reads file : forall f s pre l e, file = pre ++ s -> scan f (blen file) s = Some (l, e) ->
  Forall (fun x => exists r, parse_indirect (from file (fst x)) = Some (snd x, r)) l.
Proof.
  induction f as [|f IH]; intros s pre l e E H.
  { cbn [scan] in H. destruct (strip (lit "xref") (blanks s)), (strip (lit "startxref") (blanks s)); try discriminate H; injection H as <- _; constructor. }
  cbn [scan] in H. destruct (strip (lit "xref") (blanks s)); [injection H as <- _; constructor|].
  destruct (strip (lit "startxref") (blanks s)); [injection H as <- _; constructor|].
  destruct (parse_indirect (blanks s)) as [[i r]|] eqn:P; [|discriminate H].
  destruct (scan f (blen file) r) as [[l' e']|] eqn:S; [|discriminate H]. injection H as <- _.
  destruct (blanks_suffix s) as [w Ew]. destruct (indirect_suffix _ _ _ P) as [w2 Ew2].
  assert (Eb : file = (pre ++ w) ++ blanks s) by (rewrite <- app_assoc, <- Ew; exact E).
  assert (Er : file = (pre ++ w ++ w2) ++ r) by (rewrite <- !app_assoc, <- Ew2, <- Ew; exact E).
  constructor; [|exact (IH _ _ _ _ Er S)]. cbn [fst snd]. exists r.
  replace (from file (blen file - blen (blanks s))) with (blanks s); [exact P|].
  rewrite Eb. rewrite blen_app. replace (blen (pre ++ w) + blen (blanks s) - blen (blanks s)) with (blen (pre ++ w)) by lia.
  unfold from, blen. rewrite Nat2Z.id, skipn_app, skipn_all, Nat.sub_diag. reflexivity.
Qed.

Lemma serial_scan file se : read_serial file = Some se -> exists f e, scan f (blen file) file = Some (se_objects se, e).
Proof.
  unfold read_serial. intro H. destruct (header_line file) as [[[a b] r]|] eqn:Eh; [|discriminate].
  destruct (scan (length r) (blen file) r) as [[l e]|] eqn:S; [|discriminate].
  exists (length r), e. rewrite (scan_blanks _ _ _ _ (header_blank _ _ _ _ Eh)), S. f_equal. f_equal.
  destruct (strip (lit "startxref") e) as [q|].
  - destruct (last_lines q); [|discriminate H]. injection H as <-. reflexivity.
  - destruct (table_then e) as [[t q]|]; [|discriminate H]. destruct (last_lines q); [|discriminate H]. injection H as <-. reflexivity.
Qed.

Lemma salvaged_front file se n : read_serial file = Some se -> exists k, salvaged (cut n file) = firstn k (se_objects se).
Proof.
  intro H. destruct (serial_scan _ _ H) as (f & e & S). rewrite (salvaged_cut _ _ n H). exact (scan_front _ _ _ [] _ _ eq_refl S n).
Qed.

Lemma serial_reads file se : read_serial file = Some se -> Forall (fun x => exists r, parse_indirect (from file (fst x)) = Some (snd x, r)) (se_objects se).
Proof. intro H. destruct (serial_scan _ _ H) as (f & e & S). exact (scan_reads _ _ _ [] _ _ eq_refl S). Qed.

Lemma salvaged_all file se : read_serial file = Some se -> salvaged file = se_objects se.
Proof.
  intro H. pose proof (salvaged_cut _ _ (length file) H) as G. unfold cut in G. rewrite firstn_all in G. rewrite G.
  assert (F : forall l, List.filter (within file (length file)) l = l); [|apply F].
  induction l as [|x l IH]; [reflexivity|]. cbn [List.filter].
  replace (within file (length file) x) with true; [congruence|]. unfold within, end_at.
  destruct (parse_indirect (from file (fst x))) as [[i q]|]; unfold blen; lia.
Qed.
