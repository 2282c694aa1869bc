(** Proofs for C100: streams that are read up to their keyword. *)

From Coq Require Import ZArith List Lia Bool Arith ZifyBool.
From Verif Require Import Bytes ModelFloat ModelBuf ModelObject ModelRenumber ModelChunk SpecLex SpecObj SpecMeans
  SpecRenum SpecChunk SpecFile SpecSerial SpecCut SpecKeyword ProofBasic ProofText ProofFloat ProofFloat2 ProofObj ProofParse ProofTree ProofPrint ProofRenum
  ProofRenumTree ProofChunk ProofChunkParse ProofCut ProofCut2 ProofCut3.
Import ListNotations.
Local Open Scope nat_scope.

(** ** Looking for the keyword *)

Lemma strip_app' p s : strip p (p ++ s) = Some s.
Proof. induction p as [|a p IH]; [reflexivity|]. cbn [app strip]. rewrite beq_refl. exact IH. Qed.

Lemma strip_ext k s r u : strip k s = Some r -> strip k (s ++ u) = Some (r ++ u).
Proof. intro H. apply strip_eq in H. subst s. rewrite <- app_assoc. apply strip_app'. Qed.

Lemma strip_more : forall k s u q, strip k s = None -> strip k (s ++ u) = Some q -> length s < length k.
Proof.
  induction k as [|a k IH]; intros s u q H G; [discriminate H|]. destruct s as [|b s]; [cbn [length]; lia|].
  cbn [app strip] in *. destruct (beq a b); [|discriminate G]. specialize (IH _ _ _ H G). cbn [length]. lia.
Qed.

Lemma strip_straddle : forall k s c t q, strip k s = None -> strip k (s ++ c :: t) = Some q -> In c k.
Proof.
  induction k as [|a k IH]; intros s c t q H G; [discriminate H|]. destruct s as [|b s]; cbn [app strip] in *.
  - destruct (beq a c) eqn:Q; [|discriminate G]. apply beq_spec in Q. left. exact Q.
  - destruct (beq a b); [|discriminate G]. right. exact (IH _ _ _ _ H G).
Qed.

Lemma until_eq k s : until k s = match strip k s with Some r => Some ([], r) | None => match s with [] => None | c :: s => cons_fst c (until k s) end end.
Proof. destruct s; reflexivity. Qed.

Lemma until_form k : forall s a r, until k s = Some (a, r) -> s = a ++ k ++ r.
Proof.
  induction s as [|c s IH]; intros a r H; rewrite until_eq in H.
  - destruct (strip k []) as [q|] eqn:E; [|discriminate H]. injection H as <- <-. apply strip_eq in E. exact E.
  - destruct (strip k (c :: s)) as [q|] eqn:E; [injection H as <- <-; apply strip_eq in E; exact E|].
    apply cons_fst_map in H. destruct H as (a' & b & E2 & Ey). injection Ey as -> ->. cbn [app]. f_equal. apply IH. exact E2.
Qed.

Lemma until_ext k u : forall s a r, until k s = Some (a, r) -> until k (s ++ u) = Some (a, r ++ u).
Proof.
  induction s as [|c s IH]; intros a r H; rewrite until_eq in H.
  - destruct (strip k []) as [q|] eqn:E; [|discriminate H]. injection H as <- <-. rewrite until_eq, (strip_ext _ _ _ u E). reflexivity.
  - destruct (strip k (c :: s)) as [q|] eqn:E; [injection H as <- <-; rewrite until_eq, (strip_ext _ _ _ u E); reflexivity|].
    apply cons_fst_map in H. destruct H as (a' & b & E2 & Ey). injection Ey as -> ->. rewrite until_eq.
    destruct (strip k ((c :: s) ++ u)) as [q|] eqn:E3.
    + exfalso. apply (strip_more _ _ _ _ E) in E3. apply until_form in E2. rewrite E2 in E3. cbn [length] in E3. rewrite !app_length in E3. lia.
    + cbn [app]. rewrite (IH _ _ E2). reflexivity.
Qed.

Lemma until_res k u : 0 < length k -> forall s a r', until k (s ++ u) = Some (a, r') -> length u <= length r' -> exists r, r' = r ++ u /\ until k s = Some (a, r).
Proof.
  intro K. induction s as [|c s IH]; intros a r' H L.
  { exfalso. cbn [app] in H. apply until_form in H. rewrite H, !app_length in L. lia. }
  rewrite until_eq in H. rewrite until_eq. destruct (strip k ((c :: s) ++ u)) as [q|] eqn:E.
  - injection H as <- <-. destruct (strip k (c :: s)) as [q2|] eqn:E2.
    + rewrite (strip_ext _ _ _ u E2) in E. injection E as <-. exists q2. split; reflexivity.
    + exfalso. pose proof (strip_more _ _ _ _ E2 E) as Q. apply strip_eq in E. apply (f_equal (@length byte)) in E. rewrite !app_length in E. lia.
  - destruct (strip k (c :: s)) as [q2|] eqn:E2; [rewrite (strip_ext _ _ _ u E2) in E; discriminate E|].
    cbn [app] in H. apply cons_fst_map in H. destruct H as (a' & b & E3 & Ey). injection Ey as -> ->.
    destruct (IH _ _ E3 L) as (r & -> & E4). rewrite E4. exists r. split; reflexivity.
Qed.

(** The keyword is found where it was written. *)
Lemma until_found k c t : ~ In c k -> k <> [] -> forall d, until k d = None -> until k (d ++ c :: k ++ t) = Some (d ++ [c], t).
Proof.
  intros N K. induction d as [|b d IH]; intro H.
  - cbn [app]. rewrite until_eq. destruct k as [|a k]; [contradiction K; reflexivity|].
    assert (Q : strip (a :: k) (c :: (a :: k) ++ t) = None).
    { cbn [strip]. destruct (beq a c) eqn:Q; [|reflexivity]. apply beq_spec in Q. exfalso. apply N. left. exact Q. }
    rewrite Q, until_eq, strip_app'. reflexivity.
  - rewrite until_eq in H. destruct (strip k (b :: d)) as [q|] eqn:E; [discriminate H|].
    assert (H' : until k d = None) by (destruct (until k d) as [[x y]|]; [discriminate H|reflexivity]).
    rewrite until_eq. destruct (strip k ((b :: d) ++ c :: k ++ t)) as [q|] eqn:E2; [exfalso; apply N; exact (strip_straddle _ _ _ _ _ E E2)|].
    cbn [app]. rewrite (IH H'). reflexivity.
Qed.

Lemma chop_line d : (forall x, d <> x ++ [x0d]) -> chop (d ++ [x0a]) = d.
Proof.
  intro H. unfold chop. rewrite rev_app_distr. cbn [rev app].
  destruct (rev d) as [|c r] eqn:E.
  - apply (f_equal (@rev byte)) in E. rewrite rev_involutive in E. subst d. reflexivity.
  - assert (Ed : d = rev r ++ [c]) by (apply (f_equal (@rev byte)) in E; rewrite rev_involutive in E; exact E).
    destruct c; try (cbn [eol_back]; symmetry; exact Ed). exfalso. exact (H _ Ed).
Qed.

(** ** Reading and reading further *)

Lemma keyword_form s x r : keyword_data s = Some (x, r) <->
  exists b d m, after_eol s = Some b /\ until (lit "endstream") b = Some (d, m) /\ next_token m = Some (TKeyword (lit "endobj"), r) /\ x = chop d.
Proof.
  unfold keyword_data. fold (after_eol s). destruct (after_eol s) as [b|].
  2:{ split; [discriminate|]. intros (b & d & m & Q & _). discriminate Q. }
  destruct (until (lit "endstream") b) as [[d m]|] eqn:E.
  2:{ split; [discriminate|]. intros (b' & d & m & Q & Q2 & _). injection Q as <-. rewrite E in Q2. discriminate Q2. }
  split.
  - intro H. destruct (next_token m) as [[[] r2]|] eqn:En; try discriminate H. destruct (bytes_eqb s0 (lit "endobj")) eqn:Q; [|discriminate H].
    apply bytes_eqb_spec in Q. subst s0. injection H as <- <-. exists b, d, m. split; [reflexivity|]. split; [exact E|]. split; [exact En|reflexivity].
  - intros (b' & d' & m' & Q & Q2 & En & ->). injection Q as <-. rewrite E in Q2. injection Q2 as <- <-. rewrite En, bytes_eqb_refl. reflexivity.
Qed.

Lemma keyword_ext s x r u : keyword_data s = Some (x, r) -> r <> [] -> keyword_data (s ++ u) = Some (x, r ++ u).
Proof.
  rewrite !keyword_form. intros (b & d & m & Ea & Eu & En & ->) N. exists (b ++ u), d, (m ++ u).
  split; [apply after_eol_ext; exact Ea|]. split; [apply until_ext; exact Eu|]. split; [apply next_ext; assumption|reflexivity].
Qed.

Lemma keyword_last s x u y r : keyword_data s = Some (x, []) -> keyword_data (s ++ u) = Some (y, r) -> r = u.
Proof.
  rewrite !keyword_form. intros (b & d & m & Ea & Eu & En & ->) (b' & d' & m' & Ea' & Eu' & En' & ->).
  rewrite (after_eol_ext _ _ u Ea) in Ea'. injection Ea' as <-. rewrite (until_ext _ u _ _ _ Eu) in Eu'. injection Eu' as <- <-.
  pose proof (next_last _ _ En u) as Q. rewrite endobj_number in Q. rewrite Q in En'. apply keyword_inj in En'. destruct En' as [Hk Hr].
  pose proof (span_split is_regular u) as Sp. apply (app_inv_head (lit "endobj") _ []) in Hk. rewrite Hk in Sp. cbn [app] in Sp. congruence.
Qed.

Lemma keyword_len s x r : keyword_data s = Some (x, r) -> length r < length s.
Proof.
  rewrite keyword_form. intros (b & d & m & Ea & Eu & En & ->). apply after_eol_len in Ea. apply until_form in Eu. apply next_token_len in En.
  apply (f_equal (@length byte)) in Eu. rewrite !app_length in Eu. lia.
Qed.

Lemma keyword_res s x r' u : keyword_data (s ++ u) = Some (x, r') -> length u <= length r' -> exists r, r' = r ++ u /\ keyword_data s = Some (x, r).
Proof.
  rewrite keyword_form. intros (b & d & m & Ea & Eu & En & ->) L.
  pose proof (next_token_len _ _ _ En) as L1. pose proof (until_form _ _ _ _ Eu) as Eb. apply (f_equal (@length byte)) in Eb. rewrite !app_length in Eb.
  destruct (after_eol_res _ _ _ Ea) as (b0 & -> & Fa); [lia|].
  destruct (until_res (lit "endstream") u ltac:(cbn; lia) _ _ _ Eu) as (m0 & -> & Fu); [lia|].
  destruct (next_res _ _ _ _ En L) as (r & -> & Fn). exists r. split; [reflexivity|]. apply keyword_form. exists b0, d, m0. repeat split; assumption.
Qed.

Definition kd (_ : list (bytes * val)) : bytes -> option (bytes * bytes) := keyword_data.

Lemma by_keyword_res s o r' u : by_keyword (s ++ u) = Some (o, r') -> length u <= length r' -> exists r, r' = r ++ u /\ by_keyword s = Some (o, r).
Proof.
  exact (with_res kd (fun _ => keyword_ext) (fun _ => keyword_last) (fun _ => keyword_len) (fun _ => keyword_res) s o r' u).
Qed.

Lemma by_keyword_cut s u o r' : by_keyword (s ++ u) = Some (o, r') -> length r' < length u -> by_keyword s = None.
Proof.
  exact (with_cut kd (fun _ => keyword_ext) (fun _ => keyword_last) (fun _ => keyword_len) (fun _ => keyword_res) s u o r').
Qed.

Local Open Scope Z_scope.

(** ** What was written *)

Lemma item_by_keyword w p nl it rest : forallb is_ws w = true ->
  body_readable (snd it) = true -> body_fits (snd it) = true -> plain_object (item_val it) ->
  by_keyword (w ++ item_bytes p nl it ++ rest) =
  Some (item_val it, [x0a] ++ (if nl then [x0a] else []) ++ rest).
Proof.
  intros Hw Hr Hf Hp. destruct it as [id bd]. unfold item_bytes. cbn [fst snd] in *.
  unfold by_keyword, indirect_with. rewrite next_token_ws by exact Hw. rewrite <- !app_assoc.
  change (lit " 0 obj") with ([x20; x30; x20] ++ lit "obj"). rewrite <- app_assoc.
  rewrite next_token_int by reflexivity.
  cbn [app]. rewrite next_token_ws1 by reflexivity.
  match goal with |- context [next_token (x30 :: ?r)] => change (x30 :: r) with (dec_i 0 ++ r) end.
  rewrite next_token_int by reflexivity. rewrite next_token_ws1 by reflexivity.
  set (tl := [x0a] ++ lit "endobj" ++ [x0a] ++ (if nl then [x0a] else []) ++ rest).
  change (x0a :: lit "endobj" ++ x0a :: (if nl then [x0a] else []) ++ rest) with tl.
  rewrite (ProofChunkParse.keyword (lit "obj")) by (reflexivity || discriminate).
  change (bytes_eqb (lit "obj") (lit "obj")) with true. cbv iota.
  rewrite objects_objs by lia.
  match goal with |- context [objs [] (x0a :: ?r)] => change (x0a :: r) with ([x0a] ++ r) end.
  rewrite (objs_ws [] [x0a]) by reflexivity. fold tl.
  assert (Hend : forall acc, objs acc tl = Some (rev acc, Some (TKeyword (lit "endobj")), [x0a] ++ (if nl then [x0a] else []) ++ rest)).
  { intro acc. unfold tl. rewrite objs_ws by reflexivity.
    rewrite (objs_step _ _ (TKeyword (lit "endobj")) ([x0a] ++ (if nl then [x0a] else []) ++ rest)); [reflexivity|].
    apply ProofChunkParse.keyword; reflexivity || discriminate. }
  destruct bd as [o|es data]; cbn [body_readable body_fits] in *.
  - apply andb_true_iff in Hr. destruct Hr as [Hok Hs]. cbn [body_bytes].
    rewrite out_parses; [|exact Hok|unfold sep_ok; rewrite Hs; apply orb_true_r|right; reflexivity].
    rewrite Hend. reflexivity.
  - unfold entries_readable in Hr. apply andb_true_iff in Hr. destruct Hr as [Hok Hs].
    rewrite stream_body. rewrite <- !app_assoc.
    assert (Hok' : obj_ok (ODict (len_entry data :: es)) = true).
    { cbn [obj_ok forallb snd len_entry]. cbn [obj_ok] in Hok. rewrite Hok. cbn [prim_ok].
      unfold in_i32, i32_min. assert (0 <= blen data) by (unfold blen; lia).
      apply Z.leb_le in Hf. rewrite andb_true_r. apply andb_true_iff. split; apply Z.leb_le; unfold i32_max in *; lia. }
    rewrite out_parses; [|exact Hok'| |right; reflexivity].
    2:{ unfold sep_ok. apply orb_true_iff. right. cbn [separable forallb fst snd len_entry].
        cbn [separable] in Hs. rewrite Hs. reflexivity. }
    rewrite objs_ws by reflexivity.
    set (st := [x0a] ++ data ++ [x0a] ++ lit "endstream" ++ tl).
    rewrite (objs_step _ _ (TKeyword (lit "stream")) st); [|apply ProofChunkParse.keyword; reflexivity || discriminate].
    change (bytes_eqb (lit "stream") (lit "R")) with false. change (bytes_eqb (lit "stream") (lit "null")) with false.
    change (bytes_eqb (lit "stream") (lit "true")) with false. change (bytes_eqb (lit "stream") (lit "false")) with false.
    cbn [rev app]. change (bytes_eqb (lit "stream") (lit "endobj")) with false.
    change (bytes_eqb (lit "stream") (lit "stream")) with true. cbv iota. cbn [obj_val].
    destruct Hp as [Hu Hc].
    assert (K : keyword_data st = Some (data, [x0a] ++ (if nl then [x0a] else []) ++ rest)).
    { apply keyword_form. exists (data ++ x0a :: lit "endstream" ++ tl), (data ++ [x0a]), tl. split; [reflexivity|].
      split; [apply until_found; [intro X; cbn in X; repeat (destruct X as [X|X]; [discriminate X|]); exact X|discriminate|exact Hu]|].
      split; [unfold tl; cbn [app]; rewrite next_token_ws1 by reflexivity; apply ProofChunkParse.keyword; reflexivity || discriminate|].
      symmetry. apply chop_line. exact Hc. }
    rewrite K. reflexivity.
Qed.

(** ** Files *)

Lemma repair_none g size s1 : by_keyword (blanks s1) = None -> repair g size s1 = [].
Proof. intro H. destruct g; [reflexivity|]. cbn [repair]. rewrite H. reflexivity. Qed.

Lemma no_object_by_keyword c s : beq c x78 || beq c x73 = true -> by_keyword (c :: s) = None.
Proof.
  intro H. assert (R : is_regular c = true /\ is_ws c = false /\ beq c x25 = false /\ forall w, number (c :: w) = None).
  { apply orb_true_iff in H. destruct H as [H|H]; apply beq_spec in H; subst c; repeat split; reflexivity. }
  destruct R as (R & W & P & N). unfold by_keyword, indirect_with, next_token. rewrite blanks_solid by assumption. rewrite lex_token_regular by exact R.
  cbn [span]. rewrite R. destruct (span is_regular s) as [a b]. rewrite N. reflexivity.
Qed.

(** Where both readers agree on every object of the whole file, they agree on its beginning. *)
Lemma repair_cut file : forall f s pre l e, file = pre ++ s -> scan f (blen file) s = Some (l, e) ->
  Forall (fun x => by_keyword (from file (fst x)) = parse_indirect (from file (fst x))) l ->
  forall s1 u g h, s = s1 ++ u -> (length s1 <= g)%nat -> (length s1 <= h)%nat ->
  repair g (blen file - blen u) s1 = salvage h (blen file - blen u) s1.
Proof.
  induction f as [|f IH]; intros s pre l e E H A s1 u g h Es Lg Lh.
  { assert (X : strip (lit "xref") (blanks s) <> None \/ strip (lit "startxref") (blanks s) <> None).
    { cbn [scan] in H. destruct (strip (lit "xref") (blanks s)) eqn:X1, (strip (lit "startxref") (blanks s)) eqn:X2; try discriminate H;
        first [left; discriminate|right; discriminate]. }
    pose proof (stop_front s X) as Y. rewrite Es in Y. rewrite salvage_none by (apply (cut_at_stop s1 u); exact Y). apply repair_none.
    destruct Y as (k & t & Ek & Hk). destruct (blanks s1) as [|c r] eqn:B; [reflexivity|].
    rewrite blanks_ext in Ek by (rewrite B; discriminate). rewrite B in Ek. cbn [app] in Ek. injection Ek as -> _. apply no_object_by_keyword. exact Hk. }
  assert (Stop : strip (lit "xref") (blanks s) <> None \/ strip (lit "startxref") (blanks s) <> None -> repair g (blen file - blen u) s1 = salvage h (blen file - blen u) s1).
  { intros X. pose proof (stop_front s X) as Y. rewrite Es in Y. rewrite salvage_none by (apply (cut_at_stop s1 u); exact Y). apply repair_none.
    destruct Y as (k & t & Ek & Hk). destruct (blanks s1) as [|c r] eqn:B; [reflexivity|].
    rewrite blanks_ext in Ek by (rewrite B; discriminate). rewrite B in Ek. cbn [app] in Ek. injection Ek as -> _. apply no_object_by_keyword. exact Hk. }
  cbn [scan] in H. destruct (strip (lit "xref") (blanks s)) eqn:X1; [apply Stop; left; discriminate|].
  destruct (strip (lit "startxref") (blanks s)) eqn:X2; [apply Stop; right; discriminate|]. clear Stop X1 X2.
  destruct (parse_indirect (blanks s)) as [[i r]|] eqn:P; [|discriminate H].
  destruct (scan f (blen file) r) as [[l' e']|] eqn:S; [|discriminate H]. injection H as <- _.
  destruct (blanks_suffix s) as [w Ew]. destruct (indirect_suffix _ _ _ P) as [w2 Ew2].
  assert (Eb : file = (pre ++ w) ++ blanks s) by (rewrite <- app_assoc, <- Ew; exact E).
  assert (Er : file = (pre ++ w ++ w2) ++ r) by (rewrite <- !app_assoc, <- Ew2, <- Ew; exact E).
  apply Forall_cons_iff in A. destruct A as [A1 A2]. cbn [fst] in A1.
  assert (Ef : from file (blen file - blen (blanks s)) = blanks s).
  { rewrite Eb. rewrite blen_app. replace (blen (pre ++ w) + blen (blanks s) - blen (blanks s)) with (blen (pre ++ w)) by lia.
    unfold from, blen. rewrite Nat2Z.id, skipn_app, skipn_all, Nat.sub_diag. reflexivity. }
  rewrite Ef, P in A1.
  pose proof (indirect_len _ _ _ P) as Lr.
  destruct (blanks s1) as [|c b1] eqn:B.
  { rewrite repair_none, salvage_none by (rewrite B; reflexivity). reflexivity. }
  assert (Q : blanks s = blanks s1 ++ u) by (rewrite Es; apply blanks_ext; rewrite B; discriminate).
  rewrite Q in P, A1.
  destruct (Nat.le_gt_cases (length u) (length r)) as [Lu|Lu].
  - destruct (indirect_res _ _ _ _ P Lu) as (r1 & Er1 & P1). destruct (by_keyword_res _ _ _ _ A1 Lu) as (r2 & Er2 & P2).
    assert (r2 = r1) by (apply (app_inv_tail u); congruence). subst r2.
    pose proof (indirect_len _ _ _ P1) as L1. pose proof (blanks_len s1) as L2.
    destruct g as [|g]; [lia|]. destruct h as [|h]; [lia|]. cbn [repair salvage]. rewrite P1, P2.
    f_equal. apply (IH r _ _ _ Er S A2 r1 u g h Er1); lia.
  - rewrite repair_none, salvage_none; [reflexivity|exact (indirect_cut _ _ _ _ P Lu)|exact (by_keyword_cut _ _ _ _ A1 Lu)].
Qed.

Theorem repaired_cut file se n : read_serial file = Some se ->
  Forall (fun x => by_keyword (from file (fst x)) = parse_indirect (from file (fst x))) (se_objects se) ->
  repaired (cut n file) = salvaged (cut n file).
Proof.
  intros H A. destruct (serial_scan _ _ H) as (f & e & S). unfold repaired, salvaged, cut.
  assert (G : forall m, (m <= length file)%nat -> repair (length (firstn m file)) (blen (firstn m file)) (firstn m file) = salvage (length (firstn m file)) (blen (firstn m file)) (firstn m file)).
  { intros m Hm. assert (Hu : blen (firstn m file) = blen file - blen (skipn m file)) by (unfold blen; rewrite firstn_length, skipn_length; lia).
    rewrite Hu. eapply (repair_cut file _ _ [] _ _ eq_refl S A); [symmetry; apply firstn_skipn|lia|lia]. }
  destruct (Nat.le_gt_cases n (length file)) as [L|L]; [apply G; exact L|].
  rewrite firstn_all2 by lia. specialize (G (length file) (le_n _)). rewrite firstn_all in G. exact G.
Qed.

(** ** The data of a cross-reference stream that is not filtered *)

Lemma until_short (k : bytes) (g1 g2 : byte) rest : ~ In g1 k -> ~ In g2 k -> k <> [] -> until k rest = None ->
  forall o, (length o < length k)%nat -> until k (o ++ g1 :: g2 :: rest) = None.
Proof.
  intros N1 N2 K H. assert (Z0 : strip k [] = None) by (destruct k; [contradiction K; reflexivity|reflexivity]).
  assert (H2 : until k (g1 :: g2 :: rest) = None).
  { rewrite until_eq. destruct (strip k (g1 :: g2 :: rest)) as [q|] eqn:E; [exfalso; apply N1; exact (strip_straddle k [] g1 _ q Z0 E)|].
    rewrite until_eq. destruct (strip k (g2 :: rest)) as [q|] eqn:E2; [exfalso; apply N2; exact (strip_straddle k [] g2 _ q Z0 E2)|]. rewrite H. reflexivity. }
  induction o as [|c o IH]; intro L; [exact H2|]. cbn [length] in L. rewrite until_eq.
  assert (Sn : strip k (c :: o) = None).
  { destruct (strip k (c :: o)) as [q|] eqn:E; [|reflexivity]. apply strip_eq in E. apply (f_equal (@length byte)) in E. rewrite app_length in E. cbn [length] in E. lia. }
  destruct (strip k ((c :: o) ++ g1 :: g2 :: rest)) as [q|] eqn:E; [exfalso; apply N1; exact (strip_straddle _ _ _ _ _ Sn E)|].
  cbn [app]. rewrite IH by lia. reflexivity.
Qed.
