(** Proofs for C99: objects and files that end early. *)

From Coq Require Import ZArith List Lia Bool.
From Verif Require Import Bytes SpecLex SpecObj SpecFile SpecSerial SpecKeyword ProofBasic ProofParse ProofCut.
Import ListNotations.

Lemma objs_len acc s l t r : objs acc s = Some (l, t, r) -> length r <= length s.
Proof. intro H. edestruct (objects_stable (S (length s)) (S (length s)) acc s) as [_ G]; [lia|lia|]. eapply G. exact H. Qed.

Lemma objs_none acc s : next_token s = None -> blanks s <> [] -> objs acc s = None.
Proof. unfold objs, next_token. intros H N. cbn [objects]. destruct (blanks s); [contradiction N; reflexivity|]. rewrite H. reflexivity. Qed.

(** What was met last was met at its place. *)
Lemma objs_next acc s l t r : objs acc s = Some (l, Some t, r) -> exists t0 r0, next_token s = Some (t0, r0).
Proof.
  intro H. destruct (next_token s) as [[t0 r0]|] eqn:E; [eauto|]. exfalso.
  destruct (blanks s) eqn:B; [rewrite (objs_end _ _ B) in H; discriminate|].
  rewrite objs_none in H; [discriminate|exact E|rewrite B; discriminate].
Qed.

Lemma objs_some acc s l t r : objs acc s = Some (l, Some t, r) -> s <> [].
Proof. intros H ->. destruct (objs_next _ _ _ _ _ H) as (t0 & r0 & E). discriminate E. Qed.

Ltac one_step H IH :=
  match type of H with
  | objs ?a ?r = Some (?l, Some ?t, ?r1) => eapply (IH r); [lia|exact H|..]
  end.

Lemma objs_ext : forall n s acc l t r u, length s <= n -> objs acc s = Some (l, Some t, r) -> r <> [] ->
  objs acc (s ++ u) = Some (l, Some t, r ++ u).
Proof.
  induction n as [|n IH]; intros s acc l t r u Hn H N.
  { destruct s; [|cbn in Hn; lia]. apply objs_some in H. contradiction H; reflexivity. }
  destruct (objs_next _ _ _ _ _ H) as (t0 & r0 & E). pose proof (next_token_len _ _ _ E) as L0.
  rewrite (objs_step _ _ _ _ E) in H.
  assert (N0 : r0 <> []).
  { intros ->. destruct t0; try (apply objs_some in H; contradiction H; reflexivity);
      try (injection H as <- <- <-; contradiction N; reflexivity); try discriminate H.
    destruct (bytes_eqb s0 (lit "R")); [destruct acc as [|[] [|[] acc']]; try discriminate H; apply objs_some in H; contradiction H; reflexivity|].
    destruct (bytes_eqb s0 (lit "null")); [apply objs_some in H; contradiction H; reflexivity|].
    destruct (bytes_eqb s0 (lit "true")); [apply objs_some in H; contradiction H; reflexivity|].
    destruct (bytes_eqb s0 (lit "false")); [apply objs_some in H; contradiction H; reflexivity|].
    injection H as <- <- <-; contradiction N; reflexivity. }
  rewrite (objs_step _ _ _ _ (next_ext _ _ _ u E N0)).
  assert (K : forall acc' l' t' r', objs acc' r0 = Some (l', Some t', r') -> r' <> [] -> objs acc' (r0 ++ u) = Some (l', Some t', r' ++ u)).
  { intros acc' l' t' r' H' N'. apply IH; [lia|exact H'|exact N']. }
  destruct t0; try (apply K; assumption); try (injection H as <- <- <-; reflexivity).
  - destruct (objs [] r0) as [[[l1 [tk|]] r1]|] eqn:E1; try discriminate H. destruct tk; try discriminate H.
    pose proof (objs_len _ _ _ _ _ E1). rewrite (K _ _ _ _ E1) by (eapply objs_some; exact H). apply IH; [lia|exact H|exact N].
  - destruct (objs [] r0) as [[[l1 [tk|]] r1]|] eqn:E1; try discriminate H. destruct tk; try discriminate H.
    destruct (pair_up l1) as [d|] eqn:P; [|discriminate H].
    pose proof (objs_len _ _ _ _ _ E1). rewrite (K _ _ _ _ E1) by (eapply objs_some; exact H). rewrite P. apply IH; [lia|exact H|exact N].
  - destruct (bytes_eqb s0 (lit "R")); [destruct acc as [|[] [|[] acc']]; try discriminate H; apply K; assumption|].
    destruct (bytes_eqb s0 (lit "null")); [apply K; assumption|].
    destruct (bytes_eqb s0 (lit "true")); [apply K; assumption|].
    destruct (bytes_eqb s0 (lit "false")); [apply K; assumption|].
    injection H as <- <- <-; reflexivity.
Qed.

Lemma objs_res : forall n s acc l t r' u, length s <= n -> objs acc (s ++ u) = Some (l, Some t, r') -> length u <= length r' ->
  exists r, r' = r ++ u /\ objs acc s = Some (l, Some t, r).
Proof.
  induction n as [|n IH]; intros s acc l t r' u Hn H L.
  { destruct s; [|cbn in Hn; lia]. exfalso. cbn [app] in H. destruct (objs_next _ _ _ _ _ H) as (t0 & r0 & E).
    pose proof (next_token_len _ _ _ E) as L0. rewrite (objs_step _ _ _ _ E) in H.
    assert (G : length r' <= length r0); [|lia].
    destruct t0; try (apply objs_len in H; exact H); try (injection H as <- <- <-; lia).
    - destruct (objs [] r0) as [[[l1 [tk|]] r1]|] eqn:E1; try discriminate H. destruct tk; try discriminate H.
      apply objs_len in E1. apply objs_len in H. lia.
    - destruct (objs [] r0) as [[[l1 [tk|]] r1]|] eqn:E1; try discriminate H. destruct tk; try discriminate H.
      destruct (pair_up l1) as [d|] eqn:P; [|discriminate H]. apply objs_len in E1. apply objs_len in H. lia.
    - destruct (bytes_eqb s (lit "R")); [destruct acc as [|[] [|[] acc']]; try discriminate H; apply objs_len in H; exact H|].
      destruct (bytes_eqb s (lit "null")); [apply objs_len in H; exact H|].
      destruct (bytes_eqb s (lit "true")); [apply objs_len in H; exact H|].
      destruct (bytes_eqb s (lit "false")); [apply objs_len in H; exact H|]. injection H as <- <- <-; lia. }
  destruct (objs_next _ _ _ _ _ H) as (t0 & r0 & E).
  rewrite (objs_step _ _ _ _ E) in H.
  assert (G : length r' <= length r0).
  { destruct t0; try (apply objs_len in H; exact H); try (injection H as <- <- <-; lia).
    - destruct (objs [] r0) as [[[l1 [tk|]] r1]|] eqn:E1; try discriminate H. destruct tk; try discriminate H.
      apply objs_len in E1. apply objs_len in H. lia.
    - destruct (objs [] r0) as [[[l1 [tk|]] r1]|] eqn:E1; try discriminate H. destruct tk; try discriminate H.
      destruct (pair_up l1) as [d|] eqn:P; [|discriminate H]. apply objs_len in E1. apply objs_len in H. lia.
    - destruct (bytes_eqb s0 (lit "R")); [destruct acc as [|[] [|[] acc']]; try discriminate H; apply objs_len in H; exact H|].
      destruct (bytes_eqb s0 (lit "null")); [apply objs_len in H; exact H|].
      destruct (bytes_eqb s0 (lit "true")); [apply objs_len in H; exact H|].
      destruct (bytes_eqb s0 (lit "false")); [apply objs_len in H; exact H|]. injection H as <- <- <-; lia. }
  destruct (next_res _ _ _ _ E (Nat.le_trans _ _ _ L G)) as (r00 & -> & E0).
  pose proof (next_token_len _ _ _ E0) as L0. rewrite (objs_step _ _ _ _ E0).
  assert (K : forall acc' l' t' q, objs acc' (r00 ++ u) = Some (l', Some t', q) -> length u <= length q -> exists r, q = r ++ u /\ objs acc' r00 = Some (l', Some t', r)).
  { intros acc' l' t' q H' L'. apply IH; [lia|exact H'|exact L']. }
  destruct t0; try (apply K; assumption); try (injection H as <- <- <-; eexists; split; reflexivity).
  - destruct (objs [] (r00 ++ u)) as [[[l1 [tk|]] r1]|] eqn:E1; try discriminate H. destruct tk; try discriminate H.
    destruct (K _ _ _ _ E1) as (r2 & -> & E2); [apply objs_len in H; lia|]. rewrite E2. pose proof (objs_len _ _ _ _ _ E2). apply IH; [lia|exact H|exact L].
  - destruct (objs [] (r00 ++ u)) as [[[l1 [tk|]] r1]|] eqn:E1; try discriminate H. destruct tk; try discriminate H.
    destruct (pair_up l1) as [d|] eqn:P; [|discriminate H].
    destruct (K _ _ _ _ E1) as (r2 & -> & E2); [apply objs_len in H; lia|]. rewrite E2, P. pose proof (objs_len _ _ _ _ _ E2). apply IH; [lia|exact H|exact L].
  - destruct (bytes_eqb s0 (lit "R")); [destruct acc as [|[] [|[] acc']]; try discriminate H; apply K; assumption|].
    destruct (bytes_eqb s0 (lit "null")); [apply K; assumption|].
    destruct (bytes_eqb s0 (lit "true")); [apply K; assumption|].
    destruct (bytes_eqb s0 (lit "false")); [apply K; assumption|].
    injection H as <- <- <-; eexists; split; reflexivity.
Qed.

Lemma endobj_number x : number (lit "endobj" ++ x) = None.
Proof. reflexivity. Qed.

Lemma endobj_final x : bytes_eqb (lit "endobj" ++ x) (lit "R") = false /\ bytes_eqb (lit "endobj" ++ x) (lit "null") = false /\
  bytes_eqb (lit "endobj" ++ x) (lit "true") = false /\ bytes_eqb (lit "endobj" ++ x) (lit "false") = false /\ bytes_eqb (lit "endobj" ++ x) (lit "stream") = false.
Proof. repeat split; reflexivity. Qed.

(** The keyword [endobj] at the very end may go on as a longer one. *)
Lemma objs_last : forall n s acc l u, length s <= n -> objs acc s = Some (l, Some (TKeyword (lit "endobj")), []) ->
  objs acc (s ++ u) = Some (l, Some (TKeyword (lit "endobj" ++ fst (span is_regular u))), snd (span is_regular u)).
Proof.
  induction n as [|n IH]; intros s acc l u Hn H.
  { destruct s; [|cbn in Hn; lia]. apply objs_some in H. contradiction H; reflexivity. }
  destruct (objs_next _ _ _ _ _ H) as (t0 & r0 & E). pose proof (next_token_len _ _ _ E) as L0.
  rewrite (objs_step _ _ _ _ E) in H.
  assert (C : (r0 <> [] /\ objs acc s = Some (l, Some (TKeyword (lit "endobj")), [])) \/ (r0 = [] /\ t0 = TKeyword (lit "endobj") /\ l = rev acc)).
  { destruct r0 as [|x r0]; [right|left; split; [discriminate|rewrite (objs_step _ _ _ _ E); exact H]]. split; [reflexivity|].
    destruct t0; try (apply objs_some in H; contradiction H; reflexivity); try discriminate H.
    destruct (bytes_eqb s0 (lit "R")); [destruct acc as [|[] [|[] acc']]; try discriminate H; apply objs_some in H; contradiction H; reflexivity|].
    destruct (bytes_eqb s0 (lit "null")); [apply objs_some in H; contradiction H; reflexivity|].
    destruct (bytes_eqb s0 (lit "true")); [apply objs_some in H; contradiction H; reflexivity|].
    destruct (bytes_eqb s0 (lit "false")); [apply objs_some in H; contradiction H; reflexivity|].
    injection H as <- ->. split; reflexivity. }
  destruct C as [[N0 _]|(-> & -> & ->)].
  2:{ pose proof (next_last _ _ E u) as E'. rewrite endobj_number in E'. rewrite (objs_step _ _ _ _ E').
      destruct (endobj_final (fst (span is_regular u))) as (F1 & F2 & F3 & F4 & _). rewrite F1, F2, F3, F4. reflexivity. }
  rewrite (objs_step _ _ _ _ (next_ext _ _ _ u E N0)).
  assert (K : forall acc' l', objs acc' r0 = Some (l', Some (TKeyword (lit "endobj")), []) ->
    objs acc' (r0 ++ u) = Some (l', Some (TKeyword (lit "endobj" ++ fst (span is_regular u))), snd (span is_regular u))).
  { intros acc' l' H'. apply IH; [lia|exact H']. }
  destruct t0; try (apply K; assumption); try discriminate H.
  - destruct (objs [] r0) as [[[l1 [tk|]] r1]|] eqn:E1; try discriminate H. destruct tk; try discriminate H.
    pose proof (objs_len _ _ _ _ _ E1). rewrite (objs_ext (length r0) _ _ _ _ _ u (le_n _) E1) by (eapply objs_some; exact H). apply IH; [lia|exact H].
  - destruct (objs [] r0) as [[[l1 [tk|]] r1]|] eqn:E1; try discriminate H. destruct tk; try discriminate H.
    destruct (pair_up l1) as [d|] eqn:P; [|discriminate H].
    pose proof (objs_len _ _ _ _ _ E1). rewrite (objs_ext (length r0) _ _ _ _ _ u (le_n _) E1) by (eapply objs_some; exact H). rewrite P. apply IH; [lia|exact H].
  - destruct (bytes_eqb s0 (lit "R")); [destruct acc as [|[] [|[] acc']]; try discriminate H; apply K; assumption|].
    destruct (bytes_eqb s0 (lit "null")); [apply K; assumption|].
    destruct (bytes_eqb s0 (lit "true")); [apply K; assumption|].
    destruct (bytes_eqb s0 (lit "false")); [apply K; assumption|].
    exfalso. injection H as _ _ ->. apply N0. reflexivity.
Qed.

(** ** Streams *)

Lemma keyword_inj (a b c d : bytes) : Some (TKeyword a, b) = Some (TKeyword c, d) -> a = c /\ b = d.
Proof. intro H. injection H as <- <-. split; reflexivity. Qed.

Lemma objs_inj (l l' : list val) (a b c d : bytes) : Some (l, Some (TKeyword a), b) = Some (l', Some (TKeyword c), d) -> l = l' /\ a = c /\ b = d.
Proof. intro H. injection H as <- <- <-. repeat split. Qed.

Lemma bytes_eqb_refl (k : bytes) : bytes_eqb k k = true.
Proof. apply bytes_eqb_spec. reflexivity. Qed.


Definition after_eol (s : bytes) : option bytes := match s with x0d :: x0a :: r => Some r | x0a :: r => Some r | _ => None end.

Lemma after_eol_ext s b u : after_eol s = Some b -> after_eol (s ++ u) = Some (b ++ u).
Proof.
  destruct s as [|c s]; [discriminate|]. cbn [app]. destruct c; try discriminate.
  - intro H. injection H as <-. reflexivity.
  - destruct s as [|c s]; [discriminate|]. cbn [app]. destruct c; try discriminate. intro H. injection H as <-. reflexivity.
Qed.

Lemma after_eol_len s b : after_eol s = Some b -> length b < length s.
Proof.
  destruct s as [|c s]; [discriminate|]. destruct c; try discriminate.
  - intro H. injection H as <-. cbn [length]. lia.
  - destruct s as [|c s]; [discriminate|]. destruct c; try discriminate. intro H. injection H as <-. cbn [length]. lia.
Qed.

Lemma after_eol_res s b' u : after_eol (s ++ u) = Some b' -> length u <= length b' -> exists b, b' = b ++ u /\ after_eol s = Some b.
Proof.
  destruct s as [|c s]; [cbn [app]; intros H L; apply after_eol_len in H; lia|]. cbn [app]. destruct c; try discriminate.
  - intros H L. injection H as <-. exists s. split; reflexivity.
  - destruct s as [|c s]; cbn [app].
    + destruct u as [|c u]; [discriminate|]. destruct c; try discriminate. intros H L. injection H as <-. cbn [length] in L. lia.
    + destruct c; try discriminate. intros H L. injection H as <-. exists s. split; reflexivity.
Qed.

(** The data and what follows, for a given number of bytes. *)
Definition counted (n : Z) (body : bytes) : option (bytes * bytes) :=
  if (0 <=? n)%Z && (n <=? blen body)%Z then
    match next_token (skipn (Z.to_nat n) body) with
    | Some (TKeyword k, r) =>
        if bytes_eqb k (lit "endstream") then
          match next_token r with
          | Some (TKeyword k2, r2) => if bytes_eqb k2 (lit "endobj") then Some (firstn (Z.to_nat n) body, r2) else None
          | _ => None
          end
        else None
    | _ => None
    end
  else None.

Lemma stream_data_counted d s : stream_data d s =
  match after_eol s, lookup (lit "Length") d with Some body, Some (VInt n) => counted n body | _, _ => None end.
Proof. reflexivity. Qed.

Lemma counted_form n body x r : counted n body = Some (x, r) <->
  (0 <= n)%Z /\ (n <= blen body)%Z /\ x = firstn (Z.to_nat n) body /\
  exists m, next_token (skipn (Z.to_nat n) body) = Some (TKeyword (lit "endstream"), m) /\ next_token m = Some (TKeyword (lit "endobj"), r).
Proof.
  unfold counted. destruct ((0 <=? n)%Z && (n <=? blen body)%Z) eqn:E.
  - apply andb_true_iff in E. destruct E as [E1 E2]. apply Z.leb_le in E1, E2.
    destruct (next_token (skipn (Z.to_nat n) body)) as [[t m]|] eqn:En.
    2:{ split; [discriminate|]. intros (_ & _ & _ & m & Q & _). discriminate Q. }
    destruct t; try (split; [discriminate|intros (_ & _ & _ & q & Q & _); discriminate Q]).
    destruct (bytes_eqb s (lit "endstream")) eqn:Es.
    2:{ split; [discriminate|]. intros (_ & _ & _ & q & Q & _). injection Q as -> _. rewrite bytes_eqb_refl in Es. discriminate Es. }
    apply bytes_eqb_spec in Es. subst s.
    destruct (next_token m) as [[t m2]|] eqn:Em.
    2:{ split; [discriminate|]. intros (_ & _ & _ & q & Q & Q2). injection Q as ->. rewrite Em in Q2. discriminate Q2. }
    destruct t; try (split; [discriminate|intros (_ & _ & _ & q & Q & Q2); injection Q as ->; rewrite Em in Q2; discriminate Q2]).
    destruct (bytes_eqb s (lit "endobj")) eqn:Ee.
    + apply bytes_eqb_spec in Ee. subst s. split.
      * intro Q. injection Q as <- <-. repeat split; try assumption. exists m. split; [reflexivity|exact Em].
      * intros (_ & _ & -> & q & Q & Q2). injection Q as ->. rewrite Em in Q2. injection Q2 as ->. reflexivity.
    + split; [discriminate|]. intros (_ & _ & _ & q & Q & Q2). injection Q as ->. rewrite Em in Q2. injection Q2 as -> _.
      rewrite bytes_eqb_refl in Ee. discriminate Ee.
  - split; [discriminate|]. intros (H1 & H2 & _). apply Z.leb_le in H1, H2. rewrite H1, H2 in E. discriminate E.
Qed.

Lemma firstn_front (n : nat) (b u : bytes) : n <= length b -> firstn n (b ++ u) = firstn n b.
Proof. intro H. rewrite firstn_app. replace (n - length b) with 0 by lia. cbn [firstn]. apply app_nil_r. Qed.

Lemma skipn_front (n : nat) (b u : bytes) : n <= length b -> skipn n (b ++ u) = skipn n b ++ u.
Proof. intro H. rewrite skipn_app. replace (n - length b) with 0 by lia. reflexivity. Qed.

Lemma blen_length (b : bytes) : blen b = Z.of_nat (length b).
Proof. reflexivity. Qed.

Lemma counted_ext n b x r u : counted n b = Some (x, r) -> r <> [] -> counted n (b ++ u) = Some (x, r ++ u).
Proof.
  rewrite !counted_form, !blen_length, app_length. intros (H1 & H2 & -> & m & E & Em) N.
  rewrite firstn_front, skipn_front by lia. repeat split; try lia. exists (m ++ u). split.
  - apply next_ext; [exact E|]. intros ->. discriminate Em.
  - apply next_ext; assumption.
Qed.

Lemma counted_last n b x u y r : counted n b = Some (x, []) -> counted n (b ++ u) = Some (y, r) -> y = x /\ r = u.
Proof.
  rewrite !counted_form, !blen_length, app_length. intros (H1 & H2 & -> & m & E & Em) (_ & _ & -> & m' & E' & Em').
  rewrite firstn_front by lia. split; [reflexivity|]. rewrite skipn_front in E' by lia.
  rewrite (next_ext _ _ _ u E) in E' by (intros ->; discriminate Em). injection E' as <-.
  pose proof (next_last _ _ Em u) as Q. rewrite endobj_number in Q. rewrite Q in Em'. apply keyword_inj in Em'. destruct Em' as [Hk Hr].
  pose proof (span_split is_regular u) as Sp. 
  apply (app_inv_head (lit "endobj") _ []) in Hk. rewrite Hk in Sp. cbn [app] in Sp. congruence.
Qed.

Lemma counted_len n b x r : counted n b = Some (x, r) -> length r < length b.
Proof.
  rewrite counted_form. intros (_ & _ & _ & m & E & Em). apply next_token_len in E, Em. rewrite skipn_length in E. lia.
Qed.

Lemma counted_res n b x r' u : counted n (b ++ u) = Some (x, r') -> length u <= length r' -> exists r, r' = r ++ u /\ counted n b = Some (x, r).
Proof.
  rewrite counted_form, blen_length, app_length. intros (H1 & H2 & -> & m & E & Em) L.
  pose proof (next_token_len _ _ _ E) as L1. pose proof (next_token_len _ _ _ Em) as L2. rewrite skipn_length, app_length in L1.
  rewrite skipn_front in E by lia. rewrite firstn_front by lia.
  destruct (next_res _ _ _ _ E) as (m0 & -> & E0); [lia|].
  destruct (next_res _ _ _ _ Em L) as (r & -> & Em0). exists r. split; [reflexivity|].
  rewrite counted_form, blen_length. repeat split; try lia. exists m0. split; assumption.
Qed.

(** With the length. *)

Lemma stream_ext d s x r u : stream_data d s = Some (x, r) -> r <> [] -> stream_data d (s ++ u) = Some (x, r ++ u).
Proof.
  rewrite !stream_data_counted. intros H N. destruct (after_eol s) as [b|] eqn:E; [|discriminate H]. rewrite (after_eol_ext _ _ u E).
  destruct (lookup (lit "Length") d) as [[]|]; try discriminate H. apply counted_ext; assumption.
Qed.

Lemma stream_last d s x u y r : stream_data d s = Some (x, []) -> stream_data d (s ++ u) = Some (y, r) -> r = u.
Proof.
  rewrite !stream_data_counted. intro H. destruct (after_eol s) as [b|] eqn:E; [|discriminate H]. rewrite (after_eol_ext _ _ u E).
  destruct (lookup (lit "Length") d) as [[]|]; try discriminate H. intro G. apply (counted_last _ _ _ _ _ _ H G).
Qed.

Lemma stream_len d s x r : stream_data d s = Some (x, r) -> length r < length s.
Proof.
  rewrite stream_data_counted. intro H. destruct (after_eol s) as [b|] eqn:E; [|discriminate H].
  destruct (lookup (lit "Length") d) as [[]|]; try discriminate H. apply after_eol_len in E. apply counted_len in H. lia.
Qed.

Lemma stream_res d s x r' u : stream_data d (s ++ u) = Some (x, r') -> length u <= length r' -> exists r, r' = r ++ u /\ stream_data d s = Some (x, r).
Proof.
  rewrite stream_data_counted. intros H L. destruct (after_eol (s ++ u)) as [b|] eqn:E; [|discriminate H].
  destruct (lookup (lit "Length") d) as [[]|] eqn:El; try discriminate H.
  destruct (after_eol_res _ _ _ E) as (b0 & -> & Eb); [apply counted_len in H; lia|].
  destruct (counted_res _ _ _ _ _ H L) as (r & -> & Fc). exists r. split; [reflexivity|]. rewrite stream_data_counted, Eb, El. exact Fc.
Qed.

(** ** Indirect objects *)

Section Indirect.
  Variable F : list (bytes * val) -> bytes -> option (bytes * bytes).
  Hypothesis F_ext : forall d s x r u, F d s = Some (x, r) -> r <> [] -> F d (s ++ u) = Some (x, r ++ u).
  Hypothesis F_last : forall d s x u y r, F d s = Some (x, []) -> F d (s ++ u) = Some (y, r) -> r = u.
  Hypothesis F_len : forall d s x r, F d s = Some (x, r) -> length r < length s.
  Hypothesis F_res : forall d s x r' u, F d (s ++ u) = Some (x, r') -> length u <= length r' -> exists r, r' = r ++ u /\ F d s = Some (x, r).

  (** The parts of an indirect object. *)
  Definition is_indirect (s : bytes) (o : indirect) (r : bytes) : Prop :=
    exists n r1 g r2 r3 v e r4, next_token s = Some (TInt n, r1) /\ next_token r1 = Some (TInt g, r2) /\
      next_token r2 = Some (TKeyword (lit "obj"), r3) /\ objs [] r3 = Some ([v], Some (TKeyword e), r4) /\
      ((e = lit "endobj" /\ o = IObj n g v /\ r = r4) \/
       (e = lit "stream" /\ exists d x, v = VDict d /\ o = IStream n g d x /\ F d r4 = Some (x, r))).

  Lemma with_form s o r : indirect_with F s = Some (o, r) <-> is_indirect s o r.
  Proof using.
    unfold is_indirect. split.
    - unfold indirect_with. intro H.
      destruct (next_token s) as [[[] r1]|] eqn:E1; try discriminate H.
      destruct (next_token r1) as [[[] r2]|] eqn:E2; try discriminate H.
      destruct (next_token r2) as [[[] r3]|] eqn:E3; try discriminate H.
      destruct (bytes_eqb s0 (lit "obj")) eqn:Eo; [|discriminate H]. apply bytes_eqb_spec in Eo. subst s0.
      destruct (objects (S (length r3)) [] r3) as [[[[|v [|]] [[]|]] r4]|] eqn:E4; try discriminate H.
      exists z, r1, z0, r2, r3, v, s0, r4. split; [first [exact E1|reflexivity]|]. split; [exact E2|]. split; [exact E3|]. split; [exact E4|].
      destruct (bytes_eqb s0 (lit "endobj")) eqn:Ee.
      { apply bytes_eqb_spec in Ee. left. injection H as <- <-. split; [exact Ee|]. split; reflexivity. }
      destruct (bytes_eqb s0 (lit "stream")) eqn:Es; [|discriminate H]. apply bytes_eqb_spec in Es. right. split; [exact Es|].
      destruct v; try discriminate H. destruct (F l r4) as [[x r5]|] eqn:Ec; [|discriminate H]. injection H as <- <-.
      exists l, x. split; [reflexivity|]. split; [reflexivity|exact Ec].
    - intros (n & r1 & g & r2 & r3 & v & e & r4 & E1 & E2 & E3 & E4 & C). unfold indirect_with.
      rewrite E1, E2, E3. rewrite bytes_eqb_refl. change (objects (S (length r3)) [] r3) with (objs [] r3). rewrite E4.
      destruct C as [(-> & -> & ->)|(-> & d & x & -> & -> & Ec)].
      + rewrite bytes_eqb_refl. reflexivity.
      + change (bytes_eqb (lit "stream") (lit "endobj")) with false. cbv iota. rewrite bytes_eqb_refl, Ec. reflexivity.
  Qed.

  Lemma with_len s o r : indirect_with F s = Some (o, r) -> length r < length s.
  Proof using F_ext F_last F_len F_res.
    rewrite with_form. intros (n & r1 & g & r2 & r3 & v & e & r4 & E1 & E2 & E3 & E4 & C).
    apply next_token_len in E1, E2, E3. apply objs_len in E4.
    destruct C as [(_ & _ & ->)|(_ & d & x & _ & _ & Ec)]; [lia|]. apply F_len in Ec. lia.
  Qed.

  Lemma F_some d s x r : F d s = Some (x, r) -> s <> [].
  Proof using F_ext F_last F_len F_res. intros H ->. apply F_len in H. cbn [length] in H. lia. Qed.

  Lemma with_ext s o r u : indirect_with F s = Some (o, r) -> r <> [] -> indirect_with F (s ++ u) = Some (o, r ++ u).
  Proof using F_ext F_last F_len F_res.
    rewrite !with_form. intros (n & r1 & g & r2 & r3 & v & e & r4 & E1 & E2 & E3 & E4 & C) N.
    assert (N4 : r4 <> []).
    { destruct C as [(_ & _ & <-)|(_ & d & x & _ & _ & Ec)]; [exact N|]. exact (F_some _ _ _ _ Ec). }
    exists n, (r1 ++ u), g, (r2 ++ u), (r3 ++ u), v, e, (r4 ++ u).
    split; [apply next_ext; [exact E1|intros ->; discriminate E2]|].
    split; [apply next_ext; [exact E2|intros ->; discriminate E3]|].
    split; [apply next_ext; [exact E3|intros ->; discriminate E4]|].
    split; [apply (objs_ext (length r3)); [lia|exact E4|exact N4]|].
    destruct C as [(-> & -> & ->)|(-> & d & x & -> & -> & Ec)]; [left; repeat split|].
    right. split; [reflexivity|]. exists d, x. repeat split. apply F_ext; [exact Ec|exact N].
  Qed.

  Lemma with_res s o r' u : indirect_with F (s ++ u) = Some (o, r') -> length u <= length r' -> exists r, r' = r ++ u /\ indirect_with F s = Some (o, r).
  Proof using F_ext F_last F_len F_res.
    rewrite with_form. intros (n & r1 & g & r2 & r3 & v & e & r4 & E1 & E2 & E3 & E4 & C) L.
    assert (L4 : length r' <= length r4).
    { destruct C as [(_ & _ & ->)|(_ & d & x & _ & _ & Ec)]; [lia|]. apply F_len in Ec. lia. }
    pose proof (objs_len _ _ _ _ _ E4) as L3. pose proof (next_token_len _ _ _ E3) as L2. pose proof (next_token_len _ _ _ E2) as L1.
    destruct (next_res _ _ _ _ E1) as (q1 & -> & F1); [lia|].
    destruct (next_res _ _ _ _ E2) as (q2 & -> & F2); [lia|].
    destruct (next_res _ _ _ _ E3) as (q3 & -> & F3); [lia|].
    destruct (objs_res (length q3) _ _ _ _ _ _ (le_n _) E4) as (q4 & -> & F4); [lia|].
    destruct C as [(-> & -> & ->)|(-> & d & x & -> & -> & Ec)].
    - exists q4. split; [reflexivity|]. apply with_form. exists n, q1, g, q2, q3, v, (lit "endobj"), q4. repeat split; try assumption. left. repeat split.
    - destruct (F_res _ _ _ _ _ Ec L) as (r & -> & Fc). exists r. split; [reflexivity|].
      apply with_form. exists n, q1, g, q2, q3, (VDict d), (lit "stream"), q4. repeat split; try assumption.
      right. split; [reflexivity|]. exists d, x. repeat split; assumption.
  Qed.

  (** An object that ends with the bytes read so far is read there only as it is in the longer file. *)
  Lemma with_last s o u o' r' : indirect_with F s = Some (o, []) -> indirect_with F (s ++ u) = Some (o', r') -> r' = u.
  Proof using F_ext F_last F_len F_res.
    rewrite !with_form. intros (n & r1 & g & r2 & r3 & v & e & r4 & E1 & E2 & E3 & E4 & C) (n' & p1 & g' & p2 & p3 & v' & e' & p4 & F1 & F2 & F3 & F4 & C').
    rewrite (next_ext _ _ _ u E1) in F1 by (intros ->; discriminate E2). injection F1 as <- <-.
    rewrite (next_ext _ _ _ u E2) in F2 by (intros ->; discriminate E3). injection F2 as <- <-.
    rewrite (next_ext _ _ _ u E3) in F3 by (intros ->; discriminate E4). injection F3 as <-.
    destruct C as [(-> & -> & <-)|(-> & d & x & -> & -> & Ec)].
    - rewrite (objs_last (length r3) _ _ _ u (le_n _) E4) in F4. apply objs_inj in F4. destruct F4 as (Hv & He & Hr). injection Hv as <-.
      destruct C' as [(-> & -> & ->)|(-> & d & x & -> & -> & Ec)]; [|discriminate He].
      apply (app_inv_head (lit "endobj") _ []) in He.
      pose proof (span_split is_regular u) as Sp. rewrite He in Sp. cbn [app] in Sp. congruence.
    - rewrite (objs_ext (length r3) _ _ _ _ _ u (le_n _) E4) in F4 by exact (F_some _ _ _ _ Ec). injection F4 as <- <- <-.
      destruct C' as [(Q & _)|(_ & d' & x' & Q & -> & Ec')]; [discriminate Q|]. injection Q as <-.
      exact (F_last _ _ _ _ _ _ Ec Ec').
  Qed.

  (** Nothing is read of an object that is cut. *)
  Lemma with_cut s u o r' : indirect_with F (s ++ u) = Some (o, r') -> length r' < length u -> indirect_with F s = None.
  Proof using F_ext F_last F_len F_res.
    intros H L. destruct (indirect_with F s) as [[o2 r2]|] eqn:E; [|reflexivity]. exfalso. destruct r2 as [|c r2].
    - pose proof (with_last _ _ _ _ _ E H). subst r'. lia.
    - rewrite (with_ext _ _ _ u E) in H by discriminate. injection H as <- <-. cbn [app length] in L. rewrite app_length in L. lia.
  Qed.
End Indirect.

Lemma indirect_len s o r : parse_indirect s = Some (o, r) -> length r < length s.
Proof. exact (with_len stream_data stream_ext stream_last stream_len stream_res s o r). Qed.

Lemma indirect_res s o r' u : parse_indirect (s ++ u) = Some (o, r') -> length u <= length r' -> exists r, r' = r ++ u /\ parse_indirect s = Some (o, r).
Proof. exact (with_res stream_data stream_ext stream_last stream_len stream_res s o r' u). Qed.

Lemma indirect_cut s u o r' : parse_indirect (s ++ u) = Some (o, r') -> length r' < length u -> parse_indirect s = None.
Proof. exact (with_cut stream_data stream_ext stream_last stream_len stream_res s u o r'). Qed.
