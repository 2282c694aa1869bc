(** Proofs for C99: the reader on the beginning of a file. *)

From Coq Require Import ZArith List Lia Bool.
From Verif Require Import Bytes SpecLex SpecObj ProofBasic ProofParse.
Import ListNotations.

(** [A]: what is read before the end of [s] is read in [s ++ u], too. [B]: what is read in [s ++ u] before [u] begins is
    read in [s], too. *)
Definition sim {T} (f : bytes -> option (T * bytes)) (s u : bytes) : Prop :=
  (forall t r, f s = Some (t, r) -> r <> [] -> f (s ++ u) = Some (t, r ++ u)) /\
  (forall t r', f (s ++ u) = Some (t, r') -> length u <= length r' -> exists r, r' = r ++ u /\ f s = Some (t, r)).

Lemma cons_fst_map c x y : cons_fst c x = Some y -> exists a b, x = Some (a, b) /\ y = (c :: a, b).
Proof. destruct x as [[a b]|]; cbn; [|discriminate]. intro H. injection H as <-. eauto. Qed.

(** ** Strings *)

Lemma hex_ext : forall s a x r u, hex_string a s = Some (x, r) -> hex_string a (s ++ u) = Some (x, r ++ u).
Proof.
  induction s as [|c s IH]; intros a x r u H; [discriminate|]. cbn [app hex_string] in *.
  destruct (beq c x3e); [destruct a; injection H as <- <-; reflexivity|].
  destruct (is_ws c); [apply IH; exact H|].
  destruct (hexval c); [|discriminate].
  destruct a; [|apply IH; exact H].
  destruct (hex_string None s) as [[y v]|] eqn:E; [|discriminate]. injection H as <- <-. rewrite (IH _ _ _ u E). reflexivity.
Qed.

Lemma hex_res : forall s a x r' u, hex_string a (s ++ u) = Some (x, r') -> length u <= length r' ->
  exists r, r' = r ++ u /\ hex_string a s = Some (x, r).
Proof.
  induction s as [|c s IH]; intros a x r' u H L; [apply hex_string_len in H; cbn [app] in H; lia|]. cbn [app hex_string] in *.
  destruct (beq c x3e); [destruct a; injection H as <- <-; exists s; split; reflexivity|].
  destruct (is_ws c); [apply IH; assumption|].
  destruct (hexval c); [|discriminate].
  destruct a; [|apply IH; assumption].
  destruct (hex_string None (s ++ u)) as [[y v]|] eqn:E; [|discriminate]. injection H as <- <-.
  destruct (IH _ _ _ _ E L) as (r & -> & ->). exists r. split; reflexivity.
Qed.

Lemma lit_ext : forall n s d x r u, length s <= n -> lit_string d s = Some (x, r) -> lit_string d (s ++ u) = Some (x, r ++ u).
Proof.
  induction n as [|n IH]; intros s d x r u Hn H.
  { destruct s; [discriminate|cbn in Hn; lia]. }
  assert (step : forall c s' d', length s' <= n -> cons_fst c (lit_string d' s') = Some (x, r) ->
     cons_fst c (lit_string d' (s' ++ u)) = Some (x, r ++ u)).
  { intros c s' d' Hl Hc. apply cons_fst_map in Hc. destruct Hc as (a & b & E & Ey). injection Ey as -> ->. rewrite (IH _ _ _ _ u Hl E). reflexivity. }
  assert (step' : forall s' d', length s' <= n -> lit_string d' s' = Some (x, r) -> lit_string d' (s' ++ u) = Some (x, r ++ u)).
  { intros s' d' Hl Hc. eapply IH; eauto. }
  clear IH.
  destruct s as [|c s]; [discriminate|]. cbn [length] in Hn. cbn [app lit_string] in *.
  destruct (beq c x28); [apply step; [lia|exact H]|].
  destruct (beq c x29); [destruct d; [injection H as <- <-; reflexivity|apply step; [lia|exact H]]|].
  destruct (beq c x0d).
  { destruct s as [|b s]; [discriminate|]. cbn [length app] in *.
    destruct (beq b x0a); [apply step; [lia|exact H]|]. apply (step x0a (b :: s) d); [cbn [length]; lia|exact H]. }
  destruct (beq c x5c); [|apply step; [lia|exact H]].
  destruct s as [|a s]; [discriminate|]. cbn [length app] in *.
  destruct (beq a x6e); [apply step; [lia|exact H]|].
  destruct (beq a x72); [apply step; [lia|exact H]|].
  destruct (beq a x74); [apply step; [lia|exact H]|].
  destruct (beq a x62); [apply step; [lia|exact H]|].
  destruct (beq a x66); [apply step; [lia|exact H]|].
  destruct (beq a x0a); [apply step'; [lia|exact H]|].
  destruct (beq a x0d).
  { destruct s as [|b s]; [discriminate|]. cbn [length app] in *.
    destruct (beq b x0a); [apply step'; [lia|exact H]|]. apply (step' (b :: s) d); [cbn [length]; lia|exact H]. }
  destruct (is_octal a); [|apply step; [lia|exact H]].
  destruct s as [|b s]; [discriminate|]. cbn [length app] in *.
  destruct (is_octal b); [|apply (step _ (b :: s)); [cbn [length]; lia|exact H]].
  destruct s as [|e s]; [discriminate|]. cbn [length app] in *.
  destruct (is_octal e); [apply step; [lia|exact H]|]. apply (step _ (e :: s)); [cbn [length]; lia|exact H].
Qed.

Lemma lit_res : forall n s d x r' u, length s <= n -> lit_string d (s ++ u) = Some (x, r') -> length u <= length r' ->
  exists r, r' = r ++ u /\ lit_string d s = Some (x, r).
Proof.
  induction n as [|n IH]; intros s d x r' u Hn H L.
  { destruct s; [|cbn in Hn; lia]. apply (lit_string_len (length u)) in H; [cbn [app] in H; lia|reflexivity]. }
  assert (step : forall c s' d', length s' <= n -> cons_fst c (lit_string d' (s' ++ u)) = Some (x, r') ->
     exists r, r' = r ++ u /\ cons_fst c (lit_string d' s') = Some (x, r)).
  { intros c s' d' Hl Hc. apply cons_fst_map in Hc. destruct Hc as (a & b & E & Ey). injection Ey as -> ->.
    destruct (IH _ _ _ _ u Hl E L) as (r & -> & ->). exists r. split; reflexivity. }
  assert (step' : forall s' d', length s' <= n -> lit_string d' (s' ++ u) = Some (x, r') -> exists r, r' = r ++ u /\ lit_string d' s' = Some (x, r)).
  { intros s' d' Hl Hc. eapply IH; eauto. }
  clear IH.
  assert (short : forall d' c, cons_fst c (lit_string d' u) = Some (x, r') -> False).
  { intros d' c Hc. apply cons_fst_map in Hc. destruct Hc as (a & b & E & Ey). injection Ey as -> ->.
    apply (lit_string_len (length u)) in E; [lia|reflexivity]. }
  assert (short' : forall d', lit_string d' u = Some (x, r') -> False).
  { intros d' E. apply (lit_string_len (length u)) in E; [lia|reflexivity]. }
  assert (tail : forall d' b u', u = b :: u' -> (exists c, cons_fst c (lit_string d' u') = Some (x, r')) \/ lit_string d' u' = Some (x, r') -> False).
  { intros d' b u' -> [[c Hc]|E].
    - apply cons_fst_map in Hc. destruct Hc as (a & b' & E & Ey). injection Ey as -> ->.
      apply (lit_string_len (length u')) in E; [cbn [length] in L; lia|reflexivity].
    - apply (lit_string_len (length u')) in E; [cbn [length] in L; lia|reflexivity]. }
  assert (tail2 : forall d' b b2 u', u = b :: b2 :: u' -> (exists c, cons_fst c (lit_string d' u') = Some (x, r')) \/ lit_string d' u' = Some (x, r') -> False).
  { intros d' b b2 u' -> [[c Hc]|E].
    - apply cons_fst_map in Hc. destruct Hc as (a & b' & E & Ey). injection Ey as -> ->.
      apply (lit_string_len (length u')) in E; [cbn [length] in L; lia|reflexivity].
    - apply (lit_string_len (length u')) in E; [cbn [length] in L; lia|reflexivity]. }
  destruct s as [|c s]; [destruct (short' _ H)|]. cbn [length] in Hn. cbn [app lit_string] in *.
  destruct (beq c x28); [apply step; [lia|exact H]|].
  destruct (beq c x29); [destruct d; [injection H as <- <-; exists s; split; reflexivity|apply step; [lia|exact H]]|].
  destruct (beq c x0d).
  { destruct s as [|b s]; cbn [length app] in *.
    - destruct u as [|b u]; [discriminate|]. destruct (beq b x0a); [exfalso; eapply tail; [reflexivity|left; eexists; exact H]|].
      exfalso. eapply short. exact H.
    - destruct (beq b x0a); [apply step; [lia|exact H]|]. apply (step x0a (b :: s) d); [cbn [length]; lia|exact H]. }
  destruct (beq c x5c); [|apply step; [lia|exact H]].
  destruct s as [|a s].
  { exfalso. cbn [app] in H. assert (G : exists s' d', length s' < length u /\ ((exists c, cons_fst c (lit_string d' s') = Some (x, r')) \/ lit_string d' s' = Some (x, r'))).
    { destruct u as [|a u]; [discriminate|].
      destruct (beq a x6e); [exists u, d; split; [cbn; lia|left; eexists; exact H]|].
      destruct (beq a x72); [exists u, d; split; [cbn; lia|left; eexists; exact H]|].
      destruct (beq a x74); [exists u, d; split; [cbn; lia|left; eexists; exact H]|].
      destruct (beq a x62); [exists u, d; split; [cbn; lia|left; eexists; exact H]|].
      destruct (beq a x66); [exists u, d; split; [cbn; lia|left; eexists; exact H]|].
      destruct (beq a x0a); [exists u, d; split; [cbn; lia|right; exact H]|].
      destruct (beq a x0d).
      { destruct u as [|b u]; [discriminate|]. destruct (beq b x0a); [exists u, d|exists (b :: u), d]; (split; [cbn; lia|right; exact H]). }
      destruct (is_octal a); [|exists u, d; split; [cbn; lia|left; eexists; exact H]].
      destruct u as [|b u]; [discriminate|]. destruct (is_octal b); [|exists (b :: u), d; split; [cbn; lia|left; eexists; exact H]].
      destruct u as [|e u]; [discriminate|].
      destruct (is_octal e); [exists u, d|exists (e :: u), d]; (split; [cbn; lia|left; eexists; exact H]). }
    destruct G as (s' & d' & Ls & [[k Hc]|E]).
    - apply cons_fst_map in Hc. destruct Hc as (a & b' & E & Ey). injection Ey as -> ->.
      apply (lit_string_len (length s')) in E; [lia|reflexivity].
    - apply (lit_string_len (length s')) in E; [lia|reflexivity]. }
  cbn [length app] in *.
  destruct (beq a x6e); [apply step; [lia|exact H]|].
  destruct (beq a x72); [apply step; [lia|exact H]|].
  destruct (beq a x74); [apply step; [lia|exact H]|].
  destruct (beq a x62); [apply step; [lia|exact H]|].
  destruct (beq a x66); [apply step; [lia|exact H]|].
  destruct (beq a x0a); [apply step'; [lia|exact H]|].
  destruct (beq a x0d).
  { destruct s as [|b s]; cbn [length app] in *.
    - destruct u as [|b u]; [discriminate|]. destruct (beq b x0a); [exfalso; eapply tail; [reflexivity|right; exact H]|].
      exfalso. eapply short'. exact H.
    - destruct (beq b x0a); [apply step'; [lia|exact H]|]. apply (step' (b :: s) d); [cbn [length]; lia|exact H]. }
  destruct (is_octal a); [|apply step; [lia|exact H]].
  destruct s as [|b s]; cbn [length app] in *.
  { exfalso. destruct u as [|b u]; [discriminate|]. destruct (is_octal b); [|eapply short; exact H].
    destruct u as [|e u]; [discriminate|]. destruct (is_octal e); [eapply tail2; [reflexivity|left; eexists; exact H]|].
    eapply tail; [reflexivity|left; eexists; exact H]. }
  destruct (is_octal b); [|apply (step _ (b :: s)); [cbn [length]; lia|exact H]].
  destruct s as [|e s]; cbn [length app] in *.
  { exfalso. destruct u as [|e u]; [discriminate|]. destruct (is_octal e); [eapply tail; [reflexivity|left; eexists; exact H]|].
    eapply short. exact H. }
  destruct (is_octal e); [apply step; [lia|exact H]|]. apply (step _ (e :: s)); [cbn [length]; lia|exact H].
Qed.

(** ** Runs of bytes *)

Lemma span_ext p s a r u : span p s = (a, r) -> r <> [] -> span p (s ++ u) = (a, r ++ u).
Proof.
  revert a r. induction s as [|c s IH]; intros a r H N; [injection H as <- <-; contradiction N; reflexivity|]. cbn [app span] in *.
  destruct (p c); [|injection H as <- <-; reflexivity].
  destruct (span p s) as [a' r'] eqn:E. injection H as <- <-. rewrite (IH _ _ eq_refl N). reflexivity.
Qed.

Lemma span_end p s a : span p s = (a, []) -> a = s /\ forall u, span p (s ++ u) = (s ++ fst (span p u), snd (span p u)).
Proof.
  revert a. induction s as [|c s IH]; intros a H; [injection H as <-; split; [reflexivity|intro u; cbn [app]; apply surjective_pairing]|].
  cbn [app span] in *. destruct (p c); [|discriminate]. destruct (span p s) as [a' r'] eqn:E. injection H as <- ->.
  destruct (IH _ eq_refl) as [-> G]. split; [reflexivity|]. intro u. rewrite G. reflexivity.
Qed.

Lemma span_split p s : s = fst (span p s) ++ snd (span p s).
Proof. induction s as [|c s IH]; [reflexivity|]. cbn [span]. destruct (p c); [|reflexivity]. destruct (span p s) as [a r]. cbn [fst snd app] in *. congruence. Qed.

Lemma span_res p s a r' u : span p (s ++ u) = (a, r') -> length u <= length r' -> exists r, r' = r ++ u /\ span p s = (a, r).
Proof.
  intros H L. destruct (span p s) as [b r] eqn:E. destruct r as [|c r].
  - destruct (span_end p s b E) as [-> G]. rewrite G in H. injection H as <- <-.
    assert (X : fst (span p u) = []).
    { destruct (fst (span p u)) as [|x y] eqn:F; [reflexivity|]. pose proof (span_split p u) as Sp. rewrite F in Sp.
      rewrite Sp in L at 1. cbn [app length] in L. rewrite app_length in L. lia. }
    rewrite X, app_nil_r. exists []. split; [|reflexivity]. pose proof (span_split p u) as Sp. rewrite X in Sp. cbn [app] in *. congruence.
  - rewrite (span_ext p s b (c :: r) u E) in H by discriminate. injection H as <- <-. exists (c :: r). split; reflexivity.
Qed.

(** ** Tokens *)

Lemma lex_ext s t r u : lex_token s = Some (t, r) -> r <> [] -> lex_token (s ++ u) = Some (t, r ++ u).
Proof.
  destruct s as [|c s]; [discriminate|]. intros H N. cbn [app].
  destruct (is_regular c) eqn:Ec.
  - rewrite lex_token_regular in * by assumption. destruct (span is_regular (c :: s)) as [w rest] eqn:E. injection H as <- <-.
    change (c :: s ++ u) with ((c :: s) ++ u). rewrite (span_ext _ _ _ _ u E N). reflexivity.
  - destruct c; try discriminate Ec; cbn [lex_token] in *;
      try (rewrite Ec in H; discriminate H); try (injection H as <- <-; reflexivity).
    + destruct (lit_string 0 s) as [[x y]|] eqn:E; [|discriminate]. injection H as <- <-.
      rewrite (lit_ext (length s) _ _ _ _ u (le_n _) E). reflexivity.
    + destruct (span is_regular s) as [w rest] eqn:E. destruct (name_decode w) eqn:D; [|discriminate]. injection H as <- <-.
      rewrite (span_ext _ _ _ _ u E N), D. reflexivity.
    + assert (Hh : forall s', match hex_string None s' with Some (x, rest) => Some (TStr x, rest) | None => None end = Some (t, r) ->
                match hex_string None (s' ++ u) with Some (x, rest) => Some (TStr x, rest) | None => None end = Some (t, r ++ u)).
      { intros s' H'. destruct (hex_string None s') as [[v w]|] eqn:E; [|discriminate]. injection H' as <- <-.
        rewrite (hex_ext _ _ _ _ u E). reflexivity. }
      destruct s as [|c2 s2]; [discriminate H|]. cbn [app].
      destruct c2; try (apply (Hh (_ :: s2)) in H; cbn [app] in H; exact H). injection H as <- <-. reflexivity.
    + destruct s as [|c2 s2]; [discriminate H|]. cbn [app]. destruct c2; try discriminate H. injection H as <- <-. reflexivity.
Qed.

Lemma lex_res s t r' u : s <> [] -> lex_token (s ++ u) = Some (t, r') -> length u <= length r' ->
  exists r, r' = r ++ u /\ lex_token s = Some (t, r).
Proof.
  destruct s as [|c s]; [intro X; contradiction X; reflexivity|]. intros _ H L. cbn [app] in H.
  destruct (is_regular c) eqn:Ec.
  - rewrite lex_token_regular in * by assumption. change (c :: s ++ u) with ((c :: s) ++ u) in H.
    destruct (span is_regular ((c :: s) ++ u)) as [w rest] eqn:E. injection H as <- <-.
    destruct (span_res _ _ _ _ _ E L) as (r & -> & ->). exists r. split; reflexivity.
  - destruct c; try discriminate Ec; cbn [lex_token] in *;
      try (rewrite Ec in H; discriminate H); try (injection H as <- <-; exists s; split; reflexivity).
    + destruct (lit_string 0 (s ++ u)) as [[x y]|] eqn:E; [|discriminate]. injection H as <- <-.
      destruct (lit_res (length s) _ _ _ _ u (le_n _) E L) as (r & -> & ->). exists r. split; reflexivity.
    + destruct (span is_regular (s ++ u)) as [w rest] eqn:E. destruct (name_decode w) eqn:D; [|discriminate]. injection H as <- <-.
      destruct (span_res _ _ _ _ _ E L) as (r & -> & ->). rewrite D. exists r. split; reflexivity.
    + assert (Hh : forall s', match hex_string None (s' ++ u) with Some (x, rest) => Some (TStr x, rest) | None => None end = Some (t, r') ->
                exists r, r' = r ++ u /\ match hex_string None s' with Some (x, rest) => Some (TStr x, rest) | None => None end = Some (t, r)).
      { intros s' H'. destruct (hex_string None (s' ++ u)) as [[v w]|] eqn:E; [|discriminate]. injection H' as <- <-.
        destruct (hex_res _ _ _ _ _ E L) as (r & -> & ->). exists r. split; reflexivity. }
      destruct s as [|c2 s2]; cbn [app] in H.
      { exfalso. assert (Hs : match hex_string None u with Some (x, rest) => Some (TStr x, rest) | None => None end = Some (t, r') -> False).
        { intro H'. destruct (hex_string None u) as [[v w]|] eqn:E; [|discriminate]. injection H' as <- <-. apply hex_string_len in E. lia. }
        destruct u as [|c2 u]; [discriminate H|]. destruct c2; try (exact (Hs H)). injection H as <- <-. cbn [length] in L. lia. }
      destruct c2; try (apply (Hh (_ :: s2)); cbn [app]; exact H). injection H as <- <-. exists s2. split; reflexivity.
    + destruct s as [|c2 s2]; cbn [app] in H.
      { exfalso. destruct u as [|c2 u]; [discriminate H|]. destruct c2; try discriminate H. injection H as <- <-. cbn [length] in L. lia. }
      destruct c2; try discriminate H. injection H as <- <-. exists s2. split; reflexivity.
Qed.

(** A keyword at the very end may go on. *)
Lemma lex_last s k : lex_token s = Some (TKeyword k, []) ->
  k = s /\ forall u, lex_token (s ++ u) = Some (match number (s ++ fst (span is_regular u)) with Some t => t | None => TKeyword (s ++ fst (span is_regular u)) end, snd (span is_regular u)).
Proof.
  destruct s as [|c s]; [discriminate|]. intro H.
  destruct (is_regular c) eqn:Ec.
  - rewrite lex_token_regular in * by assumption. destruct (span is_regular (c :: s)) as [w rest] eqn:E. injection H as Hk ->.
    destruct (span_end _ _ _ E) as [-> G]. split.
    +
      destruct (number (c :: s)) as [t|] eqn:F; [|injection Hk as <-; reflexivity].
      subst t. exfalso. clear - F. revert F. unfold number.
      assert (U : forall x, number_unsigned x = Some (TKeyword k) -> False).
      { intro x. unfold number_unsigned. destruct (span is_digit x) as [a [|b fp]]; [destruct a; discriminate|].
        destruct (beq b x2e && forallb is_digit fp); [|discriminate]. destruct (a ++ fp); discriminate. }
      assert (V : forall x, option_map token_neg (number_unsigned x) = Some (TKeyword k) -> False).
      { intros x. destruct (number_unsigned x) as [t|] eqn:E; [|discriminate]. cbn [option_map]. intro Q. injection Q as Q. destruct t; try discriminate Q.
        injection Q as ->. exact (U _ E). }
      destruct c; solve [apply U|apply V].
    + intro u. change ((c :: s) ++ u) with (c :: s ++ u). rewrite lex_token_regular by assumption. change (c :: s ++ u) with ((c :: s) ++ u).
      rewrite G. reflexivity.
  - exfalso. destruct c; try discriminate Ec; cbn [lex_token] in *; try (rewrite Ec in H; discriminate H); try discriminate H.
    + destruct (lit_string 0 s) as [[x y]|]; discriminate.
    + destruct (span is_regular s) as [w rest]. destruct (name_decode w); discriminate.
    + assert (Hh : forall s', match hex_string None s' with Some (x, rest) => Some (TStr x, rest) | None => None end = Some (TKeyword k, []) -> False).
      { intros s' H'. destruct (hex_string None s') as [[v w]|]; discriminate. }
      destruct s as [|c2 s2]; [discriminate H|]. destruct c2; solve [discriminate H|eapply Hh; exact H].
    + destruct s as [|c2 s2]; [discriminate H|]. destruct c2; discriminate H.
Qed.

(** ** White space and comments *)

Lemma skip_line_ext s u : skip_line s <> [] -> skip_line (s ++ u) = skip_line s ++ u.
Proof.
  unfold skip_line. intro N. destruct (span (fun b => negb (bmem b [x0a; x0d])) s) as [a r] eqn:E. cbn [snd] in N.
  rewrite (span_ext _ _ _ _ u E N). reflexivity.
Qed.

Lemma skip_line_end s u : skip_line s = [] -> skip_line (s ++ u) = skip_line u.
Proof.
  unfold skip_line. intro N. destruct (span (fun b => negb (bmem b [x0a; x0d])) s) as [a r] eqn:E. cbn [snd] in N. subst r.
  destruct (span_end _ _ _ E) as [_ G]. rewrite G. reflexivity.
Qed.

Lemma blanks_both : forall n s u, length s <= n ->
  (blanks s <> [] -> blanks (s ++ u) = blanks s ++ u) /\ (blanks s = [] -> length (blanks (s ++ u)) <= length u).
Proof.
  induction n as [|n IH]; intros s u Hn.
  { destruct s; [|cbn in Hn; lia]. split; [intro X; contradiction X; reflexivity|intros _; apply blanks_len]. }
  destruct s as [|c s]; [split; [intro X; contradiction X; reflexivity|intros _; apply blanks_len]|].
  cbn [length] in Hn. cbn [app].
  destruct (is_ws c) eqn:W; [rewrite !blanks_ws by exact W; apply IH; lia|].
  destruct (beq c x25) eqn:Q; [|rewrite !blanks_solid by assumption; split; [reflexivity|discriminate]].
  apply beq_spec in Q. subst c. rewrite !blanks_comment.
  destruct (skip_line s) as [|x y] eqn:E.
  - rewrite (skip_line_end _ _ E). split; [intro X; contradiction X; reflexivity|]. intros _.
    pose proof (blanks_len (skip_line u)). pose proof (skip_line_len u). lia.
  - rewrite skip_line_ext by (rewrite E; discriminate). rewrite E. apply IH. pose proof (skip_line_len s). rewrite E in H. lia.
Qed.

Lemma blanks_ext s u : blanks s <> [] -> blanks (s ++ u) = blanks s ++ u.
Proof. apply (blanks_both (length s)). lia. Qed.

Lemma blanks_short s u : blanks s = [] -> length (blanks (s ++ u)) <= length u.
Proof. apply (blanks_both (length s)). lia. Qed.

Lemma next_ext s t r u : next_token s = Some (t, r) -> r <> [] -> next_token (s ++ u) = Some (t, r ++ u).
Proof.
  intros H N. destruct (next_token_blanks _ _ _ H) as (c & s' & Eb). unfold next_token in *.
  rewrite blanks_ext by (rewrite Eb; discriminate). apply lex_ext; assumption.
Qed.

Lemma next_res s t r' u : next_token (s ++ u) = Some (t, r') -> length u <= length r' -> exists r, r' = r ++ u /\ next_token s = Some (t, r).
Proof.
  unfold next_token. intros H L. destruct (blanks s) as [|c s'] eqn:E.
  - exfalso. pose proof (blanks_short s u E). apply lex_token_len in H. lia.
  - rewrite blanks_ext in H by (rewrite E; discriminate). rewrite E in H. apply lex_res; [discriminate|exact H|exact L].
Qed.

Lemma next_last s k : next_token s = Some (TKeyword k, []) -> forall u,
  next_token (s ++ u) = Some (match number (k ++ fst (span is_regular u)) with Some t => t | None => TKeyword (k ++ fst (span is_regular u)) end, snd (span is_regular u)).
Proof.
  intros H u. destruct (next_token_blanks _ _ _ H) as (c & s' & Eb). unfold next_token in *.
  rewrite blanks_ext by (rewrite Eb; discriminate). destruct (lex_last _ _ H) as [-> G]. apply G.
Qed.
