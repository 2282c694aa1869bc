(** The object parser: independence of fuel, and parsing along a token list. *)

From Coq Require Import ZArith List Lia Bool ZifyBool ZifyNat Arith.
From Verif Require Import Bytes SpecLex SpecObj ProofBasic.
Import ListNotations.
Local Open Scope nat_scope.

(** ** Every token consumes at least one byte *)

Lemma cons_fst_some c x a b : cons_fst c x = Some (a, b) -> exists a', x = Some (a', b).
Proof. destruct x as [[u v]|]; cbn; [|discriminate]. intro H. injection H as _ <-. eauto. Qed.

Lemma lit_string_len : forall n s d x r, length s <= n -> lit_string d s = Some (x, r) -> length r < length s.
Proof.
  induction n as [|n IH]; intros s d x r Hn H.
  { destruct s; [discriminate|cbn in Hn; lia]. }
  assert (step : forall c s' d', length s' <= n -> cons_fst c (lit_string d' s') = Some (x, r) -> length r < length s').
  { intros c s' d' Hl Hc. apply cons_fst_some in Hc. destruct Hc as [a' Hc]. eapply IH; eauto. }
  assert (step' : forall s' d', length s' <= n -> lit_string d' s' = Some (x, r) -> length r < length s').
  { intros s' d' Hl Hc. eapply IH; eauto. }
  clear IH.
  destruct s as [|c s]; [discriminate|]. cbn [length] in Hn |- *. cbn [lit_string] in H.
  destruct (beq c x28); [apply step in H; lia|].
  destruct (beq c x29); [destruct d; [injection H as _ <-; lia|apply step in H; lia]|].
  destruct (beq c x0d).
  { destruct s as [|b s]; [discriminate|]. cbn [length] in *.
    destruct (beq b x0a); apply step in H; cbn [length] in *; lia. }
  destruct (beq c x5c); [|apply step in H; lia].
  destruct s as [|a s]; [discriminate|]. cbn [length] in *.
  destruct (beq a x6e); [apply step in H; lia|].
  destruct (beq a x72); [apply step in H; lia|].
  destruct (beq a x74); [apply step in H; lia|].
  destruct (beq a x62); [apply step in H; lia|].
  destruct (beq a x66); [apply step in H; lia|].
  destruct (beq a x0a); [apply step' in H; lia|].
  destruct (beq a x0d).
  { destruct s as [|b s]; [discriminate|]. cbn [length] in *.
    destruct (beq b x0a); apply step' in H; cbn [length] in *; lia. }
  destruct (is_octal a); [|apply step in H; lia].
  destruct s as [|b s]; [discriminate|]. cbn [length] in *.
  destruct (is_octal b); [|apply step in H; cbn [length] in *; lia].
  destruct s as [|e s]; [discriminate|]. cbn [length] in *.
  destruct (is_octal e); apply step in H; cbn [length] in *; lia.
Qed.

Lemma hex_string_len : forall s a x r, hex_string a s = Some (x, r) -> length r < length s.
Proof.
  induction s as [|c s IH]; intros a x r H; [discriminate|]. cbn [hex_string length] in *.
  destruct (beq c x3e); [destruct a; injection H as _ <-; lia|].
  destruct (is_ws c); [apply IH in H; lia|].
  destruct (hexval c); [|discriminate].
  destruct a.
  - destruct (hex_string None s) as [[u v]|] eqn:E; [|discriminate]. injection H as _ <-. apply IH in E. lia.
  - apply IH in H. lia.
Qed.

Lemma lex_token_len s t r : lex_token s = Some (t, r) -> length r < length s.
Proof.
  destruct s as [|c s]; [discriminate|].
  assert (Hreg : is_regular c = true ->
    (let '(w, rest) := span is_regular (c :: s) in
     Some (match number w with Some t => t | None => TKeyword w end, rest)) = Some (t, r) -> length r < length (c :: s)).
  { intros Hc H. cbn [span] in H. rewrite Hc in H.
    pose proof (span_len is_regular s). destruct (span is_regular s) as [w rest]. cbn [snd] in *.
    injection H as _ <-. cbn [length]. lia. }
  destruct (is_regular c) eqn:Ec.
  - rewrite lex_token_regular by assumption. auto.
  - intro H. destruct c; try discriminate Ec; cbn [lex_token] in H;
      try (rewrite Ec in H; discriminate H); cbn [length]; try (injection H as _ <-; lia).
    + destruct (lit_string 0 s) as [[x y]|] eqn:E; [|discriminate]. injection H as _ <-.
      apply (lit_string_len (length s)) in E; lia.
    + pose proof (span_len is_regular s). destruct (span is_regular s) as [w rest]. cbn [snd] in *.
      destruct (name_decode w); [|discriminate]. injection H as _ <-. lia.
    + assert (Hh : forall s', match hex_string None s' with Some (x, rest) => Some (TStr x, rest) | None => None end = Some (t, r) ->
                length r < length s').
      { intros s' H'. destruct (hex_string None s') as [[u v]|] eqn:E; [|discriminate]. injection H' as _ <-.
        apply hex_string_len in E. exact E. }
      destruct s as [|c2 s2]; [apply Hh in H; lia|]. destruct c2; try (apply Hh in H; lia).
      injection H as _ <-. cbn; lia.
    + destruct s as [|c2 s2]; [discriminate H|]. destruct c2; try discriminate H. injection H as _ <-. cbn; lia.
Qed.

Lemma skip_blank_len : forall f s, length (skip_blank f s) <= length s.
Proof.
  induction f as [|f IH]; intro s; [reflexivity|]. cbn [skip_blank]. destruct s as [|c r]; [reflexivity|].
  cbn [length]. destruct (is_ws c); [specialize (IH r); lia|]. destruct (beq c x25); [|cbn; lia].
  specialize (IH (skip_line r)). pose proof (skip_line_len r). lia.
Qed.

Lemma blanks_len s : length (blanks s) <= length s.
Proof. apply skip_blank_len. Qed.

Lemma next_token_len s t r : next_token s = Some (t, r) -> length r < length s.
Proof. intro H. apply lex_token_len in H. pose proof (blanks_len s). lia. Qed.

(** ** Token lists *)

Inductive lexes : bytes -> list token -> bytes -> Prop :=
| lx_nil s : lexes s [] s
| lx_cons s t r ts r' : next_token s = Some (t, r) -> lexes r ts r' -> lexes s (t :: ts) r'.

Lemma lexes_app s ts1 m ts2 r : lexes s ts1 m -> lexes m ts2 r -> lexes s (ts1 ++ ts2) r.
Proof. induction 1; cbn [app]; [auto|]. intro. econstructor; eauto. Qed.

Lemma lexes_one s t r : next_token s = Some (t, r) -> lexes s [t] r.
Proof. intro. econstructor; eauto. constructor. Qed.

Lemma lexes_ws w s ts r : forallb is_ws w = true -> ts <> [] -> lexes s ts r -> lexes (w ++ s) ts r.
Proof.
  intros Hw Hne H. destruct H; [congruence|]. econstructor; [|eassumption].
  rewrite next_token_ws by assumption. assumption.
Qed.

Lemma lexes_len s ts r : lexes s ts r -> length r + length ts <= length s.
Proof.
  induction 1; [cbn; lia|]. apply next_token_len in H. cbn [length]. lia.
Qed.

Lemma next_token_blanks s t r : next_token s = Some (t, r) -> exists c s', blanks s = c :: s'.
Proof. unfold next_token. destruct (blanks s); [discriminate|eauto]. Qed.

Lemma tokens_fuel_enough : forall ts f s, lexes s ts [] -> length ts <= f -> tokens_fuel f s = Some ts.
Proof.
  induction ts as [|t ts IH]; intros f s H Hf.
  - inversion H; subst. destruct f; reflexivity.
  - inversion H as [|? ? r0 ? ? Hn Hl]; subst. destruct f as [|f]; [cbn in Hf; lia|].
    cbn [tokens_fuel]. destruct (next_token_blanks _ _ _ Hn) as (c & s' & Eb).
    unfold next_token in Hn. rewrite Eb in *. rewrite Hn.
    rewrite (IH f r0); [reflexivity|assumption|cbn in Hf; lia].
Qed.

Lemma lexes_tokens s ts : lexes s ts [] -> tokens s = Some ts.
Proof. intro H. apply tokens_fuel_enough; [assumption|]. apply lexes_len in H. cbn in H. lia. Qed.

(** White space at the end does not matter. *)
Lemma lexes_tokens_ws s ts w : lexes s ts w -> forallb is_ws w = true -> tokens s = Some ts.
Proof.
  intros H Hw. unfold tokens.
  assert (G : forall ts f s, lexes s ts w -> length ts <= f -> tokens_fuel f s = Some ts).
  { clear - Hw. induction ts as [|t ts IH]; intros f s H Hf.
    - inversion H; subst. assert (E : blanks w = []) by (rewrite <- (app_nil_r w), blanks_wss by assumption; reflexivity).
      destruct f; cbn [tokens_fuel]; rewrite E; reflexivity.
    - inversion H as [|? ? r0 ? ? Hn Hl]; subst. destruct f as [|f]; [cbn in Hf; lia|].
      cbn [tokens_fuel]. destruct (next_token_blanks _ _ _ Hn) as (c & s' & Eb).
      unfold next_token in Hn. rewrite Eb in *. rewrite Hn.
      rewrite (IH f r0); [reflexivity|assumption|cbn in Hf; lia]. }
  apply G; [assumption|]. apply lexes_len in H. lia.
Qed.

(** ** The parser does not depend on its fuel *)

Lemma objects_stable : forall f1 f2 acc s, length s < f1 -> length s < f2 ->
  objects f1 acc s = objects f2 acc s /\
  (forall l t r, objects f1 acc s = Some (l, t, r) -> length r <= length s).
Proof.
  induction f1 as [|f1 IH]; intros f2 acc s H1 H2; [lia|].
  destruct f2 as [|f2]; [lia|]. cbn [objects].
  pose proof (blanks_len s) as Hb.
  destruct (blanks s) as [|c s'] eqn:Eb.
  { split; [reflexivity|]. intros l t r E. injection E as _ _ <-. cbn; lia. }
  destruct (lex_token (c :: s')) as [[t r]|] eqn:Et; [|split; [reflexivity|discriminate]].
  apply lex_token_len in Et.
  assert (Hr : length r < length s) by lia.
  assert (K : forall acc' r', length r' <= length r ->
     objects f1 acc' r' = objects f2 acc' r' /\
     (forall l0 t0 r0, objects f1 acc' r' = Some (l0, t0, r0) -> length r0 <= length s)).
  { intros acc' r' Hr'. destruct (IH f2 acc' r') as [E1 E2]; [lia|lia|]. split; [exact E1|].
    intros l0 t0 r0 E. apply E2 in E. lia. }
  destruct t; try (apply K; lia);
    try (split; [reflexivity|]; intros l0 t0 r0 E; injection E as _ _ <-; lia).
  - (* array *)
    destruct (IH f2 [] r) as [E1 E2]; [lia|lia|]. rewrite <- E1.
    destruct (objects f1 [] r) as [[[l [tk|]] r']|]; try (split; [reflexivity|discriminate]).
    specialize (E2 _ _ _ eq_refl).
    destruct tk; try (split; [reflexivity|discriminate]). apply K. assumption.
  - (* dict *)
    destruct (IH f2 [] r) as [E1 E2]; [lia|lia|]. rewrite <- E1.
    destruct (objects f1 [] r) as [[[l [tk|]] r']|]; try (split; [reflexivity|discriminate]).
    specialize (E2 _ _ _ eq_refl).
    destruct tk; try (split; [reflexivity|discriminate]).
    destruct (pair_up l); [|split; [reflexivity|discriminate]]. apply K. assumption.
  - (* keyword *)
    destruct (bytes_eqb s0 (lit "R")).
    { destruct acc as [|[] [|[] acc']]; try (split; [reflexivity|discriminate]). apply K. lia. }
    destruct (bytes_eqb s0 (lit "null")); [apply K; lia|].
    destruct (bytes_eqb s0 (lit "true")); [apply K; lia|].
    destruct (bytes_eqb s0 (lit "false")); [apply K; lia|].
    split; [reflexivity|]. intros l0 t0 r0 E. injection E as _ _ <-. lia.
Qed.

(** The parser with enough fuel. *)
Definition objs (acc : list val) (s : bytes) := objects (S (length s)) acc s.

Lemma objects_objs f acc s : length s < f -> objects f acc s = objs acc s.
Proof. intro H. apply objects_stable; [assumption|lia]. Qed.

Lemma objs_end acc s : blanks s = [] -> objs acc s = Some (rev acc, None, []).
Proof. intro H. unfold objs. cbn [objects]. rewrite H. reflexivity. Qed.

(** One step. *)
Lemma objs_step acc s t r : next_token s = Some (t, r) ->
  objs acc s =
  match t with
  | TInt z => objs (VInt z :: acc) r
  | TReal n k => objs (VReal n k :: acc) r
  | TStr x => objs (VStr x :: acc) r
  | TName x => objs (VName x :: acc) r
  | TArrOpen =>
      match objs [] r with
      | Some (l, Some TArrClose, r') => objs (VArr l :: acc) r'
      | _ => None
      end
  | TDictOpen =>
      match objs [] r with
      | Some (l, Some TDictClose, r') =>
          match pair_up l with
          | Some d => objs (VDict d :: acc) r'
          | None => None
          end
      | _ => None
      end
  | TKeyword k =>
      if bytes_eqb k (lit "R") then
        match acc with
        | VInt g :: VInt n :: acc' => objs (VRef n g :: acc') r
        | _ => None
        end
      else if bytes_eqb k (lit "null") then objs (VNull :: acc) r
      else if bytes_eqb k (lit "true") then objs (VBool true :: acc) r
      else if bytes_eqb k (lit "false") then objs (VBool false :: acc) r
      else Some (rev acc, Some t, r)
  | TArrClose | TDictClose | TBraceOpen | TBraceClose => Some (rev acc, Some t, r)
  end.
Proof.
  intro H. pose proof (next_token_len _ _ _ H) as Hl.
  destruct (next_token_blanks _ _ _ H) as (c & s' & Eb).
  unfold next_token in H. unfold objs at 1. cbn [objects]. rewrite Eb in *. rewrite H.
  assert (K : forall acc' r', length r' <= length r -> objects (length s) acc' r' = objs acc' r').
  { intros. apply objects_objs. lia. }
  assert (K2 : forall l t r', objs [] r = Some (l, t, r') -> length r' <= length r).
  { intros l t0 r' E. unfold objs in E. edestruct (objects_stable (S (length r)) (S (length r)) [] r) as [_ E2]; [lia|lia|].
    eapply E2; eauto. }
  destruct t; try (apply K; lia); try reflexivity.
  - rewrite K by lia. destruct (objs [] r) as [[[l [tk|]] r']|] eqn:E; try reflexivity.
    specialize (K2 _ _ _ eq_refl). destruct tk; try reflexivity. apply K. assumption.
  - rewrite K by lia. destruct (objs [] r) as [[[l [tk|]] r']|] eqn:E; try reflexivity.
    specialize (K2 _ _ _ eq_refl). destruct tk; try reflexivity. destruct (pair_up l); [|reflexivity].
    apply K. assumption.
  - destruct (bytes_eqb s0 (lit "R")).
    { destruct acc as [|[] [|[] acc']]; try reflexivity. apply K. lia. }
    destruct (bytes_eqb s0 (lit "null")); [apply K; lia|].
    destruct (bytes_eqb s0 (lit "true")); [apply K; lia|].
    destruct (bytes_eqb s0 (lit "false")); [apply K; lia|]. reflexivity.
Qed.

(** Whether parsing depends only on what [blanks] leaves. *)
Lemma objs_blanks acc s s' : blanks s = blanks s' -> objs acc s = objs acc s'.
Proof.
  intro H. pose proof (blanks_len s). pose proof (blanks_len s').
  set (n := S (length s + length s')).
  rewrite <- (objects_objs n acc s) by (unfold n; lia). rewrite <- (objects_objs n acc s') by (unfold n; lia).
  unfold n. cbn [objects]. rewrite H. reflexivity.
Qed.

Lemma objs_ws acc w s : forallb is_ws w = true -> objs acc (w ++ s) = objs acc s.
Proof. intro H. apply objs_blanks. apply blanks_wss. assumption. Qed.
