(** Basic lemmas: decimal digits, spans, blanks, numbers, strings and names. *)

From Coq Require Import ZArith List Lia Bool ZifyBool ZifyNat Zwf.
From Verif Require Import Bytes ModelFloat ModelBuf ModelObject SpecLex.
Import ListNotations.
Local Open Scope Z_scope.

(** ** Lists *)

Lemma forallb_app' {A} (p : A -> bool) a b : forallb p (a ++ b) = forallb p a && forallb p b.
Proof. apply forallb_app. Qed.

Definition boundary (s : bytes) : Prop :=
  match s with [] => True | c :: _ => is_regular c = false end.

Lemma span_all p a rest :
  forallb p a = true ->
  (match rest with [] => True | c :: _ => p c = false end) ->
  span p (a ++ rest) = (a, rest).
Proof.
  induction a as [|c a IH]; cbn; intros H1 H2.
  - destruct rest as [|c r]; [reflexivity|]. cbn. rewrite H2. reflexivity.
  - apply andb_true_iff in H1. destruct H1 as [Hc Ha]. rewrite Hc, (IH Ha H2). reflexivity.
Qed.

Lemma span_app p s : let '(a, b) := span p s in s = a ++ b /\ forallb p a = true.
Proof.
  induction s as [|c r IH]; cbn; [auto|].
  destruct (p c) eqn:E; [|auto].
  destruct (span p r) as [a b]. destruct IH as [-> H]. cbn. rewrite E. auto.
Qed.

Lemma span_len p s : (List.length (snd (span p s)) <= List.length s)%nat.
Proof.
  generalize (span_app p s). destruct (span p s) as [a b]. intros [-> _]. cbn.
  rewrite app_length. lia.
Qed.

(** ** Decimal digits *)

Lemma digits_val_app a b : digits_val (a ++ b) = digits_val a * 10 ^ Z.of_nat (List.length b) + digits_val b.
Proof.
  unfold digits_val. rewrite fold_left_app. generalize (fold_left (fun a d => 10 * a + (bz d - 48)) a 0).
  induction b as [|d b IH] using rev_ind; intro z.
  - cbn. lia.
  - rewrite !fold_left_app. cbn [fold_left]. rewrite IH, app_length. cbn [List.length].
    replace (Z.of_nat (List.length b + 1)) with (Z.of_nat (List.length b) + 1) by lia.
    rewrite Z.pow_add_r by lia. lia.
Qed.

Lemma digits_val_single d : digits_val [d] = bz d - 48.
Proof. reflexivity. Qed.

Lemma digits_val_nonneg ds : forallb is_digit ds = true -> 0 <= digits_val ds < 10 ^ Z.of_nat (List.length ds).
Proof.
  induction ds as [|d ds IH] using rev_ind; intro H.
  - cbn. lia.
  - rewrite forallb_app in H. apply andb_true_iff in H. destruct H as [H1 H2].
    cbn in H2. rewrite andb_true_r in H2. unfold is_digit in H2.
    rewrite digits_val_app, app_length, digits_val_single. cbn [List.length].
    replace (Z.of_nat (List.length ds + 1)) with (Z.of_nat (List.length ds) + 1) by lia.
    rewrite Z.pow_add_r by lia. specialize (IH H1). change (10 ^ 1) with 10. change (10 ^ Z.of_nat 1) with 10. lia.
Qed.

Lemma is_digit_zb n : 0 <= n < 10 -> is_digit (zb (48 + n)) = true.
Proof. intro H. unfold is_digit. rewrite bz_zb_small by lia. lia. Qed.

(** Everything about [dec_aux] at once. *)
Lemma dec_aux_spec fuel : forall n acc,
  0 <= n < 2 ^ Z.of_nat fuel -> (0 < fuel)%nat ->
  exists ds, dec_aux fuel n acc = ds ++ acc /\ forallb is_digit ds = true /\
    digits_val ds = n /\ ds <> [] /\
    (10 ^ (Z.of_nat (List.length ds) - 1) <= n \/ List.length ds = 1%nat) /\
    n < 10 ^ Z.of_nat (List.length ds).
Proof.
  induction fuel as [|f IH]; intros n acc Hn Hf; [lia|].
  cbn [dec_aux]. destruct (n <? 10) eqn:E.
  - exists [zb (48 + n mod 10)]. rewrite Z.mod_small by lia.
    cbn [app List.length]. repeat split.
    + cbn [forallb]. rewrite is_digit_zb by lia. reflexivity.
    + rewrite digits_val_single, bz_zb_small by lia. lia.
    + discriminate.
    + right; reflexivity.
    + change (10 ^ Z.of_nat 1) with 10. lia.
  - assert (Hf' : (0 < f)%nat).
    { destruct f; [|lia]. cbn in Hn. lia. }
    assert (Hd : 0 <= n / 10 < 2 ^ Z.of_nat f).
    { split; [apply Z.div_pos; lia|].
      replace (Z.of_nat (S f)) with (Z.of_nat f + 1) in Hn by lia.
      rewrite Z.pow_add_r in Hn by lia. change (2 ^ 1) with 2 in Hn.
      apply Z.div_lt_upper_bound; lia. }
    destruct (IH (n / 10) (zb (48 + n mod 10) :: acc) Hd Hf') as (ds & E1 & E2 & E3 & E4 & E5 & E6).
    exists (ds ++ [zb (48 + n mod 10)]).
    assert (Hm : 0 <= n mod 10 < 10) by (apply Z.mod_pos_bound; lia).
    assert (Hdm : n = 10 * (n / 10) + n mod 10) by (apply Z.div_mod; lia).
    rewrite <- app_assoc. cbn [app]. rewrite app_length. cbn [List.length].
    replace (Z.of_nat (List.length ds + 1)) with (Z.of_nat (List.length ds) + 1) by lia.
    repeat split.
    + exact E1.
    + rewrite forallb_app, E2. cbn [forallb]. rewrite is_digit_zb by lia. reflexivity.
    + rewrite digits_val_app, E3, digits_val_single, bz_zb_small by lia.
      change (10 ^ Z.of_nat (List.length [zb (48 + n mod 10)])) with 10. lia.
    + destruct ds; discriminate.
    + left. replace (Z.of_nat (List.length ds) + 1 - 1) with (Z.of_nat (List.length ds)) by lia.
      destruct E5 as [E5|E5].
      * assert (0 < Z.of_nat (List.length ds)) by (destruct ds; [congruence|cbn; lia]).
        replace (Z.of_nat (List.length ds)) with (Z.of_nat (List.length ds) - 1 + 1) by lia.
        rewrite Z.pow_add_r by lia. change (10 ^ 1) with 10. lia.
      * rewrite E5. change (10 ^ Z.of_nat 1) with 10. lia.
    + rewrite Z.pow_add_r by lia. change (10 ^ 1) with 10. lia.
Qed.

Lemma dec_u_spec n : 0 <= n ->
  forallb is_digit (dec_u n) = true /\ digits_val (dec_u n) = n /\ dec_u n <> [] /\
  (10 ^ (Z.of_nat (List.length (dec_u n)) - 1) <= n \/ List.length (dec_u n) = 1%nat) /\
  n < 10 ^ Z.of_nat (List.length (dec_u n)).
Proof.
  intro H. unfold dec_u.
  destruct (dec_aux_spec (S (Z.to_nat (Z.log2 n))) n []) as (ds & E1 & E2 & E3 & E4 & E5 & E6).
  - split; [exact H|].
    destruct (Z.eq_dec n 0) as [->|Hn]; [cbn; lia|].
    replace (Z.of_nat (S (Z.to_nat (Z.log2 n)))) with (Z.succ (Z.log2 n)).
    + apply Z.log2_spec. lia.
    + rewrite Nat2Z.inj_succ, Z2Nat.id by apply Z.log2_nonneg. reflexivity.
  - lia.
  - rewrite app_nil_r in E1. rewrite E1. auto.
Qed.

Lemma dec_u_digits n : 0 <= n -> forallb is_digit (dec_u n) = true.
Proof. intro H. apply dec_u_spec, H. Qed.
Lemma dec_u_val n : 0 <= n -> digits_val (dec_u n) = n.
Proof. intro H. apply dec_u_spec, H. Qed.
Lemma dec_u_ne n : 0 <= n -> dec_u n <> [].
Proof. intro H. apply dec_u_spec, H. Qed.
Lemma dec_u_lt n : 0 <= n -> n < 10 ^ Z.of_nat (List.length (dec_u n)).
Proof. intro H. apply dec_u_spec, H. Qed.

(** [dec_u] has at most [w] digits for numbers below [10^w]. *)
Lemma dec_u_len n w : 0 <= n < 10 ^ Z.of_nat w -> (0 < w)%nat -> (List.length (dec_u n) <= w)%nat.
Proof.
  intros H Hw. destruct (dec_u_spec n) as (_ & _ & _ & [H5|H5] & _); [lia| |lia].
  destruct (Nat.le_gt_cases (List.length (dec_u n)) w) as [|Hgt]; [assumption|exfalso].
  assert (10 ^ Z.of_nat w <= 10 ^ (Z.of_nat (List.length (dec_u n)) - 1)) by (apply Z.pow_le_mono_r; lia).
  lia.
Qed.

Lemma digits_val_zeros w : digits_val (repeat x30 w) = 0.
Proof.
  unfold digits_val. induction w; [reflexivity|]. cbn [repeat fold_left].
  change (10 * 0 + (bz x30 - 48)) with 0. exact IHw.
Qed.

Lemma dec_pad_spec w n : 0 <= n < 10 ^ Z.of_nat w -> (0 < w)%nat ->
  List.length (dec_pad w n) = w /\ forallb is_digit (dec_pad w n) = true /\ digits_val (dec_pad w n) = n.
Proof.
  intros H Hw. unfold dec_pad. pose proof (dec_u_len n w H Hw).
  rewrite app_length, repeat_length. repeat split; [lia| |].
  - rewrite forallb_app, dec_u_digits, andb_true_r by lia.
    apply forallb_forall. intros x Hx. apply repeat_spec in Hx. subst. reflexivity.
  - rewrite digits_val_app, digits_val_zeros, dec_u_val by lia. lia.
Qed.

(** ** Character classes *)

Lemma digit_regular c : is_digit c = true -> is_regular c = true.
Proof. destruct c; vm_compute; congruence. Qed.

Lemma digits_regular ds : forallb is_digit ds = true -> forallb is_regular ds = true.
Proof.
  intro H. apply forallb_forall. intros x Hx. apply digit_regular.
  rewrite forallb_forall in H. auto.
Qed.

Lemma regular_not_ws c : is_regular c = true -> is_ws c = false /\ beq c x25 = false.
Proof. destruct c; vm_compute; split; congruence. Qed.

(** ** Blanks *)

Lemma skip_line_len s : (List.length (skip_line s) <= List.length s)%nat.
Proof. apply span_len. Qed.

Lemma skip_blank_fuel : forall f1 f2 s, (List.length s <= f1)%nat -> (List.length s <= f2)%nat ->
  skip_blank f1 s = skip_blank f2 s.
Proof.
  induction f1 as [|f1 IH]; intros f2 s H1 H2.
  - destruct s; [|cbn in H1; lia]. destruct f2; reflexivity.
  - destruct f2 as [|f2]; [destruct s; [reflexivity|cbn in H2; lia]|].
    cbn [skip_blank]. destruct s as [|c r]; [reflexivity|]. cbn in H1, H2.
    destruct (is_ws c); [apply IH; lia|].
    destruct (beq c x25); [|reflexivity].
    apply IH; pose proof (skip_line_len r); lia.
Qed.

Lemma blanks_nil : blanks [] = [].
Proof. reflexivity. Qed.

Lemma blanks_ws c r : is_ws c = true -> blanks (c :: r) = blanks r.
Proof. intro H. unfold blanks. cbn [List.length skip_blank]. rewrite H. reflexivity. Qed.

Lemma blanks_comment r : blanks (x25 :: r) = blanks (skip_line r).
Proof.
  unfold blanks. cbn [List.length skip_blank]. change (is_ws x25) with false.
  rewrite beq_refl. apply skip_blank_fuel; [apply skip_line_len | lia].
Qed.

Lemma blanks_solid c r : is_ws c = false -> beq c x25 = false -> blanks (c :: r) = c :: r.
Proof. intros H1 H2. unfold blanks. cbn [List.length skip_blank]. rewrite H1, H2. reflexivity. Qed.

Lemma blanks_wss w r : forallb is_ws w = true -> blanks (w ++ r) = blanks r.
Proof.
  induction w as [|c w IH]; [reflexivity|]. cbn [forallb app]. intro H.
  apply andb_true_iff in H. destruct H as [Hc Hw]. rewrite blanks_ws by assumption. auto.
Qed.

Lemma next_token_ws w r : forallb is_ws w = true -> next_token (w ++ r) = next_token r.
Proof. intro H. unfold next_token. rewrite blanks_wss by assumption. reflexivity. Qed.

Lemma next_token_ws1 c r : is_ws c = true -> next_token (c :: r) = next_token r.
Proof. intro H. apply (next_token_ws [c]). cbn [forallb]. rewrite H. reflexivity. Qed.

(** ** Regular words *)

Lemma lex_token_regular c r : is_regular c = true ->
  lex_token (c :: r) =
  let '(w, rest) := span is_regular (c :: r) in
  Some (match number w with Some t => t | None => TKeyword w end, rest).
Proof. destruct c; intro H; first [discriminate H | reflexivity]. Qed.

Lemma next_token_word w rest :
  w <> [] -> forallb is_regular w = true -> boundary rest ->
  next_token (w ++ rest) = Some (match number w with Some t => t | None => TKeyword w end, rest).
Proof.
  intros Hne Hr Hb. destruct w as [|c w]; [congruence|].
  assert (Hc : is_regular c = true) by (cbn in Hr; apply andb_true_iff in Hr; tauto).
  destruct (regular_not_ws c Hc) as [H1 H2].
  unfold next_token. cbn [app]. rewrite blanks_solid by assumption.
  rewrite lex_token_regular by assumption.
  change (c :: w ++ rest) with ((c :: w) ++ rest).
  rewrite span_all; [reflexivity|assumption|].
  destruct rest; [exact I|exact Hb].
Qed.

(** ** Integers *)

Lemma number_unsigned_int ds : forallb is_digit ds = true -> ds <> [] ->
  number_unsigned ds = Some (TInt (digits_val ds)).
Proof.
  intros H Hne. unfold number_unsigned.
  rewrite <- (app_nil_r ds) at 1. rewrite span_all by (auto; exact I).
  destruct ds; [congruence|reflexivity].
Qed.

Lemma number_unsigned_real ip fp :
  forallb is_digit ip = true -> forallb is_digit fp = true -> ip ++ fp <> [] ->
  number_unsigned (ip ++ x2e :: fp) = Some (TReal (digits_val (ip ++ fp)) (List.length fp)).
Proof.
  intros H1 H2 Hne. unfold number_unsigned.
  rewrite span_all by (auto; reflexivity). rewrite beq_refl, H2. cbn [andb].
  destruct (ip ++ fp); [congruence|reflexivity].
Qed.

Lemma number_digit c r : is_digit c = true -> number (c :: r) = number_unsigned (c :: r).
Proof. destruct c; intro H; first [discriminate H | reflexivity]. Qed.

Lemma number_neg r : number (x2d :: r) = option_map token_neg (number_unsigned r).
Proof. reflexivity. Qed.

Lemma dec_i_spec z : number (dec_i z) = Some (TInt z) /\ forallb is_regular (dec_i z) = true /\ dec_i z <> [].
Proof.
  unfold dec_i. destruct (z <? 0) eqn:E.
  - rewrite number_neg, number_unsigned_int.
    + rewrite dec_u_val by lia. cbn. rewrite Z.opp_involutive. repeat split; [|discriminate].
      apply digits_regular, dec_u_digits. lia.
    + apply dec_u_digits; lia.
    + apply dec_u_ne; lia.
  - pose proof (dec_u_digits z ltac:(lia)) as Hd. pose proof (dec_u_ne z ltac:(lia)) as Hn.
    assert (number (dec_u z) = Some (TInt z)) as Hnum.
    { destruct (dec_u z) as [|c r] eqn:Ez; [congruence|].
      assert (is_digit c = true) as Hc by (cbn in Hd; apply andb_true_iff in Hd; tauto).
      rewrite number_digit by assumption.
      rewrite number_unsigned_int by (assumption || discriminate).
      rewrite <- Ez, dec_u_val by lia. reflexivity. }
    repeat split; auto using digits_regular.
Qed.

Lemma next_token_int z rest : boundary rest -> next_token (dec_i z ++ rest) = Some (TInt z, rest).
Proof.
  intro Hb. destruct (dec_i_spec z) as (H1 & H2 & H3).
  rewrite next_token_word by assumption. rewrite H1. reflexivity.
Qed.

(** ** Literal strings *)

Lemma lit_string_byte d whole c r :
  bz c <? 128 = true ->
  lit_string d (snd (str_byte whole (Some false) c) ++ r) = cons_fst c (lit_string d r).
Proof. destruct c; intro H; first [discriminate H | reflexivity]. Qed.

Lemma str_byte_nonparen whole bal c :
  beq c x28 = false -> beq c x29 = false ->
  str_byte whole bal c = (bal, snd (str_byte whole (Some false) c)).
Proof.
  intros H1 H2. unfold str_byte. rewrite H1, H2. cbn [orb].
  destruct (beq c x5c); [reflexivity|].
  destruct ((32 <=? bz c) && (bz c <=? 126)); [reflexivity|].
  destruct (beq c x0a); [reflexivity|]. destruct (beq c x0d); [reflexivity|].
  destruct (beq c x09); [reflexivity|]. destruct (beq c x08); [reflexivity|].
  destruct (beq c x0c); reflexivity.
Qed.

Lemma lit_escaped whole s rest d :
  forallb (fun c => bz c <? 128) s = true ->
  lit_string d (str_literal whole (Some false) s ++ rest) =
  fold_right cons_fst (lit_string d rest) s.
Proof.
  induction s as [|c s IH]; [reflexivity|]. intro H.
  apply andb_true_iff in H. destruct H as [Hc Hs].
  cbn [str_literal fold_right].
  assert (fst (str_byte whole (Some false) c) = Some false) as Hf.
  { destruct (beq c x28) eqn:E1; [|destruct (beq c x29) eqn:E2].
    - unfold str_byte. rewrite E1. reflexivity.
    - unfold str_byte. rewrite E1, E2. reflexivity.
    - rewrite str_byte_nonparen by assumption. reflexivity. }
  pose proof (lit_string_byte d whole c (str_literal whole (Some false) s ++ rest) Hc) as HB.
  destruct (str_byte whole (Some false) c) as [b out]. cbn in Hf, HB. subst b.
  rewrite <- app_assoc, HB, IH by assumption. reflexivity.
Qed.

Lemma fold_cons_fst s rest : fold_right cons_fst (Some ([], rest)) s = Some (s, rest).
Proof. induction s as [|c s IH]; [reflexivity|]. cbn [fold_right]. rewrite IH. reflexivity. Qed.

Lemma lit_balanced whole rest : forall s d,
  forallb (fun c => bz c <? 128) s = true ->
  is_balanced_from (Z.of_nat d) s = true ->
  lit_string d (str_literal whole (Some true) s ++ x29 :: rest) = Some (s, rest).
Proof.
  induction s as [|c s IH]; intros d H Hb.
  - cbn in Hb. assert (d = 0%nat) by lia. subst. reflexivity.
  - apply andb_true_iff in H. destruct H as [Hc Hs]. cbn [is_balanced_from] in Hb.
    cbn [str_literal].
    destruct (beq c x28) eqn:E1.
    { apply beq_spec in E1. subst c. cbn [str_byte]. unfold str_byte. cbn [beq Byte.eqb orb app].
      change (beq x28 x28 || beq x28 x29) with true. cbn [app].
      cbn [lit_string]. rewrite (IH (S d)); auto.
      replace (Z.of_nat (S d)) with (Z.of_nat d + 1) by lia. exact Hb. }
    destruct (beq c x29) eqn:E2.
    { apply beq_spec in E2. subst c. unfold str_byte.
      change (beq x29 x28 || beq x29 x29) with true. cbn [app].
      destruct (0 <? Z.of_nat d) eqn:Ed; [|discriminate].
      destruct d as [|d]; [cbn in Ed; discriminate|].
      cbn [lit_string]. rewrite (IH d); auto.
      replace (Z.of_nat d) with (Z.of_nat (S d) - 1) by lia. exact Hb. }
    rewrite str_byte_nonparen by assumption.
    rewrite <- app_assoc, lit_string_byte by assumption.
    rewrite IH by assumption. reflexivity.
Qed.

Lemma lit_fresh whole rest : forall s,
  forallb (fun c => bz c <? 128) s = true ->
  is_balanced_from 0 s = is_balanced whole ->
  lit_string 0 (str_literal whole None s ++ x29 :: rest) = Some (s, rest).
Proof.
  induction s as [|c s IH]; intros H Hb; [reflexivity|].
  pose proof H as H'.
  apply andb_true_iff in H. destruct H as [Hc Hs].
  destruct (beq c x28) eqn:E1; [|destruct (beq c x29) eqn:E2].
  - (* opening parenthesis: the decision is made here *)
    assert (str_literal whole None (c :: s) = str_literal whole (Some (is_balanced whole)) (c :: s)) as Es.
    { apply beq_spec in E1. subst c. reflexivity. }
    rewrite Es. destruct (is_balanced whole) eqn:Ew.
    + apply (lit_balanced whole rest (c :: s) 0); assumption.
    + rewrite lit_escaped by assumption. cbn [lit_string]. apply fold_cons_fst.
  - assert (str_literal whole None (c :: s) = str_literal whole (Some false) (c :: s)) as Es.
    { apply beq_spec in E2. subst c. reflexivity. }
    rewrite Es, lit_escaped by assumption. cbn [lit_string]. apply fold_cons_fst.
  - cbn [str_literal]. rewrite str_byte_nonparen by assumption.
    rewrite <- app_assoc, lit_string_byte by assumption.
    rewrite IH; [reflexivity|assumption|].
    cbn [is_balanced_from] in Hb. rewrite E1, E2 in Hb. exact Hb.
Qed.

(** ** Hexadecimal strings *)

Lemma hex_string_byte c r :
  hex_string None (hex2 c ++ r) =
  match hex_string None r with Some (x, rest) => Some (c :: x, rest) | None => None end.
Proof. destruct c; reflexivity. Qed.

Lemma hex_string_spec s rest : hex_string None (flat_map hex2 s ++ x3e :: rest) = Some (s, rest).
Proof.
  induction s as [|c s IH]; [reflexivity|].
  cbn [flat_map]. rewrite <- app_assoc, hex_string_byte, IH. reflexivity.
Qed.

Lemma lex_hex s rest : s <> [] ->
  lex_token (x3c :: flat_map hex2 s ++ x3e :: rest) = Some (TStr s, rest).
Proof.
  intro Hne. destruct s as [|c s]; [congruence|].
  assert (lex_token (x3c :: flat_map hex2 (c :: s) ++ x3e :: rest) =
          match hex_string None (flat_map hex2 (c :: s) ++ x3e :: rest) with
          | Some (x, rest) => Some (TStr x, rest) | None => None end) as E.
  { destruct c; reflexivity. }
  rewrite E, hex_string_spec. reflexivity.
Qed.

(** ** Str *)

Lemma str_bytes_token s rest : next_token (str_bytes s ++ rest) = Some (TStr s, rest).
Proof.
  unfold next_token, str_bytes.
  destruct (forallb (fun c => bz c <? 128) s) eqn:E.
  - cbn [app]. rewrite blanks_solid by reflexivity. cbn [lex_token].
    rewrite <- app_assoc. cbn [app]. rewrite lit_fresh by auto. reflexivity.
  - cbn [app]. rewrite blanks_solid by reflexivity. rewrite <- app_assoc. cbn [app].
    apply lex_hex. intro; subst; discriminate.
Qed.

(** ** Names *)

Lemma name_decode_byte c r : name_decode (name_byte c ++ r) = option_map (cons c) (name_decode r).
Proof. destruct c; cbn; destruct (name_decode r); reflexivity. Qed.

Lemma name_decode_spec s : name_decode (flat_map name_byte s) = Some s.
Proof.
  induction s as [|c s IH]; [reflexivity|]. cbn [flat_map].
  rewrite name_decode_byte, IH. reflexivity.
Qed.

Lemma name_byte_regular c : forallb is_regular (name_byte c) = true.
Proof. destruct c; reflexivity. Qed.

Lemma name_regular s : forallb is_regular (flat_map name_byte s) = true.
Proof.
  induction s as [|c s IH]; [reflexivity|]. cbn [flat_map].
  rewrite forallb_app, name_byte_regular, IH. reflexivity.
Qed.

Lemma name_token s rest : boundary rest -> next_token (name_bytes s ++ rest) = Some (TName s, rest).
Proof.
  intro Hb. unfold next_token, name_bytes. cbn [app]. rewrite blanks_solid by reflexivity.
  cbn [lex_token]. rewrite span_all; [|apply name_regular|destruct rest; [exact I|exact Hb]].
  rewrite name_decode_spec. reflexivity.
Qed.
