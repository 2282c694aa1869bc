(** Properties C01..C10: primitive objects. *)

From Coq Require Import ZArith List Lia Bool ZifyBool ZifyNat.
From Verif Require Import Bytes ModelFloat ModelBuf ModelObject SpecLex SpecObj SpecText SpecMeans
  ProofBasic ProofText ProofFloat ProofFloat2 ProofRound ProofObj ProofParse ProofTree ProofPrint.
Import ListNotations.
Local Open Scope Z_scope.

(** [p] written to any buffer appends one token [t] (whatever follows, if the value needs
    no separator; otherwise if white space, a delimiter or the end follows). *)
Definition writes_token (p : prim) (needs_sep : bool) (t : token) : Prop :=
  forall b, exists s, inner (write_prim p b) = inner b ++ s /\
    forall rest, (needs_sep = true -> boundary rest) -> next_token (s ++ rest) = Some (t, rest).

(** ** C01 *)

Theorem C01_integer_round_trip : forall z b,
  in_i32 z = true ->
  exists s, inner (write_prim (PInt z) b) = inner b ++ s /\ canonical_int s = true /\
    forall rest, boundary rest -> next_token (s ++ rest) = Some (TInt z, rest).
Proof.
  intros z b _. exists (dec_i z). split; [reflexivity|]. split; [apply dec_i_canonical|].
  intros rest H. apply next_token_int. assumption.
Qed.

Example C01_case : inner (write_prim (PInt (-2147483648)) (mkBuf (lit "x ") limits0)) = lit "x -2147483648".
Proof. vm_compute. reflexivity. Qed.

(** ** C02 *)

(** Every f32 bit pattern is covered: [f32_valid] values are exactly the decoded ones. *)
Theorem C02_real_round_trip : forall v b,
  f32_valid v = true -> f32_finite v = true ->
  exists s t, inner (write_prim (PReal v) b) = inner b ++ s /\
    (forall rest, boundary rest -> next_token (s ++ rest) = Some (t, rest)) /\
    number_means t v /\
    forallb (fun c => is_digit c || bmem c [x2d; x2e]) s = true.
Proof.
  intros v b Hv Hf. destruct (float_good v Hf Hv) as (t & H1 & H2 & H3 & H4).
  exists (float_bytes v), t. split; [apply push_float_inner|].
  split; [intros rest Hb; rewrite next_token_word by assumption; rewrite H1; reflexivity|].
  split; [assumption|].
  (* the writer never emits a plus sign *)
  apply number_chars in H1. destruct H1 as [H1 _]. clear - H1 Hf Hv.
  assert (Hplus : forallb (fun c => negb (beq c x2b)) (float_bytes v) = true).
  { assert (D : forall ds, forallb is_digit ds = true -> forallb (fun c => negb (beq c x2b)) ds = true).
    { intros ds Hd. rewrite forallb_forall in *. intros x Hx. specialize (Hd x Hx).
      destruct x; first [discriminate Hd|reflexivity]. }
    assert (U : forall n, forallb (fun c => negb (beq c x2b)) (dec_u n) = true).
    { intro n. destruct (Z.le_gt_cases 0 n) as [Hn|Hn]; [apply D, dec_u_digits; assumption|].
      unfold dec_u. rewrite (Z.log2_nonpos n) by lia. cbn [Z.to_nat dec_aux].
      destruct (n <? 10) eqn:En; [|lia]. cbn [forallb]. rewrite andb_true_r.
      assert (0 <= n mod 10 < 10) by (apply Z.mod_pos_bound; lia).
      pose proof (is_digit_zb (n mod 10) H) as Hd. destruct (zb (48 + n mod 10)); first [discriminate Hd|reflexivity]. }
    assert (N : forall n, forallb (fun c => negb (beq c x2b)) (dec_i n) = true).
    { intro n. unfold dec_i. destruct (n <? 0); cbn [forallb]; rewrite U; reflexivity. }
    assert (R : forall n, forallb (fun c => negb (beq c x2b)) (repeat x30 n) = true).
    { intro n. apply forallb_forall. intros x Hx. apply repeat_spec in Hx. subst. reflexivity. }
    unfold float_bytes. destruct (f32_eqb _ v); [apply N|].
    destruct v as [|s|s m e]; try discriminate. unfold decimal_bytes.
    assert (Sg : forallb (fun c => negb (beq c x2b)) (if s then [x2d] else []) = true) by (destruct s; reflexivity).
    destruct (_ || _); [unfold ryu_f32, ryu_fin|unfold display_f32];
      (destruct (m =? 0); [rewrite forallb_app, Sg; reflexivity|]);
      destruct (shortest m e) as [c k]; cbv zeta; rewrite forallb_app, Sg; cbn [andb];
      repeat match goal with |- context [if ?x then _ else _] => destruct x end;
      rewrite ?forallb_app, ?U, ?R, ?N, ?(forallb_firstn _ _ _ (U c)), ?(forallb_skipn _ _ _ (U c)); reflexivity. }
  rewrite forallb_forall in *. intros x Hx. specialize (H1 x Hx). specialize (Hplus x Hx).
  destruct x; first [discriminate H1|discriminate Hplus|reflexivity].
Qed.

(** Reading is unambiguous: the decimal determines the float (up to the sign of zero). *)
Theorem C02_read_back_unique : forall t v w,
  number_means t v -> number_means t w -> f32_eqb v w = true.
Proof. destruct t; cbn [number_means]; try contradiction; intros v w; apply rounds_to_unique. Qed.

Theorem C02_all_bit_patterns : forall v,
  f32_valid v = true <-> exists w, 0 <= w < 2 ^ 32 /\ f32_of_bits w = v.
Proof.
  intro v. split; [apply f32_of_bits_surj|]. intros (w & H & <-). apply f32_of_bits_valid. exact H.
Qed.

(** 0.1 = 13421773 * 2^-27, the smallest subnormal, and the largest float. *)
Example C02_case1 : inner (write_prim (PReal (FFin false 13421773 (-27))) buf_new) = lit "0.1".
Proof. vm_compute. reflexivity. Qed.
Example C02_case2 : f32_valid (FFin true 1 (-149)) = true /\
  inner (write_prim (PReal (FFin true 1 (-149))) buf_new) = lit "-0.000000000000000000000000000000000000000000001".
Proof. vm_compute. split; reflexivity. Qed.
Example C02_case3 : inner (write_prim (PReal (f32_of_bits 2139095039)) buf_new) = lit "340282350000000000000000000000000000000".
Proof. vm_compute. reflexivity. Qed.

(** ** C03 *)

(** The real number [v] is the integer [z]. *)
Definition is_integer_value (v : f32) (z : Z) : Prop := f32_finite v = true /\ f32_units v = z * 2 ^ 149.

Theorem C03_integral_exact : forall v z b,
  f32_valid v = true -> is_integer_value v z -> i32_min <= z <= i32_max ->
  exists s, inner (write_prim (PReal v) b) = inner b ++ s /\
    (forall rest, boundary rest -> next_token (s ++ rest) = Some (TInt z, rest)) /\
    l_real (lims (write_prim (PReal v) b)) = l_real (lims b) /\
    lims (write_prim (PReal v) b) = lims (write_prim (PInt z) b).
Proof.
  intros v z b Hv Hi Hz. pose proof (shortcut_int v z Hv Hi Hz) as E.
  pose proof (as_i32_int v z Hv Hi Hz) as Ez. exists (dec_i z). cbn [write_prim].
  unfold push_float. rewrite E, Ez. split; [reflexivity|].
  split; [intros rest Hb; apply next_token_int; assumption|]. split; reflexivity.
Qed.

(** Every other finite value except 2^31 is registered as a real, not as an integer. *)
Theorem C03_other_values_are_reals : forall v b,
  f32_valid v = true -> f32_finite v = true ->
  (forall z, i32_min <= z <= i32_max -> ~ is_integer_value v z) ->
  ~ is_integer_value v (2 ^ 31) ->
  l_int (lims (write_prim (PReal v) b)) = l_int (lims b) /\
  l_real (lims (write_prim (PReal v) b)) = f32_max (l_real (lims b)) (f32_abs v).
Proof.
  intros v b Hv Hf Hno H31. cbn [write_prim]. unfold push_float.
  destruct (f32_eqb (f32_of_i32 (f32_as_i32 v)) v) eqn:E.
  - exfalso. destruct (shortcut_inv v Hv E) as [[Hi Hr]|[-> _]].
    + exact (Hno _ Hr Hi).
    + apply H31. split; [reflexivity|vm_compute; reflexivity].
  - unfold push_decimal. cbv zeta. destruct (_ || _); split; reflexivity.
Qed.

(** The full claim would be that integral values are always written as themselves; it
    fails at 2^31, which is written as 2147483647. *)
Theorem C03_two_pow_31_refuted :
  exists v, f32_valid v = true /\ is_integer_value v (2 ^ 31) /\
    forall b, inner (write_prim (PReal v) b) = inner b ++ lit "2147483647".
Proof.
  exists (FFin false (2 ^ 23) 8). split; [reflexivity|]. split; [split; [reflexivity|vm_compute; reflexivity]|].
  intro b. cbn [write_prim]. rewrite push_float_inner. apply f_equal. vm_compute. reflexivity.
Qed.

Example C03_case : is_integer_value (FFin true (2 ^ 23) 0) (- 2 ^ 23) /\
  inner (write_prim (PReal (FFin true (2 ^ 23) 0)) buf_new) = lit "-8388608".
Proof. split; [split; [reflexivity|vm_compute; reflexivity]|vm_compute; reflexivity]. Qed.

(** ** C04 *)

(** A number token is written exactly for the finite values; NaN and the infinities give
    a keyword that is no PDF object. *)
Theorem C04_number_iff_finite : forall v b, f32_valid v = true ->
  exists s, inner (write_prim (PReal v) b) = inner b ++ s /\
    ((exists t, next_token s = Some (t, []) /\ match t with TInt _ | TReal _ _ => True | _ => False end)
     <-> f32_finite v = true).
Proof.
  intros v b Hv. exists (float_bytes v). split; [apply push_float_inner|]. split.
  - intros (t & Ht & Hn). destruct v as [|s|s m e]; [exfalso|exfalso|reflexivity].
    + vm_compute in Ht. injection Ht as <-. exact Hn.
    + destruct s; vm_compute in Ht; injection Ht as <-; exact Hn.
  - intro Hf. destruct (float_good v Hf Hv) as (t & H1 & H2 & H3 & H4). exists t.
    pose proof (next_token_word (float_bytes v) [] H3 H2 I) as H. rewrite app_nil_r, H1 in H.
    split; [exact H|]. destruct t; cbn in H4; tauto.
Qed.

Theorem C04_nonfinite_refuted : exists v, f32_valid v = true /\
  forall b, inner (write_prim (PReal v) b) = inner b ++ lit "NaN" /\ parse_object (lit "NaN") = None.
Proof. exists FNan. split; [reflexivity|]. intro b. split; [|vm_compute; reflexivity]. reflexivity. Qed.

Example C04_case :
  f32_valid (FFin false 12582912 (-23)) = true /\ f32_finite (FFin false 12582912 (-23)) = true /\
  inner (write_prim (PReal (FFin false 12582912 (-23))) buf_new) = lit "1.5" /\ next_token (lit "1.5") = Some (TReal 15 1, []) /\
  f32_valid (FInf true) = true /\ f32_finite (FInf true) = false /\ inner (write_prim (PReal (FInf true)) buf_new) = lit "-inf" /\
  next_token (lit "-inf") = Some (TKeyword (lit "-inf"), []).
Proof. vm_compute. repeat split. Qed.

(** ** C05 *)

Theorem C05_byte_string_round_trip : forall s, writes_token (PStr s) false (TStr s).
Proof.
  intros s b. exists (str_bytes s). split; [reflexivity|]. intros rest _. apply str_bytes_token.
Qed.

Example C05_case : inner (write_prim (PStr (lit "a(b)\" ++ [x0d])) buf_new) = lit "(a(b)\\\r)" /\
  inner (write_prim (PStr (lit ")(")) buf_new) = lit "(\)\()" /\
  inner (write_prim (PStr [xff; x00]) buf_new) = lit "<FF00>".
Proof. vm_compute. repeat split; reflexivity. Qed.

(** ** C06 *)

Theorem C06_printable : forall p b,
  prim_ok p = true ->
  match p with PStr _ | PText _ | PTextLang _ | PName _ | PDate _ => True | _ => False end ->
  exists s, inner (write_prim p b) = inner b ++ s /\
    forallb (fun c => (32 <=? bz c) && (bz c <=? 126)) s = true.
Proof.
  intros p b Hok _. exists (prim_bytes p). split; [apply write_prim_inner|].
  apply (prim_bytes_printable p Hok).
Qed.

(** Strings are printable for arbitrary arguments, valid Unicode or not. *)
Theorem C06_printable_any_string : forall p b,
  match p with PStr _ | PText _ | PTextLang _ | PName _ => True | _ => False end ->
  exists s, inner (write_prim p b) = inner b ++ s /\
    forallb (fun c => (32 <=? bz c) && (bz c <=? 126)) s = true.
Proof.
  intros p b H. exists (prim_bytes p). split; [apply write_prim_inner|].
  destruct p; try contradiction.
  - apply str_bytes_printable.
  - apply text_bytes_printable.
  - apply text_lang_bytes_printable.
  - apply name_bytes_printable.
Qed.

Theorem C06_names_regular : forall n b,
  exists s, inner (write_prim (PName n) b) = inner b ++ x2f :: s /\
    forallb (fun c => (33 <=? bz c) && (bz c <=? 126) && is_regular c) s = true.
Proof. intros n b. exists (flat_map name_byte n). split; [reflexivity|apply name_tail_printable]. Qed.

Example C06_case :
  prim_ok (PStr [x00; x28; x80; x0a]) = true /\ prim_ok (PText [233; 8364]) = true /\
  inner (write_prim (PStr [x00; x28; x80; x0a]) buf_new) = lit "<0028800A>" /\
  inner (write_prim (PName [x00; x20; xe9; x41]) buf_new) = lit "/#00#20#E9A".
Proof. vm_compute. repeat split. Qed.

(** ** C07 *)

Theorem C07_name_round_trip : forall n, writes_token (PName n) true (TName n).
Proof.
  intros n b. exists (name_bytes n). split; [reflexivity|]. intros rest H. apply name_token. auto.
Qed.

Example C07_case : inner (write_prim (PName (lit "A#B c/d" ++ [x00; xe9])) buf_new) = lit "/A#23B#20c#2Fd#00#E9".
Proof. vm_compute. reflexivity. Qed.

(** ** C08 *)

Theorem C08_text_round_trip : forall t, forallb is_scalar t = true ->
  exists s, writes_token (PText t) false (TStr s) /\ text_decode s = Some t.
Proof.
  intros t Ht. exists (text_str t). split; [|apply text_str_decode; assumption].
  intro b. exists (text_bytes t). split; [apply write_text_inner|]. intros rest _. apply text_str_token.
Qed.

(** "π𝄞" needs a surrogate pair; "(x" stays ASCII. *)
Example C08_case : forallb is_scalar [960; 119070] = true /\
  inner (write_prim (PText [960; 119070]) buf_new) = lit "<FEFF03C0D834DD1E>" /\
  inner (write_prim (PText [40; 120]) buf_new) = lit "(\(x)".
Proof. vm_compute. repeat split; reflexivity. Qed.

(** ** C09 *)

Theorem C09_language_text_round_trip : forall segs,
  forallb (fun s => forallb is_scalar (snd s)) segs = true ->
  exists s, writes_token (PTextLang segs) false (TStr s) /\
    text_decode s = Some (flat_map (fun seg => 27 :: lang_scalars (fst seg) ++ 27 :: snd seg) segs) /\
    (forallb seg_clean segs = true -> lang_decode s = Some (map seg_decoded segs)).
Proof.
  intros segs H. exists (lang_str segs). split; [|split].
  - intro b. exists (text_lang_bytes segs). split; [reflexivity|]. intros rest _. apply lang_str_token.
  - destruct (text_lang_token segs [] H) as (s & H1 & H2). rewrite lang_str_token in H1. injection H1 as <-. exact H2.
  - intro Hc. apply lang_str_decode. rewrite forallb_forall in *. intros x Hx. rewrite (H x Hx), (Hc x Hx). reflexivity.
Qed.

Lemma alnum_utf8 t a b : forallb is_alnum t = true -> str_utf8 t = [a; b] -> t = [bz a; bz b].
Proof.
  intros H E.
  assert (G : forall c, is_alnum c = true -> utf8 c = [zb c] /\ bz (zb c) = c).
  { intros c Hc. unfold is_alnum in Hc. unfold utf8. destruct (c <? 128) eqn:E2; [|lia]. split; [reflexivity|].
    apply bz_zb_small. lia. }
  destruct t as [|x t]; [discriminate|]. cbn [forallb] in H. apply andb_true_iff in H. destruct H as [Hx H].
  unfold str_utf8 in E. cbn [flat_map] in E. destruct (G x Hx) as [Ex Ez]. rewrite Ex in E. cbn [app] in E.
  injection E as <- E.
  destruct t as [|y t]; [discriminate|]. cbn [forallb] in H. apply andb_true_iff in H. destruct H as [Hy H].
  cbn [flat_map] in E. destruct (G y Hy) as [Ey Ez2]. rewrite Ey in E. cbn [app] in E. injection E as <- E.
  destruct t as [|z t].
  - rewrite Ez, Ez2. reflexivity.
  - exfalso. cbn [forallb] in H. apply andb_true_iff in H. destruct H as [Hz H]. cbn [flat_map] in E.
    destruct (G z Hz) as [Ez3 _]. rewrite Ez3 in E. discriminate.
Qed.

(** ASCII letters and digits. *)
Definition alphanumeric (c : Z) : Prop := 48 <= c <= 57 \/ 65 <= c <= 90 \/ 97 <= c <= 122.
Lemma alnum_iff l : forallb is_alnum l = true <-> Forall alphanumeric l.
Proof.
  rewrite forallb_forall, Forall_forall. unfold is_alnum, alphanumeric.
  split; intros H x Hx; specialize (H x Hx); lia.
Qed.

(** Every language identifier the API can build is its two (plus two) letters and free of
    the escape character; other arguments are rejected. *)
Theorem C09_language_identifiers : forall l r,
  (forall i, from_lang l = Some i -> lang_scalars i = l /\ no_esc (lang_scalars i) = true) /\
  (forall i, from_lang_region l r = Some i -> lang_scalars i = l ++ r /\ no_esc (lang_scalars i) = true) /\
  (from_lang l <> None <-> Forall alphanumeric l /\ List.length l = 2%nat) /\
  (from_lang_region l r <> None <-> from_lang l <> None /\ from_lang r <> None).
Proof.
  assert (C : forall t a b, str_to_code t = Some (a, b) -> t = [bz a; bz b] /\ forallb is_alnum t = true).
  { intros t a b. unfold str_to_code. destruct (forallb is_alnum t) eqn:E; [|discriminate].
    destruct (str_utf8 t) as [|x [|y [|z u]]] eqn:Eu; try discriminate. intro H. injection H as <- <-.
    split; [apply alnum_utf8; assumption|reflexivity]. }
  assert (N : forall t, forallb is_alnum t = true -> no_esc t = true).
  { intros t H. unfold no_esc. rewrite forallb_forall in *. intros x Hx. specialize (H x Hx). unfold is_alnum in H. lia. }
  assert (D : forall t, str_to_code t <> None <-> forallb is_alnum t = true /\ List.length t = 2%nat).
  { intro t. split.
    - destruct (str_to_code t) as [[a b]|] eqn:E; [|congruence]. intros _. destruct (C t a b E) as [-> H]. split; auto.
    - intros [H1 H2]. unfold str_to_code. rewrite H1. destruct t as [|x [|y [|z u]]]; try discriminate.
      cbn [forallb] in H1. unfold str_utf8. cbn [flat_map]. unfold utf8.
      unfold is_alnum in H1. destruct (x <? 128) eqn:Ex; [|lia]. destruct (y <? 128) eqn:Ey; [|lia]. discriminate. }
  intros l r. unfold from_lang, from_lang_region. split; [|split; [|split]].
  - intros i. destruct (str_to_code l) as [[a b]|] eqn:E; [|discriminate]. intro H. injection H as <-.
    destruct (C l a b E) as [El Ha]. unfold lang_scalars. cbn [lang region fst snd app]. rewrite <- El. auto.
  - intros i. destruct (str_to_code l) as [[a b]|] eqn:E; [|discriminate].
    destruct (str_to_code r) as [[c d]|] eqn:E2; [|discriminate]. intro H. injection H as <-.
    destruct (C l a b E) as [El Ha]. destruct (C r c d E2) as [Er Hb].
    unfold lang_scalars. cbn [lang region fst snd].
    rewrite <- El, <- Er. split; [reflexivity|]. apply N. rewrite forallb_app, Ha, Hb. reflexivity.
  - rewrite <- alnum_iff, <- D. destruct (str_to_code l); split; congruence.
  - destruct (str_to_code l); [|split; [congruence|intros [H _]; congruence]].
    destruct (str_to_code r); (split; [intro; split; congruence|]); intros [H1 H2] E; try discriminate E; congruence.
Qed.

(** With the escape character inside a text the segments are not recoverable. *)
Theorem C09_embedded_escape_refuted : exists segs s b,
  forallb (fun s => forallb is_scalar (snd s)) segs = true /\
  inner (write_prim (PTextLang segs) b) = inner b ++ s /\
  exists x, next_token s = Some (TStr x, []) /\ lang_decode x <> Some (map seg_decoded segs).
Proof.
  exists [(mkLang (x65, x6e) None, [97; 27; 98; 27; 99])], (text_lang_bytes [(mkLang (x65, x6e) None, [97; 27; 98; 27; 99])]), buf_new.
  split; [reflexivity|]. split; [reflexivity|]. eexists. split; [vm_compute; reflexivity|].
  vm_compute. discriminate.
Qed.

Example C09_case :
  forallb seg_clean [(mkLang (x65, x6e) (Some (x55, x53)), [104; 105]); (mkLang (x64, x65) None, [228])] = true /\
  from_lang_region [101; 110] [85; 83] = Some (mkLang (x65, x6e) (Some (x55, x53))) /\
  from_lang [101; 27] = None.
Proof. vm_compute. repeat split; reflexivity. Qed.

(** ** C10 *)

Lemma call_typed_ok c : call_typed c = call_ok c.
Proof. destruct c; reflexivity. Qed.

Lemma last_set_app sel cs c : last_set sel (cs ++ [c]) = match sel c with Some v => Some v | None => last_set sel cs end.
Proof.
  induction cs as [|x cs IH]; cbn [app last_set]; [destruct (sel c); reflexivity|].
  rewrite IH. destruct (sel c); [reflexivity|]. reflexivity.
Qed.

Lemma date_fields_last y cs : 0 <= y <= 65535 -> forallb call_typed cs = true ->
  fold_left date_apply cs (date_new y) =
  mkDate (within 0 9999 y) (last_set set_month cs) (last_set set_day cs) (last_set set_hour cs)
    (last_set set_minute cs) (last_set set_second cs) (last_set set_off_hour cs) (or_zero (last_set set_off_minute cs)).
Proof.
  intros Hy. induction cs as [|c cs IH] using rev_ind; intro H.
  - cbn. unfold date_new, within. f_equal. destruct (y <? 0) eqn:E1; [lia|]. destruct (9999 <? y) eqn:E2; lia.
  - rewrite forallb_app in H. apply andb_true_iff in H. destruct H as [H Hc]. cbn [forallb] in Hc.
    rewrite andb_true_r in Hc. rewrite fold_left_app, IH by assumption. cbn [fold_left].
    rewrite !last_set_app. unfold call_typed in Hc.
    destruct c; cbn [date_apply set_month set_day set_hour set_minute set_second set_off_hour set_off_minute or_zero];
      f_equal; try (f_equal); unfold clamp, within;
      repeat match goal with |- context [?a <? ?b] => destruct (a <? b) eqn:? end; lia.
Qed.

Lemma reading_expected y cs : 0 <= y <= 65535 -> forallb call_typed cs = true ->
  date_reading (fold_left date_apply cs (date_new y)) = date_expected y cs.
Proof.
  intros Hy H. rewrite date_fields_last by assumption. unfold date_reading, date_expected.
  cbn [d_year d_month d_day d_hour d_minute d_second d_off_hour d_off_minute until_missing].
  destruct (last_set set_month cs); cbn [until_missing List.length Nat.eqb]; [|reflexivity].
  destruct (last_set set_day cs); cbn [until_missing List.length Nat.eqb]; [|reflexivity].
  destruct (last_set set_hour cs); cbn [until_missing List.length Nat.eqb]; [|reflexivity].
  destruct (last_set set_minute cs); cbn [until_missing List.length Nat.eqb]; [|reflexivity].
  destruct (last_set set_second cs); cbn [until_missing List.length Nat.eqb]; [|reflexivity].
  destruct (last_set set_off_hour cs); reflexivity.
Qed.

(** [date_parse] checks the grammar and every field's range. *)
Theorem C10_date_round_trip : forall y cs,
  0 <= y <= 65535 -> forallb call_typed cs = true ->
  exists s, writes_token (PDate (fold_left date_apply cs (date_new y))) false (TStr s) /\
    date_parse s = Some (date_expected y cs).
Proof.
  intros y cs Hy H. set (d := fold_left date_apply cs (date_new y)).
  assert (Hok : date_ok d = true).
  { apply date_calls_ok.
    - unfold date_ok, date_new. cbn [d_year d_month d_day d_hour d_minute d_second d_off_hour d_off_minute opt_in]. lia.
    - rewrite forallb_forall in *. intros c Hc. rewrite <- call_typed_ok. auto. }
  exists (lit "D:" ++ date_body d). split.
  - intro b. exists (date_bytes d). split; [reflexivity|]. intros rest _. apply date_token. assumption.
  - rewrite date_body_parse by assumption. unfold d. rewrite reading_expected by assumption. reflexivity.
Qed.

Example C10_case :
  let cs := [DMonth 13; DDay 0; DHour 7; DMinute 200; DSecond 5; DOffHour (-128); DOffMinute 30] in
  forallb call_typed cs = true /\
  inner (write_prim (PDate (fold_left date_apply cs (date_new 65535))) buf_new) = lit "(D:99991201075905-23'30)" /\
  date_expected 65535 cs = mkRdate [9999; 12; 1; 7; 59; 5] (Some (-1410)).
Proof. vm_compute. repeat split; reflexivity. Qed.

Print Assumptions C01_integer_round_trip.
Print Assumptions C02_real_round_trip.
Print Assumptions C10_date_round_trip.
