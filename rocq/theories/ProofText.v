(** Text strings, language tags and dates read back. *)

From Coq Require Import ZArith List Lia Bool ZifyBool ZifyNat.
From Verif Require Import Bytes ModelFloat ModelBuf ModelObject SpecLex SpecText ProofBasic SpecObj SpecMeans.
Import ListNotations.
Local Open Scope Z_scope.
Ltac Zify.zify_post_hook ::= Z.div_mod_to_equations.

(** ** UTF-16 *)

Definition unit_bytes (u : Z) : bytes := [zb (Z.shiftr u 8); zb u].

Lemma hex4_units u : hex4 u = flat_map hex2 (unit_bytes u).
Proof. unfold hex4, unit_bytes. cbn [flat_map]. rewrite app_nil_r. reflexivity. Qed.

Lemma flat_map_flat_map {A B C} (f : A -> list B) (g : B -> list C) l :
  flat_map g (flat_map f l) = flat_map (fun x => flat_map g (f x)) l.
Proof.
  induction l as [|a l IH]; [reflexivity|]. cbn [flat_map].
  rewrite flat_map_app, IH. reflexivity.
Qed.

Lemma flat_map_ext' {A B} (f g : A -> list B) l : (forall x, f x = g x) -> flat_map f l = flat_map g l.
Proof. intro H. induction l as [|a l IH]; [reflexivity|]. cbn. rewrite H, IH. reflexivity. Qed.

Lemma flat_map_hex4 us : flat_map hex4 us = flat_map hex2 (flat_map unit_bytes us).
Proof. rewrite flat_map_flat_map. apply flat_map_ext'. apply hex4_units. Qed.

Lemma hex_utf16_bytes t : hex_utf16 t = flat_map hex2 (flat_map unit_bytes (flat_map utf16 t)).
Proof. unfold hex_utf16. apply flat_map_hex4. Qed.

Lemma units16_spec us :
  forallb (fun u => (0 <=? u) && (u <? 65536)) us = true ->
  units16 (flat_map unit_bytes us) = Some us.
Proof.
  induction us as [|u us IH]; [reflexivity|]. intro H.
  cbn [forallb] in H. apply andb_true_iff in H. destruct H as [Hu Hs].
  cbn [flat_map unit_bytes app units16]. rewrite IH by assumption. cbn [option_map].
  rewrite !bz_zb, Z.shiftr_div_pow2 by lia. change (2 ^ 8) with 256. f_equal. f_equal. lia.
Qed.

Lemma scalar_range c : is_scalar c = true -> 0 <= c <= 1114111 /\ ~ (55296 <= c <= 57343).
Proof. unfold is_scalar. lia. Qed.

Lemma utf16_units c : is_scalar c = true ->
  forallb (fun u => (0 <=? u) && (u <? 65536)) (utf16 c) = true.
Proof.
  intro H. apply scalar_range in H. unfold utf16.
  destruct (c <? 65536) eqn:E; cbn [forallb]; lia.
Qed.

Lemma utf16_units_all t : forallb is_scalar t = true ->
  forallb (fun u => (0 <=? u) && (u <? 65536)) (flat_map utf16 t) = true.
Proof.
  induction t as [|c t IH]; [reflexivity|]. intro H. cbn [forallb] in H.
  apply andb_true_iff in H. destruct H as [Hc Ht]. cbn [flat_map].
  rewrite forallb_app, utf16_units, IH by assumption. reflexivity.
Qed.

Lemma utf16_decode_cons c r : is_scalar c = true ->
  utf16_decode (utf16 c ++ r) = option_map (cons c) (utf16_decode r).
Proof.
  intro H. apply scalar_range in H. unfold utf16.
  destruct (c <? 65536) eqn:E.
  - cbn [app utf16_decode]. unfold hi_surrogate, lo_surrogate.
    destruct ((55296 <=? c) && (c <=? 56319)) eqn:E1; [lia|].
    destruct ((56320 <=? c) && (c <=? 57343)) eqn:E2; [lia|]. reflexivity.
  - cbn [app utf16_decode]. unfold hi_surrogate, lo_surrogate.
    match goal with |- context [if ?b then _ else _] => destruct b eqn:E1 end; [|lia].
    match goal with |- context [if ?b then _ else _] => destruct b eqn:E2 end; [|lia].
    replace (65536 + (55296 + (c - 65536) / 1024 - 55296) * 1024 +
             (56320 + (c - 65536) mod 1024 - 56320)) with c by lia.
    reflexivity.
Qed.

Lemma utf16_decode_spec t : forallb is_scalar t = true -> utf16_decode (flat_map utf16 t) = Some t.
Proof.
  induction t as [|c t IH]; [reflexivity|]. intro H. cbn [forallb] in H.
  apply andb_true_iff in H. destruct H as [Hc Ht]. cbn [flat_map].
  rewrite utf16_decode_cons, IH by assumption. reflexivity.
Qed.

Lemma text_decode_bom r : text_decode (xfe :: xff :: r) =
  match units16 r with Some us => utf16_decode us | None => None end.
Proof. reflexivity. Qed.

(** ** ASCII text *)

Lemma utf8_first c : is_scalar c = true ->
  forallb (fun b => (32 <=? bz b) && (bz b <=? 126)) (utf8 c) = true ->
  32 <= c <= 126 /\ utf8 c = [zb c].
Proof.
  intros Hs H. apply scalar_range in Hs. unfold utf8 in *.
  destruct (c <? 128) eqn:E1.
  - cbn [forallb] in H. rewrite bz_zb in H. split; [lia|reflexivity].
  - exfalso. destruct (c <? 2048) eqn:E2; [|destruct (c <? 65536) eqn:E3];
      cbn [forallb] in H; rewrite !bz_zb in H; lia.
Qed.

Lemma ascii_text t : forallb is_scalar t = true ->
  forallb (fun b => (32 <=? bz b) && (bz b <=? 126)) (str_utf8 t) = true ->
  str_utf8 t = map zb t /\ map bz (str_utf8 t) = t.
Proof.
  induction t as [|c t IH]; [auto|]. intros Hs H. cbn [forallb] in Hs.
  apply andb_true_iff in Hs. destruct Hs as [Hc Ht].
  unfold str_utf8 in *. cbn [flat_map] in H. rewrite forallb_app in H.
  apply andb_true_iff in H. destruct H as [H1 H2].
  destruct (utf8_first c Hc H1) as [Hr Hu]. destruct (IH Ht H2) as [I1 I2].
  cbn [flat_map]. rewrite Hu. cbn [app map]. rewrite I1 in I2 |- *. split; [reflexivity|].
  rewrite I2, bz_zb_small by lia. reflexivity.
Qed.

Lemma text_decode_ascii s : forallb (fun b => (32 <=? bz b) && (bz b <=? 126)) s = true ->
  text_decode s = Some (map bz s).
Proof.
  intro H. assert (text_decode s = pdfdoc_decode s) as E.
  { destruct s as [|a s]; [reflexivity|]. destruct a; try reflexivity. discriminate H. }
  rewrite E. unfold pdfdoc_decode. rewrite H. reflexivity.
Qed.

(** ** The bytes written for text *)

Definition text_bytes (t : list Z) : bytes :=
  if forallb (fun c => (32 <=? bz c) && (bz c <=? 126)) (str_utf8 t)
  then str_bytes (str_utf8 t)
  else text_header ++ hex_utf16 t ++ text_footer.

Lemma write_text_inner t b : inner (write_text t b) = inner b ++ text_bytes t.
Proof.
  unfold write_text, text_bytes.
  destruct (forallb (fun c => (32 <=? bz c) && (bz c <=? 126)) (str_utf8 t)); reflexivity.
Qed.

Lemma text_hex_token s rest :
  next_token ((text_header ++ flat_map hex2 s ++ text_footer) ++ rest) = Some (TStr (xfe :: xff :: s), rest).
Proof.
  replace ((text_header ++ flat_map hex2 s ++ text_footer) ++ rest)
    with (x3c :: flat_map hex2 (xfe :: xff :: s) ++ x3e :: rest).
  - unfold next_token. rewrite blanks_solid by reflexivity. apply lex_hex. discriminate.
  - unfold text_header, text_footer. cbn [flat_map]. rewrite <- !app_assoc. reflexivity.
Qed.

Lemma text_token t rest : forallb is_scalar t = true ->
  exists s, next_token (text_bytes t ++ rest) = Some (TStr s, rest) /\ text_decode s = Some t.
Proof.
  intro Hs. unfold text_bytes.
  destruct (forallb (fun c => (32 <=? bz c) && (bz c <=? 126)) (str_utf8 t)) eqn:E.
  - exists (str_utf8 t). split; [apply str_bytes_token|].
    rewrite text_decode_ascii by assumption.
    destruct (ascii_text t Hs E) as [_ ->]. reflexivity.
  - exists (xfe :: xff :: flat_map unit_bytes (flat_map utf16 t)). split.
    + rewrite hex_utf16_bytes. apply text_hex_token.
    + rewrite text_decode_bom, units16_spec by (apply utf16_units_all; assumption).
      apply utf16_decode_spec. assumption.
Qed.

(** ** Language-tagged text *)

Definition seg_scalars (seg : langid * list Z) : list Z :=
  27 :: lang_scalars (fst seg) ++ 27 :: snd seg.

Lemma utf16_bz a : utf16 (bz a) = [bz a].
Proof. unfold utf16. pose proof (bz_range a). destruct (bz a <? 65536) eqn:E; [reflexivity|lia]. Qed.

Lemma lang_code_hex l : lang_code l = hex_utf16 (27 :: lang_scalars l ++ [27]).
Proof.
  unfold lang_code, hex_utf16, lang_scalars. destruct l as [[a b] [[c d]|]]; cbn [region lang fst snd];
    cbn [app flat_map]; rewrite !utf16_bz; change (utf16 27) with [27]; cbn [app flat_map];
    rewrite ?app_nil_r; reflexivity.
Qed.

Lemma hex_utf16_app a b : hex_utf16 (a ++ b) = hex_utf16 a ++ hex_utf16 b.
Proof. unfold hex_utf16. rewrite !flat_map_app. reflexivity. Qed.

Lemma seg_hex seg : lang_code (fst seg) ++ hex_utf16 (snd seg) = hex_utf16 (seg_scalars seg).
Proof.
  rewrite lang_code_hex, <- hex_utf16_app. unfold seg_scalars.
  cbn [app]. rewrite <- app_assoc. reflexivity.
Qed.

Lemma segs_hex segs :
  flat_map (fun seg => lang_code (fst seg) ++ hex_utf16 (snd seg)) segs =
  hex_utf16 (flat_map seg_scalars segs).
Proof.
  induction segs as [|s segs IH]; [reflexivity|]. cbn [flat_map].
  rewrite IH, seg_hex, hex_utf16_app. reflexivity.
Qed.

Definition text_lang_bytes (segs : list (langid * list Z)) : bytes :=
  text_header ++ flat_map (fun seg => lang_code (fst seg) ++ hex_utf16 (snd seg)) segs ++ text_footer.

Lemma bz_scalar a : is_scalar (bz a) = true.
Proof. pose proof (bz_range a). unfold is_scalar. lia. Qed.

Lemma seg_scalars_ok seg : forallb is_scalar (snd seg) = true -> forallb is_scalar (seg_scalars seg) = true.
Proof.
  intro H. unfold seg_scalars, lang_scalars. destruct seg as [[[a b] [[c d]|]] t]; cbn [fst snd lang region] in *;
    cbn [forallb app]; rewrite !bz_scalar, H; reflexivity.
Qed.

Lemma segs_scalars_ok segs : forallb (fun seg => forallb is_scalar (snd seg)) segs = true ->
  forallb is_scalar (flat_map seg_scalars segs) = true.
Proof.
  induction segs as [|s segs IH]; [reflexivity|]. cbn [forallb flat_map]. intro H.
  apply andb_true_iff in H. destruct H. rewrite forallb_app, seg_scalars_ok, IH by assumption. reflexivity.
Qed.

Lemma text_lang_token segs rest :
  forallb (fun seg => forallb is_scalar (snd seg)) segs = true ->
  exists s, next_token (text_lang_bytes segs ++ rest) = Some (TStr s, rest) /\
            text_decode s = Some (flat_map seg_scalars segs).
Proof.
  intro H. exists (xfe :: xff :: flat_map unit_bytes (flat_map utf16 (flat_map seg_scalars segs))). split.
  - unfold text_lang_bytes. rewrite segs_hex, hex_utf16_bytes. apply text_hex_token.
  - rewrite text_decode_bom, units16_spec by (apply utf16_units_all, segs_scalars_ok; assumption).
    apply utf16_decode_spec, segs_scalars_ok. assumption.
Qed.

Lemma span_z_stop a r : no_esc a = true -> (r = [] \/ exists r', r = 27 :: r') ->
  span_z (fun x => negb (x =? esc)) (a ++ r) = (a, r).
Proof.
  induction a as [|c a IH]; cbn [app span_z no_esc forallb].
  - intros _ [->|[r' ->]]; reflexivity.
  - intro H. apply andb_true_iff in H. destruct H as [Hc Ha]. intro Hr.
    unfold esc at 1. rewrite Hc, IH by assumption. reflexivity.
Qed.

Lemma lang_segments_spec : forall segs fuel,
  forallb seg_clean segs = true ->
  (List.length (flat_map seg_scalars segs) <= fuel)%nat ->
  lang_segments fuel (flat_map seg_scalars segs) = Some (map seg_decoded segs).
Proof.
  induction segs as [|seg segs IH]; intros fuel H Hf.
  - destruct fuel; reflexivity.
  - cbn [forallb] in H. apply andb_true_iff in H. destruct H as [Hc Hs].
    unfold seg_clean in Hc. apply andb_true_iff in Hc. destruct Hc as [Hl Ht].
    cbn [flat_map] in *. unfold seg_scalars at 1 in Hf. unfold seg_scalars at 1.
    cbn [app] in *. rewrite <- app_assoc in *. cbn [app] in *.
    destruct fuel as [|fuel]; [cbn in Hf; lia|].
    cbn [lang_segments]. change (27 =? esc) with true. cbv iota.
    rewrite span_z_stop; [|assumption|right; eauto].
    rewrite span_z_stop; [|assumption|].
    2:{ destruct segs; [left; reflexivity|right]. cbn [flat_map]. unfold seg_scalars at 1. cbn [app]. eauto. }
    rewrite IH; [reflexivity|assumption|].
    cbn [List.length] in Hf. rewrite !app_length in Hf. cbn [List.length] in Hf. rewrite app_length in Hf. lia.
Qed.

(** ** Dates *)

Lemma take_digits_app w n r : 0 <= n < 10 ^ Z.of_nat w -> (0 < w)%nat ->
  take_digits w (dec_pad w n ++ r) = Some (n, r).
Proof.
  intros H Hw. destruct (dec_pad_spec w n H Hw) as (Hl & Hd & Hv).
  assert (firstn w (dec_pad w n ++ r) = dec_pad w n) as E1.
  { rewrite <- Hl at 1. rewrite firstn_app, Nat.sub_diag, firstn_O, app_nil_r. apply firstn_all. }
  assert (skipn w (dec_pad w n ++ r) = r) as E2.
  { rewrite <- Hl at 1. rewrite skipn_app, Nat.sub_diag, skipn_all. reflexivity. }
  unfold take_digits. rewrite E1, E2, Hl, Nat.eqb_refl, Hd, Hv. reflexivity.
Qed.

Lemma dec_pad2_ne n r : dec_pad 2 n ++ r <> [] \/ 0 > n.
Proof.
  destruct (Z.le_gt_cases 0 n) as [H|H]; [left|right; lia]. unfold dec_pad. pose proof (dec_u_ne n H).
  destruct (dec_u n); [congruence|]. rewrite <- app_assoc. intro E. apply app_eq_nil in E.
  destruct E as [_ E]. discriminate.
Qed.

Lemma date_fields_step lo hi rs n r : 0 <= n < 100 -> in_range lo hi n = true ->
  date_fields ((lo, hi) :: rs) (dec_pad 2 n ++ r) =
  match date_fields rs r with Some (vs, r') => Some (n :: vs, r') | None => None end.
Proof.
  intros H Hr. cbn [date_fields].
  destruct (dec_pad2_ne n r) as [Hne|]; [|lia].
  rewrite take_digits_app by (change (10 ^ Z.of_nat 2) with 100; lia).
  destruct (dec_pad 2 n ++ r) eqn:E; [congruence|]. rewrite Hr. reflexivity.
Qed.

Lemma date_fields_nil rs : date_fields rs [] = Some ([], []).
Proof. destruct rs as [|[lo hi] rs]; reflexivity. Qed.

Lemma date_body_parse d : date_ok d = true ->
  date_parse (lit "D:" ++ date_body d) = Some (date_reading d).
Proof.
  intro H. unfold date_ok in H. destruct d as [y mo da h mi s oh om]. cbn [d_year d_month d_day d_hour d_minute d_second d_off_hour d_off_minute] in H.
  unfold date_body, date_reading. cbn [d_year d_month d_day d_hour d_minute d_second d_off_hour d_off_minute].
  change (lit "D:") with [x44; x3a]. cbn [app date_parse].
  rewrite take_digits_app by (change (10 ^ Z.of_nat 4) with 10000; lia).
  destruct mo as [mo|]; [|rewrite date_fields_nil; reflexivity].
  cbn [opt_in] in H.
  rewrite date_fields_step by (unfold in_range; lia).
  destruct da as [da|]; [|rewrite date_fields_nil; reflexivity].
  cbn [opt_in] in H.
  rewrite date_fields_step by (unfold in_range; lia).
  destruct h as [h|]; [|rewrite date_fields_nil; reflexivity].
  cbn [opt_in] in H.
  rewrite date_fields_step by (unfold in_range; lia).
  destruct mi as [mi|]; [|rewrite date_fields_nil; reflexivity].
  cbn [opt_in] in H.
  rewrite date_fields_step by (unfold in_range; lia).
  destruct s as [s|]; [|rewrite date_fields_nil; reflexivity].
  cbn [opt_in] in H.
  rewrite date_fields_step by (unfold in_range; lia).
  cbn [date_fields].
  destruct oh as [oh|]; [|reflexivity].
  cbn [opt_in] in H.
  destruct ((oh =? 0) && (om =? 0)) eqn:Ez.
  - cbn [date_offset]. cbn. unfold sgn_off. assert (oh = 0) by lia. assert (om = 0) by lia. subst. reflexivity.
  - unfold dec_signed2.
    rewrite <- app_assoc.
    set (sg := if oh <? 0 then [x2d] else [x2b]).
    assert (date_offset (sg ++ dec_pad 2 (Z.abs oh) ++ [x27] ++ dec_pad 2 om) = Some (Some (sgn_off oh om))) as E.
    { assert (take_digits 2 (dec_pad 2 (Z.abs oh) ++ [x27] ++ dec_pad 2 om) = Some (Z.abs oh, x27 :: dec_pad 2 om)) as E1.
      { apply take_digits_app; [change (10 ^ Z.of_nat 2) with 100; lia|lia]. }
      assert (take_digits 2 (dec_pad 2 om) = Some (om, [])) as E2.
      { rewrite <- (app_nil_r (dec_pad 2 om)). apply take_digits_app; [change (10 ^ Z.of_nat 2) with 100; lia|lia]. }
      unfold sg. destruct (oh <? 0) eqn:Eo.
      - cbn [app date_offset]. cbn [beq Byte.eqb orb]. change (beq x2d x2b || beq x2d x2d) with true. cbv iota.
        cbn [app] in E1. rewrite E1, E2. change (beq x2d x2d) with true. unfold in_range, sgn_off. rewrite Eo.
        match goal with |- context [if ?b then _ else _] => destruct b eqn:Eb end; [|lia].
        f_equal. f_equal. lia.
      - cbn [app date_offset]. change (beq x2b x2b || beq x2b x2d) with true. cbv iota.
        cbn [app] in E1. rewrite E1, E2. change (beq x2b x2d) with false. unfold in_range, sgn_off. rewrite Eo.
        match goal with |- context [if ?b then _ else _] => destruct b eqn:Eb end; [|lia].
        f_equal. f_equal. lia. }
    cbn [app] in E. rewrite E. unfold sg. destruct (oh <? 0); reflexivity.
Qed.

(** The builder only ever stores fields in range, for all argument values of its types. *)
Definition call_ok (c : date_call) : bool :=
  match c with
  | DMonth v | DDay v | DHour v | DMinute v | DSecond v | DOffMinute v => (0 <=? v) && (v <=? 255)
  | DOffHour v => (-128 <=? v) && (v <=? 127)
  end.

Lemma date_apply_ok d c : date_ok d = true -> call_ok c = true -> date_ok (date_apply d c) = true.
Proof.
  destruct d as [y mo da h mi s oh om]. unfold date_ok.
  cbn [d_year d_month d_day d_hour d_minute d_second d_off_hour d_off_minute].
  intros H Hc. destruct c; cbn [date_apply call_ok] in *;
    cbn [d_year d_month d_day d_hour d_minute d_second d_off_hour d_off_minute opt_in] in *;
    rewrite !andb_true_iff in *; unfold clamp in *; intuition lia.
Qed.

Lemma date_calls_ok : forall cs d, date_ok d = true -> forallb call_ok cs = true ->
  date_ok (fold_left date_apply cs d) = true.
Proof.
  induction cs as [|c cs IH]; intros d Hd Hc; [exact Hd|]. cbn [fold_left forallb] in *.
  apply andb_true_iff in Hc. destruct Hc. apply IH; auto using date_apply_ok.
Qed.

(** The date string is a literal string without escapes. *)
Definition plain (c : byte) : bool := (32 <=? bz c) && (bz c <=? 126) && negb (bmem c [x28; x29; x5c]).

Lemma lit_plain s rest d : forallb plain s = true ->
  lit_string d (s ++ rest) = fold_right cons_fst (lit_string d rest) s.
Proof.
  induction s as [|c s IH]; [reflexivity|]. cbn [forallb]. intro H.
  apply andb_true_iff in H. destruct H as [Hc Hs]. cbn [app fold_right]. rewrite <- IH by assumption.
  destruct c; first [discriminate Hc | reflexivity].
Qed.

Lemma digit_plain c : is_digit c = true -> plain c = true.
Proof. destruct c; vm_compute; congruence. Qed.

Lemma dec_pad_plain w n : 0 <= n -> forallb plain (dec_pad w n) = true.
Proof.
  intro H. unfold dec_pad. rewrite forallb_app. apply andb_true_iff. split.
  - apply forallb_forall. intros x Hx. apply repeat_spec in Hx. subst. reflexivity.
  - apply forallb_forall. intros x Hx. apply digit_plain.
    pose proof (dec_u_digits n H) as Hd. rewrite forallb_forall in Hd. auto.
Qed.

Lemma date_body_plain d : date_ok d = true -> forallb plain (date_body d) = true.
Proof.
  intro H. unfold date_ok in H. destruct d as [y mo da h mi s oh om].
  cbn [d_year d_month d_day d_hour d_minute d_second d_off_hour d_off_minute] in H.
  unfold date_body. cbn [d_year d_month d_day d_hour d_minute d_second d_off_hour d_off_minute].
  repeat match goal with
         | |- context [match ?o with Some _ => _ | None => _ end] => destruct o; cbn [opt_in] in H
         | |- context [if ?b then _ else _] => destruct b
         | |- context [dec_signed2 _] => unfold dec_signed2
         | |- _ => rewrite forallb_app
         | |- _ => rewrite dec_pad_plain by lia
         end; reflexivity.
Qed.

Definition date_bytes (d : date) : bytes := lit "(D:" ++ date_body d ++ lit ")".

Lemma date_token d rest : date_ok d = true ->
  next_token (date_bytes d ++ rest) = Some (TStr (lit "D:" ++ date_body d), rest).
Proof.
  intro H. unfold date_bytes. change (lit "(D:") with (x28 :: lit "D:").
  rewrite <- !app_assoc. cbn [app]. unfold next_token.
  rewrite blanks_solid by reflexivity. cbn [lex_token].
  change (lit ")" ++ rest) with (x29 :: rest).
  rewrite app_assoc, lit_plain.
  - change (lit_string 0 (x29 :: rest)) with (Some (@nil byte, rest)). rewrite fold_cons_fst. reflexivity.
  - rewrite forallb_app, date_body_plain by assumption. reflexivity.
Qed.
