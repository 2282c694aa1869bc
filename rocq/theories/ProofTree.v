(** Object trees: tokens of the output and the value a reader parses. *)

From Coq Require Import ZArith List Lia Bool ZifyBool ZifyNat.
From Verif Require Import Bytes ModelFloat ModelBuf ModelObject SpecLex SpecObj SpecText SpecMeans
  ProofBasic ProofText ProofFloat ProofFloat2 ProofObj ProofParse.
Import ListNotations.
Local Open Scope Z_scope.

(** ** Tokens of a tree *)

Definition num_tok (w : bytes) : token := match number w with Some t => t | None => TKeyword w end.

Definition is_plain_text (t : list Z) : bool :=
  forallb (fun c => (32 <=? bz c) && (bz c <=? 126)) (str_utf8 t).

(** The string a reader gets for a text string. *)
Definition text_str (t : list Z) : bytes :=
  if is_plain_text t then str_utf8 t else xfe :: xff :: flat_map unit_bytes (flat_map utf16 t).

Definition lang_str (segs : list (langid * list Z)) : bytes :=
  xfe :: xff :: flat_map unit_bytes (flat_map utf16 (flat_map seg_scalars segs)).

Definition prim_toks (p : prim) : list token :=
  match p with
  | PNull => [TKeyword (lit "null")]
  | PBool v => [TKeyword (if v then lit "true" else lit "false")]
  | PInt v => [TInt v]
  | PReal v => [num_tok (float_bytes v)]
  | PStr s => [TStr s]
  | PText t => [TStr (text_str t)]
  | PTextLang s => [TStr (lang_str s)]
  | PName s => [TName s]
  | PRef r => [TInt r; TInt 0; TKeyword (lit "R")]
  | PRect r => [TArrOpen; num_tok (float_bytes (x1 r)); num_tok (float_bytes (y1 r));
                num_tok (float_bytes (x2 r)); num_tok (float_bytes (y2 r)); TArrClose]
  | PDate d => [TStr (lit "D:" ++ date_body d)]
  end.

Fixpoint obj_toks (o : obj) : list token :=
  match o with
  | OPrim p => prim_toks p
  | OArray l => TArrOpen :: flat_map obj_toks l ++ [TArrClose]
  | ODict l => TDictOpen :: flat_map (fun e => TName (fst e) :: obj_toks (snd e)) l ++ [TDictClose]
  end.

Lemma prim_toks_ne p : prim_toks p <> [].
Proof. destruct p; discriminate. Qed.
Lemma obj_toks_ne o : obj_toks o <> [].
Proof. destruct o; [apply prim_toks_ne|discriminate|discriminate]. Qed.

(** Does the text of a primitive end with a regular byte? *)
Definition ends_regular (o : obj) : bool :=
  match o with
  | OPrim (PNull | PBool _ | PInt _ | PReal _ | PName _ | PRef _) => true
  | _ => false
  end.

Lemma text_str_token t rest : next_token (text_bytes t ++ rest) = Some (TStr (text_str t), rest).
Proof.
  unfold text_bytes, text_str, is_plain_text.
  destruct (forallb (fun c => (32 <=? bz c) && (bz c <=? 126)) (str_utf8 t)).
  - apply str_bytes_token.
  - rewrite hex_utf16_bytes. apply text_hex_token.
Qed.

Lemma text_str_decode t : forallb is_scalar t = true -> text_decode (text_str t) = Some t.
Proof.
  intro Hs. unfold text_str, is_plain_text.
  destruct (forallb (fun c => (32 <=? bz c) && (bz c <=? 126)) (str_utf8 t)) eqn:E.
  - rewrite text_decode_ascii by assumption. destruct (ascii_text t Hs E) as [_ ->]. reflexivity.
  - rewrite text_decode_bom, units16_spec by (apply utf16_units_all; assumption).
    apply utf16_decode_spec. assumption.
Qed.

Lemma lang_str_token segs rest : next_token (text_lang_bytes segs ++ rest) = Some (TStr (lang_str segs), rest).
Proof. unfold text_lang_bytes. rewrite segs_hex, hex_utf16_bytes. apply text_hex_token. Qed.

Lemma lang_str_decode segs :
  forallb (fun s => forallb is_scalar (snd s) && seg_clean s) segs = true ->
  lang_decode (lang_str segs) = Some (map seg_decoded segs).
Proof.
  intro H.
  assert (H1 : forallb (fun seg => forallb is_scalar (snd seg)) segs = true).
  { rewrite forallb_forall in *. intros x Hx. specialize (H x Hx). apply andb_true_iff in H. tauto. }
  assert (H2 : forallb seg_clean segs = true).
  { rewrite forallb_forall in *. intros x Hx. specialize (H x Hx). apply andb_true_iff in H. tauto. }
  unfold lang_decode, lang_str.
  rewrite text_decode_bom, units16_spec by (apply utf16_units_all, segs_scalars_ok; assumption).
  rewrite utf16_decode_spec by (apply segs_scalars_ok; assumption).
  apply lang_segments_spec; [assumption|]. reflexivity.
Qed.

Lemma real_ok_good v : real_ok v = true -> good_number (float_bytes v) v.
Proof. unfold real_ok. intro H. apply andb_true_iff in H. apply float_good; tauto. Qed.

Lemma real_tok v rest : real_ok v = true -> boundary rest ->
  next_token (float_bytes v ++ rest) = Some (num_tok (float_bytes v), rest).
Proof.
  intros H Hb. destruct (real_ok_good v H) as (t & H1 & H2 & H3 & _).
  apply next_token_word; assumption.
Qed.

Lemma bound_ws c s : is_regular c = false -> boundary (c :: s).
Proof. intro H; exact H. Qed.

Lemma prim_lexes p rest : prim_ok p = true -> ends_regular (OPrim p) = false \/ boundary rest ->
  lexes (prim_bytes p ++ rest) (prim_toks p) rest.
Proof.
  intros Hok Hb. destruct p; cbn [prim_bytes prim_toks prim_ok ends_regular] in *;
    try (assert (Hb' : boundary rest) by (destruct Hb as [Hb|Hb]; [discriminate Hb|exact Hb])).
  - apply lexes_one. apply (next_token_word (lit "null")); [discriminate|reflexivity|assumption].
  - apply lexes_one. destruct v; [apply (next_token_word (lit "true"))|apply (next_token_word (lit "false"))];
      first [discriminate|reflexivity|assumption].
  - apply lexes_one. apply next_token_int. assumption.
  - apply lexes_one. apply real_tok; assumption.
  - apply lexes_one. apply str_bytes_token.
  - apply lexes_one. apply text_str_token.
  - apply lexes_one. apply lang_str_token.
  - apply lexes_one. apply name_token. assumption.
  - rewrite <- app_assoc. econstructor; [apply next_token_int; reflexivity|].
    change (lit " 0 R" ++ rest) with ([x20] ++ dec_i 0 ++ [x20] ++ lit "R" ++ rest).
    econstructor; [rewrite next_token_ws by reflexivity; apply next_token_int; reflexivity|].
    econstructor; [rewrite next_token_ws by reflexivity|constructor].
    apply (next_token_word (lit "R")); [discriminate|reflexivity|assumption].
  - rewrite !andb_true_iff in Hok. destruct Hok as [[[H1 H2] H3] H4].
    rewrite <- !app_assoc. econstructor; [reflexivity|].
    econstructor; [apply real_tok; [assumption|reflexivity]|].
    econstructor; [rewrite next_token_ws by reflexivity; apply real_tok; [assumption|reflexivity]|].
    econstructor; [rewrite next_token_ws by reflexivity; apply real_tok; [assumption|reflexivity]|].
    econstructor; [rewrite next_token_ws by reflexivity; apply real_tok; [assumption|reflexivity]|].
    apply lexes_one. reflexivity.
  - apply lexes_one. apply date_token. assumption.
Qed.

(** ** First and last bytes *)

Lemma last_byte_forall (P : byte -> bool) s c : forallb P s = true -> last_byte s = Some c -> P c = true.
Proof.
  intros H E. destruct s as [|a s] using rev_ind; [discriminate|].
  rewrite last_byte_app in E. injection E as <-. rewrite forallb_app in H. cbn in H.
  rewrite !andb_true_iff in H. tauto.
Qed.

Lemma regular_not_delimiter c : is_regular c = true -> is_delimiter_character c = false.
Proof. destruct c; intro H; first [discriminate H|reflexivity]. Qed.

Lemma delimiter_boundary c s : is_delimiter_character c = true -> boundary (c :: s).
Proof. cbn. destruct c; intro H; first [discriminate H|reflexivity]. Qed.

Lemma word_ends w : forallb is_regular w = true -> ends_delim (last_byte w) = false.
Proof.
  intro H. unfold ends_delim. destruct (last_byte w) as [c|] eqn:E; [|reflexivity].
  apply regular_not_delimiter. eapply last_byte_forall; eauto.
Qed.

Lemma name_bytes_last k : k <> [] -> ends_delim (last_byte (name_bytes k)) = false.
Proof.
  intro H. unfold name_bytes. change (x2f :: flat_map name_byte k) with ([x2f] ++ flat_map name_byte k).
  rewrite last_byte_app_ne; [apply word_ends, name_regular|].
  destruct k; [congruence|]. cbn [flat_map]. unfold name_byte at 1.
  destruct (_ && _); discriminate.
Qed.

Lemma out_last p i o : obj_ok o = true -> ends_regular o = true -> is_empty_name o = false ->
  ends_delim (last_byte (out p i o)) = false.
Proof.
  intros Hok He Hn. destruct o as [q|l|l]; try discriminate. cbn [out].
  destruct q; try discriminate; cbn [prim_bytes obj_ok prim_ok] in *.
  - reflexivity.
  - destruct v; reflexivity.
  - apply word_ends. apply dec_i_spec.
  - apply word_ends. destruct (real_ok_good v Hok) as (t & _ & H & _). exact H.
  - apply name_bytes_last. destruct s; [discriminate|discriminate].
  - rewrite last_byte_app_ne by discriminate. reflexivity.
Qed.

Lemma begins_first p i o s : begins_with_delimiter o = true -> boundary (out p i o ++ s).
Proof.
  destruct o as [q|l|l]; intro H; try reflexivity.
  destruct q; try discriminate; cbn [out prim_bytes]; try reflexivity.
  - unfold str_bytes. destruct (forallb _ _); reflexivity.
  - unfold text_bytes, str_bytes. destruct (forallb _ _); [destruct (forallb _ _)|]; reflexivity.
Qed.

(** ** Lexing a tree *)

Fixpoint sep_items (prev : bool) (l : list obj) : bool :=
  match l with
  | [] => true
  | it :: r => (negb prev || begins_with_delimiter it) && separable it && sep_items (is_empty_name it) r
  end.

Lemma separable_array l : separable (OArray l) = sep_items false l.
Proof.
  reflexivity.
Qed.

Lemma spaces_ws n : forallb is_ws (spaces n) = true.
Proof. apply forallb_forall. intros x Hx. apply repeat_spec in Hx. subst. reflexivity. Qed.

(** The hypothesis on names: only needed in compact mode. *)
Definition sep_ok (p : bool) (o : obj) : bool := p || separable o.

Definition obj_lexes (o : obj) : Prop := forall p i rest,
  obj_ok o = true -> sep_ok p o = true -> ends_regular o = false \/ boundary rest ->
  lexes (out p i o ++ rest) (obj_toks o) rest.

(** In compact mode the next item is kept apart from [o]. *)
Lemma pad_boundary i o it s :
  obj_ok o = true -> negb (is_empty_name o) || begins_with_delimiter it = true ->
  ends_regular o = false \/ boundary (pad (last_byte (out false i o)) it ++ out false i it ++ s).
Proof.
  intros Hok H. destruct (ends_regular o) eqn:E; [right|left; reflexivity].
  unfold pad. destruct (begins_with_delimiter it) eqn:Eb; cbn [negb andb].
  - apply begins_first. assumption.
  - rewrite orb_false_r, negb_true_iff in H. rewrite out_last by assumption. reflexivity.
Qed.

Lemma pad_ws prev it : forallb is_ws (pad prev it) = true.
Proof. unfold pad. destruct (_ && _); reflexivity. Qed.

Lemma items_lex l : Forall obj_lexes l -> forall p i first prev rest,
  forallb obj_ok l = true -> (p = true \/ exists e, sep_items e l = true) ->
  lexes (out_items p i first prev l ++ x5d :: rest) (flat_map obj_toks l ++ [TArrClose]) rest.
Proof.
  induction l as [|it r IH]; intros HF p i first prev rest Hok Hsep.
  - cbn. apply lexes_one. reflexivity.
  - inversion HF as [|? ? H1 H2]; subst. cbn [forallb] in Hok. apply andb_true_iff in Hok. destruct Hok as [Ho Hr].
    cbn [flat_map out_items]. rewrite <- !app_assoc.
    assert (Hs1 : sep_ok p it = true).
    { destruct Hsep as [->|[e Hs]]; [reflexivity|]. cbn [sep_items] in Hs. rewrite !andb_true_iff in Hs.
      destruct Hs as [[_ Hs] _]. unfold sep_ok. rewrite Hs. apply orb_true_r. }
    apply lexes_ws.
    { destruct first; [reflexivity|]. destruct p; [reflexivity|]. apply pad_ws. }
    { intro E. apply app_eq_nil in E. destruct E as [E _]. exact (obj_toks_ne _ E). }
    eapply lexes_app.
    + apply H1; [assumption|assumption|].
      destruct r as [|it2 r2]; [right; reflexivity|].
      destruct p; [right; reflexivity|].
      cbn [out_items]. rewrite <- !app_assoc. apply pad_boundary; [assumption|].
      destruct Hsep as [Hsep|[e Hs]]; [discriminate|]. cbn [sep_items] in Hs. rewrite !andb_true_iff in Hs. tauto.
    + apply IH; [assumption|assumption|]. destruct Hsep as [->|[e Hs]]; [left; reflexivity|right].
      cbn [sep_items] in Hs. rewrite !andb_true_iff in Hs. exists (is_empty_name it). tauto.
Qed.

Lemma entries_lex l : Forall (fun e => obj_lexes (snd e)) l -> forall p i rest ts r,
  forallb (fun e => obj_ok (snd e)) l = true ->
  (p = true \/ forallb (fun e => (negb (is_nil (fst e)) || begins_with_delimiter (snd e)) && separable (snd e)) l = true) ->
  boundary rest -> ts <> [] -> lexes rest ts r ->
  lexes (out_entries p i l ++ rest) (flat_map (fun e => TName (fst e) :: obj_toks (snd e)) l ++ ts) r.
Proof.
  induction l as [|[k v] l IH]; intros HF p i rest ts r Hok Hsep Hb Hts Hr; [exact Hr|].
  inversion HF as [|? ? H1 H2]; subst. cbn [snd] in H1. cbn [forallb fst snd] in Hok, Hsep.
  apply andb_true_iff in Hok. destruct Hok as [Ho Hl].
  cbn [flat_map out_entries fst snd]. rewrite <- !app_assoc.
  assert (Hs1 : sep_ok p v = true).
  { destruct Hsep as [->|Hs]; [reflexivity|]. rewrite !andb_true_iff in Hs. destruct Hs as [[_ Hs] _].
    unfold sep_ok. rewrite Hs. apply orb_true_r. }
  assert (Hs2 : p = true \/ forallb (fun e => (negb (is_nil (fst e)) || begins_with_delimiter (snd e)) && separable (snd e)) l = true).
  { destruct Hsep as [->|Hs]; [left; reflexivity|right]. rewrite !andb_true_iff in Hs. tauto. }
  apply lexes_ws.
  { destruct p; [|reflexivity]. cbn [app forallb]. rewrite spaces_ws. reflexivity. }
  { discriminate. }
  cbn [app]. econstructor.
  - apply name_token. destruct p; [reflexivity|].
    destruct Hsep as [Hsep|Hs]; [discriminate|]. rewrite !andb_true_iff in Hs. destruct Hs as [[Hs _] _].
    unfold pad. destruct (begins_with_delimiter v) eqn:Eb; cbn [negb andb].
    + apply begins_first. assumption.
    + rewrite orb_false_r, negb_true_iff in Hs. rewrite name_bytes_last by (destruct k; [discriminate|discriminate]).
      reflexivity.
  - assert (Hne : obj_toks v ++ flat_map (fun e => TName (fst e) :: obj_toks (snd e)) l ++ ts <> []).
    { intro E. apply app_eq_nil in E. destruct E as [E _]. exact (obj_toks_ne _ E). }
    rewrite <- ?app_assoc.
    apply lexes_ws; [destruct p; [reflexivity|apply pad_ws]|assumption|].
    eapply lexes_app.
    + apply H1; [assumption|assumption|right].
      destruct l as [|[k2 v2] l2]; [exact Hb|]. cbn [out_entries]. destruct p; reflexivity.
    + apply IH; assumption.
Qed.

Lemma out_lexes o : obj_lexes o.
Proof.
  induction o as [q|l IH|l IH] using obj_ind'; intros p i rest Hok Hsep Hb.
  - cbn [out obj_toks]. apply prim_lexes; assumption.
  - rewrite out_array. cbn [obj_toks]. rewrite <- !app_assoc. cbn [app].
    econstructor; [reflexivity|].
    apply items_lex; [assumption|exact Hok|]. unfold sep_ok in Hsep. apply orb_true_iff in Hsep.
    destruct Hsep as [Hs|Hs]; [left; exact Hs|right]. rewrite separable_array in Hs. eauto.
  - rewrite out_dict. cbn [obj_toks]. rewrite <- !app_assoc. cbn [app].
    econstructor; [reflexivity|].
    apply entries_lex; [assumption|exact Hok| | | |].
    + unfold sep_ok in Hsep. apply orb_true_iff in Hsep. exact Hsep.
    + destruct (p && negb (is_nil l)); reflexivity.
    + discriminate.
    + apply lexes_one. destruct (p && negb (is_nil l)); [|reflexivity].
      change (([x0a] ++ spaces (ent_indent i - 2)) ++ x3e :: x3e :: rest)
        with ((x0a :: spaces (ent_indent i - 2)) ++ x3e :: x3e :: rest).
      rewrite next_token_ws; [reflexivity|]. cbn [forallb]. rewrite spaces_ws. reflexivity.
Qed.

(** ** Parsing a tree *)

Definition num_val (w : bytes) : val :=
  match num_tok w with TInt z => VInt z | TReal n k => VReal n k | _ => VNull end.

Fixpoint obj_val (o : obj) : val :=
  match o with
  | OPrim p =>
      match p with
      | PNull => VNull
      | PBool b => VBool b
      | PInt z => VInt z
      | PReal v => num_val (float_bytes v)
      | PStr s => VStr s
      | PText t => VStr (text_str t)
      | PTextLang s => VStr (lang_str s)
      | PName s => VName s
      | PRef r => VRef r 0
      | PRect r => VArr [num_val (float_bytes (x1 r)); num_val (float_bytes (y1 r));
                         num_val (float_bytes (x2 r)); num_val (float_bytes (y2 r))]
      | PDate d => VStr (lit "D:" ++ date_body d)
      end
  | OArray l => VArr (map obj_val l)
  | ODict l => VDict (map (fun e => (fst e, obj_val (snd e))) l)
  end.

Lemma real_means_val v : real_ok v = true -> real_means v (num_val (float_bytes v)).
Proof.
  intro H. destruct (real_ok_good v H) as (t & H1 & _ & _ & H4). unfold num_val, num_tok. rewrite H1.
  destruct t; cbn [number_means] in H4; try contradiction; constructor; assumption.
Qed.

Lemma means_val o : obj_ok o = true -> means o (obj_val o).
Proof.
  induction o as [q|l IH|l IH] using obj_ind'; intro Hok.
  - destruct q; cbn [obj_val obj_ok prim_ok] in *; try constructor.
    + apply real_means_val. assumption.
    + apply text_str_decode. assumption.
    + apply lang_str_decode. assumption.
    + rewrite !andb_true_iff in Hok. apply real_means_val. tauto.
    + rewrite !andb_true_iff in Hok. apply real_means_val. tauto.
    + rewrite !andb_true_iff in Hok. apply real_means_val. tauto.
    + rewrite !andb_true_iff in Hok. apply real_means_val. tauto.
    + apply date_body_parse. assumption.
  - cbn [obj_val obj_ok] in *. constructor. induction IH as [|x l Hx HF IHl]; [constructor|].
    cbn [forallb map] in *. apply andb_true_iff in Hok. constructor; [apply Hx; tauto|apply IHl; tauto].
  - cbn [obj_val obj_ok] in *. constructor. induction IH as [|x l Hx HF IHl]; [constructor|].
    cbn [forallb map] in *. apply andb_true_iff in Hok. constructor; [split; [reflexivity|apply Hx; tauto]|apply IHl; tauto].
Qed.

(** Following a number token. *)
Lemma objs_num acc s w r : next_token s = Some (num_tok w, r) -> (exists t, number w = Some t) ->
  objs acc s = objs (num_val w :: acc) r.
Proof.
  intros H [t Ht]. rewrite (objs_step _ _ _ _ H). unfold num_val, num_tok in *. rewrite Ht in *.
  revert Ht. unfold number, number_unsigned.
  assert (K : forall s t, (let '(ip, r) := span is_digit s in
     match r with
     | [] => match ip with [] => None | _ => Some (TInt (digits_val ip)) end
     | c :: fp => if beq c x2e && forallb is_digit fp
        then match ip ++ fp with [] => None | ds => Some (TReal (digits_val ds) (List.length fp)) end
        else None end) = Some t -> (exists z, t = TInt z) \/ (exists n k, t = TReal n k)).
  { intros s0 t0. destruct (span is_digit s0) as [ip [|c fp]].
    - destruct ip; [discriminate|]. intro E. injection E as <-. eauto.
    - destruct (_ && _); [|discriminate]. destruct (ip ++ fp); [discriminate|]. intro E. injection E as <-. eauto. }
  assert (G : (exists z, t = TInt z) \/ (exists n k, t = TReal n k) ->
     match t with TInt z => objs (VInt z :: acc) r | TReal n k => objs (VReal n k :: acc) r | _ => None end =
     objs (match t with TInt z => VInt z | TReal n k => VReal n k | _ => VNull end :: acc) r).
  { intros [[z ->]|[n [k ->]]]; reflexivity. }
  intro Ht. assert (T : (exists z, t = TInt z) \/ (exists n k, t = TReal n k)).
  { fold (number_unsigned w) in Ht.
    destruct w as [|c w]; [apply (K [] t Ht)|]. 
    destruct (beq c x2d) eqn:E1; [apply beq_spec in E1; subst c|destruct (beq c x2b) eqn:E2; [apply beq_spec in E2; subst c|]].
    - fold (number_unsigned w) in Ht. destruct (number_unsigned w) as [t0|] eqn:Eu; [|discriminate].
      cbn in Ht. injection Ht as <-. destruct (K w t0 Eu) as [[z ->]|[n [k ->]]]; cbn; eauto.
    - exact (K w t Ht).
    - assert (number_unsigned (c :: w) = Some t) as Hu.
      { destruct c; try discriminate E1; try discriminate E2; exact Ht. }
      exact (K (c :: w) t Hu). }
  destruct T as [[z ->]|[n [k ->]]]; reflexivity.
Qed.

Lemma lexes_app_inv ts1 : forall s ts2 r, lexes s (ts1 ++ ts2) r -> exists m, lexes s ts1 m /\ lexes m ts2 r.
Proof.
  induction ts1 as [|t ts1 IH]; intros s ts2 r H; [exists s; split; [constructor|exact H]|].
  inversion H as [|? ? r0 ? ? Hn Hl]; subst. destruct (IH _ _ _ Hl) as (m & A & B).
  exists m. split; [econstructor; eauto|exact B].
Qed.

Definition obj_parses (o : obj) : Prop := forall acc s r,
  obj_ok o = true -> lexes s (obj_toks o) r -> objs acc s = objs (obj_val o :: acc) r.

Lemma real_number v : real_ok v = true -> exists t, number (float_bytes v) = Some t.
Proof. intro H. destruct (real_ok_good v H) as (t & H1 & _). eauto. Qed.

Ltac lex1 H := let Hn := fresh "Hn" in let Hl := fresh "Hl" in
  inversion H as [|? ? ? ? ? Hn Hl]; subst; clear H.

Lemma prim_parses q : obj_parses (OPrim q).
Proof.
  intros acc s r Hok H. cbn [obj_toks] in H. destruct q; cbn [prim_toks obj_val obj_ok prim_ok] in *.
  - lex1 H. lex1 Hl. rewrite (objs_step _ _ _ _ Hn). reflexivity.
  - lex1 H. lex1 Hl. rewrite (objs_step _ _ _ _ Hn). destruct v; reflexivity.
  - lex1 H. lex1 Hl. rewrite (objs_step _ _ _ _ Hn). reflexivity.
  - lex1 H. lex1 Hl. apply objs_num; [assumption|]. apply real_number. assumption.
  - lex1 H. lex1 Hl. rewrite (objs_step _ _ _ _ Hn). reflexivity.
  - lex1 H. lex1 Hl. rewrite (objs_step _ _ _ _ Hn). reflexivity.
  - lex1 H. lex1 Hl. rewrite (objs_step _ _ _ _ Hn). reflexivity.
  - lex1 H. lex1 Hl. rewrite (objs_step _ _ _ _ Hn). reflexivity.
  - lex1 H. lex1 Hl. lex1 Hl0. lex1 Hl. rewrite (objs_step _ _ _ _ Hn), (objs_step _ _ _ _ Hn0), (objs_step _ _ _ _ Hn1).
    reflexivity.
  - rewrite !andb_true_iff in Hok. destruct Hok as [[[H1 H2] H3] H4].
    lex1 H. lex1 Hl. lex1 Hl0. lex1 Hl. lex1 Hl0. lex1 Hl. lex1 Hl0.
    rewrite (objs_step _ _ _ _ Hn).
    rewrite (objs_num _ _ _ _ Hn0 (real_number _ H1)), (objs_num _ _ _ _ Hn1 (real_number _ H2)),
      (objs_num _ _ _ _ Hn2 (real_number _ H3)), (objs_num _ _ _ _ Hn3 (real_number _ H4)).
    rewrite (objs_step _ _ _ _ Hn4). reflexivity.
  - lex1 H. lex1 Hl. rewrite (objs_step _ _ _ _ Hn). reflexivity.
Qed.

Lemma items_parse l : Forall obj_parses l -> forall acc s r, forallb obj_ok l = true ->
  lexes s (flat_map obj_toks l) r -> objs acc s = objs (rev (map obj_val l) ++ acc) r.
Proof.
  induction l as [|it l IH]; intros HF acc s r Hok H.
  - inversion H; subst. reflexivity.
  - inversion HF as [|? ? H1 H2]; subst. cbn [forallb flat_map] in *. apply andb_true_iff in Hok. destruct Hok as [Ho Hl].
    destruct (lexes_app_inv _ _ _ _ H) as (m & A & B).
    rewrite (H1 acc s m Ho A). rewrite (IH H2 _ _ _ Hl B). cbn [map rev]. rewrite <- app_assoc. reflexivity.
Qed.

Definition entry_vals (l : list (bytes * obj)) : list val := flat_map (fun e => [VName (fst e); obj_val (snd e)]) l.

Lemma entries_parse l : Forall (fun e => obj_parses (snd e)) l -> forall acc s r,
  forallb (fun e => obj_ok (snd e)) l = true ->
  lexes s (flat_map (fun e => TName (fst e) :: obj_toks (snd e)) l) r ->
  objs acc s = objs (rev (entry_vals l) ++ acc) r.
Proof.
  induction l as [|[k v] l IH]; intros HF acc s r Hok H.
  - inversion H; subst. reflexivity.
  - inversion HF as [|? ? H1 H2]; subst. cbn [forallb flat_map fst snd] in *.
    apply andb_true_iff in Hok. destruct Hok as [Ho Hl].
    cbn [app] in H. inversion H as [|? ? s1 ? ? Hn Hl']; subst.
    destruct (lexes_app_inv _ _ _ _ Hl') as (m & A & B).
    rewrite (objs_step _ _ _ _ Hn), (H1 _ _ _ Ho A), (IH H2 _ _ _ Hl B).
    unfold entry_vals. cbn [flat_map fst snd app rev]. rewrite <- !app_assoc. reflexivity.
Qed.

Lemma pair_up_entries l : pair_up (entry_vals l) = Some (map (fun e => (fst e, obj_val (snd e))) l).
Proof.
  induction l as [|[k v] l IH]; [reflexivity|].
  change (entry_vals ((k, v) :: l)) with (VName k :: obj_val v :: entry_vals l).
  cbn [pair_up map fst snd]. rewrite IH. reflexivity.
Qed.

Lemma tree_parses o : obj_parses o.
Proof.
  induction o as [q|l IH|l IH] using obj_ind'; [apply prim_parses| |]; intros acc s r Hok H; cbn [obj_toks] in H.
  - inversion H as [|? ? s1 ? ? Hn Hl]; subst. destruct (lexes_app_inv _ _ _ _ Hl) as (m & A & B).
    inversion B as [|? ? m2 ? ? Hc Hc2]; subst. inversion Hc2; subst.
    rewrite (objs_step _ _ _ _ Hn), (items_parse l IH [] _ _ Hok A), (objs_step _ _ _ _ Hc).
    rewrite app_nil_r, rev_involutive. reflexivity.
  - inversion H as [|? ? s1 ? ? Hn Hl]; subst. destruct (lexes_app_inv _ _ _ _ Hl) as (m & A & B).
    inversion B as [|? ? m2 ? ? Hc Hc2]; subst. inversion Hc2; subst.
    rewrite (objs_step _ _ _ _ Hn), (entries_parse l IH [] _ _ Hok A), (objs_step _ _ _ _ Hc).
    rewrite app_nil_r, rev_involutive, pair_up_entries. reflexivity.
Qed.

(** The parser reads exactly one value off the output and continues behind it. *)
Lemma out_parses p i o acc rest :
  obj_ok o = true -> sep_ok p o = true -> ends_regular o = false \/ boundary rest ->
  objs acc (out p i o ++ rest) = objs (obj_val o :: acc) rest.
Proof. intros H1 H2 H3. apply tree_parses; [assumption|]. apply out_lexes; assumption. Qed.

Lemma names_nonempty_separable o : names_nonempty o = true -> separable o = true.
Proof.
  induction o as [q|l IH|l IH] using obj_ind'; intro H; [reflexivity| |].
  - rewrite separable_array. cbn [names_nonempty] in H.
    assert (G : forall e, e = false -> sep_items e l = true).
    { induction IH as [|x l Hx HF IHl]; intros e He; [reflexivity|]. subst e. cbn [forallb sep_items] in *.
      apply andb_true_iff in H. destruct H as [H1 H2]. rewrite Hx by assumption. cbn [negb orb andb].
      apply IHl; [assumption|]. destruct x as [q| |]; try reflexivity. cbn [names_nonempty] in H1.
      apply negb_true_iff in H1. exact H1. }
    apply G. reflexivity.
  - cbn [names_nonempty separable] in *. rewrite forallb_forall in *. intros e He.
    specialize (H e He). apply andb_true_iff in H. destruct H as [H1 H2]. rewrite H1. cbn [orb andb].
    rewrite Forall_forall in IH. apply IH; assumption.
Qed.
