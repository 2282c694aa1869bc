(** Hexadecimal strings in the output have whole bytes. *)

From Coq Require Import ZArith List Lia Bool ZifyBool ZifyNat.
From Verif Require Import Bytes ModelFloat ModelBuf ModelObject SpecLex SpecObj SpecText SpecMeans SpecFile SpecArchive
  ProofBasic ProofText ProofFloat ProofFloat2 ProofObj ProofParse ProofTree.
Import ListNotations.
Local Open Scope Z_scope.

(** Tokens, as in ProofParse.v, with whole strings. *)
Inductive hlexes : bytes -> list token -> bytes -> Prop :=
| hx_nil s : hlexes s [] s
| hx_cons s t r ts r' : next_token s = Some (t, r) -> whole_bytes (blanks s) -> hlexes r ts r' -> hlexes s (t :: ts) r'.
Lemma hlexes_app s ts1 m ts2 r : hlexes s ts1 m -> hlexes m ts2 r -> hlexes s (ts1 ++ ts2) r.
Proof. induction 1; cbn [app]; [auto|]. intro. econstructor; eauto. Qed.
Lemma hlexes_ws w s ts r : forallb is_ws w = true -> ts <> [] -> hlexes s ts r -> hlexes (w ++ s) ts r.
Proof.
  intros Hw Hne H. destruct H as [|s t r ts r' H1 H2 H3]; [congruence|]. econstructor; [|rewrite blanks_wss by assumption; exact H2|exact H3].
  rewrite next_token_ws by assumption. assumption.
Qed.

(** Only strings can begin with one angle bracket. *)
Definition is_string (t : token) : bool := match t with TStr _ => true | _ => false end.
Lemma not_string s t r : next_token s = Some (t, r) -> is_string t = false -> whole_bytes (blanks s).
Proof.
  unfold next_token. intros H N. destruct (blanks s) as [|c u]; [exact I|]. unfold whole_bytes. destruct c; try exact I.
  destruct u as [|c2 u]; [discriminate H|].
  destruct (beq c2 x3c) eqn:E; [apply beq_spec in E; subst c2; exact I|].
  assert (X : lex_token (x3c :: c2 :: u) = match hex_string None (c2 :: u) with Some (x, rest) => Some (TStr x, rest) | None => None end)
    by (destruct c2; try reflexivity; discriminate E).
  rewrite X in H. destruct (hex_string None (c2 :: u)) as [[x rest]|]; [|discriminate H]. injection H as <- <-. discriminate N.
Qed.
Lemma lexes_hlexes s ts r : lexes s ts r -> existsb is_string ts = false -> hlexes s ts r.
Proof.
  induction 1 as [|s t r ts r' H1 H2 IH]; intro N; [constructor|]. cbn [existsb] in N. apply orb_false_iff in N. destruct N as [N1 N2].
  econstructor; [exact H1|exact (not_string _ _ _ H1 N1)|exact (IH N2)].
Qed.
Lemma hlexes_one s t r : next_token s = Some (t, r) -> whole_bytes (blanks s) -> hlexes s [t] r.
Proof. intros H1 H2. econstructor; [exact H1|exact H2|constructor]. Qed.

Lemma hex2_digits : forall c, forallb (fun b => negb (beq b x3e)) (hex2 c) = true /\ List.filter (fun b => negb (is_ws b)) (hex2 c) = hex2 c /\
  forallb (fun b => match hexval b with Some _ => true | None => false end) (hex2 c) = true /\ List.length (hex2 c) = 2%nat.
Proof. intro c. destruct c; vm_compute; auto. Qed.
Lemma hex_whole l rest : whole_bytes (([x3c] ++ flat_map hex2 l ++ [x3e]) ++ rest).
Proof.
  assert (S : forall l, fst (span (fun b => negb (beq b x3e)) (flat_map hex2 l ++ [x3e] ++ rest)) = flat_map hex2 l).
  { intro k. rewrite span_all; [reflexivity| |reflexivity]. induction k as [|c k IH]; [reflexivity|]. cbn [flat_map]. rewrite forallb_app, IH.
    rewrite (proj1 (hex2_digits c)). reflexivity. }
  assert (F : forall l, List.filter (fun b => negb (is_ws b)) (flat_map hex2 l) = flat_map hex2 l).
  { induction l0 as [|c k IH]; [reflexivity|]. cbn [flat_map]. rewrite filter_app, IH. rewrite (proj1 (proj2 (hex2_digits c))). reflexivity. }
  rewrite <- !app_assoc. cbn [app]. unfold whole_bytes.
  assert (X : forall r, fst (span (fun b => negb (beq b x3e)) r) = flat_map hex2 l -> match r with x3c :: _ => True | _ =>
      let digits := List.filter (fun b => negb (is_ws b)) (fst (span (fun b => negb (beq b x3e)) r)) in
      Nat.even (List.length digits) = true /\ forallb (fun b => match hexval b with Some _ => true | None => false end) digits = true end).
  { intros r E. cbv zeta. rewrite E, F.
    assert (G : Nat.even (List.length (flat_map hex2 l)) = true /\ forallb (fun b => match hexval b with Some _ => true | None => false end) (flat_map hex2 l) = true).
    { clear. induction l as [|c l [IH1 IH2]]; [split; reflexivity|]. cbn [flat_map]. rewrite app_length, forallb_app, IH2.
      destruct (hex2_digits c) as (_ & _ & -> & ->). split; [exact IH1|reflexivity]. }
    destruct r as [|c r]; [exact G|]. destruct c; exact G || exact I. }
  exact (X _ (S l)).
Qed.
Lemma str_whole s rest : whole_bytes (str_bytes s ++ rest).
Proof. unfold str_bytes. destruct (forallb _ s); [exact I|apply hex_whole]. Qed.
Lemma utf16_whole t rest : whole_bytes ((text_header ++ hex_utf16 t ++ text_footer) ++ rest).
Proof.
  rewrite hex_utf16_bytes. set (l := flat_map unit_bytes (flat_map utf16 t)).
  exact (hex_whole (xfe :: xff :: l) rest).
Qed.
Lemma text_whole t rest : whole_bytes (text_bytes t ++ rest).
Proof. unfold text_bytes. match goal with |- context [if ?x then _ else _] => destruct x end; [apply str_whole|apply utf16_whole]. Qed.
Lemma lang_whole s rest : whole_bytes (text_lang_bytes s ++ rest).
Proof. unfold text_lang_bytes. rewrite segs_hex. apply utf16_whole. Qed.
Lemma solid_blanks c s : is_ws c = false -> beq c x25 = false -> blanks (c :: s) = c :: s.
Proof. intros H1 H2. apply blanks_solid; assumption. Qed.
Lemma str_solid s rest : blanks (str_bytes s ++ rest) = str_bytes s ++ rest.
Proof. unfold str_bytes. destruct (forallb _ s); apply blanks_solid; reflexivity. Qed.

Lemma num_tok_plain v : real_ok v = true -> is_string (num_tok (float_bytes v)) = false.
Proof.
  intros _. unfold num_tok, number. destruct (float_bytes v) as [|c s]; [reflexivity|].
  assert (U : forall s, match number_unsigned s with Some t => is_string t = false | None => True end).
  { intro u. unfold number_unsigned. destruct (span is_digit u) as [ip r]. destruct r as [|d fp]; [destruct ip; [exact I|reflexivity]|].
    destruct (beq d x2e && forallb is_digit fp); [|exact I]. destruct (ip ++ fp); [exact I|reflexivity]. }
  assert (U2 : is_string (match option_map token_neg (number_unsigned s) with Some t => t | None => TKeyword (c :: s) end) = false).
  { specialize (U s). destruct (number_unsigned s) as [t|]; [|reflexivity]. cbn [option_map]. destruct t; exact U || reflexivity. }
  assert (U3 : forall x, is_string (match number_unsigned x with Some t => t | None => TKeyword (c :: s) end) = false).
  { intro x. specialize (U x). destruct (number_unsigned x); [exact U|reflexivity]. }
  destruct c; first [exact U2|apply U3].
Qed.

Lemma prim_hlexes p rest : prim_ok p = true -> ends_regular (OPrim p) = false \/ boundary rest ->
  hlexes (prim_bytes p ++ rest) (prim_toks p) rest.
Proof.
  intros Hok Hb. pose proof (prim_lexes p rest Hok Hb) as H.
  destruct p; cbn [prim_bytes prim_toks prim_ok] in *; try (apply lexes_hlexes; [exact H|reflexivity]).
  - apply lexes_hlexes; [exact H|]. cbn [existsb]. rewrite num_tok_plain by exact Hok. reflexivity.
  - inversion H as [|? ? r0 ? ? H1 H2]; subst. inversion H2; subst. apply hlexes_one; [exact H1|]. rewrite str_solid. apply str_whole.
  - inversion H as [|? ? r0 ? ? H1 H2]; subst. inversion H2; subst. apply hlexes_one; [exact H1|].
    assert (B : blanks (text_bytes t ++ rest) = text_bytes t ++ rest) by (unfold text_bytes; match goal with |- context [if ?x then _ else _] => destruct x end; [apply str_solid|apply blanks_solid; reflexivity]).
    rewrite B. apply text_whole.
  - inversion H as [|? ? r0 ? ? H1 H2]; subst. inversion H2; subst. apply hlexes_one; [exact H1|].
    assert (B : forall s, blanks (text_lang_bytes s ++ rest) = text_lang_bytes s ++ rest) by (intro; unfold text_lang_bytes; apply blanks_solid; reflexivity).
    rewrite B. apply lang_whole.
  - apply lexes_hlexes; [exact H|]. rewrite !andb_true_iff in Hok. destruct Hok as [[[O1 O2] O3] O4].
    cbn [existsb is_string]. rewrite !num_tok_plain by assumption. reflexivity.
  - inversion H as [|? ? r0 ? ? H1 H2]; subst. inversion H2; subst. apply hlexes_one; [exact H1|].
    assert (B : blanks (date_bytes d ++ rest) = date_bytes d ++ rest) by (apply blanks_solid; reflexivity). rewrite B. exact I.
Qed.

Lemma name_whole k t : whole_bytes (blanks (name_bytes k ++ t)).
Proof. unfold name_bytes. cbn [app]. rewrite blanks_solid by reflexivity. exact I. Qed.

Definition obj_hlexes (o : obj) : Prop := forall p i rest,
  obj_ok o = true -> sep_ok p o = true -> ends_regular o = false \/ boundary rest ->
  hlexes (out p i o ++ rest) (obj_toks o) rest.
Lemma items_hlex l : Forall obj_hlexes l -> forall p i first prev rest,
  forallb obj_ok l = true -> (p = true \/ exists e, sep_items e l = true) ->
  hlexes (out_items p i first prev l ++ x5d :: rest) (flat_map obj_toks l ++ [TArrClose]) rest.
Proof.
  induction l as [|it r IH]; intros HF p i first prev rest Hok Hsep.
  - cbn. apply hlexes_one; [reflexivity|exact I].
  - inversion HF as [|? ? H1 H2]; subst. cbn [forallb] in Hok. apply andb_true_iff in Hok. destruct Hok as [Ho Hr].
    cbn [flat_map out_items]. rewrite <- !app_assoc.
    assert (Hs1 : sep_ok p it = true).
    { destruct Hsep as [->|[e Hs]]; [reflexivity|]. cbn [sep_items] in Hs. rewrite !andb_true_iff in Hs.
      destruct Hs as [[_ Hs] _]. unfold sep_ok. rewrite Hs. apply orb_true_r. }
    apply hlexes_ws.
    { destruct first; [reflexivity|]. destruct p; [reflexivity|]. apply pad_ws. }
    { intro E. apply app_eq_nil in E. destruct E as [E _]. exact (obj_toks_ne _ E). }
    eapply hlexes_app.
    + apply H1; [assumption|assumption|].
      destruct r as [|it2 r2]; [right; reflexivity|].
      destruct p; [right; reflexivity|].
      cbn [out_items]. rewrite <- !app_assoc. apply pad_boundary; [assumption|].
      destruct Hsep as [Hsep|[e Hs]]; [discriminate|]. cbn [sep_items] in Hs. rewrite !andb_true_iff in Hs. tauto.
    + apply IH; [assumption|assumption|]. destruct Hsep as [->|[e Hs]]; [left; reflexivity|right].
      cbn [sep_items] in Hs. rewrite !andb_true_iff in Hs. exists (is_empty_name it). tauto.
Qed.

Lemma entries_hlex l : Forall (fun e => obj_hlexes (snd e)) l -> forall p i rest ts r,
  forallb (fun e => obj_ok (snd e)) l = true ->
  (p = true \/ forallb (fun e => (negb (is_nil (fst e)) || begins_with_delimiter (snd e)) && separable (snd e)) l = true) ->
  boundary rest -> ts <> [] -> hlexes rest ts r ->
  hlexes (out_entries p i l ++ rest) (flat_map (fun e => TName (fst e) :: obj_toks (snd e)) l ++ ts) r.
Proof.
  induction l as [|[k v] l IH]; intros HF p i rest ts r Hok Hsep Hb Hts Hr; [exact Hr|].
  inversion HF as [|? ? H1 H2]; subst. cbn [snd] in H1. cbn [forallb fst snd] in Hok, Hsep.
  apply andb_true_iff in Hok. destruct Hok as [Ho Hl].
  cbn [flat_map out_entries fst snd]. rewrite <- !app_assoc.
  assert (Hs1 : sep_ok p v = true).
  { destruct Hsep as [->|Hs]; [reflexivity|]. rewrite !andb_true_iff in Hs. destruct Hs as [[_ Hs] _].
    unfold sep_ok. rewrite Hs. apply orb_true_r. }
  assert (Hs2 : p = true \/ forallb (fun e => (negb (is_nil (fst e)) || begins_with_delimiter (snd e)) && separable (snd e)) l = true).
  { destruct Hsep as [->|Hs]; [left; reflexivity|right]. rewrite !andb_true_iff in Hs. tauto. }
  apply hlexes_ws.
  { destruct p; [|reflexivity]. cbn [app forallb]. rewrite spaces_ws. reflexivity. }
  { discriminate. }
  cbn [app]. econstructor; [|apply name_whole|].
  - apply name_token. destruct p; [reflexivity|].
    destruct Hsep as [Hsep|Hs]; [discriminate|]. rewrite !andb_true_iff in Hs. destruct Hs as [[Hs _] _].
    unfold pad. destruct (begins_with_delimiter v) eqn:Eb; cbn [negb andb].
    + apply begins_first. assumption.
    + rewrite orb_false_r, negb_true_iff in Hs. rewrite name_bytes_last by (destruct k; [discriminate|discriminate]).
      reflexivity.
  - assert (Hne : obj_toks v ++ flat_map (fun e => TName (fst e) :: obj_toks (snd e)) l ++ ts <> []).
    { intro E. apply app_eq_nil in E. destruct E as [E _]. exact (obj_toks_ne _ E). }
    rewrite <- ?app_assoc.
    apply hlexes_ws; [destruct p; [reflexivity|apply pad_ws]|assumption|].
    eapply hlexes_app.
    + apply H1; [assumption|assumption|right].
      destruct l as [|[k2 v2] l2]; [exact Hb|]. cbn [out_entries]. destruct p; reflexivity.
    + apply IH; assumption.
Qed.

Lemma out_hlexes o : obj_hlexes o.
Proof.
  induction o as [q|l IH|l IH] using obj_ind'; intros p i rest Hok Hsep Hb.
  - cbn [out obj_toks]. apply prim_hlexes; assumption.
  - rewrite out_array. cbn [obj_toks]. rewrite <- !app_assoc. cbn [app].
    econstructor; [reflexivity|exact I|].
    apply items_hlex; [assumption|exact Hok|]. unfold sep_ok in Hsep. apply orb_true_iff in Hsep.
    destruct Hsep as [Hs|Hs]; [left; exact Hs|right]. rewrite separable_array in Hs. eauto.
  - rewrite out_dict. cbn [obj_toks]. rewrite <- !app_assoc. cbn [app].
    econstructor; [reflexivity|exact I|].
    apply entries_hlex; [assumption|exact Hok| | | |].
    + unfold sep_ok in Hsep. apply orb_true_iff in Hsep. exact Hsep.
    + destruct (p && negb (is_nil l)); reflexivity.
    + discriminate.
    + apply lexes_hlexes; [|reflexivity]. apply lexes_one. destruct (p && negb (is_nil l)); [|reflexivity].
      change (([x0a] ++ spaces (ent_indent i - 2)) ++ x3e :: x3e :: rest)
        with ((x0a :: spaces (ent_indent i - 2)) ++ x3e :: x3e :: rest).
      rewrite next_token_ws; [reflexivity|]. cbn [forallb]. rewrite spaces_ws. reflexivity.
Qed.


(** ** Whole objects *)
Lemma hlexes_whole s ts r : hlexes s ts r -> strings_whole r -> strings_whole s.
Proof. induction 1 as [|s t r ts r' H1 H2 H3 IH]; intro W; [exact W|]. exact (whole_token s t r H1 H2 (IH W)). Qed.
Lemma whole_stop k rest : In k [lit "endobj"; lit "stream"; lit "startxref"] -> boundary rest -> strings_whole ([x0a] ++ k ++ rest).
Proof.
  intros H B. apply (whole_end _ k rest); [|exact H]. rewrite next_token_ws by reflexivity.
  destruct H as [<-|[<-|[<-|[]]]]; rewrite next_token_word; first [reflexivity|discriminate|assumption].
Qed.
