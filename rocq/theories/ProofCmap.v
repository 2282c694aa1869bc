(** ToUnicode character maps: output, tokens, sections. *)

From Coq Require Import ZArith List Lia Bool ZifyBool ZifyNat.
From Verif Require Import Bytes ModelFloat ModelBuf ModelObject ModelCmap SpecLex SpecText SpecMeans SpecCmap
  ProofBasic ProofText ProofFloat2 ProofObj ProofParse ProofTree ProofChunkParse.
Import ListNotations.
Local Open Scope Z_scope.

(** ** Output *)

Definition code_bytes (g : glyph_type) (v : Z) : bytes := match g with GU8 => [zb v] | GU16 => [zb (Z.shiftr v 8); zb v] end.
Lemma glyph_push_inner g v b : inner (glyph_push g v b) = inner b ++ flat_map hex2 (code_bytes g v).
Proof. destruct g; cbn [glyph_push code_bytes flat_map]; rewrite inner_extend, ?app_nil_r; reflexivity. Qed.
Lemma line_inner s b : inner (line s b) = inner b ++ s ++ [x0a].
Proof. reflexivity. Qed.

Definition text_units (t : list Z) : bytes := flat_map unit_bytes (flat_map utf16 t).
Definition cm_entry (g : glyph_type) (p : Z * list Z) : bytes :=
  [x3c] ++ flat_map hex2 (code_bytes g (fst p)) ++ lit "> <" ++ flat_map hex2 (text_units (snd p)) ++ lit ">" ++ [x0a].

Lemma push_units t : forall m, inner (fold_left (fun m part => extend (hex4 part) m) t m) = inner m ++ flat_map hex4 t.
Proof.
  induction t as [|u t IH]; intro m; [cbn; rewrite app_nil_r; reflexivity|]. cbn [fold_left flat_map].
  rewrite IH, inner_extend, <- app_assoc. reflexivity.
Qed.

Lemma push_text t : forall m,
  inner (fold_left (fun m c => fold_left (fun m part => extend (hex4 part) m) (utf16 c) m) t m) =
  inner m ++ flat_map hex2 (text_units t).
Proof.
  intro m. unfold text_units. rewrite <- hex_utf16_bytes. unfold hex_utf16. revert m.
  induction t as [|c t IH]; intro m; [cbn; rewrite app_nil_r; reflexivity|].
  cbn [fold_left flat_map]. rewrite IH, push_units, flat_map_app, <- app_assoc. reflexivity.
Qed.

Definition cm_section (g : glyph_type) (l : list (Z * list Z)) : bytes :=
  dec_i (Z.of_nat (List.length l)) ++ lit " beginbfchar" ++ [x0a] ++ flat_map (cm_entry g) l ++ lit "endbfchar" ++ [x0a].

(** The state after any number of pairs: full sections written, the rest pending. *)
Definition cm_state (g : glyph_type) (header : bytes) (full : list (list (Z * list Z))) (cur : list (Z * list Z)) (c : cmap) : Prop :=
  cm_type c = g /\ cm_count c = Z.of_nat (List.length cur) /\ inner (cm_mappings c) = flat_map (cm_entry g) cur /\
  inner (cm_buf c) = header ++ flat_map (cm_section g) full.

Lemma cmap_flush_state g h full cur c : cm_state g h full cur c ->
  cm_state g h (full ++ match cur with [] => [] | _ => [cur] end) [] (cmap_flush c).
Proof.
  intros (H1 & H2 & H3 & H4). unfold cmap_flush, cm_state. cbn [cm_type cm_count cm_mappings cm_buf inner flat_map List.length].
  repeat split; try assumption. rewrite H2. destruct cur as [|p r].
  - cbn [List.length]. change (0 <? Z.of_nat 0) with false. cbv iota. rewrite app_nil_r. exact H4.
  - replace (0 <? Z.of_nat (List.length (p :: r))) with true by (symmetry; apply Z.ltb_lt; cbn [List.length]; lia).
    rewrite !line_inner, inner_extend, line_inner. unfold push_int. rewrite inner_extend, inner_with, H3, H4.
    rewrite flat_map_app. remember (p :: r) as cur. cbn [flat_map]. unfold cm_section at 3. rewrite app_nil_r, <- !app_assoc. reflexivity.
Qed.

Lemma cmap_pair_state g h full cur c p : cm_state g h full cur c -> (List.length cur < 100)%nat ->
  if (List.length cur =? 99)%nat then cm_state g h (full ++ [cur ++ [p]]) [] (cmap_pair (fst p) (snd p) c)
  else cm_state g h full (cur ++ [p]) (cmap_pair (fst p) (snd p) c).
Proof.
  intros (H1 & H2 & H3 & H4) Hl. unfold cmap_pair. cbv zeta. cbn [cm_count].
  assert (S : cm_state g h full (cur ++ [p])
    (mkCmap (cm_buf c) (line (lit ">") (fold_left (fun m c => fold_left (fun m part => extend (hex4 part) m) (utf16 c) m) (snd p)
       (extend (lit "> <") (glyph_push (cm_type c) (fst p) (push x3c (cm_mappings c)))))) (cm_count c + 1) (cm_type c))).
  { repeat split; cbn [cm_type cm_count cm_mappings cm_buf].
    - assumption.
    - rewrite H2, app_length. cbn [List.length]. lia.
    - rewrite line_inner, push_text, inner_extend, glyph_push_inner, inner_push, H3, H1, flat_map_app. cbn [flat_map].
      rewrite app_nil_r. unfold cm_entry at 3. rewrite <- !app_assoc. reflexivity.
    - assumption. }
  destruct (List.length cur =? 99)%nat eqn:E.
  - replace (100 <=? cm_count c + 1) with true by lia.
    apply cmap_flush_state in S. destruct (cur ++ [p]) eqn:Ec; [destruct cur; discriminate|]. exact S.
  - replace (100 <=? cm_count c + 1) with false by lia. exact S.
Qed.

Lemma cmap_pairs_state g h pairs : forall full cur c, cm_state g h full cur c -> (List.length cur < 100)%nat ->
  Forall (fun l => List.length l = 100%nat) full ->
  exists full' cur', cm_state g h full' cur' (fold_left (fun c p => cmap_pair (fst p) (snd p) c) pairs c) /\
    (List.length cur' < 100)%nat /\ Forall (fun l => List.length l = 100%nat) full' /\
    concat full' ++ cur' = concat full ++ cur ++ pairs.
Proof.
  induction pairs as [|p r IH]; intros full cur c H Hl Hf.
  - exists full, cur. rewrite app_nil_r. auto.
  - cbn [fold_left]. pose proof (cmap_pair_state g h full cur c p H Hl) as S.
    destruct (List.length cur =? 99)%nat eqn:E.
    + destruct (IH _ _ _ S) as (f' & c' & S' & L' & F' & C').
      * cbn [List.length]. lia.
      * apply Forall_app. split; [assumption|]. constructor; [rewrite app_length; cbn [List.length]; lia|constructor].
      * exists f', c'. refine (conj S' (conj L' (conj F' _))). rewrite C', concat_app. cbn [concat app]. rewrite app_nil_r, <- !app_assoc. reflexivity.
    + destruct (IH _ _ _ S) as (f' & c' & S' & L' & F' & C').
      * rewrite app_length. cbn [List.length]. lia.
      * assumption.
      * exists f', c'. refine (conj S' (conj L' (conj F' _))). rewrite C', <- !app_assoc. reflexivity.
Qed.

Definition cm_footer : bytes :=
  lit "endcmap" ++ [x0a] ++ lit "CMapName currentdict /CMap defineresource pop" ++ [x0a] ++ lit "end" ++ [x0a] ++
  lit "end" ++ [x0a] ++ lit "%%EndResource" ++ [x0a] ++ lit "%%EOF".

Definition cm_header (g : glyph_type) (name : bytes) (info : system_info) (mode : wmode) : bytes :=
  inner (cm_buf (cmap_new g name info mode)).

Lemma cmap_build_inner g name info mode pairs :
  exists secs, inner (cmap_build g name info mode pairs) =
    cm_header g name info mode ++ flat_map (cm_section g) secs ++ cm_footer /\
    concat secs = pairs /\ Forall (fun l => (1 <= List.length l <= 100)%nat) secs.
Proof.
  unfold cmap_build.
  destruct (cmap_pairs_state g (cm_header g name info mode) pairs [] [] (cmap_new g name info mode)) as (full & cur & S & L & F & C).
  - repeat split. cbn [flat_map]. rewrite app_nil_r. reflexivity.
  - cbn; lia.
  - constructor.
  - exists (full ++ match cur with [] => [] | _ => [cur] end). split; [|split].
    + apply cmap_flush_state in S. destruct S as (_ & _ & _ & S). unfold cmap_finish.
      rewrite inner_extend, !line_inner, S. unfold cm_footer. rewrite <- !app_assoc. reflexivity.
    + rewrite concat_app. cbn [concat app] in C. rewrite <- C. f_equal. destruct cur; [reflexivity|]. cbn. rewrite app_nil_r. reflexivity.
    + apply Forall_app. split; [eapply Forall_impl; [|exact F]; cbn; intros; lia|].
      destruct cur as [|p r]; [constructor|]. constructor; [cbn [List.length] in *; lia|constructor].
Qed.

(** ** Tokens *)

Lemma lexes_comment c s ts r : one_line c = true -> ts <> [] -> lexes s ts r -> lexes (x25 :: c ++ x0a :: s) ts r.
Proof.
  intros Hc Hne H. destruct H as [|s0 t r0 ts0 r1 Hn Hl]; [congruence|]. econstructor; [|exact Hl].
  unfold next_token in *. rewrite blanks_comment.
  assert (E : skip_line (c ++ x0a :: s0) = x0a :: s0).
  { unfold skip_line. clear -Hc. induction c as [|a c IH]; [reflexivity|]. cbn [one_line forallb] in Hc. apply andb_true_iff in Hc.
    destruct Hc as [H1 H2]. cbn [app span]. rewrite H1. destruct (span _ (c ++ x0a :: s0)) as [a' b']. cbn [snd] in *. apply IH. exact H2. }
  rewrite E, blanks_ws by reflexivity. exact Hn.
Qed.

Lemma hex_token s rest : next_token (x3c :: flat_map hex2 s ++ x3e :: rest) = Some (TStr s, rest).
Proof.
  unfold next_token. rewrite blanks_solid by reflexivity. destruct s as [|c s]; [reflexivity|]. apply lex_hex. discriminate.
Qed.

Definition section_toks (g : glyph_type) (l : list (Z * list Z)) : list token :=
  TInt (Z.of_nat (List.length l)) :: TKeyword (lit "beginbfchar") ::
  flat_map (fun p => [TStr (code_bytes g (fst p)); TStr (text_units (snd p))]) l ++ [TKeyword (lit "endbfchar")].

Lemma entries_lexed g l : forall rest ts r, ts <> [] -> lexes rest ts r ->
  lexes (flat_map (cm_entry g) l ++ rest) (flat_map (fun p => [TStr (code_bytes g (fst p)); TStr (text_units (snd p))]) l ++ ts) r.
Proof.
  induction l as [|p l IH]; intros rest ts r Hne H; [exact H|].
  cbn [flat_map]. unfold cm_entry at 1. rewrite <- !app_assoc.
  change (lit "> <" ++ flat_map hex2 (text_units (snd p)) ++ lit ">" ++ [x0a] ++ flat_map (cm_entry g) l ++ rest)
    with (x3e :: x20 :: x3c :: flat_map hex2 (text_units (snd p)) ++ x3e :: x0a :: flat_map (cm_entry g) l ++ rest).
  cbn [app]. econstructor; [apply hex_token|]. econstructor; [rewrite next_token_ws1 by reflexivity; apply hex_token|].
  apply (lexes_ws [x0a]); [reflexivity| |apply IH; assumption].
  intro E. apply app_eq_nil in E. destruct E as [_ E]. congruence.
Qed.

Lemma section_lexed g l rest ts r : ts <> [] -> lexes rest ts r ->
  lexes (cm_section g l ++ rest) (section_toks g l ++ ts) r.
Proof.
  intros Hne H. unfold cm_section, section_toks. change (lit " beginbfchar") with ([x20] ++ lit "beginbfchar").
  rewrite <- !app_assoc. cbn [app].
  econstructor; [apply next_token_int; reflexivity|].
  econstructor.
  { rewrite next_token_ws1 by reflexivity. apply (keyword (lit "beginbfchar")); first [discriminate|reflexivity]. }
  apply (lexes_ws [x0a]); [reflexivity| |].
  { intro E. apply (f_equal (@List.length token)) in E. rewrite !app_length in E. cbn [List.length] in E. lia. }
  rewrite <- app_assoc. apply entries_lexed; [discriminate|]. cbn [app].
  econstructor; [apply (keyword (lit "endbfchar")); first [discriminate|reflexivity]|].
  apply (lexes_ws [x0a]); [reflexivity|assumption|assumption].
Qed.

Lemma sections_lexed g secs : forall rest ts r, ts <> [] -> lexes rest ts r ->
  lexes (flat_map (cm_section g) secs ++ rest) (flat_map (section_toks g) secs ++ ts) r.
Proof.
  induction secs as [|l secs IH]; intros rest ts r Hne H; [exact H|]. cbn [flat_map]. rewrite <- !app_assoc.
  apply section_lexed; [|apply IH; assumption]. intro E. apply app_eq_nil in E. destruct E as [_ E]. congruence.
Qed.

Definition footer_toks : list token :=
  [TKeyword (lit "endcmap"); TKeyword (lit "CMapName"); TKeyword (lit "currentdict"); TName (lit "CMap");
   TKeyword (lit "defineresource"); TKeyword (lit "pop"); TKeyword (lit "end"); TKeyword (lit "end")].

Lemma footer_lexed : lexes cm_footer footer_toks (x0a :: lit "%%EndResource" ++ x0a :: lit "%%EOF").
Proof. unfold footer_toks, cm_footer. repeat (econstructor; [vm_compute; reflexivity|]). apply lx_nil. Qed.

Definition header_toks (g : glyph_type) (name : bytes) (info : system_info) (mode : wmode) : list token :=
  [TName (lit "CIDInit"); TName (lit "ProcSet"); TKeyword (lit "findresource"); TKeyword (lit "begin");
   TInt 12; TKeyword (lit "dict"); TKeyword (lit "begin"); TKeyword (lit "begincmap");
   TName (lit "CIDSystemInfo"); TInt 3; TKeyword (lit "dict"); TKeyword (lit "dup"); TKeyword (lit "begin");
   TName (lit "Registry"); TStr (si_registry info); TKeyword (lit "def");
   TName (lit "Ordering"); TStr (si_ordering info); TKeyword (lit "def");
   TName (lit "Supplement"); TInt (si_supplement info); TKeyword (lit "def");
   TKeyword (lit "end"); TKeyword (lit "def");
   TName (lit "CMapName"); TName name; TKeyword (lit "def");
   TName (lit "CMapVersion"); TInt 1; TKeyword (lit "def"); TName (lit "CMapType"); TInt 0; TKeyword (lit "def");
   TName (lit "WMode"); TInt (wmode_int mode); TKeyword (lit "def");
   TInt 1; TKeyword (lit "begincodespacerange"); TStr (code_bytes g 0); TStr (code_bytes g (glyph_max g));
   TKeyword (lit "endcodespacerange")].

Definition cm_comments (name : bytes) (info : system_info) (rest : bytes) : bytes :=
  x25 :: lit "!PS-Adobe-3.0 Resource-CMap" ++ x0a ::
  x25 :: lit "%DocumentNeededResources: procset CIDInit" ++ x0a ::
  x25 :: lit "%IncludeResource: procset CIDInit" ++ x0a ::
  x25 :: (lit "%BeginResource: CMap " ++ name) ++ x0a ::
  x25 :: (lit "%Title: (" ++ name ++ [x20] ++ si_registry info ++ [x20] ++ si_ordering info ++ [x20] ++
          dec_i (si_supplement info) ++ lit ")") ++ x0a ::
  x25 :: lit "%Version: 1" ++ x0a ::
  x25 :: lit "%EndComments" ++ x0a :: rest.

Definition cm_body (g : glyph_type) (name : bytes) (info : system_info) (mode : wmode) (rest : bytes) : bytes :=
  lit "/CIDInit /ProcSet findresource begin" ++ x0a :: lit "12 dict begin" ++ x0a :: lit "begincmap" ++ x0a ::
  lit "/CIDSystemInfo 3 dict dup begin" ++ x0a ::
  lit "    /Registry " ++ str_bytes (si_registry info) ++ lit " def" ++ x0a ::
  lit "    /Ordering " ++ str_bytes (si_ordering info) ++ lit " def" ++ x0a ::
  lit "    /Supplement " ++ dec_i (si_supplement info) ++ lit " def" ++ x0a ::
  lit "end def" ++ x0a ::
  lit "/CMapName " ++ name_bytes name ++ lit " def" ++ x0a ::
  lit "/CMapVersion 1 def" ++ x0a :: lit "/CMapType 0 def" ++ x0a ::
  lit "/WMode " ++ dec_i (wmode_int mode) ++ lit " def" ++ x0a ::
  lit "1 begincodespacerange" ++ x0a ::
  x3c :: flat_map hex2 (code_bytes g 0) ++ x3e :: x20 :: x3c :: flat_map hex2 (code_bytes g (glyph_max g)) ++ x3e :: x0a ::
  lit "endcodespacerange" ++ x0a :: rest.

Lemma header_shape g name info mode rest :
  cm_header g name info mode ++ rest = cm_comments name info (cm_body g name info mode rest).
Proof.
  unfold cm_header, cmap_new. cbn [cm_buf].
  repeat (rewrite ?inner_extend, ?line_inner, ?inner_push, ?inner_with, ?glyph_push_inner, ?write_prim_inner; unfold push_int).
  cbn [buf_new inner app prim_bytes].
  unfold cm_comments, cm_body.
  repeat match goal with |- context [x0a :: ?r] => lazymatch r with [] => fail | _ => change (x0a :: r) with ([x0a] ++ r) end end.
  rewrite <- !app_assoc. cbn [app].
  reflexivity.
Qed.


Ltac lex_lits := repeat (econstructor; [vm_compute; reflexivity|]); apply lx_nil.

Lemma body_a rest : lexes (lit "/CIDInit /ProcSet findresource begin" ++ x0a :: lit "12 dict begin" ++ x0a :: lit "begincmap" ++ x0a ::
  lit "/CIDSystemInfo 3 dict dup begin" ++ x0a :: lit "    /Registry " ++ rest)
  [TName (lit "CIDInit"); TName (lit "ProcSet"); TKeyword (lit "findresource"); TKeyword (lit "begin");
   TInt 12; TKeyword (lit "dict"); TKeyword (lit "begin"); TKeyword (lit "begincmap");
   TName (lit "CIDSystemInfo"); TInt 3; TKeyword (lit "dict"); TKeyword (lit "dup"); TKeyword (lit "begin");
   TName (lit "Registry")] (x20 :: rest).
Proof. lex_lits. Qed.
Lemma body_b rest : lexes (lit " def" ++ x0a :: lit "    /Ordering " ++ rest) [TKeyword (lit "def"); TName (lit "Ordering")] (x20 :: rest).
Proof. lex_lits. Qed.
Lemma body_c rest : lexes (lit " def" ++ x0a :: lit "    /Supplement " ++ rest) [TKeyword (lit "def"); TName (lit "Supplement")] (x20 :: rest).
Proof. lex_lits. Qed.
Lemma body_d rest : lexes (lit " def" ++ x0a :: lit "end def" ++ x0a :: lit "/CMapName " ++ rest)
  [TKeyword (lit "def"); TKeyword (lit "end"); TKeyword (lit "def"); TName (lit "CMapName")] (x20 :: rest).
Proof. lex_lits. Qed.
Lemma body_e rest : lexes (lit " def" ++ x0a :: lit "/CMapVersion 1 def" ++ x0a :: lit "/CMapType 0 def" ++ x0a :: lit "/WMode " ++ rest)
  [TKeyword (lit "def"); TName (lit "CMapVersion"); TInt 1; TKeyword (lit "def"); TName (lit "CMapType"); TInt 0; TKeyword (lit "def");
   TName (lit "WMode")] (x20 :: rest).
Proof. lex_lits. Qed.
Lemma body_f rest : lexes (lit " def" ++ x0a :: lit "1 begincodespacerange" ++ x0a :: rest)
  [TKeyword (lit "def"); TInt 1; TKeyword (lit "begincodespacerange")] (x0a :: rest).
Proof. lex_lits. Qed.
Lemma body_g rest : lexes (x0a :: lit "endcodespacerange" ++ x0a :: rest) [TKeyword (lit "endcodespacerange")] (x0a :: rest).
Proof. lex_lits. Qed.

Lemma body_lexed g name info mode rest :
  lexes (cm_body g name info mode rest) (header_toks g name info mode) (x0a :: rest).
Proof.
  unfold cm_body, header_toks.
  refine (lexes_app _ [_;_;_;_;_;_;_;_;_;_;_;_;_;_] _ _ _ (body_a _) _).
  econstructor; [rewrite next_token_ws1 by reflexivity; apply str_bytes_token|].
  refine (lexes_app _ [_;_] _ _ _ (body_b _) _).
  econstructor; [rewrite next_token_ws1 by reflexivity; apply str_bytes_token|].
  refine (lexes_app _ [_;_] _ _ _ (body_c _) _).
  econstructor; [rewrite next_token_ws1 by reflexivity; apply next_token_int; reflexivity|].
  refine (lexes_app _ [_;_;_;_] _ _ _ (body_d _) _).
  econstructor; [rewrite next_token_ws1 by reflexivity; apply name_token; reflexivity|].
  refine (lexes_app _ [_;_;_;_;_;_;_;_] _ _ _ (body_e _) _).
  econstructor; [rewrite next_token_ws1 by reflexivity; apply next_token_int; reflexivity|].
  refine (lexes_app _ [_;_;_] _ _ _ (body_f _) _).
  econstructor; [rewrite next_token_ws1 by reflexivity; apply hex_token|].
  econstructor; [rewrite next_token_ws1 by reflexivity; apply hex_token|].
  apply body_g.
Qed.

Lemma one_line_app a b : one_line (a ++ b) = one_line a && one_line b.
Proof. apply forallb_app. Qed.
Lemma dec_line z : one_line (dec_i z) = true.
Proof.
  unfold one_line. apply forallb_forall. intros c Hc.
  destruct (dec_i_spec z) as (_ & H & _). rewrite forallb_forall in H. specialize (H c Hc).
  destruct (bmem c [x0a; x0d]) eqn:E; [|reflexivity]. exfalso. revert H E. clear. destruct c; vm_compute; congruence.
Qed.

Definition info_line (info : system_info) : bool := one_line (si_registry info) && one_line (si_ordering info).

Lemma comments_lexed name info s ts r : one_line name = true -> info_line info = true -> ts <> [] ->
  lexes s ts r -> lexes (cm_comments name info s) ts r.
Proof.
  intros Hn Hi Hne H. apply andb_true_iff in Hi. destruct Hi as [H1 H2]. unfold cm_comments.
  apply lexes_comment; [reflexivity|assumption|]. apply lexes_comment; [reflexivity|assumption|].
  apply lexes_comment; [reflexivity|assumption|].
  apply lexes_comment; [rewrite one_line_app, Hn; reflexivity|assumption|].
  apply lexes_comment; [rewrite !one_line_app, Hn, H1, H2, dec_line; reflexivity|assumption|].
  apply lexes_comment; [reflexivity|assumption|]. apply lexes_comment; [reflexivity|assumption|]. assumption.
Qed.

Lemma lexes_tokens_blank s ts w : lexes s ts w -> blanks w = [] -> tokens s = Some ts.
Proof.
  intros H E. unfold tokens.
  assert (G : forall ts f s, lexes s ts w -> (List.length ts <= f)%nat -> tokens_fuel f s = Some ts).
  { clear - E. induction ts as [|t ts IH]; intros f s H Hf.
    - inversion H; subst. destruct f; cbn [tokens_fuel]; rewrite E; reflexivity.
    - inversion H as [|? ? r0 ? ? Hn Hl]; subst. destruct f as [|f]; [cbn in Hf; lia|].
      cbn [tokens_fuel]. destruct (next_token_blanks _ _ _ Hn) as (c & s' & Eb).
      unfold next_token in Hn. rewrite Eb in *. rewrite Hn.
      rewrite (IH f r0); [reflexivity|assumption|cbn in Hf; lia]. }
  apply G; [assumption|]. apply lexes_len in H. lia.
Qed.

Lemma cmap_tokens g name info mode pairs : one_line name = true -> info_line info = true ->
  exists secs, tokens (inner (cmap_build g name info mode pairs)) =
    Some (header_toks g name info mode ++ flat_map (section_toks g) secs ++ footer_toks) /\
    concat secs = pairs /\ Forall (fun l => (1 <= List.length l <= 100)%nat) secs.
Proof.
  intros Hn Hi. destruct (cmap_build_inner g name info mode pairs) as (secs & E & C & F).
  exists secs. refine (conj _ (conj C F)). rewrite E, header_shape.
  eapply lexes_tokens_blank with (w := x0a :: lit "%%EndResource" ++ x0a :: lit "%%EOF"); [|reflexivity].
  apply comments_lexed; [assumption|assumption|discriminate|].
  eapply lexes_app; [apply body_lexed|]. apply (lexes_ws [x0a]); [reflexivity| |].
  - intro E'. apply app_eq_nil in E'. destruct E' as [_ E']. discriminate E'.
  - apply sections_lexed; [discriminate|]. apply footer_lexed.
Qed.
