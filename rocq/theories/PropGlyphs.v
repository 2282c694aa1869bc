(** C76: the glyphs of the fonts. *)

From Coq Require Import ZArith List Bool Lia.
From Verif Require ModelCmap ModelContent SpecContent.
From Verif Require Import Bytes ModelFloat ModelBuf ModelObject ModelChunk ModelColor ModelSmall ModelPdf ModelTw ModelEnums ModelRoles ModelTwArgs
  ModelTwFiles ModelTwGraphics ModelTwAnnot ModelTwForms ModelTwAttr ModelTwXObj ModelTwFonts ModelTwDoc ModelFontDesc ModelDoc
  SpecLex SpecObj SpecText SpecMeans SpecRenum SpecChunk SpecFile SpecPdf SpecTyped SpecColor SpecSmall SpecTw SpecEnums SpecRoles SpecTwArgs
  SpecTwFiles SpecTwGraphics SpecTwAnnot SpecTwForms SpecTwAttr SpecTwXObj SpecTwFonts SpecTwDoc SpecFontDesc SpecDoc SpecPages SpecExtract SpecNav SpecViews SpecGlyphs
  ProofBasic ProofTree ProofTyped ProofTw ProofTwDoc PropDoc PropPdf2 PropPages PropExtract PropNav PropTagged.
Import ListNotations.
Local Open Scope Z_scope.

Definition same_width (w : option f32) (v : option val) : Prop := match w, v with Some w, Some v => is_real w v | None, None => True | _, _ => False end.
Lemma last_alike ws ps c : Forall2 same_assignment ws ps -> same_width (last_for c ws) (last_for c ps).
Proof.
  intro F. unfold last_for.
  enough (G : forall a b, same_width a b -> same_width (fold_left (fun a e => if fst e =? c then Some (snd e) else a) ws a)
    (fold_left (fun a e => if fst e =? c then Some (snd e) else a) ps b)) by (apply G; exact Logic.I).
  induction F as [|x y ws ps [A B] F IH]; intros a b H; [exact H|]. cbn [fold_left]. apply IH. rewrite A. destruct (fst x =? c); [exact B|exact H].
Qed.
Lemma reals_alike ws vs n : Forall2 is_real ws vs -> same_width (nth_error ws n) (nth_error vs n).
Proof. intro F. revert n. induction F as [|w v ws vs H F IH]; intros [|n]; cbn [nth_error]; [exact Logic.I|exact Logic.I|exact H|apply IH]. Qed.

Section Fonts.
  Variables (decode : option val -> bytes -> option bytes) (resolved : Z -> option indirect) (ops : list doc_op).
  Hypothesis R : Forall (fun op => doc_op_reads op resolved) ops.

  Lemma data_found id content : data_written decode ops id content -> stream_content decode resolved id = Some content.
  Proof using R. intros (data & scalls & H & S). exact (stream_found decode resolved ops R id data scalls content H S). Qed.
  (** The entries that the calls make. *)
  Definition base_written (xs : list entry_spec) (n : option bytes) : Prop :=
    entries_for (lit "BaseFont") xs = entry_or_none (lit "BaseFont") (option_map is_name n).
  Definition encoding_written (xs : list entry_spec) (e : encoding_asked) : Prop :=
    match e with
    | NoEncoding => entries_for (lit "Encoding") xs = []
    | Predefined n => entries_for (lit "Encoding") xs = [(lit "Encoding", is_name n)]
    | Custom base diffs => exists calls, entries_for (lit "Encoding") xs = [(lit "Encoding", Encoding_reads calls)] /\
        let ys := writer_doc Encoding_head Encoding_doc calls in
        entries_for (lit "BaseEncoding") ys = entry_or_none (lit "BaseEncoding") (option_map is_name base) /\
        entries_for (lit "Differences") ys = entry_or_none (lit "Differences") (option_map is_differences diffs)
    end.
  Definition encoding_reads (e : bytes + Encoding_calls) : val -> Prop := match e with inl n => is_name n | inr cs => Encoding_reads cs end.
  Lemma encoding_of (given : option (bytes + Encoding_calls) -> Prop) xs e : (forall a, given a -> entries_for (lit "Encoding") xs = entry_or_none (lit "Encoding") (option_map encoding_reads a)) ->
    encoding_given given e -> encoding_written xs e.
  Proof using Type.
    intros G W. destruct e as [|n|base diffs]; cbn [encoding_given encoding_written] in *; [exact (G _ W)|exact (G _ W)|].
    destruct W as (calls & W1 & W2 & W3). entries W2 Encoding_head Encoding_doc is_name. entries W3 Encoding_head Encoding_doc is_differences.
    exists calls. split; [exact (G _ W1)|]. split; [exact W2|exact W3].
  Qed.
  Definition widths_written (xs : list entry_spec) (ws : widths_asked) : Prop :=
    match ws with
    | None => entries_for (lit "Widths") xs = []
    | Some (first, last, ws) =>
        entries_for (lit "FirstChar") xs = [(lit "FirstChar", is_int first)] /\ entries_for (lit "LastChar") xs = [(lit "LastChar", is_int last)] /\
        entries_for (lit "Widths") xs = [(lit "Widths", is_reals ws)]
    end.
  Lemma widths_of (first last : option Z -> Prop) (widths : option (list f32) -> Prop) xs ws :
    (forall a, first a -> entries_for (lit "FirstChar") xs = entry_or_none (lit "FirstChar") (option_map is_int a)) ->
    (forall a, last a -> entries_for (lit "LastChar") xs = entry_or_none (lit "LastChar") (option_map is_int a)) ->
    (forall a, widths a -> entries_for (lit "Widths") xs = entry_or_none (lit "Widths") (option_map is_reals a)) ->
    widths_given first last widths ws -> widths_written xs ws.
  Proof using Type.
    intros G1 G2 G3 W. destruct ws as [[[f l] ws]|]; cbn [widths_given widths_written] in *; [|exact (G3 _ W)].
    destruct W as (W1 & W2 & W3). split; [exact (G1 _ W1)|]. split; [exact (G2 _ W2)|exact (G3 _ W3)].
  Qed.
  Definition program_written (ys : list entry_spec) (p : option (font_file * bytes)) : Prop :=
    match p with
    | None => forall f, entries_for (file_key f) ys = []
    | Some (f, content) => (exists id, entries_for (file_key f) ys = [(file_key f, is_ref id)] /\ data_written decode ops id content) /\
        forall g, g <> f -> entries_for (file_key g) ys = []
    end.
  Definition descriptor_written (xs : list entry_spec) (d : option descriptor_asked) : Prop :=
    match d with
    | None => entries_for (lit "FontDescriptor") xs = []
    | Some d => exists id calls, entries_for (lit "FontDescriptor") xs = [(lit "FontDescriptor", is_ref id)] /\
        In (DocTyped id (Ck_font_descriptor calls)) ops /\
        let ys := fd_head ++ flat_map fd_doc calls in
        entries_for (lit "MissingWidth") ys = entry_or_none (lit "MissingWidth") (option_map is_real (de_missing d)) /\
        program_written ys (de_program d)
    end.
  Lemma descriptor_entries {A} k (P : A -> val -> Prop) sel calls a : bytes_eqb k (lit "Type") = false ->
    (forall c, match c with Fd_raw _ _ => True | _ => entries_for k (fd_doc c) = map (reading k P) (sel c) end) ->
    descriptor_called k sel calls a -> entries_for k (fd_head ++ flat_map fd_doc calls) = entry_or_none k (option_map P a).
  Proof using Type.
    intros T H W. unfold descriptor_called in W.
    assert (E : entries_for k (flat_map fd_doc calls) =
      map (reading k P) (flat_map (fun c => match c with Fd_raw k' o => if bytes_eqb k k' then [inr o] else [] | _ => sel c end) calls)).
    { clear W. induction calls as [|c calls IH]; [reflexivity|]. cbn [flat_map]. rewrite entries_for_app, map_app, IH. f_equal. specialize (H c).
      destruct c; try exact H. cbn [fd_doc]. unfold entries_for. cbn [List.filter fst]. destruct (bytes_eqb k key) eqn:K; [|reflexivity].
      apply bytes_eqb_spec in K. subst key. reflexivity. }
    rewrite W in E. rewrite entries_for_app, E. unfold fd_head, entries_for. cbn [List.filter fst]. rewrite T. destruct a; reflexivity.
  Qed.
  Lemma file_entries f calls a : descriptor_called (file_key f) (file_call f) calls a ->
    entries_for (file_key f) (fd_head ++ flat_map fd_doc calls) = entry_or_none (file_key f) (option_map is_ref a).
  Proof using Type.
    intro H. apply (descriptor_entries _ is_ref) in H; [exact H|destruct f; reflexivity|]. intro c. destruct f; destruct c; exact Logic.I || reflexivity.
  Qed.
  Lemma descriptor_of (given : option Z -> Prop) xs d : (forall a, given a -> entries_for (lit "FontDescriptor") xs = entry_or_none (lit "FontDescriptor") (option_map is_ref a)) ->
    descriptor_given decode ops given d -> descriptor_written xs d.
  Proof using Type.
    intros G W. destruct d as [d|]; cbn [descriptor_given descriptor_written] in *; [|exact (G _ W)].
    destruct W as (id & calls & W1 & W2 & W3 & W4). exists id, calls. split; [exact (G _ W1)|]. split; [exact W2|]. cbv zeta.
    apply (descriptor_entries _ is_real) in W3; [|reflexivity|let c := fresh in intro c; destruct c; exact Logic.I || reflexivity].
    split; [exact W3|]. unfold program_given in W4. destruct (de_program d) as [[f content]|]; cbn [program_written].
    - destruct W4 as [(pid & W4 & W5) W6]. split; [exists pid; split; [exact (file_entries f calls _ W4)|exact W5]|]. intros g N. exact (file_entries g calls _ (W6 g N)).
    - intro f. exact (file_entries f calls _ (W4 f)).
  Qed.
  Lemma own_type {C} head (doc : C -> list entry_spec) calls : (forall c, entries_for (lit "Subtype") (doc c) = []) -> called (lit "Subtype") no_method calls None ->
    entries_for (lit "Subtype") (writer_doc head doc calls) = entries_for (lit "Subtype") head.
  Proof using Type.
    intros H W. rewrite (given_entries (lit "Subtype") no_method (fun (_ : False) _ => False) head doc calls H), W. apply app_nil_r.
  Qed.
  Lemma base_found xs d n : is_dict xs (VDict d) -> base_written xs n -> optional (lit "BaseFont") d read_name = Some n.
  Proof using Type.
    intros D W. apply (optional_found _ _ _ _ _ _ D W). destruct n as [n|]; cbn [option_map]; [|exact Logic.I]. intros v ->. reflexivity.
  Qed.
  Lemma encoding_found xs d e : is_dict xs (VDict d) -> encoding_written xs e ->
    exists n l, read_encoding resolved d = Some (n, l) /\
      n = match e with NoEncoding => None | Predefined n => Some n | Custom base _ => base end /\
      forall c, last_for c l = match e with Custom _ (Some calls) => last_for c (flat_map (fun c => numbered (fst c) (snd c)) calls) | _ => None end.
  Proof using Type.
    intros D W. unfold read_encoding. destruct e as [|n|base diffs]; cbn [encoding_written] in W.
    - rewrite (dict_lookup_none _ _ _ D W). exists None, []. repeat split.
    - destruct (dict_lookup _ _ _ _ D W) as (v & L & ->). rewrite L. exists (Some n), []. repeat split.
    - destruct W as (calls & W1 & W2). cbv zeta in W2. destruct W2 as [W2 W3]. destruct (dict_lookup _ _ _ _ D W1) as (v & L & Q). rewrite L.
      destruct (dict_is _ _ Q) as [en ->]. cbn [object_dict bind].
      rewrite (optional_found _ _ _ _ read_name base Q W2) by (destruct base as [b|]; cbn [option_map]; [intros v ->; reflexivity|exact Logic.I]). cbn [bind].
      rewrite (optional_found _ _ _ _ read_diffs (option_map (flat_map (fun c => numbered (fst c) (snd c))) diffs) Q W3)
        by (destruct diffs as [c|]; cbn [option_map]; [intros v (vs & -> & E); exact E|exact Logic.I]). cbn [bind].
      eexists _, _. split; [reflexivity|]. split; [reflexivity|]. intro c. destruct diffs; reflexivity.
  Qed.
  Lemma program_found ys desc p : is_dict ys (VDict desc) -> program_written ys p ->
    first_program decode resolved [FontFile; FontFile2; FontFile3] desc = Some p.
  Proof using R.
    intros D W. destruct p as [[f content]|]; cbn [program_written] in W.
    - destruct W as [(id & W1 & W2) W3]. destruct (dict_lookup _ _ _ _ D W1) as (v & L & ->). apply data_found in W2.
      assert (N : forall g, g <> f -> lookup (file_key g) desc = None) by (intros g Hg; exact (dict_lookup_none _ _ _ D (W3 g Hg))).
      destruct f; cbn [first_program].
      + rewrite L. cbn [read_id bind]. rewrite W2. reflexivity.
      + rewrite (N FontFile) by discriminate. rewrite L. cbn [read_id bind]. rewrite W2. reflexivity.
      + rewrite (N FontFile) by discriminate. rewrite (N FontFile2) by discriminate. rewrite L. cbn [read_id bind]. rewrite W2. reflexivity.
    - cbn [first_program]. rewrite !(fun f => dict_lookup_none _ _ _ D (W f)). reflexivity.
  Qed.
  Lemma descriptor_found xs d a : is_dict xs (VDict d) -> descriptor_written xs a ->
    exists missing, read_descriptor decode resolved d = Some (missing, match a with Some a => de_program a | None => None end) /\
      same_width (match a with Some a => de_missing a | None => None end) missing.
  Proof using R.
    intros D W. unfold read_descriptor. destruct a as [a|]; cbn [descriptor_written] in W.
    - destruct W as (id & calls & W1 & W2 & W3). cbv zeta in W3. destruct W3 as [W3 W4]. destruct (dict_lookup _ _ _ _ D W1) as (v & L & ->). rewrite L.
      destruct (found resolved ops R _ _ W2) as (i & E & v & -> & Q). destruct (dict_is _ _ Q) as [desc ->]. cbn [object_dict]. rewrite E. cbn [bind].
      rewrite (program_found _ _ _ Q W4). cbn [option_map]. eexists. split; [reflexivity|].
      destruct (de_missing a) as [w|]; cbn [option_map entry_or_none] in W3.
      + destruct (dict_lookup _ _ _ _ Q W3) as (v & L' & Q'). rewrite L'. exact Q'.
      + rewrite (dict_lookup_none _ _ _ Q W3). exact Logic.I.
    - rewrite (dict_lookup_none _ _ _ D W). exists None. split; [reflexivity|exact Logic.I].
  Qed.
  Lemma widths_found xs d ws missing m : is_dict xs (VDict d) -> widths_written xs ws -> same_width missing m -> forall code,
    same_width (match ws with
      | Some (first, last, ws) => if (first <=? code) && (code <=? last) then nth_error ws (Z.to_nat (code - first)) else missing
      | None => missing end) (simple_width d m code).
  Proof using Type.
    intros D W M code. unfold simple_width. destruct ws as [[[first last] ws]|]; cbn [widths_written] in W.
    - destruct W as (W1 & W2 & W3). destruct (dict_lookup _ _ _ _ D W1) as (v1 & L1 & ->). destruct (dict_lookup _ _ _ _ D W2) as (v2 & L2 & ->).
      destruct (dict_lookup _ _ _ _ D W3) as (v3 & L3 & vs & -> & F). rewrite L1, L2, L3.
      destruct ((first <=? code) && (code <=? last)); [apply reals_alike; exact F|exact M].
    - rewrite (dict_lookup_none _ _ _ D W).
      destruct (lookup (lit "FirstChar") d) as [[]|]; try exact M. destruct (lookup (lit "LastChar") d) as [[]|]; exact M.
  Qed.
  Lemma procs_found name (procs : list (bytes * (Z * list ModelContent.ccall))) : Forall (fun p => content_written decode ops (snd (snd p)) (fst (snd p))) procs ->
    forall vs, Forall2 (fun e x => fst x = fst e /\ snd e (snd x)) (map (fun e => (fst e, is_ref (snd e))) (map (fun p => (fst p, fst (snd p))) procs)) vs ->
    match (fix find (l : list (bytes * (Z * list ModelContent.ccall))) := match l with [] => None | (n, (_, calls)) :: r => if bytes_eqb name n then Some calls else find r end) procs,
          read_proc decode resolved (Some vs) name with
    | Some calls, Some l => Forall2 SpecContent.ccall_means calls l
    | None, None => True
    | _, _ => False
    end.
  Proof using R.
    unfold read_proc. cbn [bind]. unfold required. intro W. induction W as [|[n [id calls]] procs W1 W IH]; intros vs F; inversion F as [|? [k v] ? vs' [A B] F']; subst.
    - exact Logic.I.
    - cbn [fst snd] in *. subst k. cbn [lookup]. destruct (bytes_eqb name n); [|exact (IH vs' F')]. unfold is_ref in B. subst v. cbn [read_id bind].
      destruct (content_found decode resolved ops R _ _ W1) as (pretty & out & E1 & E2 & c & E3 & ->). rewrite E1. cbn [bind].
      destruct (PropContent.C36_finish_keeps_operations pretty calls c E2 E3) as (_ & l & P & M). rewrite P. exact M.
  Qed.
  Definition map_reads (x : bytes + Z) : val -> Prop := match x with inl n => is_name n | inr id => is_ref id end.
  Lemma map_found calls d m : is_dict (writer_doc CidFont_head CidFont_doc calls) (VDict d) -> map_given decode ops calls m -> optional (lit "CIDToGIDMap") d (read_map decode resolved) = Some m.
  Proof using R.
    intros D W. unfold optional. destruct m as [[n|content]|]; cbn [map_given] in W.
    - entries W CidFont_head CidFont_doc map_reads. destruct (dict_lookup _ _ _ _ D W) as (v & L & ->). rewrite L. reflexivity.
    - destruct W as (id & W1 & W2). entries W1 CidFont_head CidFont_doc map_reads. destruct (dict_lookup _ _ _ _ D W1) as (v & L & ->). rewrite L. cbn [read_map]. rewrite (data_found _ _ W2). reflexivity.
    - entries W CidFont_head CidFont_doc map_reads. rewrite (dict_lookup_none _ _ _ D W). reflexivity.
  Qed.
  Lemma font_found id a : glyphs_written decode ops id a -> exists r, see_font decode resolved (VRef id 0) = Some r /\ glyphs_are a r.
  Proof using R.
    intro W. destruct a as [base e ws desc|e ws desc procs|base encoding default ws desc m]; cbn [glyphs_written] in W.
    - destruct W as (calls & H & W1 & W2 & W3 & W4 & W5 & W6).
      apply (own_type Type1Font_head Type1Font_doc) in W1; [|each_call]. entries W2 Type1Font_head Type1Font_doc (fun (_ : False) (_ : val) => False).
      entries W3 Type1Font_head Type1Font_doc is_name.
      apply (encoding_of _ (writer_doc Type1Font_head Type1Font_doc calls)) in W4; [|intros a Ha; entries Ha Type1Font_head Type1Font_doc encoding_reads; exact Ha].
      apply (widths_of _ _ _ (writer_doc Type1Font_head Type1Font_doc calls)) in W5;
        [|intros a Ha; entries Ha Type1Font_head Type1Font_doc is_int; exact Ha|intros a Ha; entries Ha Type1Font_head Type1Font_doc is_int; exact Ha
         |intros a Ha; entries Ha Type1Font_head Type1Font_doc is_reals; exact Ha].
      apply (descriptor_of _ (writer_doc Type1Font_head Type1Font_doc calls)) in W6; [|intros a Ha; entries Ha Type1Font_head Type1Font_doc is_ref; exact Ha].
      destruct (found resolved ops R _ _ H) as (i & E & v & -> & D). destruct (dict_is _ _ D) as [d ->].
      unfold see_font. cbn [object_dict]. rewrite E. cbn [bind]. unfold required. destruct (dict_lookup _ _ _ _ D W1) as (v & L & ->). rewrite L. cbn [bind read_name].
      rewrite (base_found _ _ _ D W3). cbn [bind]. destruct (encoding_found _ _ _ D W4) as (n & l & E1 & E2 & E3). rewrite E1. cbn [bind fst snd].
      change (bytes_eqb (lit "Type1") (lit "Type0")) with false. cbv iota.
      destruct (descriptor_found _ _ _ D W6) as (missing & F1 & F2). rewrite F1. cbn [bind fst snd].
      unfold optional. rewrite (dict_lookup_none _ _ _ D W2). cbn [bind]. eexists. split; [reflexivity|].
      unfold glyphs_are. cbn [fo_type fo_base fo_encoding fo_glyph fo_width fo_proc fo_program fo_map].
      split; [reflexivity|]. split; [reflexivity|]. split; [exact E2|]. split; [exact E3|]. split; [exact (widths_found _ _ _ _ _ D W5 F2)|].
      split; [intro; exact Logic.I|]. split; [unfold asked_program; destruct desc; reflexivity|reflexivity].
    - destruct W as (calls & H & W1 & W2 & W3 & W4 & W5 & W6 & W7).
      apply (own_type Type3Font_head Type3Font_doc) in W1; [|each_call].
      assert (W2' : base_written (writer_doc Type3Font_head Type3Font_doc calls) None).
      { entries W2 Type3Font_head Type3Font_doc (fun (_ : False) (_ : val) => False). exact W2. }
      clear W2. rename W2' into W2.
      apply (encoding_of _ (writer_doc Type3Font_head Type3Font_doc calls)) in W3; [|intros a Ha; entries Ha Type3Font_head Type3Font_doc encoding_reads; exact Ha].
      apply (widths_of _ _ _ (writer_doc Type3Font_head Type3Font_doc calls)) in W4;
        [|intros a Ha; entries Ha Type3Font_head Type3Font_doc is_int; exact Ha|intros a Ha; entries Ha Type3Font_head Type3Font_doc is_int; exact Ha
         |intros a Ha; entries Ha Type3Font_head Type3Font_doc is_reals; exact Ha].
      apply (descriptor_of _ (writer_doc Type3Font_head Type3Font_doc calls)) in W5; [|intros a Ha; entries Ha Type3Font_head Type3Font_doc is_ref; exact Ha].
      entries W6 Type3Font_head Type3Font_doc (is_dict_of is_ref).
      destruct (found resolved ops R _ _ H) as (i & E & v & -> & D). destruct (dict_is _ _ D) as [d ->].
      unfold see_font. cbn [object_dict]. rewrite E. cbn [bind]. unfold required. destruct (dict_lookup _ _ _ _ D W1) as (v & L & ->). rewrite L. cbn [bind read_name].
      rewrite (base_found _ _ _ D W2). cbn [bind]. destruct (encoding_found _ _ _ D W3) as (n & l & E1 & E2 & E3). rewrite E1. cbn [bind fst snd].
      change (bytes_eqb (lit "Type3") (lit "Type0")) with false. cbv iota.
      destruct (descriptor_found _ _ _ D W5) as (missing & F1 & F2). rewrite F1. cbn [bind fst snd].
      destruct (dict_lookup _ _ _ _ D W6) as (v & L' & vs & -> & F). unfold optional. rewrite L'. cbn [object_dict bind]. eexists. split; [reflexivity|].
      unfold glyphs_are. cbn [fo_type fo_base fo_encoding fo_glyph fo_width fo_proc fo_program fo_map].
      split; [reflexivity|]. split; [reflexivity|]. split; [exact E2|]. split; [exact E3|]. split; [exact (widths_found _ _ _ _ _ D W4 F2)|].
      split; [intro name; exact (procs_found name procs W7 vs F)|]. split; [unfold asked_program; destruct desc; reflexivity|reflexivity].
    - destruct W as (calls & cid & ccalls & H & W1 & W2 & W3 & W4 & H2 & W5 & W6 & W7 & W8).
      apply (own_type Type0Font_head Type0Font_doc) in W1; [|each_call].
      entries W2 Type0Font_head Type0Font_doc is_name. entries W3 Type0Font_head Type0Font_doc map_reads.
      entries W4 Type0Font_head Type0Font_doc (fun id => is_array [is_ref id]).
      entries W5 CidFont_head CidFont_doc is_real. entries W6 CidFont_head CidFont_doc is_widths.
      apply (descriptor_of _ (writer_doc CidFont_head CidFont_doc ccalls)) in W7; [|intros a Ha; entries Ha CidFont_head CidFont_doc is_ref; exact Ha].
      destruct (found resolved ops R _ _ H) as (i & E & v & -> & D). destruct (dict_is _ _ D) as [d ->].
      unfold see_font. cbn [object_dict]. rewrite E. cbn [bind]. unfold required. destruct (dict_lookup _ _ _ _ D W1) as (v & L & ->). rewrite L. cbn [bind read_name].
      rewrite (base_found _ _ _ D W2). cbn [bind]. destruct (encoding_found _ _ (Predefined encoding) D W3) as (n & l & E1 & E2 & E3). rewrite E1. cbn [bind fst snd].
      change (bytes_eqb (lit "Type0") (lit "Type0")) with true. cbv iota.
      destruct (dict_lookup _ _ _ _ D W4) as (v & L' & vs & -> & F). rewrite L'. cbn [bind].
      inversion F as [|? v ? vs' Q F']; subst. inversion F'; subst. unfold is_ref in Q. subst v. clear F F'.
      destruct (found resolved ops R _ _ H2) as (i & E' & v & -> & D'). destruct (dict_is _ _ D') as [c ->]. cbn [object_dict]. rewrite E'. cbn [bind].
      destruct (descriptor_found _ _ _ D' W7) as (missing & F1 & F2). rewrite F1. cbn [bind fst snd].
      assert (Y : exists ps, optional (lit "W") c read_width_array = Some ps /\ forall code,
        same_width (match ws with Some calls => last_for code (flat_map asked_widths calls) | None => None end)
          (last_for code (match ps with Some l => l | None => [] end))).
      { unfold optional. destruct ws as [wc|]; cbn [option_map entry_or_none] in W6.
        - destruct (dict_lookup _ _ _ _ D' W6) as (v & L2 & vs & ps & -> & P & A). rewrite L2. cbn [read_width_array]. rewrite P. exists (Some ps).
          split; [reflexivity|]. intro code. apply last_alike. exact A.
        - rewrite (dict_lookup_none _ _ _ D' W6). exists None. split; [reflexivity|]. intro. exact Logic.I. }
      destruct Y as (ps & Y1 & Y2). rewrite Y1. cbn [bind]. rewrite (map_found _ _ _ D' W8). cbn [bind]. cbv zeta. eexists. split; [reflexivity|].
      unfold glyphs_are. cbn [fo_type fo_base fo_encoding fo_glyph fo_width fo_proc fo_program fo_map].
      split; [reflexivity|]. split; [reflexivity|]. split; [reflexivity|]. split; [exact E3|]. split.
      { intro code. specialize (Y2 code).
        assert (Dw : same_width default (lookup (lit "DW") c)).
        { destruct default as [w|]; cbn [option_map entry_or_none] in W5.
          - destruct (dict_lookup _ _ _ _ D' W5) as (v & L2 & Q). rewrite L2. exact Q.
          - rewrite (dict_lookup_none _ _ _ D' W5). exact Logic.I. }
        cbn [asked_width]. destruct ws as [wc|].
        - destruct (last_for code (flat_map asked_widths wc)), (last_for code match ps with Some l => l | None => [] end); try contradiction; [exact Y2|exact Dw].
        - destruct (last_for code match ps with Some l => l | None => [] end); [contradiction|exact Dw]. }
      split; [intro; exact Logic.I|]. split; [unfold asked_program; destruct desc; reflexivity|reflexivity].
  Qed.
  Lemma page_glyphs_found page rv l : Resources_reads (pa_resources page) rv -> page_fonts_written decode ops page l ->
    exists rs, see_fonts decode resolved rv = Some rs /\ Forall2 page_glyphs_are l rs.
  Proof using R.
    intros P [W F]. destruct (dict_is _ _ P) as [r ->]. unfold see_fonts. cbn [object_dict bind]. destruct W as [[-> W]|W]; apply fonts_entry in W.
    - rewrite (dict_lookup_none _ _ _ P W). exists []. split; [reflexivity|constructor].
    - destruct (dict_lookup _ _ _ _ P W) as (w & L2 & P2). rewrite L2. unfold as_references in P2. rewrite map_map in P2. cbn [fst snd] in P2. inversion P2 as [| | | | | | | | | | | |? ws M]; subst. cbn [object_dict bind]. clear - R F M.
      revert ws M. induction F as [|[n [id a]] l F1 F IH]; intros ws M; inversion M as [|? [k v] ? ws' [A B] M']; subst; [exists []; split; [reflexivity|constructor]|].
      cbn [fst snd] in *. subst k. inversion B; subst. destruct (font_found _ _ F1) as (r & E & X). destruct (IH ws' M') as (rs & Es & Xs).
      cbn [map all_of fst snd]. rewrite E. cbn [option_map]. rewrite Es. eexists. split; [reflexivity|]. constructor; [split; [reflexivity|exact X]|exact Xs].
  Qed.
End Fonts.

(** A reader that starts from the trailer finds for every page its fonts, with the glyph names, widths, procedures, program and map asked for. *)
Theorem C76_fonts : forall decode ops cat file calls tree fonts,
  finished_document decode ops cat file -> In (DocCatalog cat calls) ops ->
  views_written decode ops calls tree ->
  Forall2 (page_fonts_written decode ops) (vt_pages [] tree) fonts ->
  exists read, Forall2 (Forall2 page_glyphs_are) fonts read /\
    exists depth, forall n, (depth <= n)%nat -> read_page_fonts decode n file = Some read.
Proof.
  intros decode ops cat file calls tree fonts D I W M. destruct (document_facts _ _ _ _ D) as [X _].
  destruct (views_found _ _ _ _ _ _ D I W) as (vs & F & P).
  assert (Y : exists read, Forall2 (Forall2 page_glyphs_are) fonts read /\
    all_of (map (fun p => see_fonts decode (resolve decode file) (snd (fst p))) vs) = Some read).
  { clear - M F X. revert fonts M. induction F as [|p v ps vs (H1 & H2 & H3) F IH]; intros fonts M; inversion M as [|? l ? ls M1 M']; subst.
    - exists []. split; [constructor|reflexivity].
    - destruct (IH ls M') as (read & Y1 & Y2). destruct (page_glyphs_found decode _ ops X _ _ _ H2 M1) as (rs & E & Z).
      exists (rs :: read). split; [constructor; assumption|]. cbn [map all_of]. rewrite E, Y2. reflexivity. }
  destruct Y as (read & Y1 & Y2). exists read. split; [exact Y1|]. exists (vt_depth tree). intros n Hn. unfold read_page_fonts. rewrite (P n Hn). exact Y2.
Qed.

(** ** A concrete case: a Type 1 font with a custom encoding and an embedded program, a Type 3 font, a composite font. *)
Definition two_to (e : Z) : f32 := FFin false 8388608 (e - 23).
Definition glyph_square : list ModelContent.ccall := [ModelContent.CStartColorGlyph (two_to 9); ModelContent.CRect f32_zero f32_zero (two_to 8) (two_to 8); ModelContent.CFillNonzero].
Definition glyph_resources : Resources_calls := [Typed (Resources_fonts [(lit "A", OPrim (PRef 10)); (lit "B", OPrim (PRef 20)); (lit "C", OPrim (PRef 30))])].
Definition glyph_sample : list doc_op := [
  DocTyped 2 (Ck_pages [Typed (Pages_kids [3]); Typed (Pages_resources glyph_resources)]);
  DocTyped 3 (Ck_page []);
  DocTyped 10 (Ck_type1_font [Typed (Type1Font_base_font (lit "X")); Typed (Type1Font_first_char 65); Typed (Type1Font_last_char 66);
    Typed (Type1Font_widths [two_to 9; two_to 8]); Typed (Type1Font_encoding_custom [Typed (Encoding_differences [(65, [lit "alpha"; lit "beta"]); (66, [lit "gamma"])])]);
    Typed (Type1Font_font_descriptor 11)]);
  DocTyped 11 (Ck_font_descriptor [Fd_name (lit "X"); Fd_missing_width (two_to 7); Fd_font_file3 12]);
  DocTyped 12 (Ck_stream (lit "CFF") [Raw (lit "Subtype") (OPrim (PName (lit "Type1C")))]);
  DocTyped 20 (Ck_type3_font [Typed (Type3Font_char_procs [(lit "sq", 21)]); Typed (Type3Font_encoding_predefined (lit "E"))]);
  DocTyped 21 (Ck_stream (content_of glyph_square) []);
  DocTyped 30 (Ck_type0_font [Typed (Type0Font_encoding_predefined (lit "Identity-H")); Typed (Type0Font_descendant_font 31)]);
  DocTyped 31 (Ck_cid_font [Typed (CidFont_default_width (two_to 6)); Typed (CidFont_widths [WSame 3 9 (two_to 5); WConsecutive 5 [two_to 4; two_to 3]]);
    Typed (CidFont_cid_to_gid_map_stream 32)]);
  DocTyped 32 (Ck_stream [x00; x01] []);
  DocCatalog 1 [Typed (Catalog_pages 2)]].
Definition glyph_fonts : list (bytes * (Z * font_asked)) := [
  (lit "A", (10, AskType1 (Some (lit "X")) (Custom None (Some [(65, [lit "alpha"; lit "beta"]); (66, [lit "gamma"])])) (Some (65, 66, [two_to 9; two_to 8]))
    (Some (mkDescriptor (Some (two_to 7)) (Some (FontFile3, lit "CFF"))))));
  (lit "B", (20, AskType3 (Predefined (lit "E")) None None [(lit "sq", (21, glyph_square))]));
  (lit "C", (30, AskType0 None (lit "Identity-H") (Some (two_to 6)) (Some [WSame 3 9 (two_to 5); WConsecutive 5 [two_to 4; two_to 3]]) None (Some (TableMap [x00; x01]))))].
Definition glyph_tree : view_tree := VtNode 2 (Some glyph_resources) [VtPage 3 None NoContents].
Example C76_case : views_written no_filter glyph_sample [Typed (Catalog_pages 2)] glyph_tree /\
  Forall2 (page_fonts_written no_filter glyph_sample) (vt_pages [] glyph_tree) [glyph_fonts] /\
  map (fun a => map (asked_width (snd (snd a))) [3; 5; 6; 9; 10; 65; 66; 67]) glyph_fonts =
    [map Some (map two_to [7; 7; 7; 7; 7; 9; 8; 7]); repeat None 8; map Some (map two_to [5; 4; 3; 5; 6; 6; 6; 6])] /\
  map (fun a => map (asked_glyph (snd (snd a))) [64; 65; 66]) glyph_fonts = [[None; Some (lit "alpha"); Some (lit "gamma")]; [None; None; None]; [None; None; None]].
Proof.
  split; [|split; [|split; reflexivity]].
  - split; [reflexivity|]. split; [eexists; split; [cbn [glyph_sample In]; tauto|]; split; reflexivity|].
    split; [|exact Logic.I]. eexists; split; [cbn [glyph_sample In]; tauto|]. split; reflexivity.
  - constructor; [|constructor]. split; [right; reflexivity|].
    apply Forall_cons; [|apply Forall_cons; [|apply Forall_cons; [|apply Forall_nil]]]; cbn [fst snd glyphs_written].
    + eexists. split; [cbn [glyph_sample In]; tauto|]. split; [reflexivity|]. split; [reflexivity|]. split; [reflexivity|].
      split; [eexists; split; [reflexivity|split; reflexivity]|]. split; [split; [reflexivity|split; reflexivity]|].
      eexists _, _. split; [reflexivity|]. split; [cbn [glyph_sample In]; tauto|]. split; [reflexivity|]. split.
      * eexists. split; [reflexivity|]. eexists _, _. split; [cbn [glyph_sample In]; tauto|]. exists None. split; reflexivity.
      * intros []; intro H; [reflexivity|reflexivity|congruence].
    + eexists. split; [cbn [glyph_sample In]; tauto|]. split; [reflexivity|]. split; [reflexivity|]. split; [reflexivity|]. split; [reflexivity|]. split; [reflexivity|].
      split; [reflexivity|]. apply Forall_cons; [|apply Forall_nil]. cbn [fst snd].
      destruct (ModelContent.content_run glyph_square (ModelContent.content_with_settings false)) as [c|] eqn:E; [|vm_compute in E; discriminate].
      exists [], (content_of glyph_square), false, c. split; [cbn [glyph_sample In]; tauto|]. split; [reflexivity|]. split; [exact E|].
      exists None. split; [reflexivity|]. unfold content_of. rewrite E. reflexivity.
    + eexists _, _, _. split; [cbn [glyph_sample In]; tauto|]. split; [reflexivity|]. split; [reflexivity|]. split; [reflexivity|]. split; [reflexivity|].
      split; [cbn [glyph_sample In]; tauto|]. split; [reflexivity|]. split; [reflexivity|]. split; [reflexivity|].
      eexists. split; [reflexivity|]. eexists _, _. split; [cbn [glyph_sample In]; tauto|]. exists None. split; reflexivity.
Qed.
Definition glyphs_seen (l : option (list (list (bytes * font_seen)))) :=
  option_map (map (map (fun e => let r := snd e in (fst e, fo_type r, map (fo_width r) [6; 65; 66; 67], map (fo_glyph r) [65; 66],
    option_map (map snd) (fo_proc r (lit "sq")), fo_program r, fo_map r)))) l.
Definition glyphs_result := [[
  (lit "A", lit "Type1", [Some (VInt 128); Some (VInt 512); Some (VInt 256); Some (VInt 128)], [Some (lit "alpha"); Some (lit "gamma")], None, Some (FontFile3, lit "CFF"), None);
  (lit "B", lit "Type3", [None; None; None; None], [None; None], Some [lit "d0"; lit "re"; lit "f"], None, None);
  (lit "C", lit "Type0", [Some (VInt 8); Some (VInt 64); Some (VInt 64); Some (VInt 64)], [None; None], None, None, Some (TableMap [x00; x01]))]].
(** And the file is really read so. *)
Example C76_file : exists file, finished_document no_filter glyph_sample 1 file /\ glyphs_seen (read_page_fonts no_filter 2 file) = Some glyphs_result.
Proof.
  assert (X : match doc_run glyph_sample (pdf_with_settings true) with
              | Some p => match finish p with Some f => (blen f <=? 10 ^ 10, glyphs_seen (read_page_fonts no_filter 2 f)) | None => (false, None) end
              | None => (false, None) end = (true, Some glyphs_result)) by (vm_compute; reflexivity).
  destruct (doc_run glyph_sample (pdf_with_settings true)) as [p|] eqn:R; [|discriminate].
  destruct (finish p) as [file|] eqn:F; [|discriminate]. exists file.
  split; [apply (finished_table _ _ _ _ true p); [|exact R|exact F| |apply Z.leb_le; exact (f_equal fst X)|reflexivity]|].
  - repeat (apply Forall_cons; [cbn [doc_op_ok op_typed]; repeat split|]); apply Forall_nil.
  - unfold ids_below; repeat constructor.
  - exact (f_equal snd X).
Qed.

Print Assumptions C76_fonts.
