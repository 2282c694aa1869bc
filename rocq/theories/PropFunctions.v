(** C82: functions. *)

From Coq Require Import ZArith List Bool Lia.
From Verif Require ModelCmap ModelContent SpecContent ModelPs SpecPs PropPs.
From Verif Require Import Bytes ModelFloat ModelBuf ModelObject ModelChunk ModelColor ModelSmall ModelPdf ModelTw ModelEnums ModelRoles ModelTwArgs
  ModelTwFiles ModelTwGraphics ModelTwAnnot ModelTwForms ModelTwAttr ModelTwXObj ModelTwFonts ModelTwDoc ModelFontDesc ModelDoc
  SpecLex SpecObj SpecText SpecMeans SpecRenum SpecChunk SpecFile SpecPdf SpecTyped SpecColor SpecSmall SpecTw SpecEnums SpecRoles SpecTwArgs
  SpecTwFiles SpecTwGraphics SpecTwAnnot SpecTwForms SpecTwAttr SpecTwXObj SpecTwFonts SpecTwDoc SpecFontDesc SpecDoc SpecPages SpecExtract SpecNav SpecViews SpecFunctions
  ProofBasic ProofTree ProofTyped ProofTw ProofTwDoc PropDoc PropPdf2 PropPages PropExtract PropNav PropPaint.
Import ListNotations.
Local Open Scope Z_scope.


(** ** Numbers *)
Lemma number_found f v : is_real f v -> read_number v = Some v.
Proof. intros []; reflexivity. Qed.
Lemma numbers_found l v : is_reals l v -> exists vs, read_numbers v = Some vs /\ numbers_are l vs.
Proof.
  intros (vs & -> & F). exists vs. split; [|exact F]. unfold read_numbers, read_array. induction F as [|f v l vs H F IH]; [reflexivity|].
  cbn [map all_of]. rewrite (number_found _ _ H), IH. reflexivity.
Qed.
Lemma wholes_found l v : is_array_of is_int l v -> read_array read_whole v = Some l.
Proof.
  intros (vs & -> & F). unfold read_array. induction F as [|f v l vs H F IH]; [reflexivity|]. unfold is_int in H. subst v. cbn [map all_of read_whole]. rewrite IH. reflexivity.
Qed.
Section Dict.
  Variables (xs : list entry_spec) (d : list (bytes * val)).
  Hypothesis D : is_dict xs (VDict d).
  Lemma required_numbers k l : entries_for k xs = [(k, is_reals l)] ->
    exists vs, numbers_are l vs /\ forall A (f : list val -> option A), required k d (fun v => bind (read_numbers v) f) = f vs.
  Proof using D.
    intro E. destruct (dict_lookup _ _ _ _ D E) as (v & L & P). destruct (numbers_found _ _ P) as (vs & R & N). exists vs. split; [exact N|].
    intros A f. unfold required. rewrite L. cbn [bind]. rewrite R. reflexivity.
  Qed.
  Lemma required_number k x : entries_for k xs = [(k, is_real x)] ->
    exists v, is_real x v /\ forall A (f : val -> option A), required k d (fun v => bind (read_number v) f) = f v.
  Proof using D.
    intro E. destruct (dict_lookup _ _ _ _ D E) as (v & L & P). exists v. split; [exact P|]. intros A f. unfold required. rewrite L. cbn [bind].
    rewrite (number_found _ _ P). reflexivity.
  Qed.
  Lemma required_whole k x : entries_for k xs = [(k, is_int x)] -> forall A (f : Z -> option A), required k d (fun v => bind (read_whole v) f) = f x.
  Proof using D. intros E A f. destruct (dict_lookup _ _ _ _ D E) as (v & L & ->). unfold required. rewrite L. reflexivity. Qed.
  Lemma required_wholes k x : entries_for k xs = [(k, is_array_of is_int x)] -> forall A (f : list Z -> option A),
    required k d (fun v => bind (read_array read_whole v) f) = f x.
  Proof using D.
    intros E A f. destruct (dict_lookup _ _ _ _ D E) as (v & L & P). unfold required. rewrite L. cbn [bind]. rewrite (wholes_found _ _ P). reflexivity.
  Qed.
  Lemma optional_numbers k l : entries_for k xs = entry_or_none k (option_map is_reals l) ->
    exists r, optionally numbers_are l r /\ optional k d read_numbers = Some r.
  Proof using D.
    intro E. unfold optional. destruct l as [l|]; cbn [option_map entry_or_none] in E.
    - destruct (dict_lookup _ _ _ _ D E) as (v & L & P). destruct (numbers_found _ _ P) as (vs & R & N). exists (Some vs). split; [exact N|]. rewrite L, R. reflexivity.
    - exists None. split; [exact Logic.I|]. rewrite (dict_lookup_none _ _ _ D E). reflexivity.
  Qed.
  Lemma optional_order k o : entries_for k xs = entry_or_none k (option_map is_InterpolationOrder o) ->
    exists r, optional k d read_whole = Some r /\ or_default r 1 = match o with Some InterpolationOrder_Cubic => 3 | _ => 1 end.
  Proof using D.
    intro E. unfold optional. destruct o as [o|]; cbn [option_map entry_or_none] in E.
    - destruct (dict_lookup _ _ _ _ D E) as (v & L & n & -> & P). exists (Some n). rewrite L. split; [reflexivity|]. unfold InterpolationOrder_table in P.
      cbn [by_number] in P. cbn [or_default].
      destruct (n =? 1) eqn:N1; [apply Z.eqb_eq in N1; apply some_inj in P; subst; reflexivity|].
      destruct (n =? 3) eqn:N3; [apply Z.eqb_eq in N3; apply some_inj in P; subst; reflexivity|discriminate].
    - exists None. rewrite (dict_lookup_none _ _ _ D E). split; reflexivity.
  Qed.
End Dict.
Lemma defaulted l r default : optionally numbers_are l r -> numbers_or default l (or_default r default).
Proof. destruct l, r; cbn [optionally numbers_or or_default]; [trivial|contradiction|contradiction|reflexivity]. Qed.
(** A stream's dictionary has its length before the other entries. *)
Lemma length_before xs vs n : is_dict xs (VDict vs) -> is_dict ((lit "Length", is_int n) :: xs) (VDict ((lit "Length", VInt n) :: vs)).
Proof. intros (d & E & F). injection E as <-. exists ((lit "Length", VInt n) :: vs). split; [reflexivity|]. constructor; [split; reflexivity|exact F]. Qed.

Fixpoint function_depth (f : function_asked) : nat :=
  match f with
  | AskStitching _ _ parts _ _ => S ((fix deepest l := match l with [] => 0%nat | (_, f) :: l => Nat.max (function_depth f) (deepest l) end) parts)
  | _ => 1%nat
  end.

(** What stands where a function is written. *)
Definition function_stands (place : function_place) (v : val) : Prop :=
  match place with
  | ById id => is_ref id v
  | InlineExponential calls => ExponentialFunction_reads calls v
  | InlineStitching calls => StitchingFunction_reads calls v
  end.

Tactic Notation "sentries" hyp(H) constr(head) constr(doc) constr(P) :=
  apply (stream_called_entries _ _ _ P head Stream_doc doc) in H; [cbn [option_map entry_or_none] in H|reflexivity|each_call..].

Section Find.
  Variables (decode : option val -> bytes -> option bytes) (resolved : Z -> option indirect) (ops : list doc_op).
  Hypothesis R : Forall (fun op => doc_op_reads op resolved) ops.
  Lemma function_found : forall f place v, function_written decode ops place f -> function_stands place v -> exists r,
    function_is f r /\ forall n, (function_depth f <= n)%nat -> read_function decode resolved n v = Some r.
  Proof using R.
    fix IH 1. intros [domain range size bits order encode decoded samples|domain range c0 c1 e|domain range parts bounds encode|domain range program] place v W P;
      cbn [function_written] in W.
    - destruct W as (id & data & calls & -> & I & H1 & H2 & H3 & H4 & H5 & H6 & H7 & H8). cbn [function_stands] in P. unfold is_ref in P. subst v.
      sentries H1 SampledFunction_head SampledFunction_doc is_reals. sentries H2 SampledFunction_head SampledFunction_doc is_reals.
      sentries H3 SampledFunction_head SampledFunction_doc (is_array_of is_int). sentries H4 SampledFunction_head SampledFunction_doc is_int.
      sentries H5 SampledFunction_head SampledFunction_doc is_InterpolationOrder. sentries H6 SampledFunction_head SampledFunction_doc is_reals.
      sentries H7 SampledFunction_head SampledFunction_doc is_reals.
      apply (stored_with_entries decode SampledFunction_head SampledFunction_doc) in H8; [|reflexivity|each_call].
      destruct (found resolved ops R _ _ I) as (i & E & vs & -> & D).
      pose proof (stream_with_found decode resolved _ _ _ _ _ E D H8) as C.
      pose proof (length_before _ _ (blen data) D) as D'.
      destruct (required_numbers _ _ D' (lit "Domain") domain H1) as (d' & N1 & Q1).
      destruct (optional_numbers _ _ D' (lit "Range") (Some range) H2) as (r' & N2 & Q2). destruct r' as [r'|]; [|contradiction].
      pose proof (required_wholes _ _ D' (lit "Size") size H3) as Q3.
      pose proof (required_whole _ _ D' (lit "BitsPerSample") bits H4) as Q4.
      destruct (optional_order _ _ D' (lit "Order") order H5) as (o' & Q5 & N5).
      destruct (optional_numbers _ _ D' (lit "Encode") encode H6) as (e' & N6 & Q6).
      destruct (optional_numbers _ _ D' (lit "Decode") decoded H7) as (dc' & N7 & Q7).
      eexists. split; [apply (sampled_is domain d' range r' size bits order encode (or_default e' (whole_range size)) decoded (or_default dc' r') samples);
        [exact N1|exact N2|apply defaulted; exact N6|apply defaulted; exact N7]|].
      intros [|n] L; [inversion L|]. cbn [read_function dict_or_stream]. rewrite E, C. cbn [option_map bind fst snd]. cbv zeta.
      assert (T : lookup (lit "FunctionType") ((lit "Length", VInt (blen data)) :: vs) = Some (VInt 0)).
      { destruct (dict_first _ _ _ _ D) as (t & L1 & ->). exact L1. }
      unfold required at 1. rewrite T. cbn [bind read_whole]. rewrite Q1, Q2. cbn [bind]. change (0 =? 0) with true. cbv iota. rewrite Q3, Q4, Q5, Q6, Q7. cbn [bind].
      rewrite N5. reflexivity.
    - destruct W as (calls & (H1 & H2 & H3 & H4 & H5) & W).
      entries H1 ExponentialFunction_head ExponentialFunction_doc is_reals. entries H2 ExponentialFunction_head ExponentialFunction_doc is_reals.
      entries H3 ExponentialFunction_head ExponentialFunction_doc is_reals. entries H4 ExponentialFunction_head ExponentialFunction_doc is_reals.
      entries H5 ExponentialFunction_head ExponentialFunction_doc is_real.
      assert (X : exists d, dict_or_stream decode resolved v = Some (d, None) /\ is_dict (writer_doc ExponentialFunction_head ExponentialFunction_doc calls) (VDict d)).
      { destruct place as [id|calls'|calls']; cbn [function_stands] in P; [|subst calls'|contradiction].
        - unfold is_ref in P. subst v. destruct (found resolved ops R _ _ W) as (i & E & v & -> & D). destruct (dict_is _ _ D) as [d ->].
          exists d. cbn [dict_or_stream]. rewrite E. split; [reflexivity|exact D].
        - destruct (dict_is _ _ P) as [d ->]. exists d. split; [reflexivity|exact P]. }
      destruct X as (d & E & D).
      destruct (required_numbers _ _ D (lit "Domain") domain H1) as (d' & N1 & Q1).
      destruct (optional_numbers _ _ D (lit "Range") range H2) as (r' & N2 & Q2).
      destruct (optional_numbers _ _ D (lit "C0") c0 H3) as (c0' & N3 & Q3).
      destruct (optional_numbers _ _ D (lit "C1") c1 H4) as (c1' & N4 & Q4).
      destruct (required_number _ _ D (lit "N") e H5) as (e' & N5 & Q5).
      eexists. split; [apply (exponential_is domain d' range r' c0 (or_default c0' [VInt 0]) c1 (or_default c1' [VInt 1]) e e');
        [exact N1|exact N2|apply defaulted; exact N3|apply defaulted; exact N4|exact N5]|].
      intros [|n] L; [inversion L|]. cbn [read_function]. rewrite E. cbn [bind fst snd]. cbv zeta.
      assert (T : lookup (lit "FunctionType") d = Some (VInt 2)).
      { destruct (dict_first _ _ _ _ D) as (t & L1 & ->). exact L1. }
      unfold required at 1. rewrite T. cbn [bind read_whole]. rewrite Q1, Q2. cbn [bind]. change (2 =? 0) with false. change (2 =? 2) with true. cbv iota.
      rewrite Q3, Q4. cbn [bind]. rewrite Q5. reflexivity.
    - destruct W as [(calls & (H1 & H2 & H3 & H4 & H5) & W) Ps].
      entries H1 StitchingFunction_head StitchingFunction_doc is_reals. entries H2 StitchingFunction_head StitchingFunction_doc is_reals.
      entries H3 StitchingFunction_head StitchingFunction_doc is_refs. entries H4 StitchingFunction_head StitchingFunction_doc is_reals.
      entries H5 StitchingFunction_head StitchingFunction_doc is_reals.
      assert (X : exists d, dict_or_stream decode resolved v = Some (d, None) /\ is_dict (writer_doc StitchingFunction_head StitchingFunction_doc calls) (VDict d)).
      { destruct place as [id|calls'|calls']; cbn [function_stands] in P; [|contradiction|subst calls'].
        - unfold is_ref in P. subst v. destruct (found resolved ops R _ _ W) as (i & E & v & -> & D). destruct (dict_is _ _ D) as [d ->].
          exists d. cbn [dict_or_stream]. rewrite E. split; [reflexivity|exact D].
        - destruct (dict_is _ _ P) as [d ->]. exists d. split; [reflexivity|exact P]. }
      destruct X as (d & E & D).
      destruct (required_numbers _ _ D (lit "Domain") domain H1) as (d' & N1 & Q1).
      destruct (optional_numbers _ _ D (lit "Range") range H2) as (r' & N2 & Q2).
      destruct (dict_lookup _ _ _ _ D H3) as (fv & L3 & fs & -> & Q3). apply refs_found in Q3. subst fs.
      destruct (required_numbers _ _ D (lit "Bounds") bounds H4) as (b' & N4 & Q4).
      destruct (required_numbers _ _ D (lit "Encode") encode H5) as (e' & N5 & Q5).
      cbn [function_depth]. match goal with |- context [(Datatypes.S ?x <= _)%nat] => set (depth := x) end.
      assert (K : exists ps', Forall2 (fun p => function_is (snd p)) parts ps' /\ forall n, (depth <= n)%nat ->
        all_of (map (read_function decode resolved n) (map (fun r => VRef r 0) (map fst parts))) = Some ps').
      { subst depth. clear - IH R Ps. induction parts as [|[id f] parts IHp]; [exists []; split; [constructor|reflexivity]|].
        destruct Ps as [P1 P2]. destruct (IH f (ById id) (VRef id 0) P1 eq_refl) as (r & F1 & G1). destruct (IHp P2) as (rs & F2 & G2).
        exists (r :: rs). split; [constructor; assumption|]. intros n L. cbn [map all_of fst].
        rewrite G1 by (etransitivity; [apply Nat.le_max_l|exact L]). rewrite G2 by (etransitivity; [apply Nat.le_max_r|exact L]). reflexivity. }
      destruct K as (ps' & N3 & K).
      eexists. split; [apply (stitching_is domain d' range r' parts ps' bounds b' encode e'); assumption|].
      intros [|n] L; [inversion L|]. apply le_S_n in L. cbn [read_function]. rewrite E. cbn [bind fst snd]. cbv zeta.
      assert (T : lookup (lit "FunctionType") d = Some (VInt 3)).
      { destruct (dict_first _ _ _ _ D) as (t & L1 & ->). exact L1. }
      unfold required at 1. rewrite T. cbn [bind read_whole]. rewrite Q1, Q2. cbn [bind].
      change (3 =? 0) with false. change (3 =? 2) with false. change (3 =? 3) with true. cbv iota.
      unfold required at 1. rewrite L3. cbn [bind read_array]. rewrite (K n L). cbn [bind]. rewrite Q4, Q5. reflexivity.
    - destruct W as (id & data & calls & -> & I & H1 & H2 & H3 & H8). cbn [function_stands] in P. unfold is_ref in P. subst v.
      sentries H1 PostScriptFunction_head PostScriptFunction_doc is_reals. sentries H2 PostScriptFunction_head PostScriptFunction_doc is_reals.
      apply (stored_with_entries decode PostScriptFunction_head PostScriptFunction_doc) in H8; [|reflexivity|each_call].
      destruct (found resolved ops R _ _ I) as (i & E & vs & -> & D).
      pose proof (stream_with_found decode resolved _ _ _ _ _ E D H8) as C.
      pose proof (length_before _ _ (blen data) D) as D'.
      destruct (required_numbers _ _ D' (lit "Domain") domain H1) as (d' & N1 & Q1).
      destruct (optional_numbers _ _ D' (lit "Range") (Some range) H2) as (r' & N2 & Q2). destruct r' as [r'|]; [|contradiction].
      destruct (PropPs.C39_round_trip program H3) as (p' & Q3 & N3).
      eexists. split; [apply (calculator_is domain d' range r' program p'); assumption|].
      intros [|n] L; [inversion L|]. cbn [read_function dict_or_stream]. rewrite E, C. cbn [option_map bind fst snd]. cbv zeta.
      assert (T : lookup (lit "FunctionType") ((lit "Length", VInt (blen data)) :: vs) = Some (VInt 4)).
      { destruct (dict_first _ _ _ _ D) as (t & L1 & ->). exact L1. }
      unfold required at 1. rewrite T. cbn [bind read_whole]. rewrite Q1, Q2. cbn [bind].
      change (4 =? 0) with false. change (4 =? 2) with false. change (4 =? 3) with false. change (4 =? 4) with true. cbv iota.
      rewrite Q3. reflexivity.
  Qed.
End Find.

(** A reader that starts from the trailer finds the function that a program wrote under an id, with everything it is made of. *)
Theorem C82_functions : forall decode ops cat file id f,
  finished_document decode ops cat file -> function_written decode ops (ById id) f ->
  exists read depth, function_is f read /\ forall n, (depth <= n)%nat -> read_function decode (resolve decode file) n (VRef id 0) = Some read.
Proof.
  intros decode ops cat file id f D W. destruct (document_facts _ _ _ _ D) as [X _].
  destruct (function_found decode (resolve decode file) ops X f (ById id) (VRef id 0) W eq_refl) as (r & H & G).
  exists r, (function_depth f). split; assumption.
Qed.

(** A function that is stitched together from an exponential one, a sampled one and a calculator. *)
Definition unit_f : list f32 := [f32_zero; one].
Definition function_sample : list doc_op := [
  DocTyped 2 (Ck_pages [Typed (Pages_kids [])]);
  DocTyped 4 (Ck_exponential_function [Typed (ExponentialFunction_domain unit_f); Typed (ExponentialFunction_n one)]);
  DocTyped 5 (Ck_sampled_function [x00; xff] [STyped (SampledFunction_domain unit_f); STyped (SampledFunction_range unit_f); STyped (SampledFunction_size [2]);
    STyped (SampledFunction_bits_per_sample 8); STyped (SampledFunction_order InterpolationOrder_Cubic)]);
  DocTyped 6 (Ck_post_script_function (inner (ModelPs.ps_encode [ModelPs.PsReal one; ModelPs.PsSimple ModelPs.PsAdd]))
    [STyped (PostScriptFunction_domain unit_f); STyped (PostScriptFunction_range unit_f)]);
  DocTyped 7 (Ck_stitching_function [Typed (StitchingFunction_domain unit_f); Typed (StitchingFunction_functions [4; 5; 6]);
    Typed (StitchingFunction_bounds [f32_zero; one]); Typed (StitchingFunction_encode [f32_zero; one; f32_zero; one; f32_zero; one])]);
  DocCatalog 1 [Typed (Catalog_pages 2)]].
Definition function_sampled : function_asked := AskStitching unit_f None
  [(4, AskExponential unit_f None None None one);
   (5, AskSampled unit_f unit_f [2] 8 (Some InterpolationOrder_Cubic) None None [x00; xff]);
   (6, AskCalculator unit_f unit_f [ModelPs.PsReal one; ModelPs.PsSimple ModelPs.PsAdd])] [f32_zero; one] [f32_zero; one; f32_zero; one; f32_zero; one].
Example C82_case : function_written no_filter function_sample (ById 7) function_sampled.
Proof.
  split; [eexists; split; [|cbn [function_sample In]; tauto]; repeat split|]. split; [|split; [|split; [|exact I]]].
  - eexists. split; [|cbn [function_sample In]; tauto]. repeat split.
  - eexists; eexists; eexists. split; [reflexivity|]. split; [cbn [function_sample In]; tauto|]. do 7 (split; [reflexivity|]). exists None. split; reflexivity.
  - eexists; eexists; eexists. split; [reflexivity|]. split; [cbn [function_sample In]; tauto|]. do 2 (split; [reflexivity|]). split; [vm_compute; reflexivity|].
    exists None. split; reflexivity.
Qed.
Definition function_seen (f : option pdf_function) : option (list val * list val * bytes * list SpecPs.psv) :=
  match f with
  | Some (Stitching _ None [Exponential _ None c0 c1 _; Sampled _ _ [2] 8 3 encode _ samples; Calculator _ _ program] _ _) => Some (c0, encode, samples, program)
  | _ => None
  end.
Example C82_file : exists file, finished_document no_filter function_sample 1 file /\
  function_seen (read_function no_filter (resolve no_filter file) 2 (VRef 7 0)) =
    Some ([VInt 0], [VInt 0; VInt 1], [x00; xff], [SpecPs.NReal 10 1; SpecPs.NOp (lit "add")]).
Proof.
  assert (X : match doc_run function_sample (pdf_with_settings true) with
              | Some p => match finish p with Some file => (blen file <=? 10 ^ 10, function_seen (read_function no_filter (resolve no_filter file) 2 (VRef 7 0)))
                  | None => (false, None) end
              | None => (false, None) end = (true, Some ([VInt 0], [VInt 0; VInt 1], [x00; xff], [SpecPs.NReal 10 1; SpecPs.NOp (lit "add")]))) by (vm_compute; reflexivity).
  destruct (doc_run function_sample (pdf_with_settings true)) as [p|] eqn:R; [|discriminate].
  destruct (finish p) as [file|] eqn:F; [|discriminate]. exists file.
  split; [apply (finished_table _ _ _ _ true p); [|exact R|exact F| |apply Z.leb_le; exact (f_equal fst X)|reflexivity]|exact (f_equal snd X)].
  - repeat (apply Forall_cons; [cbn [doc_op_ok op_typed]; repeat split|]); apply Forall_nil.
  - unfold ids_below; repeat constructor.
Qed.

Print Assumptions C82_functions.
