(** PostScript calculator programs: output, lexing, reading. *)

From Coq Require Import ZArith List Lia Bool ZifyBool ZifyNat.
From Verif Require Import Bytes ModelFloat ModelBuf ModelPs SpecLex SpecText SpecMeans SpecPs
  ProofBasic ProofFloat ProofFloat2 ProofRound ProofObj ProofParse ProofTree ProofChunkParse.
Import ListNotations.
Local Open Scope Z_scope.

Section Ind.
  Variable P : psop -> Prop.
  Hypothesis HR : forall r, P (PsReal r).
  Hypothesis HI : forall i, P (PsInteger i).
  Hypothesis HS : forall k, P (PsSimple k).
  Hypothesis HIf : forall l, Forall P l -> P (PsIf l).
  Hypothesis HIe : forall a b, Forall P a -> Forall P b -> P (PsIfElse a b).
  Fixpoint psop_ind' (o : psop) : P o :=
    let go := fix go (l : list psop) : Forall P l :=
      match l with [] => Forall_nil P | o :: r => Forall_cons o (psop_ind' o) (go r) end in
    match o with
    | PsReal r => HR r | PsInteger i => HI i | PsSimple k => HS k
    | PsIf l => HIf l (go l)
    | PsIfElse a b => HIe a b (go a) (go b)
    end.
End Ind.

Lemma ps_write_loop_if l b : ps_write (PsIf l) b =
  extend (lit "if") (push x20 (ps_slice (List.length l) (ps_loop l) b)).
Proof. reflexivity. Qed.

Lemma ps_write_loop_ifelse l1 l2 b : ps_write (PsIfElse l1 l2) b =
  extend (lit "ifelse") (push x20 (ps_slice (List.length l2) (ps_loop l2)
    (push x20 (ps_slice (List.length l1) (ps_loop l1) b)))).
Proof. reflexivity. Qed.

(** ** Output *)

Definition slice_of (parts : list bytes) : bytes :=
  match parts with
  | [] => lit "{}"
  | [w] => [x7b] ++ w ++ [x7d]
  | _ => lit "{ " ++ flat_map (fun w => w ++ [x20]) parts ++ [x7d]
  end.

Fixpoint ps_out (o : psop) : bytes :=
  match o with
  | PsReal r => decimal_bytes r
  | PsInteger i => dec_i i
  | PsSimple k => ps_operator k
  | PsIf l => slice_of (map ps_out l) ++ lit " if"
  | PsIfElse a b => slice_of (map ps_out a) ++ [x20] ++ slice_of (map ps_out b) ++ lit " ifelse"
  end.

Definition ps_appends (o : psop) : Prop := forall b, inner (ps_write o b) = inner b ++ ps_out o.

Lemma loop_inner l : Forall ps_appends l -> forall b,
  inner (ps_loop l b) = inner b ++ flat_map (fun w => w ++ [x20]) (map ps_out l).
Proof.
  induction l as [|o r IH]; intros HF b; [cbn; rewrite app_nil_r; reflexivity|].
  inversion HF as [|? ? H1 H2]; subst. cbn [ps_loop map flat_map].
  rewrite (IH H2), inner_push, (H1 b), <- !app_assoc. reflexivity.
Qed.

Lemma slice_inner l : Forall ps_appends l -> forall b,
  inner (ps_slice (List.length l) (ps_loop l) b) = inner b ++ slice_of (map ps_out l).
Proof.
  intros HF b. unfold ps_slice. destruct l as [|o [|o2 r]].
  - cbn [List.length Nat.ltb Nat.leb Nat.eqb ps_loop map slice_of]. rewrite !inner_push, <- app_assoc. reflexivity.
  - cbn [List.length Nat.ltb Nat.leb Nat.eqb]. unfold pop. rewrite inner_push. cbn [inner].
    rewrite (loop_inner _ HF), inner_push. cbn [map flat_map slice_of]. rewrite app_nil_r, !app_assoc, removelast_last.
    rewrite <- !app_assoc. reflexivity.
  - change ((1 <? List.length (o :: o2 :: r))%nat) with true. change ((List.length (o :: o2 :: r) =? 1)%nat) with false.
    cbv iota. rewrite inner_push, (loop_inner _ HF), !inner_push. cbn [map slice_of]. rewrite <- !app_assoc. reflexivity.
Qed.

Lemma ps_write_inner o : ps_appends o.
Proof.
  induction o as [r|i|k|l IH|a c IHa IHc] using psop_ind'; intro b.
  - apply push_decimal_inner.
  - reflexivity.
  - reflexivity.
  - rewrite ps_write_loop_if, inner_extend, inner_push, (slice_inner l IH), <- !app_assoc. reflexivity.
  - rewrite ps_write_loop_ifelse, inner_extend, inner_push, (slice_inner c IHc), inner_push, (slice_inner a IHa), <- !app_assoc.
    reflexivity.
Qed.

Lemma ps_encode_inner ops : inner (ps_encode ops) = slice_of (map ps_out ops).
Proof.
  unfold ps_encode. rewrite slice_inner; [reflexivity|]. apply Forall_forall. intros. apply ps_write_inner.
Qed.

(** ** Tokens *)

Fixpoint ps_toks (o : psop) : list token :=
  match o with
  | PsReal r => [num_tok (decimal_bytes r)]
  | PsInteger i => [TInt i]
  | PsSimple k => [TKeyword (ps_operator k)]
  | PsIf l => TBraceOpen :: flat_map ps_toks l ++ [TBraceClose; TKeyword (lit "if")]
  | PsIfElse a b => TBraceOpen :: flat_map ps_toks a ++ TBraceClose :: TBraceOpen :: flat_map ps_toks b ++
                    [TBraceClose; TKeyword (lit "ifelse")]
  end.

Lemma ps_toks_ne o : ps_toks o <> [].
Proof. destruct o; discriminate. Qed.

Definition ps_lexes (o : psop) : Prop := forall rest, ps_ok o = true -> boundary rest ->
  lexes (ps_out o ++ rest) (ps_toks o) rest.

Lemma flat_lexes l : Forall ps_lexes l -> forall rest, forallb ps_ok l = true ->
  lexes (flat_map (fun w => w ++ [x20]) (map ps_out l) ++ x7d :: rest) (flat_map ps_toks l ++ [TBraceClose]) rest.
Proof.
  induction l as [|o r IH]; intros HF rest Hok.
  - apply lexes_one. reflexivity.
  - inversion HF as [|? ? H1 H2]; subst. cbn [forallb] in Hok. apply andb_true_iff in Hok. destruct Hok as [Ho Hr].
    cbn [map flat_map]. rewrite <- !app_assoc. eapply lexes_app.
    + apply (H1 ([x20] ++ flat_map (fun w => w ++ [x20]) (map ps_out r) ++ x7d :: rest) Ho). reflexivity.
    + apply (lexes_ws [x20]); [reflexivity| |apply IH; assumption].
      intro E. apply app_eq_nil in E. destruct E as [_ E]. discriminate E.
Qed.

Lemma slice_lexes l : Forall ps_lexes l -> forall rest, forallb ps_ok l = true ->
  lexes (slice_of (map ps_out l) ++ rest) (TBraceOpen :: flat_map ps_toks l ++ [TBraceClose]) rest.
Proof.
  intros HF rest Hok. destruct l as [|o [|o2 r]].
  - cbn. econstructor; [reflexivity|]. apply lexes_one. reflexivity.
  - inversion HF as [|? ? H1 H2]; subst. cbn [forallb] in Hok. rewrite andb_true_r in Hok.
    cbn [map slice_of flat_map]. rewrite <- !app_assoc. cbn [app].
    econstructor; [reflexivity|]. eapply lexes_app; [apply (H1 (x7d :: rest) Hok); reflexivity|]. apply lexes_one. reflexivity.
  - pose proof (flat_lexes (o :: o2 :: r) HF rest Hok) as H. remember (o :: o2 :: r) as l eqn:El.
    assert (Es : slice_of (map ps_out l) = lit "{ " ++ flat_map (fun w => w ++ [x20]) (map ps_out l) ++ [x7d]) by (subst l; reflexivity).
    rewrite Es, <- !app_assoc. change (lit "{ ") with ([x7b] ++ [x20]). rewrite <- app_assoc. cbn [app].
    econstructor; [reflexivity|]. apply (lexes_ws [x20]); [reflexivity| |exact H].
    intro E. apply app_eq_nil in E. destruct E as [_ E]. discriminate E.
Qed.

Lemma word_operator k : ps_word k = ps_operator k.
Proof. destruct k; reflexivity. Qed.

Lemma operator_regular k : forallb is_regular (ps_operator k) = true /\ ps_operator k <> [] /\ number (ps_operator k) = None.
Proof. destruct k; repeat split; first [reflexivity|discriminate]. Qed.

Lemma ps_out_lexes o : ps_lexes o.
Proof.
  induction o as [r|i|k|l IH|a c IHa IHc] using psop_ind'; intros rest Hok Hb; cbn [ps_out ps_toks ps_ok] in *.
  - apply lexes_one. unfold real_ok in Hok. apply andb_true_iff in Hok.
    destruct (decimal_good r) as (t & H1 & H2 & H3 & _); [tauto|tauto|]. apply next_token_word; assumption.
  - apply lexes_one. apply next_token_int. assumption.
  - apply lexes_one. destruct (operator_regular k) as (H1 & H2 & H3). apply keyword; assumption.
  - rewrite <- app_assoc.
    replace (TBraceOpen :: flat_map ps_toks l ++ [TBraceClose; TKeyword (lit "if")])
      with ((TBraceOpen :: flat_map ps_toks l ++ [TBraceClose]) ++ [TKeyword (lit "if")])
      by (cbn [app]; rewrite <- !app_assoc; reflexivity).
    eapply lexes_app; [apply (slice_lexes l IH _ Hok)|]. apply (lexes_ws [x20]); [reflexivity|discriminate|].
    apply lexes_one. apply (keyword (lit "if")); first [discriminate|reflexivity|assumption].
  - apply andb_true_iff in Hok. destruct Hok as [Ha Hc]. rewrite <- !app_assoc.
    replace (TBraceOpen :: flat_map ps_toks a ++ TBraceClose :: TBraceOpen :: flat_map ps_toks c ++ [TBraceClose; TKeyword (lit "ifelse")])
      with ((TBraceOpen :: flat_map ps_toks a ++ [TBraceClose]) ++ (TBraceOpen :: flat_map ps_toks c ++ [TBraceClose]) ++ [TKeyword (lit "ifelse")])
      by (cbn [app]; rewrite <- !app_assoc; cbn [app]; rewrite <- ?app_assoc; reflexivity).
    eapply lexes_app; [apply (slice_lexes a IHa _ Ha)|]. apply (lexes_ws [x20]); [reflexivity|discriminate|].
    eapply lexes_app; [apply (slice_lexes c IHc _ Hc)|]. apply (lexes_ws [x20]); [reflexivity|discriminate|].
    apply lexes_one. apply (keyword (lit "ifelse")); first [discriminate|reflexivity|assumption].
Qed.

(** ** Reading *)

Definition ps_num (w : bytes) : psv :=
  match number w with Some (TReal n k) => NReal n k | Some (TInt z) => NInt z | _ => NOp w end.
Fixpoint ps_val (o : psop) : psv :=
  match o with
  | PsReal r => ps_num (decimal_bytes r)
  | PsInteger i => NInt i
  | PsSimple k => NOp (ps_word k)
  | PsIf l => NIf (map ps_val l)
  | PsIfElse a b => NIfElse (map ps_val a) (map ps_val b)
  end.

Definition ps_reads (o : psop) : Prop := forall ts acc outer, ps_ok o = true ->
  ps_read (ps_toks o ++ ts) acc outer = ps_read ts (inl (ps_val o) :: acc) outer.

Lemma flat_reads l : Forall ps_reads l -> forall ts acc outer, forallb ps_ok l = true ->
  ps_read (flat_map ps_toks l ++ ts) acc outer = ps_read ts (rev (map inl (map ps_val l)) ++ acc) outer.
Proof.
  induction l as [|o r IH]; intros HF ts acc outer Hok; [reflexivity|].
  inversion HF as [|? ? H1 H2]; subst. cbn [forallb] in Hok. apply andb_true_iff in Hok. destruct Hok as [Ho Hr].
  cbn [flat_map map rev]. rewrite <- app_assoc, (H1 _ _ _ Ho), (IH H2 _ _ _ Hr), <- app_assoc. reflexivity.
Qed.

Lemma finished_map l : finished (map inl l) = Some l.
Proof. induction l as [|v l IH]; [reflexivity|]. cbn. rewrite IH. reflexivity. Qed.

Lemma slice_reads l : Forall ps_reads l -> forall ts acc outer, forallb ps_ok l = true ->
  ps_read (TBraceOpen :: flat_map ps_toks l ++ TBraceClose :: ts) acc outer = ps_read ts (inr (map ps_val l) :: acc) outer.
Proof.
  intros HF ts acc outer Hok. cbn [ps_read]. rewrite (flat_reads l HF _ _ _ Hok), app_nil_r.
  cbn [ps_read]. rewrite rev_involutive, finished_map. reflexivity.
Qed.

Lemma ps_tree_reads o : ps_reads o.
Proof.
  induction o as [r|i|k|l IH|a c IHa IHc] using psop_ind'; intros ts acc outer Hok; cbn [ps_toks ps_val ps_ok] in *.
  - unfold real_ok in Hok. apply andb_true_iff in Hok.
    destruct (decimal_good r) as (t & H1 & _ & _ & H4); [tauto|tauto|].
    unfold num_tok, ps_num. rewrite H1. destruct t; try contradiction; reflexivity.
  - reflexivity.
  - destruct k; reflexivity.
  - rewrite <- app_comm_cons, <- app_assoc. cbn [app].
    rewrite (slice_reads l IH _ _ _ Hok). reflexivity.
  - apply andb_true_iff in Hok. destruct Hok as [Ha Hc].
    rewrite <- app_comm_cons, <- app_assoc. cbn [app].
    rewrite (slice_reads a IHa _ _ _ Ha). rewrite <- app_assoc. cbn [app].
    rewrite (slice_reads c IHc _ _ _ Hc). reflexivity.
Qed.

Lemma ps_encode_parses ops : forallb ps_ok ops = true -> ps_parse (inner (ps_encode ops)) = Some (map ps_val ops).
Proof.
  intro Hok. unfold ps_parse. rewrite ps_encode_inner.
  assert (HF : Forall ps_lexes ops) by (apply Forall_forall; intros; apply ps_out_lexes).
  pose proof (slice_lexes ops HF [] Hok) as Hl. rewrite app_nil_r in Hl. rewrite (lexes_tokens _ _ Hl).
  assert (HR : Forall ps_reads ops) by (apply Forall_forall; intros; apply ps_tree_reads).
  rewrite (slice_reads ops HR [] [] [] Hok). reflexivity.
Qed.

Lemma ps_val_means o : ps_ok o = true -> ps_means o (ps_val o).
Proof.
  induction o as [r|i|k|l IH|a c IHa IHc] using psop_ind'; intro Hok; cbn [ps_val ps_ok] in *.
  - unfold real_ok in Hok. apply andb_true_iff in Hok.
    destruct (decimal_good r) as (t & H1 & _ & _ & H4); [tauto|tauto|].
    unfold ps_num. rewrite H1. destruct t; try contradiction; cbn [number_means] in H4; constructor; assumption.
  - constructor.
  - constructor.
  - constructor. induction IH as [|x l H1 H2 IH]; [constructor|]. cbn [forallb map] in *. apply andb_true_iff in Hok.
    constructor; [apply H1|apply IH]; tauto.
  - apply andb_true_iff in Hok. destruct Hok as [Ha Hc]. constructor.
    + clear -IHa Ha. induction IHa as [|x l H1 H2 IH]; [constructor|]. cbn [forallb map] in *. apply andb_true_iff in Ha.
      constructor; [apply H1|apply IH]; tauto.
    + clear -IHc Hc. induction IHc as [|x l H1 H2 IH]; [constructor|]. cbn [forallb map] in *. apply andb_true_iff in Hc.
      constructor; [apply H1|apply IH]; tauto.
Qed.

(** ** Types of constants *)

Lemma dot_real w t : number w = Some t -> In x2e w -> match t with TReal _ _ => True | _ => False end.
Proof.
  assert (U : forall w t, number_unsigned w = Some t -> In x2e w -> match t with TReal _ _ => True | _ => False end).
  { clear. intros w t H Hin. unfold number_unsigned in H.
    assert (S : let '(a, b) := span is_digit w in w = a ++ b /\ forallb is_digit a = true).
    { clear. induction w as [|c w IH]; [split; reflexivity|]. cbn [span]. destruct (is_digit c) eqn:E; [|split; reflexivity].
      destruct (span is_digit w) as [a b]. destruct IH as [-> I2]. split; [reflexivity|]. cbn. rewrite E. exact I2. }
    destruct (span is_digit w) as [ip r]. destruct S as [-> S]. destruct r as [|c fp].
    - exfalso. rewrite app_nil_r in Hin. rewrite forallb_forall in S. specialize (S _ Hin). discriminate S.
    - destruct (_ && _); [|discriminate]. destruct (ip ++ fp); [discriminate|]. injection H as <-. exact I. }
  intros H Hin.
  assert (N : forall w t, option_map token_neg (number_unsigned w) = Some t -> In x2e w -> match t with TReal _ _ => True | _ => False end).
  { clear -U. intros w t H Hin. destruct (number_unsigned w) as [t'|] eqn:E; [|discriminate]. injection H as <-.
    specialize (U _ _ E Hin). destruct t'; try contradiction. exact I. }
  destruct w as [|c w]; [discriminate H|].
  destruct c; first [exact (U _ _ H Hin) | (destruct Hin as [Hin|Hin]; [discriminate Hin|]; first [exact (N _ _ H Hin)|exact (U _ _ H Hin)])].
Qed.

Lemma k_neg m e c k : f32_valid (FFin false m e) = true -> 0 < m -> shortest m e = (c, k) ->
  m * 2 ^ (e + 149) <= 8796093 * 2 ^ 106 -> k < 0.
Proof.
  intros Hv Hm Hs Hle. destruct (Z.lt_ge_cases k 0) as [|Hk]; [assumption|exfalso].
  apply valid_fin in Hv. destruct Hv as (Hmr & He & Hn).
  destruct (shortest_spec m e Hm ltac:(lia)) as (c' & k' & E & H1 & H2 & H3 & _).
  rewrite Hs in E. injection E as <- <-. destruct H3 as [_ H3].
  rewrite (Z.max_l 0 (- k)), (Z.max_r 0 k) in H3 by lia. rewrite Z.pow_0_r, Z.mul_1_r in H3.
  assert (HT : 0 < 10 ^ k) by (apply pow10_pos; lia).
  assert (Hp : 0 < 2 ^ (e + 149)) by (apply pow2_pos; lia).
  assert (Ha : 2 ^ 151 <= c * (2 ^ 151 * 10 ^ k)).
  { assert (0 < 2 ^ 151) by (vm_compute; reflexivity). revert H. generalize (2 ^ 151). intros q Hq. nia. }
  assert (Hb : (4 * m + 2) * 2 ^ (e + 149) <= 6 * (m * 2 ^ (e + 149))).
  { rewrite Z.mul_assoc. apply Z.mul_le_mono_nonneg_r; lia. }
  assert (Hc : 6 * (8796093 * 2 ^ 106) < 2 ^ 151) by (vm_compute; reflexivity).
  revert Ha Hb Hc Hle H3. generalize (2 ^ 151), (2 ^ 106), (2 ^ (e + 149)), (10 ^ k). intros. lia.
Qed.

Lemma decimal_dot r : real_ok r = true -> f32_ltb (f32_abs r) f32_1e12 = true -> In x2e (decimal_bytes r).
Proof.
  intros Hok Hlt. unfold real_ok in Hok. apply andb_true_iff in Hok. destruct Hok as [Hf Hv].
  destruct r as [|s|s m e]; try discriminate Hf. unfold decimal_bytes. rewrite Hlt, andb_true_r.
  destruct (f32_eqb (FFin s m e) f32_zero || f32_ltb f32_1em6 (f32_abs (FFin s m e))) eqn:E.
  - destruct (decimal_good (FFin s m e) Hf Hv) as (t & G & _ & _ & _). unfold decimal_bytes in G.
    rewrite Hlt, andb_true_r, E in G.
    unfold ryu_f32, ryu_fin in *. destruct (m =? 0); [apply in_or_app; right; right; left; reflexivity|].
    destruct (shortest m e) as [c k]. cbv zeta in *.
    set (len := Z.of_nat (List.length (dec_u c))) in *.
    destruct ((0 <=? k) && (len + k <=? 13)); [|destruct ((0 <? len + k) && (len + k <=? 13));
      [|destruct ((-6 <? len + k) && (len + k <=? 0)); [|exfalso]]].
    + apply in_or_app; right. apply in_or_app; right. apply in_or_app; right. left. reflexivity.
    + apply in_or_app; right. apply in_or_app; right. left. reflexivity.
    + apply in_or_app; right. right. left. reflexivity.
    + (* scientific notation is no number *)
      assert (X : forall w t', number w = Some t' -> In x65 w -> False).
      { clear. assert (U : forall w t, number_unsigned w = Some t -> In x65 w -> False).
        { intros w t H Hin. unfold number_unsigned in H.
          assert (S : let '(a, b) := span is_digit w in w = a ++ b /\ forallb is_digit a = true).
          { clear. induction w as [|c w IH]; [split; reflexivity|]. cbn [span]. destruct (is_digit c) eqn:E; [|split; reflexivity].
            destruct (span is_digit w) as [a b]. destruct IH as [-> I2]. split; [reflexivity|]. cbn. rewrite E. exact I2. }
          destruct (span is_digit w) as [ip r]. destruct S as [-> S]. rewrite forallb_forall in S.
          apply in_app_or in Hin. destruct Hin as [Hin|Hin]; [specialize (S _ Hin); discriminate S|].
          destruct r as [|c fp]; [contradiction|]. destruct (beq c x2e && forallb is_digit fp) eqn:B; [|discriminate].
          apply andb_true_iff in B. destruct B as [B1 B2]. rewrite forallb_forall in B2.
          destruct Hin as [->|Hin]; [discriminate B1|]. specialize (B2 _ Hin). discriminate B2. }
        intros w t H Hin. destruct w as [|c w]; [discriminate H|].
        destruct c; first [exact (U _ _ H Hin) | (destruct Hin as [Hin|Hin]; [discriminate Hin|];
          unfold number in H; first [exact (U _ _ H Hin)|
          (destruct (number_unsigned w) eqn:E; [exact (U _ _ E Hin)|discriminate H])])]. }
      apply (X _ _ G). apply in_or_app; right. destruct (len =? 1).
      * apply in_or_app; right. left. reflexivity.
      * apply in_or_app; right. apply in_or_app; right. apply in_or_app; right. left. reflexivity.
  - unfold display_f32. apply orb_false_iff in E. destruct E as [E1 E2].
    destruct (m =? 0) eqn:E0.
    { exfalso. assert (m = 0) by lia. subst. unfold f32_eqb in E1. apply Z.eqb_neq in E1. apply E1. rewrite units_opp.
      destruct s; reflexivity. }
    destruct (shortest m e) as [c k] eqn:Hs. cbv zeta.
    assert (Hk : k < 0).
    { pose proof Hv as Hv'. apply valid_fin in Hv'.
      apply (k_neg m e c k); [exact Hv|lia|exact Hs|].
      cbn [f32_abs] in E2. unfold f32_ltb, f32_1em6 in E2. apply Z.ltb_ge in E2. rewrite !units_opp in E2.
      change (-43 + 149) with 106 in E2. lia. }
    set (len := Z.of_nat (List.length (dec_u c))) in *.
    destruct (len + k <=? 0); [|destruct (len <=? len + k) eqn:E3; [lia|]].
    + apply in_or_app; right. right. left. reflexivity.
    + apply in_or_app; right. apply in_or_app; right. left. reflexivity.
Qed.

Lemma ps_val_types o : ps_ok o = true -> ps_moderate o = true -> same_types o (ps_val o).
Proof.
  induction o as [r|i|k|l IH|a c IHa IHc] using psop_ind'; intros Hok Hm; cbn [ps_val ps_ok ps_moderate] in *.
  - pose proof (decimal_dot r Hok Hm) as Hd. unfold real_ok in Hok. apply andb_true_iff in Hok.
    destruct (decimal_good r) as (t & H1 & _ & _ & H4); [tauto|tauto|].
    unfold ps_num. rewrite H1. pose proof (dot_real _ _ H1 Hd) as Ht. destruct t; try contradiction. constructor.
  - constructor.
  - constructor.
  - constructor. induction IH as [|x l H1 H2 IH]; [constructor|]. cbn [forallb map] in *. apply andb_true_iff in Hok, Hm.
    constructor; [apply H1|apply IH]; tauto.
  - apply andb_true_iff in Hok, Hm. destruct Hok as [Ha Hc], Hm as [Ma Mc]. constructor.
    + clear -IHa Ha Ma. induction IHa as [|x l H1 H2 IH]; [constructor|]. cbn [forallb map] in *. apply andb_true_iff in Ha, Ma.
      constructor; [apply H1|apply IH]; tauto.
    + clear -IHc Hc Mc. induction IHc as [|x l H1 H2 IH]; [constructor|]. cbn [forallb map] in *. apply andb_true_iff in Hc, Mc.
      constructor; [apply H1|apply IH]; tauto.
Qed.
