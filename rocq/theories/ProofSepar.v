(** Object trees that are not separable: the reader takes a name for what follows it. *)

From Coq Require Import ZArith List Lia Bool ZifyBool ZifyNat.
From Verif Require Import Bytes ModelFloat ModelBuf ModelObject SpecLex SpecObj SpecText SpecMeans
  ProofBasic ProofText ProofFloat ProofFloat2 ProofObj ProofParse ProofTree.
Import ListNotations.
Local Open Scope Z_scope.

(** ** The tokens that a value was read from *)
Fixpoint untok (v : val) : list token :=
  match v with
  | VNull => [TKeyword (lit "null")]
  | VBool b => [TKeyword (if b then lit "true" else lit "false")]
  | VInt z => [TInt z]
  | VReal n k => [TReal n k]
  | VStr s => [TStr s]
  | VName s => [TName s]
  | VRef n g => [TInt n; TInt g; TKeyword (lit "R")]
  | VArr l => TArrOpen :: flat_map untok l ++ [TArrClose]
  | VDict l => TDictOpen :: flat_map (fun e => TName (fst e) :: untok (snd e)) l ++ [TDictClose]
  end.
Definition opt_tok (t : option token) : list token := match t with Some t => [t] | None => [] end.

Lemma pair_up_untok l : forall d, pair_up l = Some d -> flat_map untok l = flat_map (fun e => TName (fst e) :: untok (snd e)) d.
Proof.
  assert (G : forall n l d, (List.length l <= n)%nat -> pair_up l = Some d -> flat_map untok l = flat_map (fun e => TName (fst e) :: untok (snd e)) d).
  { clear. induction n as [|n IH]; intros l d L H.
    - destruct l; [|cbn in L; lia]. injection H as <-. reflexivity.
    - destruct l as [|[] [|v r]]; try discriminate; cbn [pair_up] in H; [injection H as <-; reflexivity|].
      destruct (pair_up r) as [d'|] eqn:E; [|discriminate]. injection H as <-. cbn [flat_map untok fst snd app].
      rewrite (IH r d'); [reflexivity|cbn [List.length] in L; lia|exact E]. }
  intros d H. apply (G (List.length l)); [lia|exact H].
Qed.

Lemma objects_untok : forall f acc s l t r, objects f acc s = Some (l, t, r) ->
  exists ts m, lexes s ts m /\ (t <> None -> m = r) /\ flat_map untok l ++ opt_tok t = flat_map untok (rev acc) ++ ts.
Proof.
  induction f as [|f IH]; intros acc s l t r H; [discriminate|]. cbn [objects] in H.
  destruct (blanks s) as [|c s'] eqn:B.
  - injection H as <- <- <-. exists [], s. split; [constructor|]. split; [congruence|]. reflexivity.
  - destruct (lex_token (c :: s')) as [[k r0]|] eqn:L; [|discriminate].
    assert (N : next_token s = Some (k, r0)) by (unfold next_token; rewrite B; exact L). clear B L.
    assert (step : forall v acc', flat_map untok (rev acc') = flat_map untok (rev acc) ++ untok v -> untok v = [k] -> objects f acc' r0 = Some (l, t, r) ->
      exists ts m, lexes s ts m /\ (t <> None -> m = r) /\ flat_map untok l ++ opt_tok t = flat_map untok (rev acc) ++ ts).
    { intros v acc' E1 E2 H'. apply IH in H'. destruct H' as (ts & m & X & Y & Z). exists (k :: ts), m. split; [econstructor; eauto|]. split; [exact Y|].
      rewrite Z, E1, E2, <- app_assoc. reflexivity. }
    assert (stop : Some (rev acc, Some k, r0) = Some (l, t, r) ->
      exists ts m, lexes s ts m /\ (t <> None -> m = r) /\ flat_map untok l ++ opt_tok t = flat_map untok (rev acc) ++ ts).
    { intro E. injection E as <- <- <-. exists [k], r0. split; [apply lexes_one; exact N|]. split; [reflexivity|]. reflexivity. }
    assert (one : forall v, flat_map untok (rev (v :: acc)) = flat_map untok (rev acc) ++ untok v).
    { intro v. cbn [rev]. rewrite flat_map_app. cbn [flat_map]. rewrite app_nil_r. reflexivity. }
    destruct k as [z|n k|x|x| | | | | | |w]; try (exact (stop H)); try (match type of H with objects _ (?v :: _) _ = _ => exact (step v _ (one v) eq_refl H) end).
    + destruct (objects f [] r0) as [[[l0 t0] r1]|] eqn:O; [|discriminate]. destruct t0 as [t0|]; [|discriminate]. destruct t0; try discriminate.
      apply IH in O. destruct O as (ts0 & m0 & X0 & Y0 & Z0). rewrite (Y0 ltac:(discriminate)) in X0.
      apply IH in H. destruct H as (ts & m & X & Y & Z). exists (TArrOpen :: ts0 ++ ts), m. split; [econstructor; [exact N|]; eapply lexes_app; eassumption|].
      split; [exact Y|]. rewrite Z, one. cbn [untok rev flat_map app opt_tok] in *. rewrite Z0, <- !app_assoc. cbn [app]. reflexivity.
    + destruct (objects f [] r0) as [[[l0 t0] r1]|] eqn:O; [|discriminate]. destruct t0 as [t0|]; [|discriminate]. destruct t0; try discriminate.
      destruct (pair_up l0) as [d|] eqn:PU; [|discriminate]. apply pair_up_untok in PU.
      apply IH in O. destruct O as (ts0 & m0 & X0 & Y0 & Z0). rewrite (Y0 ltac:(discriminate)) in X0.
      apply IH in H. destruct H as (ts & m & X & Y & Z). exists (TDictOpen :: ts0 ++ ts), m. split; [econstructor; [exact N|]; eapply lexes_app; eassumption|].
      split; [exact Y|]. rewrite Z, one. cbn [untok rev flat_map app opt_tok] in *. rewrite <- PU, Z0, <- !app_assoc. cbn [app]. reflexivity.
    + destruct (bytes_eqb w (lit "R")) eqn:E1.
      { apply bytes_eqb_spec in E1. subst w. destruct acc as [|[] [|[] acc]]; try discriminate. apply IH in H. destruct H as (ts & m & X & Y & Z).
        exists (TKeyword (lit "R") :: ts), m. split; [econstructor; eassumption|]. split; [exact Y|]. rewrite Z. cbn [rev]. rewrite !flat_map_app. cbn [flat_map untok].
        rewrite !app_nil_r, <- !app_assoc. reflexivity. }
      destruct (bytes_eqb w (lit "null")) eqn:E2; [apply bytes_eqb_spec in E2; subst w; exact (step VNull _ (one VNull) eq_refl H)|].
      destruct (bytes_eqb w (lit "true")) eqn:E3; [apply bytes_eqb_spec in E3; subst w; exact (step (VBool true) _ (one (VBool true)) eq_refl H)|].
      destruct (bytes_eqb w (lit "false")) eqn:E4; [apply bytes_eqb_spec in E4; subst w; exact (step (VBool false) _ (one (VBool false)) eq_refl H)|].
      exact (stop H).
Qed.

(** ** Names are where they were asked for *)
Definition same_name (a b : token) : Prop := forall x, a = TName x <-> b = TName x.
Lemma not_names a b : (forall x, a <> TName x) -> (forall x, b <> TName x) -> same_name a b.
Proof. intros A B x. split; intro E; [destruct (A x E)|destruct (B x E)]. Qed.
Lemma same_name_refl a : same_name a a. Proof. intro x. reflexivity. Qed.

Lemma number_not_name w x : num_tok w <> TName x.
Proof.
  unfold num_tok. destruct (number w) as [t|] eqn:E; [|discriminate]. intros ->. revert E. unfold number, number_unsigned.
  repeat match goal with |- context [match ?y with _ => _ end] => destruct y; try discriminate end.
Qed.
Lemma real_untok r v : real_means r v -> exists t, untok v = [t] /\ forall x, t <> TName x.
Proof. intro H. destruct H; cbn [untok]; eexists; (split; [reflexivity|]); discriminate. Qed.

Fixpoint means_untok o v (H : means o v) {struct H} : Forall2 same_name (obj_toks o) (untok v).
Proof.
  destruct H as [|b|z|r v R|s|t s E|segs s E|s|r|r a b c d Ra Rb Rc Rd|d s E|l vs F|l vs F]; cbn [obj_toks prim_toks].
  - repeat constructor; apply same_name_refl.
  - repeat constructor; apply same_name_refl.
  - repeat constructor; apply same_name_refl.
  - destruct (real_untok _ _ R) as (t & -> & N). constructor; [|constructor]. apply not_names; [apply number_not_name|exact N].
  - repeat constructor; apply same_name_refl.
  - constructor; [|constructor]. apply not_names; discriminate.
  - constructor; [|constructor]. apply not_names; discriminate.
  - repeat constructor; apply same_name_refl.
  - repeat constructor; apply same_name_refl.
  - destruct (real_untok _ _ Ra) as (ta & Ea & Na). destruct (real_untok _ _ Rb) as (tb & Eb & Nb).
    destruct (real_untok _ _ Rc) as (tc & Ec & Nc). destruct (real_untok _ _ Rd) as (td & Ed & Nd). cbn [untok flat_map]. rewrite Ea, Eb, Ec, Ed. cbn [app].
    repeat (apply Forall2_cons; [first [apply same_name_refl|apply not_names; [apply number_not_name|assumption]]|]). constructor.
  - constructor; [|constructor]. apply not_names; discriminate.
  - cbn [untok]. constructor; [apply same_name_refl|]. apply Forall2_app; [|repeat constructor; apply same_name_refl].
    induction F as [|o v os vs H F IH]; [constructor|]. cbn [flat_map]. apply Forall2_app; [exact (means_untok o v H)|exact IH].
  - cbn [untok]. constructor; [apply same_name_refl|]. apply Forall2_app; [|repeat constructor; apply same_name_refl].
    induction F as [|o v os vs H F IH]; [constructor|]. destruct H as [E H]. cbn [flat_map]. apply Forall2_app; [|exact IH].
    constructor; [rewrite E; apply same_name_refl|exact (means_untok _ _ H)].
Qed.

(** ** Where the reader goes wrong *)
Definition stuck (m : bytes) : Prop := exists w c r, forallb is_ws w = true /\ m = w ++ x2f :: c :: r /\ is_regular c = true.
Lemma name_decode_ne c n x : name_decode (c :: n) = Some x -> x <> [].
Proof.
  intros H ->. destruct c; cbn [name_decode] in H; try (destruct (name_decode n); discriminate).
  destruct n as [|a [|b n]]; try discriminate. destruct (hexval a), (hexval b), (name_decode n); discriminate.
Qed.
Lemma stuck_token m t r : stuck m -> next_token m = Some (t, r) -> t <> TName [].
Proof.
  intros (w & c & s & W & -> & C). rewrite next_token_ws by exact W. unfold next_token. change (blanks (x2f :: c :: s)) with (x2f :: c :: s).
  cbn [lex_token span]. rewrite C. destruct (span is_regular s) as [n rest]. destruct (name_decode (c :: n)) as [x|] eqn:E; [|discriminate].
  intros H. injection H as <- <-. apply name_decode_ne in E. congruence.
Qed.
Lemma regular_first p i o : obj_ok o = true -> begins_with_delimiter o = false -> exists c s, out p i o = c :: s /\ is_regular c = true.
Proof.
  assert (G : forall w, w <> [] -> forallb is_regular w = true -> exists c s, w = c :: s /\ is_regular c = true).
  { intros [|c w] N H; [congruence|]. cbn [forallb] in H. apply andb_true_iff in H. exists c, w. tauto. }
  intros Hok Hb. destruct o as [q|l|l]; try discriminate. cbn [out]. destruct q; try discriminate; cbn [prim_bytes obj_ok prim_ok] in *.
  - exists x6e. eexists. split; reflexivity.
  - destruct v; eexists; eexists; split; reflexivity.
  - apply G; apply dec_i_spec.
  - destruct (real_ok_good v Hok) as (t & H1 & H2 & _). apply G; [|exact H2]. intro E. rewrite E in H1. discriminate.
  - destruct (G (dec_i r)) as (c & s & E & C); try apply dec_i_spec. rewrite E. cbn [app]. eauto.
Qed.
Lemma lexes_prefix s T1 m : lexes s T1 m -> forall ts m', lexes s ts m' -> (List.length T1 < List.length ts)%nat ->
  exists t ts' r, ts = T1 ++ t :: ts' /\ next_token m = Some (t, r).
Proof.
  induction 1 as [s|s t r T1 m N L IH]; intros ts m' H Len.
  - destruct H as [s|s t r ts r' N H]; [cbn in Len; lia|]. exists t, ts, r. split; [reflexivity|exact N].
  - destruct H as [s|s t' r0 ts r' N' H]; [cbn in Len; lia|]. rewrite N in N'. injection N' as <- <-.
    destruct (IH ts r' H) as (t1 & ts' & r1 & E & N1); [cbn [List.length] in Len; lia|]. exists t1, ts', r1. rewrite E. split; [reflexivity|exact N1].
Qed.

Definition goes_wrong (s : bytes) (toks : list token) : Prop := exists T1 T2 m, toks = T1 ++ TName [] :: T2 /\ lexes s T1 m /\ stuck m.
Lemma wrong_ws w s toks : forallb is_ws w = true -> goes_wrong s toks -> goes_wrong (w ++ s) toks.
Proof.
  intros W (T1 & T2 & m & E & L & St). exists T1, T2. destruct T1 as [|t T1].
  - inversion L; subst. exists (w ++ m). split; [reflexivity|]. split; [constructor|]. destruct St as (w' & c & r & W' & -> & C).
    exists (w ++ w'), c, r. rewrite forallb_app, W, W', <- app_assoc. auto.
  - exists m. split; [exact E|]. split; [|exact St]. apply lexes_ws; [exact W|discriminate|exact L].
Qed.
Lemma wrong_r s toks more : goes_wrong s toks -> goes_wrong s (toks ++ more).
Proof. intros (T1 & T2 & m & -> & L & St). exists T1, (T2 ++ more), m. rewrite <- app_assoc. cbn [app]. auto. Qed.
Lemma wrong_l s ts m toks : lexes s ts m -> goes_wrong m toks -> goes_wrong s (ts ++ toks).
Proof. intros L (T1 & T2 & m' & -> & L' & St). exists (ts ++ T1), T2, m'. rewrite <- app_assoc. split; [reflexivity|]. split; [eapply lexes_app; eassumption|exact St]. Qed.

Definition obj_wrong (o : obj) : Prop := forall i rest, obj_ok o = true -> separable o = false -> goes_wrong (out false i o ++ rest) (obj_toks o).

Lemma sep_items_first b l : sep_items b l = (match l with it :: _ => negb b || begins_with_delimiter it | [] => true end) && sep_items false l.
Proof. destruct l as [|it r]; [reflexivity|]. cbn [sep_items negb orb]. rewrite andb_true_l, andb_assoc. reflexivity. Qed.

Lemma items_wrong l : Forall obj_wrong l -> forall i first prev rest, forallb obj_ok l = true -> sep_items false l = false ->
  goes_wrong (out_items false i first prev l ++ x5d :: rest) (flat_map obj_toks l).
Proof.
  induction l as [|it r IH]; intros HF i first prev rest Hok Hsep; [discriminate|].
  inversion HF as [|? ? H1 H2]; subst. cbn [forallb] in Hok. apply andb_true_iff in Hok. destruct Hok as [Ho Hr].
  cbn [flat_map out_items]. rewrite <- !app_assoc. apply wrong_ws; [destruct first; [reflexivity|apply pad_ws]|].
  cbn [sep_items negb orb] in Hsep. rewrite andb_true_l in Hsep. destruct (separable it) eqn:S1; [|apply wrong_r, H1; assumption].
  cbn [andb] in Hsep. rewrite sep_items_first in Hsep.
  destruct r as [|it2 r2]; [discriminate|]. destruct (negb (is_empty_name it) || begins_with_delimiter it2) eqn:S2.
  - eapply wrong_l; [|apply IH; [assumption|assumption|exact Hsep]].
    apply out_lexes; [assumption|unfold sep_ok; exact S1|]. cbn [out_items]. rewrite <- !app_assoc. apply pad_boundary; assumption.
  - apply orb_false_iff in S2. destruct S2 as [S2 S3]. apply negb_false_iff in S2. destruct it as [[]| |]; try discriminate. destruct s; [|discriminate].
    destruct (regular_first false i it2) as (c & t & E & C); [cbn [forallb] in Hr; apply andb_true_iff in Hr; tauto|exact S3|].
    exists [], (flat_map obj_toks (it2 :: r2)). eexists. split; [reflexivity|]. split; [constructor|].
    exists [], c. cbn [out prim_bytes name_bytes flat_map out_items app last_byte]. unfold pad. change (ends_delim (Some x2f)) with true. rewrite andb_false_r. rewrite E. cbn [app].
    eexists. split; [reflexivity|]. split; [reflexivity|exact C].
Qed.
Lemma entries_wrong l : Forall (fun e => obj_wrong (snd e)) l -> forall i rest, forallb (fun e => obj_ok (snd e)) l = true -> boundary rest ->
  forallb (fun e => (negb (is_nil (fst e)) || begins_with_delimiter (snd e)) && separable (snd e)) l = false ->
  goes_wrong (out_entries false i l ++ rest) (flat_map (fun e => TName (fst e) :: obj_toks (snd e)) l).
Proof.
  induction l as [|[k v] l IH]; intros HF i rest Hok Hb Hsep; [discriminate|].
  inversion HF as [|? ? H1 H2]; subst. cbn [snd] in H1. cbn [forallb fst snd] in Hok, Hsep. apply andb_true_iff in Hok. destruct Hok as [Ho Hl].
  cbn [flat_map out_entries fst snd app]. rewrite <- !app_assoc.
  destruct (negb (is_nil k) || begins_with_delimiter v) eqn:S2.
  - apply (wrong_l _ [TName k] (pad (last_byte (name_bytes k)) v ++ out false i v ++ out_entries false i l ++ rest) (obj_toks v ++ _)).
    + apply lexes_one, name_token. unfold pad. destruct (begins_with_delimiter v) eqn:Eb; cbn [negb andb]; [apply begins_first; assumption|].
      rewrite orb_false_r, negb_true_iff in S2. rewrite name_bytes_last by (destruct k; discriminate). reflexivity.
    + apply wrong_ws; [apply pad_ws|]. cbn [andb] in Hsep. destruct (separable v) eqn:S1; [|apply wrong_r, H1; assumption]. cbn [andb] in Hsep.
      apply (wrong_l _ _ (out_entries false i l ++ rest)); [|apply IH; assumption]. apply out_lexes; [assumption|unfold sep_ok; exact S1|right].
      destruct l as [|[k2 v2] l2]; [discriminate|]. reflexivity.
  - apply orb_false_iff in S2. destruct S2 as [S2 S3]. apply negb_false_iff in S2. destruct k; [|discriminate].
    destruct (regular_first false i v Ho S3) as (c & t & E & C).
    exists [], (obj_toks v ++ flat_map (fun e => TName (fst e) :: obj_toks (snd e)) l). eexists. split; [reflexivity|]. split; [constructor|].
    exists [], c. cbn [name_bytes flat_map app last_byte]. unfold pad. change (ends_delim (Some x2f)) with true. rewrite andb_false_r. rewrite E. cbn [app].
    eexists. split; [reflexivity|]. split; [reflexivity|exact C].
Qed.
Lemma out_wrong o : obj_wrong o.
Proof.
  induction o as [q|l IH|l IH] using obj_ind'; intros i rest Hok Hsep; [discriminate| |].
  - rewrite out_array. cbn [obj_toks]. rewrite <- !app_assoc. cbn [app]. rewrite separable_array in Hsep.
    apply (wrong_l _ [TArrOpen] (out_items false i true None l ++ x5d :: rest) (flat_map obj_toks l ++ [TArrClose])); [apply lexes_one; reflexivity|].
    apply wrong_r, items_wrong; [exact IH|exact Hok|exact Hsep].
  - rewrite out_dict. cbn [obj_toks]. rewrite <- !app_assoc. cbn [app].
    apply (wrong_l _ [TDictOpen] (out_entries false (ent_indent i) l ++ x3e :: x3e :: rest) (flat_map (fun e => TName (fst e) :: obj_toks (snd e)) l ++ [TDictClose])).
    + apply lexes_one. reflexivity.
    + apply wrong_r, entries_wrong; [exact IH|exact Hok|reflexivity|exact Hsep].
Qed.

Lemma Forall2_len {A B} (R : A -> B -> Prop) a b : Forall2 R a b -> List.length a = List.length b.
Proof. induction 1; cbn [List.length]; congruence. Qed.

Lemma mismatch s toks ts m : goes_wrong s toks -> lexes s ts m -> ~ Forall2 same_name toks ts.
Proof.
  intros (T1 & T2 & m1 & E1 & L1 & St) L F. pose proof (Forall2_len _ _ _ F) as FL. rewrite E1, app_length in FL. cbn [List.length] in FL.
  destruct (lexes_prefix _ _ _ L1 _ _ L) as (t & ts' & r' & E2 & N); [lia|].
  rewrite E1, E2 in F. apply Forall2_app_inv_l in F. destruct F as (a & b & Fa & Fb & E3).
  apply Forall2_len in Fa. assert (X : T1 = a /\ t :: ts' = b).
  { clear - Fa E3. revert a Fa E3. induction T1 as [|x T IH]; intros [|y a] Fa E3; cbn in *; try discriminate; [auto|]. injection E3 as -> E3. destruct (IH a) as [-> ->]; auto. }
  destruct X as [_ <-]. inversion Fb as [|? ? ? ? H1 H2]; subst. apply (stuck_token _ _ _ St N). apply H1. reflexivity.
Qed.

(** What is read, if anything is, does not mean what was written. *)
Lemma wrong_value o i v : obj_ok o = true -> separable o = false -> parse_object (out false i o) = Some v -> ~ means o v.
Proof.
  intros Hok Hsep HP M. unfold parse_object, parse_objects in HP.
  destruct (objects (Datatypes.S (List.length (out false i o))) [] (out false i o)) as [[[l t] r]|] eqn:O; [|discriminate].
  destruct t; [discriminate|]. destruct l as [|v' [|]]; try discriminate. injection HP as ->.
  apply objects_untok in O. destruct O as (ts & m & L & _ & E). cbn [flat_map opt_tok rev app] in E. rewrite !app_nil_r in E. subst ts.
  pose proof (out_wrong o i [] Hok Hsep) as W. rewrite app_nil_r in W. exact (mismatch _ _ _ _ W L (means_untok o v M)).
Qed.
