(** Property C39, continued: exactly which programs keep the types of their constants. *)

From Coq Require Import ZArith List Lia Bool ZifyBool ZifyNat.
From Verif Require Import Bytes ModelFloat ModelBuf ModelPs SpecLex SpecText SpecMeans SpecPs
  ProofBasic ProofFloat ProofFloat2 ProofRound ProofObj ProofParse ProofTree ProofChunkParse ProofPs ProofCost ProofFile3 PropPs.
Import ListNotations.
Local Open Scope Z_scope.

Lemma k_pos m e c k : f32_valid (FFin false m e) = true -> 0 < m -> shortest m e = (c, k) ->
  15258789 * 2 ^ 165 <= m * 2 ^ (e + 149) -> 0 <= k.
Proof.
  intros Hv Hm Hs Hle. destruct (Z.lt_ge_cases k 0) as [Hk|]; [exfalso|assumption].
  destruct (shortest_digits m e c k Hv Hm Hs) as (HC & _).
  apply valid_fin in Hv. destruct Hv as (Hmr & He & Hn).
  destruct (shortest_spec m e Hm ltac:(lia)) as (c' & k' & E & H1 & H2 & H3 & _).
  rewrite Hs in E. injection E as <- <-. destruct H3 as [H3 _].
  rewrite (Z.max_r 0 (- k)), (Z.max_l 0 k) in H3 by lia. rewrite Z.pow_0_r, Z.mul_1_r in H3.
  assert (HT : 1 <= 10 ^ (- k)) by (pose proof (pow10_pos (- k) ltac:(lia)); lia).
  assert (Hp : 0 < 2 ^ (e + 149)) by (apply pow2_pos; lia).
  assert (Hlo : 2 * m <= lo4 m e) by (unfold lo4; destruct (_ && _); lia).
  assert (Hb : 2 * (m * 2 ^ (e + 149)) <= lo4 m e * 2 ^ (e + 149)).
  { rewrite Z.mul_assoc. apply Z.mul_le_mono_nonneg_r; lia. }
  assert (Hc : 10 ^ 9 * 2 ^ 151 < 2 * (15258789 * 2 ^ 165)) by (vm_compute; reflexivity).
  assert (H4 : c * 2 ^ 151 <= 10 ^ 9 * 2 ^ 151) by (apply Z.mul_le_mono_nonneg_r; [vm_compute; discriminate|lia]).
  revert Hp HT Hb Hc H4 Hle H3. generalize (2 ^ 151), (2 ^ 165), (2 ^ (e + 149)), (10 ^ (- k)), (10 ^ 9). clear Hlo HC.
  intros a b p t d Hp HT Hb Hc H4 Hle H3. set (l := lo4 m e * p) in *.
  assert (l <= l * t); [|lia]. assert (0 <= m * p) by nia. nia.
Qed.

Lemma plain_int w t : number w = Some t -> ~ In x2e w -> match t with TInt _ => True | _ => False end.
Proof.
  assert (U : forall w t, number_unsigned w = Some t -> ~ In x2e w -> match t with TInt _ => True | _ => False end).
  { clear. intros w t H Hin. unfold number_unsigned in H.
    assert (S : let '(a, b) := span is_digit w in w = a ++ b /\ forallb is_digit a = true).
    { clear. induction w as [|c w IH]; [split; reflexivity|]. cbn [span]. destruct (is_digit c) eqn:E; [|split; reflexivity].
      destruct (span is_digit w) as [a b]. destruct IH as [-> I2]. split; [reflexivity|]. cbn. rewrite E. exact I2. }
    destruct (span is_digit w) as [ip r]. destruct S as [-> S]. destruct r as [|c fp].
    - destruct ip; [discriminate|]. injection H as <-. exact Logic.I.
    - destruct (beq c x2e && forallb is_digit fp) eqn:B; [|discriminate]. exfalso. apply Hin. apply in_or_app; right. left.
      apply andb_true_iff in B. destruct B as [B _]. apply beq_spec in B. congruence. }
  intros H Hin.
  assert (N : forall w t, option_map token_neg (number_unsigned w) = Some t -> ~ In x2e w -> match t with TInt _ => True | _ => False end).
  { clear -U. intros w t H Hin. destruct (number_unsigned w) as [t'|] eqn:E; [|discriminate]. injection H as <-.
    specialize (U _ _ E Hin). destruct t'; try contradiction. exact Logic.I. }
  destruct w as [|c w]; [discriminate H|].
  assert (Hin' : ~ In x2e w) by (intro X; apply Hin; right; exact X).
  destruct c; first [exact (U _ _ H Hin) | first [exact (N _ _ H Hin')|exact (U _ _ H Hin')]].
Qed.

Lemma no_dot_digits w : forallb is_digit w = true -> ~ In x2e w.
Proof. intros H Hin. rewrite forallb_forall in H. specialize (H _ Hin). discriminate H. Qed.

Lemma large_no_dot r : real_ok r = true -> f32_ltb (f32_abs r) f32_1e12 = false -> ~ In x2e (decimal_bytes r).
Proof.
  intros Hok Hlt. unfold real_ok in Hok. apply andb_true_iff in Hok. destruct Hok as [Hf Hv].
  destruct r as [|s|s m e]; try discriminate Hf. unfold decimal_bytes. rewrite Hlt, andb_false_r.
  unfold display_f32. cbn [f32_abs] in Hlt. unfold f32_ltb, f32_1e12 in Hlt. apply Z.ltb_ge in Hlt. 
  rewrite !units_opp in Hlt. change (16 + 149) with 165 in Hlt.
  destruct (m =? 0) eqn:E0.
  { exfalso. assert (m = 0) by lia. subst. assert (0 < 2 ^ 165) by (vm_compute; reflexivity).
    revert H Hlt. generalize (2 ^ 165), (2 ^ (e + 149)). intros. lia. }
  destruct (shortest m e) as [c k] eqn:Hs. cbv zeta.
  assert (Hv' : f32_valid (FFin false m e) = true) by exact Hv.
  assert (Hm : 0 < m) by (pose proof (proj1 (valid_fin _ _ _) Hv); lia).
  assert (Hk : 0 <= k).
  { apply (k_pos m e c k Hv' Hm Hs). revert Hlt. generalize (2 ^ 165), (2 ^ (e + 149)). intros. lia. }
  destruct (shortest_digits m e c k Hv' Hm Hs) as ([HC _] & _).
  destruct (dec_u_spec c ltac:(lia)) as (D & _ & N & _).
  set (len := Z.of_nat (List.length (dec_u c))) in *.
  assert (Hl : 1 <= len) by (unfold len; destruct (dec_u c); [congruence|cbn [List.length]; lia]).
  destruct (len + k <=? 0) eqn:E1; [lia|]. destruct (len <=? len + k) eqn:E2; [|lia].
  assert (Z0 : f32_eqb (FFin s m e) f32_zero = false).
  { unfold f32_eqb. apply Z.eqb_neq. rewrite units_opp. pose proof (proj1 (valid_fin _ _ _) Hv) as Q.
    assert (0 < 2 ^ (e + 149)) by (apply pow2_pos; lia). change (f32_units f32_zero) with 0. revert H. generalize (2 ^ (e + 149)).
    clear -Hm. intros z Hz. destruct s; nia. }
  rewrite Z0. cbn [orb].
  intro X. apply in_app_or in X. destruct X as [X|X]; [destruct s; [destruct X as [X|[]]; discriminate X|destruct X]|].
  apply in_app_or in X. destruct X as [X|X]; [exact (no_dot_digits _ (dec_u_digits c ltac:(lia)) X)|].
  apply repeat_spec in X. discriminate X.
Qed.

Lemma ps_val_types_inv o : ps_ok o = true -> same_types o (ps_val o) -> ps_moderate o = true.
Proof.
  assert (L : forall l, Forall (fun o => ps_ok o = true -> same_types o (ps_val o) -> ps_moderate o = true) l ->
     forallb ps_ok l = true -> Forall2 same_types l (map ps_val l) -> forallb ps_moderate l = true).
  { induction 1 as [|x l Hx Hl IH]; intros Hok HT; [reflexivity|]. cbn [forallb map] in *. apply andb_true_iff in Hok.
    inversion HT; subst. apply andb_true_iff. split; [apply Hx|apply IH]; tauto. }
  induction o as [r|i|k|l IH|a c IHa IHc] using psop_ind'; intros Hok HT; cbn [ps_val ps_ok ps_moderate] in *.
  - destruct (f32_ltb (f32_abs r) f32_1e12) eqn:E; [reflexivity|exfalso].
    pose proof (large_no_dot r Hok E) as Hd. unfold real_ok in Hok. apply andb_true_iff in Hok.
    destruct (decimal_good r) as (t & H1 & _); [tauto|tauto|].
    unfold ps_num in HT. rewrite H1 in HT. pose proof (plain_int _ _ H1 Hd) as Ht. destruct t; try contradiction. inversion HT.
  - reflexivity.
  - reflexivity.
  - inversion HT; subst. apply (L l IH); assumption.
  - apply andb_true_iff in Hok. inversion HT; subst. apply andb_true_iff. split; [apply (L a IHa)|apply (L c IHc)]; tauto.
Qed.

(** A program keeps the types of its constants exactly if all its real constants are below 10^12 in magnitude; otherwise
    each such real becomes an integer in the file, at any depth of the program. *)
Theorem C39_types_exactly : forall ops, forallb ps_ok ops = true ->
  (forallb ps_moderate ops = true <->
   exists vs, ps_parse (inner (ps_encode ops)) = Some vs /\ Forall2 same_types ops vs).
Proof.
  intros ops H. split.
  - intro Hm. destruct (C39_types ops H Hm) as (vs & P & _ & T). exists vs. split; assumption.
  - intros (vs & P & T). rewrite (ps_encode_parses ops H) in P. injection P as <-.
    induction ops as [|o r IH]; [reflexivity|]. cbn [forallb map] in *. apply andb_true_iff in H. inversion T; subst.
    apply andb_true_iff. split; [apply ps_val_types_inv|apply IH]; tauto.
Qed.

(** The bound is the float next to 10^12, which is 999999995904. *)
Theorem C39_bound : forall r, real_ok r = true ->
  (ps_moderate (PsReal r) = true <-> Z.abs (f32_units r) < 999999995904 * 2 ^ 149) /\ rounds_to (10 ^ 12) 0 f32_1e12.
Proof.
  intros r H. split.
  - cbn [ps_moderate]. unfold real_ok in H. apply andb_true_iff in H. destruct H as [F V]. destruct r as [|s|s m e]; try discriminate F.
    cbn [f32_abs]. unfold f32_ltb, f32_1e12. rewrite Z.ltb_lt, !units_opp. change (16 + 149) with (16 + 149).
    pose proof (proj1 (valid_fin _ _ _) V) as Q. assert (0 < 2 ^ (e + 149)) by (apply pow2_pos; lia).
    assert (Hp : 15258789 * 2 ^ (16 + 149) = 999999995904 * 2 ^ 149) by (vm_compute; reflexivity).
    revert Hp H. generalize (2 ^ (16 + 149)), (2 ^ 149), (2 ^ (e + 149)). intros a b c Hp H. destruct s; nia.
  - destruct (decimal_good f32_1e12 eq_refl eq_refl) as (t & G & _ & _ & M). vm_compute in G. apply ProofFile3.some_inj in G. subst t. exact M.
Qed.

Example C39_types_exactly_case :
  let ops := [PsIf [PsReal f32_1e12; PsInteger 3]] in
  forallb ps_ok ops = true /\ forallb ps_moderate ops = false /\
  inner (ps_encode ops) = lit "{{ 1000000000000 3 } if}" /\
  ps_parse (inner (ps_encode ops)) = Some [NIf [NInt 1000000000000; NInt 3]].
Proof. vm_compute. repeat split; reflexivity. Qed.

Print Assumptions C39_types_exactly.
Print Assumptions C39_bound.
