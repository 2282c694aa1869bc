(** Reading back is a function: a decimal rounds to only one binary32 value. *)

From Coq Require Import ZArith List Lia Bool ZifyBool.
From Verif Require Import Bytes ModelFloat SpecLex SpecText ProofFloat.
Local Open Scope Z_scope.

Lemma between_closer n k v w u :
  f32_finite u = true -> f32_valid u = true ->
  f32_units v < f32_units u < f32_units w ->
  rounds_to n k v -> rounds_to n k w -> False.
Proof.
  intros Hu1 Hu2 Hlt (V1 & V2 & _ & V4) (W1 & W2 & _ & W4).
  pose proof (V4 w W1 W2) as [A _]. pose proof (W4 v V1 V2) as [B _]. pose proof (V4 u Hu1 Hu2) as [C _].
  unfold scaled_dist in *.
  assert (HT : 0 < 10 ^ Z.of_nat k) by (apply pow10_pos; lia).
  set (T := 10 ^ Z.of_nat k) in *. clearbody T.
  revert A B C Hlt. generalize (n * 2 ^ 149), (f32_units v), (f32_units w), (f32_units u).
  intros X a b c A B C Hlt.
  assert (a * T < c * T) by (apply Z.mul_lt_mono_pos_r; lia).
  assert (c * T < b * T) by (apply Z.mul_lt_mono_pos_r; lia).
  lia.
Qed.

Lemma even_contra n k v w : 0 <= f32_units v -> f32_units v < f32_units w ->
  rounds_to n k v -> rounds_to n k w -> even_significand v = true -> even_significand w = true -> False.
Proof.
  intros Ha Hlt Hv Hw Ev Ew.
  pose proof Hv as (V1 & V2 & _). pose proof Hw as (W1 & W2 & _).
  destruct v as [|s|s m e]; try discriminate. destruct w as [|s'|s' m' e']; try discriminate.
  cbn [even_significand] in *.
  pose proof V2 as V. pose proof W2 as W. apply valid_fin in V. apply valid_fin in W.
  destruct V as (Vm & Ve & Vn). destruct W as (Wm & We & Wn).
  assert (Hp : 0 < 2 ^ (e + 149)) by (apply pow2_pos; lia).
  assert (Hp' : 0 < 2 ^ (e' + 149)) by (apply pow2_pos; lia).
  assert (Ea : f32_units (FFin s m e) = m * 2 ^ (e + 149)).
  { rewrite units_opp in *. destruct s; [|lia]. assert (0 <= m * 2 ^ (e + 149)) by (apply Z.mul_nonneg_nonneg; lia). lia. }
  assert (Eb : f32_units (FFin s' m' e') = m' * 2 ^ (e' + 149)).
  { rewrite Ea in Hlt. rewrite units_opp in *. destruct s'; [|lia].
    assert (0 <= m' * 2 ^ (e' + 149)) by (apply Z.mul_nonneg_nonneg; lia).
    assert (0 <= m * 2 ^ (e + 149)) by (apply Z.mul_nonneg_nonneg; lia). lia. }
  rewrite Ea, Eb in Hlt.
  assert (Hm : m + 1 < 2 ^ 24).
  { apply Z.even_spec in Ev. destruct Ev as [q ->]. change (2 ^ 24) with 16777216 in *. lia. }
  assert (Hodd : Z.even (m + 1) = false) by (rewrite Z.even_add, Ev; reflexivity).
  pose proof (gap_above m e m' e' Vm Wm ltac:(lia) ltac:(lia) Vn Hlt) as Hg.
  assert (Hne : (m + 1) * 2 ^ (e + 149) <> m' * 2 ^ (e' + 149)).
  { intro E. destruct (Z.lt_trichotomy e e') as [Hc|[Hc|Hc]].
    - replace (e' + 149) with ((e' - e - 1) + 1 + (e + 149)) in E by lia.
      rewrite (Z.pow_add_r 2 (e' - e - 1 + 1)) in E by lia. rewrite Z.mul_assoc in E. apply Z.mul_reg_r in E; [|lia].
      rewrite Z.pow_add_r in E by lia. rewrite E in Hodd. rewrite !Z.even_mul in Hodd. change (2 ^ 1) with 2 in Hodd.
      cbn [Z.even] in Hodd. rewrite !orb_true_r in Hodd. discriminate.
    - subst e'. apply Z.mul_reg_r in E; [|lia]. congruence.
    - replace (e + 149) with ((e - e' - 1) + 1 + (e' + 149)) in E by lia.
      rewrite (Z.pow_add_r 2 (e - e' - 1 + 1)) in E by lia. rewrite Z.mul_assoc in E. apply Z.mul_reg_r in E; [|lia].
      rewrite Z.pow_add_r in E by lia. change (2 ^ 1) with 2 in E.
      assert (0 < 2 ^ (e - e' - 1)) by (apply pow2_pos; lia).
      destruct Vn as [Vn|Vn]; [|lia]. change (2 ^ 23) with 8388608 in *. change (2 ^ 24) with 16777216 in *. nia. }
  apply (between_closer n k (FFin s m e) (FFin s' m' e') (FFin false (m + 1) e)); auto.
  - apply valid_fin. split; [lia|]. split; [lia|]. destruct Vn; [left; lia|right; assumption].
  - rewrite Ea, Eb. replace (f32_units (FFin false (m + 1) e)) with ((m + 1) * 2 ^ (e + 149)).
    + split; [apply Z.mul_lt_mono_pos_r; lia|lia].
    + rewrite units_opp. lia.
Qed.

Lemma rounds_to_lt n k v w : f32_units v < f32_units w -> rounds_to n k v -> rounds_to n k w -> False.
Proof.
  intros Hlt Hv Hw. pose proof Hv as (V1 & V2 & _ & V4). pose proof Hw as (W1 & W2 & _ & W4).
  pose proof (V4 w W1 W2) as [A A2]. pose proof (W4 v V1 V2) as [B B2].
  assert (Ev : even_significand v = true) by (apply A2; lia).
  assert (Ew : even_significand w = true) by (apply B2; lia).
  destruct (Z.le_gt_cases 0 (f32_units v)) as [Hc|Hc]; [eapply even_contra; eauto|].
  destruct (Z.le_gt_cases (f32_units w) 0) as [Hd|Hd].
  - apply (even_contra (- n) k (f32_neg w) (f32_neg v)); rewrite ?units_neg, ?even_neg; try lia; try assumption;
      apply rounds_neg; assumption.
  - apply (between_closer n k v w f32_zero); [reflexivity|reflexivity| |assumption|assumption].
    change (f32_units f32_zero) with 0. lia.
Qed.

(** Two floats that the same decimal rounds to have the same value (they can differ only
    in the sign of zero). *)
Lemma rounds_to_unique n k v w : rounds_to n k v -> rounds_to n k w -> f32_eqb v w = true.
Proof.
  intros Hv Hw. assert (f32_units v = f32_units w).
  { destruct (Z.lt_trichotomy (f32_units v) (f32_units w)) as [H|[H|H]]; [exfalso|assumption|exfalso];
      eapply rounds_to_lt; eauto. }
  destruct Hv as (Hf & _). destruct Hw as (Hg & _).
  destruct v; try discriminate. destruct w; try discriminate. unfold f32_eqb. apply Z.eqb_eq. assumption.
Qed.
