(** The text written for a float is a PDF number that stands for it. *)

From Coq Require Import ZArith List Lia Bool ZifyBool ZifyNat.
From Verif Require Import Bytes ModelFloat ModelBuf ModelObject SpecLex SpecText ProofBasic ProofFloat.
Import ListNotations.
Local Open Scope Z_scope.

(** An unsigned numeral. *)
Definition numeral (w : bytes) (t : token) : Prop :=
  number_unsigned w = Some t /\ forallb is_regular w = true /\
  (match w with c :: _ => is_digit c = true | [] => False end).

Lemma numeral_int ds : forallb is_digit ds = true -> ds <> [] -> numeral ds (TInt (digits_val ds)).
Proof.
  intros H Hne. split; [apply number_unsigned_int; assumption|]. split; [apply digits_regular; assumption|].
  destruct ds; [congruence|]. cbn in H. apply andb_true_iff in H. tauto.
Qed.

Lemma numeral_real ip fp : forallb is_digit ip = true -> forallb is_digit fp = true -> ip <> [] ->
  numeral (ip ++ x2e :: fp) (TReal (digits_val (ip ++ fp)) (List.length fp)).
Proof.
  intros H1 H2 Hne. split; [apply number_unsigned_real; auto; destruct ip; [congruence|discriminate]|].
  split.
  - rewrite forallb_app. cbn [forallb]. rewrite !digits_regular by assumption. reflexivity.
  - destruct ip; [congruence|]. cbn in H1. apply andb_true_iff in H1. tauto.
Qed.

Lemma numeral_number w t : numeral w t -> number w = Some t /\ forallb is_regular w = true /\ w <> [].
Proof.
  intros (H1 & H2 & H3). destruct w as [|c w]; [contradiction|].
  rewrite number_digit by assumption. repeat split; auto. discriminate.
Qed.

Lemma numeral_neg w t : numeral w t ->
  number (x2d :: w) = Some (token_neg t) /\ forallb is_regular (x2d :: w) = true /\ x2d :: w <> [].
Proof.
  intros (H1 & H2 & H3). rewrite number_neg, H1. repeat split; [|discriminate].
  cbn [forallb]. rewrite H2. reflexivity.
Qed.

Lemma means_neg t v : number_means t v -> number_means (token_neg t) (f32_neg v).
Proof. destruct t; cbn; try tauto; apply rounds_neg. Qed.

Lemma signed_numeral (neg : bool) w t m e :
  numeral w t -> number_means t (FFin false m e) ->
  exists t', number ((if neg then [x2d] else []) ++ w) = Some t' /\
    forallb is_regular ((if neg then [x2d] else []) ++ w) = true /\
    (if neg then [x2d] else []) ++ w <> [] /\ number_means t' (FFin neg m e).
Proof.
  intros Hn Hm. destruct neg; cbn [app].
  - exists (token_neg t). destruct (numeral_neg w t Hn) as (A & B & C).
    repeat split; auto. apply (means_neg t (FFin false m e)). exact Hm.
  - exists t. destruct (numeral_number w t Hn) as (A & B & C). repeat split; auto.
Qed.

Lemma zeros_digits n : forallb is_digit (repeat x30 n) = true.
Proof. apply forallb_forall. intros x Hx. apply repeat_spec in Hx. subst. reflexivity. Qed.

Lemma forallb_firstn {A} (p : A -> bool) n l : forallb p l = true -> forallb p (firstn n l) = true.
Proof.
  revert n. induction l as [|a l IH]; intros n H; destruct n; try reflexivity.
  cbn in *. apply andb_true_iff in H. destruct H as [H1 H2]. rewrite H1, IH by assumption. reflexivity.
Qed.
Lemma forallb_skipn {A} (p : A -> bool) n l : forallb p l = true -> forallb p (skipn n l) = true.
Proof.
  revert n. induction l as [|a l IH]; intros n H; destruct n; try reflexivity; try assumption.
  cbn in *. apply andb_true_iff in H. apply IH. tauto.
Qed.

Section Layout.
  Variables (m e c k : Z).
  Hypothesis Hv : f32_valid (FFin false m e) = true.
  Hypothesis Hm : 0 < m.
  Hypothesis Hs : shortest m e = (c, k).
  Let d := dec_u c.
  Let len := Z.of_nat (List.length d).
  Let kk := len + k.

  Lemma c_pos : 1 <= c /\ -149 <= k <= 39.
  Proof.
    apply valid_fin in Hv. destruct (shortest_spec m e Hm ltac:(lia)) as (c' & k' & E & H1 & H2 & _).
    rewrite Hs in E. injection E as <- <-. auto.
  Qed.

  Let dd : forallb is_digit d = true.
  Proof. apply dec_u_digits. pose proof c_pos. lia. Qed.
  Let dv : digits_val d = c.
  Proof. apply dec_u_val. pose proof c_pos. lia. Qed.
  Let dne : d <> [].
  Proof. apply dec_u_ne. pose proof c_pos. lia. Qed.
  Let lenpos : 0 < len.
  Proof. unfold len. destruct d; [congruence|cbn; lia]. Qed.

  (** digits, zeros, ".0" *)
  Lemma layout_int_dot : 0 <= k ->
    exists t, numeral (d ++ repeat x30 (Z.to_nat k) ++ lit ".0") t /\ number_means t (FFin false m e).
  Proof.
    intro Hk. exists (TReal (c * 10 ^ k * 10) 1). split.
    - replace (d ++ repeat x30 (Z.to_nat k) ++ lit ".0") with ((d ++ repeat x30 (Z.to_nat k)) ++ x2e :: [x30])
        by (rewrite <- app_assoc; reflexivity).
      replace (c * 10 ^ k * 10) with (digits_val ((d ++ repeat x30 (Z.to_nat k)) ++ [x30])).
      + apply numeral_real; [rewrite forallb_app, dd, zeros_digits; reflexivity|reflexivity|].
        destruct d; [congruence|discriminate].
      + rewrite !digits_val_app, dv, digits_val_zeros, repeat_length, digits_val_single.
        rewrite Z2Nat.id by assumption. change (bz x30 - 48) with 0. change (10 ^ Z.of_nat (List.length [x30])) with 10. lia.
    - cbn [number_means]. eapply shortest_rounds; eauto.
      rewrite (Z.max_l 0 (- k)), (Z.max_r 0 k) by lia. rewrite Z.pow_0_r. change (10 ^ Z.of_nat 1) with 10. lia.
  Qed.

  (** digits with a period inside *)
  Lemma layout_dot : 0 < kk -> k < 0 ->
    exists t, numeral (firstn (Z.to_nat kk) d ++ lit "." ++ skipn (Z.to_nat kk) d) t /\
              number_means t (FFin false m e).
  Proof.
    intros Hkk Hk. exists (TReal c (Z.to_nat (- k))). split.
    - change (lit "." ++ skipn (Z.to_nat kk) d) with (x2e :: skipn (Z.to_nat kk) d).
      replace (TReal c (Z.to_nat (- k))) with
        (TReal (digits_val (firstn (Z.to_nat kk) d ++ skipn (Z.to_nat kk) d)) (List.length (skipn (Z.to_nat kk) d))).
      + apply numeral_real; [apply forallb_firstn, dd|apply forallb_skipn, dd|].
        intro E. apply (f_equal (@List.length _)) in E. rewrite firstn_length in E.
        change (List.length (@nil byte)) with 0%nat in E. pose proof lenpos. unfold len in *. lia.
      + rewrite firstn_skipn, dv, skipn_length. f_equal. unfold kk, len in *. lia.
    - cbn [number_means]. eapply shortest_rounds; eauto.
      rewrite (Z.max_r 0 (- k)), (Z.max_l 0 k) by lia. rewrite Z.pow_0_r, Z2Nat.id by lia. lia.
  Qed.

  (** "0.", zeros, digits *)
  Lemma layout_small : kk <= 0 ->
    exists t, numeral (lit "0." ++ repeat x30 (Z.to_nat (- kk)) ++ d) t /\ number_means t (FFin false m e).
  Proof.
    intro Hkk. assert (Hk : k < 0) by (unfold kk in *; lia).
    exists (TReal c (Z.to_nat (- k))). split.
    - change (lit "0." ++ repeat x30 (Z.to_nat (- kk)) ++ d) with ([x30] ++ x2e :: (repeat x30 (Z.to_nat (- kk)) ++ d)).
      replace (TReal c (Z.to_nat (- k))) with
        (TReal (digits_val ([x30] ++ (repeat x30 (Z.to_nat (- kk)) ++ d))) (List.length (repeat x30 (Z.to_nat (- kk)) ++ d))).
      + apply numeral_real; [reflexivity| |discriminate]. rewrite forallb_app, zeros_digits, dd. reflexivity.
      + f_equal.
        * rewrite !digits_val_app, digits_val_zeros, dv, digits_val_single. change (bz x30 - 48) with 0. lia.
        * rewrite app_length, repeat_length. unfold kk, len in *. lia.
    - cbn [number_means]. eapply shortest_rounds; eauto.
      rewrite (Z.max_r 0 (- k)), (Z.max_l 0 k) by lia. rewrite Z.pow_0_r, Z2Nat.id by lia. lia.
  Qed.

  (** digits, zeros *)
  Lemma layout_int : 0 <= k ->
    exists t, numeral (d ++ repeat x30 (Z.to_nat k)) t /\ number_means t (FFin false m e).
  Proof.
    intro Hk. exists (TInt (c * 10 ^ k)). split.
    - replace (c * 10 ^ k) with (digits_val (d ++ repeat x30 (Z.to_nat k))).
      + apply numeral_int; [rewrite forallb_app, dd, zeros_digits; reflexivity|].
        destruct d; [congruence|discriminate].
      + rewrite digits_val_app, dv, digits_val_zeros, repeat_length, Z2Nat.id by assumption. lia.
    - cbn [number_means]. eapply shortest_rounds; eauto.
      rewrite (Z.max_l 0 (- k)), (Z.max_r 0 k) by lia. rewrite Z.pow_0_r. change (10 ^ Z.of_nat 0) with 1. lia.
  Qed.

  (** The guard of [push_decimal] excludes scientific notation: bounds on [kk]. *)
  Lemma kk_low : 8796093 * 2 ^ 106 < m * 2 ^ (e + 149) -> -6 < kk.
  Proof.
    intro Hlt. pose proof Hv as Hv'. apply valid_fin in Hv'. destruct Hv' as (Hmr & He & Hn).
    destruct (shortest_spec m e Hm ltac:(lia)) as (c' & k' & E & H1 & H2 & H3 & _).
    rewrite Hs in E. injection E as <- <-.
    assert (Hlo : 4 * m - 2 <= lo4 m e) by (unfold lo4; destruct (_ && _); lia).
    change (2 ^ 24) with 16777216 in *. change (2 ^ 23) with 8388608 in *.
    assert (Hlp : 2 ^ 151 <= lo4 m e * 2 ^ (e + 149) * 10 ^ 6).
    { assert (He43 : -43 <= e).
      { destruct (Z.le_gt_cases (-43) e) as [|Hc]; [assumption|exfalso].
        assert (2 ^ (e + 149) <= 2 ^ 105) by (apply Z.pow_le_mono_r; lia).
        assert (0 < 2 ^ (e + 149)) by (apply pow2_pos; lia).
        assert (m * 2 ^ (e + 149) <= 16777216 * 2 ^ 105) by (apply Z.mul_le_mono_nonneg; lia).
        assert (16777216 * 2 ^ 105 < 8796093 * 2 ^ 106) by (vm_compute; reflexivity). lia. }
      destruct (Z.eq_dec e (-43)) as [->|Hne].
      - change (-43 + 149) with 106 in *.
        assert (8796093 < m) by (apply Z.mul_lt_mono_pos_r with (2 ^ 106); [vm_compute; reflexivity|assumption]).
        apply Z.le_trans with ((4 * 8796094 - 2) * 2 ^ 106 * 10 ^ 6); [vm_compute; discriminate|].
        apply Z.mul_le_mono_nonneg_r; [vm_compute; discriminate|].
        apply Z.mul_le_mono_nonneg_r; [vm_compute; discriminate|]. lia.
      - assert (2 ^ 107 <= 2 ^ (e + 149)) by (apply Z.pow_le_mono_r; lia).
        apply Z.le_trans with ((4 * 8388608 - 2) * 2 ^ 107 * 10 ^ 6); [vm_compute; discriminate|].
        apply Z.mul_le_mono_nonneg_r; [vm_compute; discriminate|].
        apply Z.mul_le_mono_nonneg; try lia. }
    assert (Ht : 0 < 10 ^ Z.max 0 (- k)) by (apply pow10_pos; lia).
    assert (HT : 0 < 10 ^ Z.max 0 k) by (apply pow10_pos; lia).
    assert (Hcl : c < 10 ^ len) by (apply dec_u_lt; lia).
    assert (Hmain : 10 ^ Z.max 0 (- k) <= c * 10 ^ Z.max 0 k * 10 ^ 6).
    { destruct H3 as [H3 _].
      apply Z.mul_le_mono_pos_l with (2 ^ 151); [vm_compute; reflexivity|].
      apply Z.le_trans with (lo4 m e * 2 ^ (e + 149) * 10 ^ 6 * 10 ^ Z.max 0 (- k)).
      - apply Z.mul_le_mono_nonneg_r; lia.
      - replace (lo4 m e * 2 ^ (e + 149) * 10 ^ 6 * 10 ^ Z.max 0 (- k))
          with (lo4 m e * 2 ^ (e + 149) * 10 ^ Z.max 0 (- k) * 10 ^ 6) by (generalize (10 ^ 6); intro; ring).
        replace (2 ^ 151 * (c * 10 ^ Z.max 0 k * 10 ^ 6)) with (c * (2 ^ 151 * 10 ^ Z.max 0 k) * 10 ^ 6)
          by (generalize (10 ^ 6), (2 ^ 151); intros; ring).
        apply Z.mul_le_mono_nonneg_r; [vm_compute; discriminate|exact H3]. }
    assert (Hlt2 : 10 ^ Z.max 0 (- k) < 10 ^ (len + Z.max 0 k + 6)).
    { rewrite !Z.pow_add_r by lia. apply Z.le_lt_trans with (1 := Hmain).
      apply Z.mul_lt_mono_pos_r; [vm_compute; reflexivity|]. apply Z.mul_lt_mono_pos_r; assumption. }
    apply Z.pow_lt_mono_r_iff in Hlt2; [|lia|lia]. unfold kk. lia.
  Qed.

  Lemma kk_high : m * 2 ^ (e + 149) < 15258789 * 2 ^ 165 -> kk <= 13.
  Proof.
    intro Hlt. pose proof Hv as Hv'. apply valid_fin in Hv'. destruct Hv' as (Hmr & He & Hn).
    destruct (shortest_spec m e Hm ltac:(lia)) as (c' & k' & E & H1 & H2 & H3 & _).
    rewrite Hs in E. injection E as <- <-. destruct H3 as [_ H3].
    assert (Ht : 0 < 10 ^ Z.max 0 (- k)) by (apply pow10_pos; lia).
    assert (HT : 0 < 10 ^ Z.max 0 k) by (apply pow10_pos; lia).
    assert (Hp : 0 < 2 ^ (e + 149)) by (apply pow2_pos; lia).
    assert (Hlow : 10 ^ (len - 1) <= c).
    { destruct (dec_u_spec c ltac:(lia)) as (_ & _ & _ & [H4|H4] & _); [exact H4|].
      fold d in H4. unfold len. rewrite H4. change (10 ^ (Z.of_nat 1 - 1)) with 1. lia. }
    assert (Hmain : c * 10 ^ Z.max 0 k < 10 ^ 13 * 10 ^ Z.max 0 (- k)).
    { apply Z.mul_lt_mono_pos_l with (2 ^ 151); [vm_compute; reflexivity|].
      replace (2 ^ 151 * (c * 10 ^ Z.max 0 k)) with (c * (2 ^ 151 * 10 ^ Z.max 0 k)) by (generalize (2 ^ 151); intro; ring).
      apply Z.le_lt_trans with (1 := H3). rewrite Z.mul_assoc. apply Z.mul_lt_mono_pos_r; [assumption|].
      apply Z.le_lt_trans with (6 * (m * 2 ^ (e + 149))).
      - rewrite Z.mul_assoc. apply Z.mul_le_mono_nonneg_r; lia.
      - apply Z.lt_trans with (6 * (15258789 * 2 ^ 165)); [lia|vm_compute; reflexivity]. }
    assert (Hlt2 : 10 ^ (len - 1 + Z.max 0 k) < 10 ^ (13 + Z.max 0 (- k))).
    { rewrite !Z.pow_add_r by lia. apply Z.le_lt_trans with (2 := Hmain). apply Z.mul_le_mono_nonneg_r; lia. }
    apply Z.pow_lt_mono_r_iff in Hlt2; [|lia|lia]. unfold kk. lia.
  Qed.
End Layout.

Definition good_number (w : bytes) (v : f32) : Prop :=
  exists t, number w = Some t /\ forallb is_regular w = true /\ w <> [] /\ number_means t v.

Lemma zero_means t n m e : f32_valid (FFin n m e) = true -> m = 0 ->
  match t with TInt z => z = 0 | TReal z _ => z = 0 | _ => False end -> number_means t (FFin n m e).
Proof.
  intros Hv -> Ht. assert (f32_units (FFin n 0 e) = 0) as Hu by (rewrite units_opp; destruct n; lia).
  destruct t; try contradiction; subst; cbn [number_means]; apply rounds_exact; auto; rewrite Hu; lia.
Qed.

Lemma display_good n m e : f32_valid (FFin n m e) = true -> good_number (display_f32 (FFin n m e)) (FFin n m e).
Proof.
  intro Hv. unfold display_f32. destruct (m =? 0) eqn:E0.
  - exists (TInt 0). split; [destruct n; reflexivity|]. split; [destruct n; reflexivity|].
    split; [destruct n; discriminate|]. apply zero_means; [assumption|lia|reflexivity].
  - assert (Hm : 0 < m) by (apply valid_fin in Hv; lia).
    destruct (shortest m e) as [c k] eqn:Hs. cbv zeta.
    assert (Hv' : f32_valid (FFin false m e) = true) by exact Hv.
    pose proof (c_pos m e c k Hv' Hm Hs) as Hck.
    unfold good_number. set (len := Z.of_nat (List.length (dec_u c))) in *.
    destruct (len + k <=? 0) eqn:E1; [|destruct (len <=? len + k) eqn:E2].
    + destruct (layout_small m e c k Hv' Hm Hs) as (t & H1 & H2); [lia|].
      exact (signed_numeral n _ t m e H1 H2).
    + destruct (layout_int m e c k Hv' Hm Hs) as (t & H1 & H2); [lia|].
      replace (len + k - len) with k by lia.
      exact (signed_numeral n _ t m e H1 H2).
    + destruct (layout_dot m e c k Hv' Hm Hs) as (t & H1 & H2); [lia|lia|].
      exact (signed_numeral n _ t m e H1 H2).
Qed.

Lemma ryu_good n m e : f32_valid (FFin n m e) = true ->
  (m = 0 \/ (8796093 * 2 ^ 106 < m * 2 ^ (e + 149) /\ m * 2 ^ (e + 149) < 15258789 * 2 ^ 165)) ->
  good_number (ryu_fin n m e) (FFin n m e).
Proof.
  intros Hv Hg. unfold ryu_fin. destruct (m =? 0) eqn:E0.
  - exists (TReal 0 1). split; [destruct n; reflexivity|]. split; [destruct n; reflexivity|].
    split; [destruct n; discriminate|]. apply zero_means; [assumption|lia|reflexivity].
  - destruct Hg as [Hg|[Hg1 Hg2]]; [lia|].
    assert (Hm : 0 < m) by (apply valid_fin in Hv; lia).
    destruct (shortest m e) as [c k] eqn:Hs. cbv zeta.
    assert (Hv' : f32_valid (FFin false m e) = true) by exact Hv.
    pose proof (kk_low m e c k Hv' Hm Hs Hg1) as Hlow.
    pose proof (kk_high m e c k Hv' Hm Hs Hg2) as Hhigh.
    unfold good_number. set (len := Z.of_nat (List.length (dec_u c))) in *.
    destruct ((0 <=? k) && (len + k <=? 13)) eqn:E1;
      [|destruct ((0 <? len + k) && (len + k <=? 13)) eqn:E2;
        [|destruct ((-6 <? len + k) && (len + k <=? 0)) eqn:E3]].
    + destruct (layout_int_dot m e c k Hv' Hm Hs) as (t & H1 & H2); [lia|].
      exact (signed_numeral n _ t m e H1 H2).
    + destruct (layout_dot m e c k Hv' Hm Hs) as (t & H1 & H2); [lia|lia|].
      exact (signed_numeral n _ t m e H1 H2).
    + destruct (layout_small m e c k Hv' Hm Hs) as (t & H1 & H2); [lia|].
      exact (signed_numeral n _ t m e H1 H2).
    + exfalso. lia.
Qed.

(** The bytes of [push_decimal] and [push_float]. *)
Definition decimal_bytes (v : f32) : bytes :=
  if f32_eqb v f32_zero || (f32_ltb f32_1em6 (f32_abs v) && f32_ltb (f32_abs v) f32_1e12)
  then ryu_f32 v else display_f32 v.

Definition float_bytes (v : f32) : bytes :=
  if f32_eqb (f32_of_i32 (f32_as_i32 v)) v then dec_i (f32_as_i32 v) else decimal_bytes v.

Lemma push_decimal_inner v b : inner (push_decimal v b) = inner b ++ decimal_bytes v.
Proof.
  unfold push_decimal, decimal_bytes. cbv zeta.
  destruct (f32_eqb v f32_zero || (f32_ltb f32_1em6 (f32_abs v) && f32_ltb (f32_abs v) f32_1e12)); reflexivity.
Qed.

Lemma push_float_inner v b : inner (push_float v b) = inner b ++ float_bytes v.
Proof.
  unfold push_float, float_bytes. destruct (f32_eqb (f32_of_i32 (f32_as_i32 v)) v); [reflexivity|].
  apply push_decimal_inner.
Qed.

Lemma decimal_good v : f32_finite v = true -> f32_valid v = true -> good_number (decimal_bytes v) v.
Proof.
  intros Hf Hv. destruct v as [|s|s m e]; try discriminate. unfold decimal_bytes.
  destruct (f32_eqb (FFin s m e) f32_zero || _) eqn:E; [|apply display_good; assumption].
  cbn [ryu_f32]. apply ryu_good; [assumption|].
  pose proof Hv as Hv'. apply valid_fin in Hv'.
  assert (Hp : 0 < 2 ^ (e + 149)) by (apply pow2_pos; lia).
  apply orb_true_iff in E. destruct E as [E|E].
  - left. unfold f32_eqb, f32_zero in E. apply Z.eqb_eq in E. rewrite !units_opp in E.
    rewrite Z.mul_0_l, Z.mul_0_r in E. apply Z.mul_eq_0 in E. destruct E as [E|E]; [destruct s; discriminate|].
    apply Z.mul_eq_0 in E. destruct E; lia.
  - right. apply andb_true_iff in E. destruct E as [E1 E2].
    unfold f32_ltb, f32_abs, f32_1em6, f32_1e12, f32_units in E1, E2.
    rewrite !Z.mul_1_l in E1, E2. change (-43 + 149) with 106 in E1. change (16 + 149) with 165 in E2.
    split; [apply Z.ltb_lt in E1; exact E1|apply Z.ltb_lt in E2; exact E2].
Qed.

(** ** The integer shortcut *)

(** The value of [v] is the integer [z]. *)
Definition f32_is_int (v : f32) (z : Z) : Prop := f32_finite v = true /\ f32_units v = z * 2 ^ 149.

Lemma of_i32_small k : Z.abs k < 2 ^ 24 -> f32_units (f32_of_i32 k) = k * 2 ^ 149 /\ f32_finite (f32_of_i32 k) = true.
Proof.
  intro H. unfold f32_of_i32. destruct (Z.abs k =? 0) eqn:E0.
  - assert (k = 0) by lia. subst. split; reflexivity.
  - assert (Hl : 0 <= Z.log2 (Z.abs k) <= 23).
    { split; [apply Z.log2_nonneg|]. assert (Z.log2 (Z.abs k) < 24); [|lia]. apply Z.log2_lt_pow2; lia. }
    destruct (Z.log2 (Z.abs k) - 23 <=? 0) eqn:E1; [|lia].
    split; [|reflexivity]. rewrite units_opp.
    set (e := Z.log2 (Z.abs k) - 23) in *.
    assert (E : 2 ^ (- e) * 2 ^ (e + 149) = 2 ^ 149) by (rewrite <- Z.pow_add_r by lia; f_equal; lia).
    rewrite <- Z.mul_assoc, E. destruct (k <? 0) eqn:Ek.
    + rewrite Z.abs_neq by lia. generalize (2 ^ 149). intro. ring.
    + rewrite Z.abs_eq by lia. generalize (2 ^ 149). intro. ring.
Qed.

(** Exact multiples with a 24-bit significand survive the conversion. *)
Lemma of_i32_exact neg m e : 2 ^ 23 <= m < 2 ^ 24 -> 0 <= e ->
  let k := (if neg : bool then -1 else 1) * (m * 2 ^ e) in
  f32_units (f32_of_i32 k) = k * 2 ^ 149 /\ f32_finite (f32_of_i32 k) = true.
Proof.
  intros Hm He k.
  assert (Hp : 0 < 2 ^ e) by (apply pow2_pos; lia).
  assert (Habs : Z.abs k = m * 2 ^ e) by (unfold k; destruct neg; nia).
  assert (Hlog : Z.log2 (m * 2 ^ e) = 23 + e).
  { apply Z.log2_unique; [lia|]. replace (Z.succ (23 + e)) with (24 + e) by lia.
    rewrite !Z.pow_add_r by lia. change (2 ^ 24) with 16777216 in *. change (2 ^ 23) with 8388608 in *. nia. }
  unfold f32_of_i32. rewrite Habs.
  destruct (m * 2 ^ e =? 0) eqn:E0; [change (2 ^ 23) with 8388608 in *; nia|].
  rewrite Hlog. replace (23 + e - 23) with e by lia.
  assert (Hsg : (if k <? 0 then -1 else 1) = (if neg then -1 else 1)).
  { unfold k. change (2 ^ 23) with 8388608 in *. destruct neg.
    - destruct (-1 * (m * 2 ^ e) <? 0) eqn:E; [reflexivity|nia].
    - destruct (1 * (m * 2 ^ e) <? 0) eqn:E; [nia|reflexivity]. }
  destruct (e <=? 0) eqn:E1.
  - assert (e = 0) by lia. subst e. split; [|reflexivity]. rewrite units_opp.
    rewrite Hsg. unfold k. cbn [Z.opp Z.add]. rewrite !Z.pow_0_r.
    destruct neg; generalize (2 ^ 149); intro; ring.
  - rewrite Z.div_mul by lia. rewrite Z.mod_mul by lia.
    assert (0 < 2 ^ (e - 1)) by (apply pow2_pos; lia).
    destruct (2 ^ (e - 1) <? 0) eqn:E2; [lia|]. destruct (2 ^ (e - 1) =? 0) eqn:E3; [lia|].
    cbn [orb andb]. destruct (m =? 2 ^ 24) eqn:E4; [lia|].
    split; [|reflexivity]. rewrite units_opp, Hsg. unfold k.
    rewrite Z.pow_add_r by lia. destruct neg; generalize (2 ^ 149); intro; ring.
Qed.

(** The cast is exact on integral values in range. *)
Lemma as_i32_int v z : f32_valid v = true -> f32_is_int v z -> i32_min <= z <= i32_max -> f32_as_i32 v = z.
Proof.
  intros Hv [Hf Hu] Hz. destruct v as [|s|s m e]; try discriminate. rewrite units_opp in Hu.
  pose proof Hv as Hv'. apply valid_fin in Hv'. unfold f32_as_i32.
  assert (Ha : (if 0 <=? e then m * 2 ^ e else m / 2 ^ (- e)) = Z.abs z).
  { assert (Hz' : m * 2 ^ (e + 149) = Z.abs z * 2 ^ 149).
    { assert (0 < 2 ^ (e + 149)) by (apply pow2_pos; lia). assert (0 < 2 ^ 149) by (vm_compute; reflexivity).
      revert Hu H0. generalize (2 ^ 149). intros q Hu Hq. destruct s; nia. }
    destruct (0 <=? e) eqn:E.
    - rewrite Z.pow_add_r in Hz' by lia. assert (Hq : 2 ^ 149 <> 0) by (vm_compute; discriminate).
      revert Hq Hz'. generalize (2 ^ 149). intros q Hq Hz'. apply Z.mul_reg_r with q; [assumption|]. lia.
    - assert (E2 : 2 ^ 149 = 2 ^ (- e) * 2 ^ (e + 149)) by (rewrite <- Z.pow_add_r by lia; f_equal; lia).
      rewrite E2 in Hz'. assert (Hp : 0 < 2 ^ (e + 149)) by (apply pow2_pos; lia).
      assert (m = Z.abs z * 2 ^ (- e)).
      { apply Z.mul_reg_r with (2 ^ (e + 149)); [lia|]. lia. }
      subst m. apply Z.div_mul. assert (0 < 2 ^ (- e)) by (apply pow2_pos; lia). lia. }
  rewrite Ha.
  assert (Hsz : (if s then - Z.abs z else Z.abs z) = z).
  { assert (0 <= m * 2 ^ (e + 149)). { apply Z.mul_nonneg_nonneg; [lia|]. apply Z.pow_nonneg. lia. }
    assert (Hq : 0 < 2 ^ 149) by (vm_compute; reflexivity). revert Hu Hq. generalize (2 ^ 149). intros q Hu Hq.
    destruct s; nia. }
  rewrite Hsz. lia.
Qed.

Lemma of_i32_valid_int v z : f32_valid v = true -> f32_is_int v z -> Z.abs z <= 2 ^ 31 ->
  f32_units (f32_of_i32 z) = f32_units v /\ f32_finite (f32_of_i32 z) = true.
Proof.
  intros Hv [Hf Hu] Hz.
  destruct (Z.lt_ge_cases (Z.abs z) (2 ^ 24)) as [Hlt|Hge].
  - rewrite Hu. apply of_i32_small. assumption.
  - destruct v as [|s|s m e]; try discriminate. pose proof Hv as Hv'. apply valid_fin in Hv'.
    rewrite units_opp in Hu.
    assert (Hq : 0 < 2 ^ 149) by (vm_compute; reflexivity).
    assert (He : 0 < e).
    { destruct (Z.le_gt_cases e 0) as [Hc|]; [exfalso|assumption].
      assert (2 ^ (e + 149) <= 2 ^ 149) by (apply Z.pow_le_mono_r; lia).
      assert (0 < 2 ^ (e + 149)) by (apply pow2_pos; lia).
      assert (Habs : m * 2 ^ (e + 149) = Z.abs z * 2 ^ 149).
      { revert Hu Hq. generalize (2 ^ 149). intros q Hu Hq. destruct s; nia. }
      revert Hq H Habs. generalize (2 ^ 149). intros q Hq H Habs. nia. }
    assert (Hz2 : z = (if s then -1 else 1) * (m * 2 ^ e)).
    { rewrite Z.pow_add_r in Hu by lia. revert Hu Hq. generalize (2 ^ 149). intros q Hu Hq.
      apply Z.mul_reg_r with q; [lia|]. rewrite <- Hu. ring. }
    assert (Hm : 2 ^ 23 <= m) by (destruct Hv' as (_ & _ & [H|H]); [assumption|lia]).
    rewrite units_opp. rewrite Hz2 in *. rewrite Hu. apply of_i32_exact; lia.
Qed.

(** The branch condition of [push_float]: exactly the integral values of i32, and 2^31. *)
Lemma shortcut_int v z : f32_valid v = true -> f32_is_int v z -> i32_min <= z <= i32_max ->
  f32_eqb (f32_of_i32 (f32_as_i32 v)) v = true.
Proof.
  intros Hv Hi Hz. rewrite (as_i32_int v z Hv Hi Hz).
  destruct (of_i32_valid_int v z Hv Hi) as [H1 H2]; [unfold i32_min, i32_max in *; lia|].
  destruct Hi as [Hf _]. destruct (f32_of_i32 z) as [| |s m e]; try discriminate.
  destruct v; try discriminate. unfold f32_eqb. rewrite H1. apply Z.eqb_refl.
Qed.

Lemma shortcut_inv v : f32_valid v = true -> f32_eqb (f32_of_i32 (f32_as_i32 v)) v = true ->
  (f32_is_int v (f32_as_i32 v) /\ i32_min <= f32_as_i32 v <= i32_max) \/
  (v = FFin false (2 ^ 23) 8 /\ f32_as_i32 v = i32_max).
Proof.
  intros Hv E. destruct v as [|s|s m e].
  - destruct (f32_of_i32 _); discriminate.
  - exfalso. destruct (f32_of_i32 (f32_as_i32 (FInf s))) eqn:E2; try discriminate.
    destruct s; vm_compute in E2; discriminate.
  - pose proof Hv as Hv'. apply valid_fin in Hv'. destruct Hv' as (Hm & He & Hn).
    destruct (f32_of_i32 (f32_as_i32 (FFin s m e))) as [| |s' m' e'] eqn:E2; try discriminate.
    cbn [f32_eqb] in E. apply Z.eqb_eq in E. rewrite <- E2 in E.
    remember (f32_as_i32 (FFin s m e)) as k eqn:Ek. unfold f32_as_i32 in Ek.
    assert (Hkr : i32_min <= k <= i32_max) by (unfold i32_min, i32_max in *; lia).
    destruct (0 <=? e) eqn:Ee.
    + (* integral value *)
      set (t := if s then - (m * 2 ^ e) else m * 2 ^ e) in Ek.
      assert (Hut : f32_units (FFin s m e) = t * 2 ^ 149).
      { rewrite units_opp, Z.pow_add_r by lia. unfold t. destruct s; generalize (2 ^ 149); intro; ring. }
      destruct (Z.le_gt_cases i32_min t) as [H1|H1]; [destruct (Z.le_gt_cases t i32_max) as [H2|H2]|].
      * left. assert (k = t) by lia. subst k. split; [|lia]. split; [reflexivity|]. rewrite H. exact Hut.
      * right. assert (Hk : k = i32_max) by (unfold i32_min, i32_max in *; lia). split; [|assumption].
        rewrite Hk in E. assert (f32_units (f32_of_i32 i32_max) = 2 ^ 31 * 2 ^ 149) as E3 by (vm_compute; reflexivity).
        rewrite E3, Hut in E. assert (Ht : t = 2 ^ 31).
        { apply Z.mul_reg_r with (2 ^ 149); [vm_compute; discriminate|]. symmetry. exact E. }
        assert (Hp : 0 < 2 ^ e) by (apply pow2_pos; lia).
        unfold t in Ht. change (2 ^ 24) with 16777216 in *. change (2 ^ 23) with 8388608 in *.
        change (2 ^ 31) with 2147483648 in *. destruct s; [nia|].
        assert (2 ^ 23 <= m) by (change (2 ^ 23) with 8388608; destruct Hn; [assumption|lia]).
        assert (e = 8).
        { destruct (Z.lt_trichotomy e 8) as [Hc|[Hc|Hc]]; [exfalso|assumption|exfalso].
          - assert (2 ^ e <= 2 ^ 7) by (apply Z.pow_le_mono_r; lia). change (2 ^ 7) with 128 in *. nia.
          - assert (2 ^ 9 <= 2 ^ e) by (apply Z.pow_le_mono_r; lia). change (2 ^ 9) with 512 in *.
            change (2 ^ 23) with 8388608 in *. nia. }
        subst e. change (2 ^ 8) with 256 in Ht. f_equal. lia.
      * exfalso. assert (Hk : k = i32_min) by (unfold i32_min, i32_max in *; lia).
        rewrite Hk in E. assert (f32_units (f32_of_i32 i32_min) = i32_min * 2 ^ 149) as E3 by (vm_compute; reflexivity).
        rewrite E3, Hut in E. apply Z.mul_reg_r in E; [lia|vm_compute; discriminate].
    + (* |v| < 2^24: the truncation is exact as a float *)
      set (a := m / 2 ^ (- e)) in Ek.
      assert (Ha : 0 <= a < 2 ^ 24).
      { assert (0 < 2 ^ (- e)) by (apply pow2_pos; lia). unfold a. split; [apply Z.div_pos; lia|].
        apply Z.le_lt_trans with m; [|lia]. apply Z.div_le_upper_bound; [assumption|].
        assert (1 <= 2 ^ (- e)) by lia. nia. }
      change (2 ^ 24) with 16777216 in *.
      assert (Hk : k = if s then - a else a) by (unfold i32_min, i32_max in *; change (2 ^ 31) with 2147483648 in *; destruct s; lia).
      left. split; [|lia]. split; [reflexivity|].
      rewrite <- E. apply of_i32_small. change (2 ^ 24) with 16777216. rewrite Hk. destruct s; lia.
Qed.

Lemma float_good v : f32_finite v = true -> f32_valid v = true -> good_number (float_bytes v) v.
Proof.
  intros Hf Hv. unfold float_bytes.
  destruct (f32_eqb (f32_of_i32 (f32_as_i32 v)) v) eqn:E; [|apply decimal_good; assumption].
  destruct (dec_i_spec (f32_as_i32 v)) as (H1 & H2 & H3).
  exists (TInt (f32_as_i32 v)). split; [assumption|]. split; [assumption|]. split; [assumption|].
  cbn [number_means]. destruct (shortcut_inv v Hv E) as [[[_ Hi] _]|[-> Hi]].
  - apply rounds_exact; auto. rewrite Hi. change (10 ^ Z.of_nat 0) with 1. lia.
  - rewrite Hi. apply rounds_core; [reflexivity|reflexivity|vm_compute; split; discriminate|discriminate].
Qed.
