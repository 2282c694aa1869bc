(** Every finite f32 is written as a decimal that rounds back to it. *)

From Coq Require Import ZArith List Lia Bool ZifyBool ZifyNat.
From Verif Require Import Bytes ModelFloat ModelBuf ModelObject SpecLex SpecText ProofBasic.
Import ListNotations.
Local Open Scope Z_scope.

Lemma pow2_pos n : 0 <= n -> 0 < 2 ^ n.
Proof. intro. apply Z.pow_pos_nonneg; lia. Qed.
Lemma pow10_pos n : 0 <= n -> 0 < 10 ^ n.
Proof. intro. apply Z.pow_pos_nonneg; lia. Qed.

Lemma valid_fin s m e : f32_valid (FFin s m e) = true <->
  0 <= m < 2 ^ 24 /\ -149 <= e <= 104 /\ (2 ^ 23 <= m \/ e = -149).
Proof. unfold f32_valid. change (2 ^ 24) with 16777216. change (2 ^ 23) with 8388608. lia. Qed.

(** [f32_valid] describes exactly the images of 32-bit patterns. *)
Lemma f32_of_bits_valid w : 0 <= w < 2 ^ 32 -> f32_valid (f32_of_bits w) = true.
Proof.
  intro H. unfold f32_of_bits.
  assert (0 <= w mod 2 ^ 23 < 2 ^ 23) by (apply Z.mod_pos_bound; reflexivity).
  assert (0 <= (w / 2 ^ 23) mod 256 < 256) by (apply Z.mod_pos_bound; reflexivity).
  destruct (_ =? 255) eqn:E1; [destruct (_ =? 0); reflexivity|].
  destruct (_ =? 0) eqn:E2; apply valid_fin; change (2 ^ 24) with 16777216 in *; change (2 ^ 23) with 8388608 in *; lia.
Qed.

Lemma f32_of_bits_surj v : f32_valid v = true -> exists w, 0 <= w < 2 ^ 32 /\ f32_of_bits w = v.
Proof.
  intro H. destruct v as [|s|s m e].
  - exists 2143289344. split; [lia|reflexivity].
  - destruct s; [exists 4286578688|exists 2139095040]; (split; [lia|reflexivity]).
  - apply valid_fin in H. change (2 ^ 24) with 16777216 in H. change (2 ^ 23) with 8388608 in H.
    set (sb := if s then 2147483648 else 0).
    assert (Hsb : (2 ^ 31 <=? sb) = s) by (destruct s; reflexivity).
    destruct (Z.lt_ge_cases m 8388608) as [Hm|Hm].
    + exists (sb + m). assert (e = -149) by lia. subst e.
      split; [unfold sb; destruct s; lia|]. unfold f32_of_bits. change (2 ^ 23) with 8388608.
      replace ((sb + m) mod 8388608) with m by (unfold sb; destruct s; Z.div_mod_to_equations; lia).
      replace (((sb + m) / 8388608) mod 256) with 0 by (unfold sb; destruct s; Z.div_mod_to_equations; lia).
      cbn [Z.eqb]. f_equal. change (2 ^ 31) with 2147483648. unfold sb; destruct s; lia.
    + exists (sb + (e + 150) * 8388608 + (m - 8388608)).
      split; [unfold sb; destruct s; lia|]. unfold f32_of_bits. change (2 ^ 23) with 8388608.
      replace ((sb + (e + 150) * 8388608 + (m - 8388608)) mod 8388608) with (m - 8388608)
        by (unfold sb; destruct s; Z.div_mod_to_equations; lia).
      replace (((sb + (e + 150) * 8388608 + (m - 8388608)) / 8388608) mod 256) with (e + 150)
        by (unfold sb; destruct s; Z.div_mod_to_equations; lia).
      destruct (e + 150 =? 255) eqn:E1; [lia|]. destruct (e + 150 =? 0) eqn:E2; [lia|].
      f_equal; [|lia|lia]. change (2 ^ 31) with 2147483648. unfold sb; destruct s; lia.
Qed.

(** ** Gaps between neighbouring values *)

Lemma gap_above m e m' e' :
  0 <= m < 2 ^ 24 -> 0 <= m' < 2 ^ 24 -> -149 <= e -> -149 <= e' ->
  (2 ^ 23 <= m \/ e = -149) ->
  m * 2 ^ (e + 149) < m' * 2 ^ (e' + 149) -> (m + 1) * 2 ^ (e + 149) <= m' * 2 ^ (e' + 149).
Proof.
  intros Hm Hm' He He' Hn Hlt.
  destruct (Z.le_gt_cases e e') as [Hle|Hgt].
  - assert (E2 : 2 ^ (e' + 149) = 2 ^ (e' - e) * 2 ^ (e + 149)) by (rewrite <- Z.pow_add_r by lia; f_equal; lia).
    rewrite E2 in *. pose proof (pow2_pos (e + 149) ltac:(lia)) as Hp.
    rewrite Z.mul_assoc in *. apply Z.mul_lt_mono_pos_r in Hlt; [|assumption].
    apply Z.mul_le_mono_nonneg_r; lia.
  - exfalso. destruct Hn as [Hn|Hn]; [|lia].
    assert (E2 : 2 ^ (e + 149) = 2 ^ (e - e' - 1) * 2 * 2 ^ (e' + 149))
      by (rewrite <- (Z.pow_1_r 2) at 3; rewrite <- !Z.pow_add_r by lia; f_equal; lia).
    rewrite E2 in *.
    pose proof (pow2_pos (e' + 149) ltac:(lia)). pose proof (pow2_pos (e - e' - 1) ltac:(lia)).
    change (2 ^ 24) with (2 ^ 23 * 2) in Hm'.
    assert (2 ^ 23 * 2 <= m * (2 ^ (e - e' - 1) * 2)) by nia. nia.
Qed.

Lemma gap_below m e m' e' :
  0 <= m < 2 ^ 24 -> 0 <= m' < 2 ^ 24 -> -149 <= e -> -149 <= e' ->
  (2 ^ 23 <= m \/ e = -149) ->
  m' * 2 ^ (e' + 149) < m * 2 ^ (e + 149) ->
  4 * (m' * 2 ^ (e' + 149)) <= (2 * lo4 m e - 4 * m) * 2 ^ (e + 149).
Proof.
  intros Hm Hm' He He' Hn Hlt. unfold lo4.
  destruct (Z.le_gt_cases e e') as [Hle|Hgt].
  - assert (E2 : 2 ^ (e' + 149) = 2 ^ (e' - e) * 2 ^ (e + 149)) by (rewrite <- Z.pow_add_r by lia; f_equal; lia).
    rewrite E2 in *. pose proof (pow2_pos (e + 149) ltac:(lia)) as Hp.
    rewrite !Z.mul_assoc in *. apply Z.mul_lt_mono_pos_r in Hlt; [|assumption].
    apply Z.mul_le_mono_nonneg_r; [lia|]. destruct (_ && _); lia.
  - destruct Hn as [Hn|Hn]; [|lia].
    assert (E2 : 2 ^ (e + 149) = 2 ^ (e - e' - 1) * 2 * 2 ^ (e' + 149))
      by (rewrite <- (Z.pow_1_r 2) at 3; rewrite <- !Z.pow_add_r by lia; f_equal; lia).
    rewrite E2 in *.
    pose proof (pow2_pos (e' + 149) ltac:(lia)). pose proof (pow2_pos (e - e' - 1) ltac:(lia)).
    change (2 ^ 24) with 16777216 in *. change (2 ^ 23) with 8388608 in *.
    set (p := 2 ^ (e' + 149)) in *. set (r := 2 ^ (e - e' - 1)) in *.
    destruct ((m =? 8388608) && (-149 <? e)) eqn:E.
    + assert (m = 8388608) by lia. subst m. nia.
    + assert (8388609 <= m) by lia. nia.
Qed.

(** ** Nearest from the rounding interval *)

Lemma units_opp s m e : f32_units (FFin s m e) = (if s then -1 else 1) * (m * 2 ^ (e + 149)).
Proof. reflexivity. Qed.

Lemma rounds_core n s m e :
  f32_valid (FFin false m e) = true -> 0 < m ->
  let P := 2 ^ (e + 149) * 10 ^ Z.of_nat s in
  lo4 m e * P <= 4 * (n * 2 ^ 149) <= (4 * m + 2) * P ->
  (Z.even m = false -> lo4 m e * P < 4 * (n * 2 ^ 149) < (4 * m + 2) * P) ->
  rounds_to n s (FFin false m e).
Proof.
  intros Hv Hm0 P HI Hodd. pose proof Hv as Hv'. apply valid_fin in Hv'.
  destruct Hv' as (Hm & He & Hn).
  assert (HT : 0 < 10 ^ Z.of_nat s) by (apply pow10_pos; lia).
  assert (Hp : 0 < 2 ^ (e + 149)) by (apply pow2_pos; lia).
  assert (HP : 0 < P) by (unfold P; nia).
  assert (Hlo : 4 * m - 2 <= lo4 m e <= 4 * m - 1) by (unfold lo4; destruct (_ && _); lia).
  split; [reflexivity|]. split; [exact Hv|]. split.
  - (* overflow threshold *)
    assert (Hpb : 2 ^ (e + 149) <= 2 ^ 253) by (apply Z.pow_le_mono_r; lia).
    set (T := 10 ^ Z.of_nat s) in *. set (p := 2 ^ (e + 149)) in *.
    assert (0 <= n).
    { assert (0 < 2 ^ 149) by reflexivity. nia. }
    rewrite Z.abs_eq by assumption.
    assert (HU : 4 * (n * 2 ^ 149) < (2 ^ 26 - 2) * 2 ^ 253 * T).
    { destruct (Z.eq_dec m (2 ^ 24 - 1)) as [->|Hne].
      - apply Z.lt_le_trans with ((4 * (2 ^ 24 - 1) + 2) * P).
        + apply Hodd. reflexivity.
        + unfold P. replace (4 * (2 ^ 24 - 1) + 2) with (2 ^ 26 - 2) by reflexivity.
          rewrite <- Z.mul_assoc. apply Z.mul_le_mono_nonneg_l; [lia|].
          apply Z.mul_le_mono_nonneg_r; lia.
      - apply Z.le_lt_trans with ((4 * m + 2) * P); [lia|]. unfold P.
        apply Z.le_lt_trans with ((4 * m + 2) * (2 ^ 253 * T)).
        + apply Z.mul_le_mono_nonneg_l; [lia|]. apply Z.mul_le_mono_nonneg_r; lia.
        + rewrite <- Z.mul_assoc. apply Z.mul_lt_mono_pos_r; [apply Z.mul_pos_pos; [reflexivity|assumption]|].
          change (2 ^ 24) with 16777216 in *. change (2 ^ 26) with 67108864. lia. }
    assert (E1 : (2 ^ 26 - 2) * 2 ^ 253 = 4 * 2 ^ 149 * ((2 ^ 25 - 1) * 2 ^ 103)) by reflexivity.
    rewrite E1 in HU.
    assert (Hq : 0 < 2 ^ 149) by reflexivity.
    set (q := 2 ^ 149) in *. set (B := (2 ^ 25 - 1) * 2 ^ 103) in *. clear E1. clearbody q B. nia.
  - intros w Hwf Hwv. destruct w as [|sw|sw m' e']; try discriminate.
    pose proof Hwv as Hw. apply valid_fin in Hw. destruct Hw as (Hm' & He' & Hn').
    unfold scaled_dist. rewrite !units_opp. cbn [even_significand].
    set (T := 10 ^ Z.of_nat s) in *. set (p := 2 ^ (e + 149)) in *.
    set (X := n * 2 ^ 149) in *.
    set (W := (if sw then -1 else 1) * (m' * 2 ^ (e' + 149))).
    assert (Hp' : 0 < 2 ^ (e' + 149)) by (apply pow2_pos; lia).
    assert (HW : W = m * p \/ (m + 1) * p <= W \/ 4 * W <= (2 * lo4 m e - 4 * m) * p).
    { unfold W. destruct sw.
      - right. right. assert (4 * (-1 * (m' * 2 ^ (e' + 149))) <= 0) by nia.
        assert (0 <= (2 * lo4 m e - 4 * m) * p) by nia. lia.
      - rewrite Z.mul_1_l. destruct (Z.lt_trichotomy (m' * 2 ^ (e' + 149)) (m * p)) as [H|[H|H]].
        + right; right. apply gap_below; auto; lia.
        + left; assumption.
        + right; left. apply gap_above; auto; lia. }
    rewrite Z.mul_1_l.
    assert (HV : m * p * T = m * P) by (unfold P; ring).
    assert (HL : lo4 m e * P <= 4 * (m * P) - P) by nia.
    destruct HW as [HW|[HW|HW]].
    + rewrite HW. split; [lia|]. intros _ Hne. lia.
    + assert (HWT : m * P + P <= W * T) by (replace (m * P + P) with ((m + 1) * p * T) by (unfold P; ring); nia).
      rewrite HV. split; [lia|]. intros Heq _.
      destruct (Z.even m) eqn:Ev; [reflexivity|]. specialize (Hodd eq_refl). lia.
    + assert (HWT : 4 * (W * T) <= 2 * (lo4 m e * P) - 4 * (m * P)).
      { replace (2 * (lo4 m e * P) - 4 * (m * P)) with ((2 * lo4 m e - 4 * m) * p * T) by (unfold P; ring). nia. }
      rewrite HV. split; [lia|]. intros Heq _.
      destruct (Z.even m) eqn:Ev; [reflexivity|]. specialize (Hodd eq_refl). lia.
Qed.

Definition f32_neg (v : f32) : f32 :=
  match v with FNan => FNan | FInf s => FInf (negb s) | FFin s m e => FFin (negb s) m e end.

Lemma units_neg v : f32_units (f32_neg v) = - f32_units v.
Proof. destruct v as [|s|s m e]; try reflexivity. cbn [f32_neg f32_units]. destruct s; cbn [negb]; lia. Qed.
Lemma valid_neg v : f32_valid (f32_neg v) = f32_valid v.
Proof. destruct v; reflexivity. Qed.
Lemma finite_neg v : f32_finite (f32_neg v) = f32_finite v.
Proof. destruct v; reflexivity. Qed.
Lemma even_neg v : even_significand (f32_neg v) = even_significand v.
Proof. destruct v; reflexivity. Qed.

Lemma dist_neg n s v : scaled_dist (- n) s (f32_neg v) = scaled_dist n s v.
Proof. unfold scaled_dist. rewrite units_neg. lia. Qed.

Lemma f32_neg_neg v : f32_neg (f32_neg v) = v.
Proof. destruct v as [|s|s m e]; cbn; rewrite ?negb_involutive; reflexivity. Qed.

Lemma rounds_neg n s v : rounds_to n s v -> rounds_to (- n) s (f32_neg v).
Proof.
  intros (H1 & H2 & H3 & H4). repeat split.
  - rewrite finite_neg. exact H1.
  - rewrite valid_neg. exact H2.
  - rewrite Z.abs_opp. exact H3.
  - rewrite dist_neg. rewrite <- (f32_neg_neg w), dist_neg. apply H4; rewrite ?finite_neg, ?valid_neg; assumption.
  - rewrite dist_neg, even_neg. rewrite <- (f32_neg_neg w), dist_neg. intros E Hne.
    apply (H4 (f32_neg w)); rewrite ?finite_neg, ?valid_neg; auto. intro Hc. apply Hne.
    rewrite !units_neg in *. lia.
Qed.

Lemma units_bound v : f32_valid v = true -> Z.abs (f32_units v) <= (2 ^ 24 - 1) * 2 ^ 253.
Proof.
  intro H. destruct v as [|s|s m e]; [vm_compute; discriminate|vm_compute; discriminate|].
  apply valid_fin in H. destruct H as (Hm & He & _). rewrite units_opp.
  assert (0 < 2 ^ (e + 149)) by (apply pow2_pos; lia).
  assert (2 ^ (e + 149) <= 2 ^ 253) by (apply Z.pow_le_mono_r; lia).
  set (p := 2 ^ (e + 149)) in *. set (q := 2 ^ 253) in *.
  assert (m * p <= (2 ^ 24 - 1) * q) by (apply Z.mul_le_mono_nonneg; lia).
  assert (0 <= m * p) by (apply Z.mul_nonneg_nonneg; lia).
  clearbody q. destruct s; [replace (-1 * (m * p)) with (- (m * p)) by ring; rewrite Z.abs_opp | rewrite Z.mul_1_l];
    rewrite Z.abs_eq by assumption; assumption.
Qed.

Lemma rounds_exact n s v : f32_finite v = true -> f32_valid v = true ->
  n * 2 ^ 149 = f32_units v * 10 ^ Z.of_nat s -> rounds_to n s v.
Proof.
  intros Hf Hv E. split; [exact Hf|]. split; [exact Hv|].
  assert (HT : 0 < 10 ^ Z.of_nat s) by (apply pow10_pos; lia). split.
  - pose proof (units_bound v Hv) as HB.
    assert (E' : Z.abs n * 2 ^ 149 = Z.abs (f32_units v) * 10 ^ Z.of_nat s).
    { apply (f_equal Z.abs) in E. rewrite !Z.abs_mul in E.
      rewrite (Z.abs_eq (2 ^ 149)) in E by discriminate.
      rewrite (Z.abs_eq (10 ^ _)) in E by lia. exact E. }
    set (T := 10 ^ Z.of_nat s) in *. set (a := Z.abs n) in *. set (u := Z.abs (f32_units v)) in *.
    assert (H1 : a * 2 ^ 149 <= (2 ^ 24 - 1) * 2 ^ 253 * T) by (rewrite E'; apply Z.mul_le_mono_nonneg_r; lia).
    replace ((2 ^ 24 - 1) * 2 ^ 253) with ((2 ^ 25 - 2) * 2 ^ 103 * 2 ^ 149) in H1 by reflexivity.
    assert (Hq : 0 < 2 ^ 149) by reflexivity.
    set (q := 2 ^ 149) in *.
    assert (H2 : a <= (2 ^ 25 - 2) * 2 ^ 103 * T).
    { apply Z.mul_le_mono_pos_r with q; [assumption|].
      replace ((2 ^ 25 - 2) * 2 ^ 103 * T * q) with ((2 ^ 25 - 2) * 2 ^ 103 * q * T) by ring. exact H1. }
    apply Z.le_lt_trans with (1 := H2). apply Z.mul_lt_mono_pos_r; [assumption|reflexivity].
  - intros w Hw Hwv. unfold scaled_dist. rewrite E. split; [lia|].
    intros E2 Hne. exfalso. apply Hne. apply Z.mul_reg_r with (10 ^ Z.of_nat s); lia.
Qed.

(** ** The shortest decimal *)

Lemma interval_ok_bounds m lo hi n u c : interval_ok m lo hi n u c = true ->
  lo <= c * u <= hi /\ (Z.even m = false -> lo < c * u < hi).
Proof. unfold interval_ok. destruct (Z.even m); intro H; split; try (intro; discriminate); lia. Qed.

Lemma pick_bounds m lo v hi u c : pick m lo v hi u = Some c ->
  lo <= c * u <= hi /\ (Z.even m = false -> lo < c * u < hi).
Proof.
  unfold pick.
  set (pr := if (2 * (v mod u) <? u) || ((2 * (v mod u) =? u) && Z.even (v / u))
             then (v / u, v / u + 1) else (v / u + 1, v / u)).
  destruct pr as [near far].
  destruct (interval_ok m lo hi v u near) eqn:E1.
  - intro H. injection H as <-. eapply interval_ok_bounds; eassumption.
  - destruct (interval_ok m lo hi v u far) eqn:E2; [|discriminate].
    intro H. injection H as <-. eapply interval_ok_bounds; eassumption.
Qed.

Lemma try_k_last m e : 0 <= m -> -149 <= e -> exists c, try_k m e (-149) = Some c.
Proof.
  intros Hm0 He. unfold try_k.
  change (Z.max 0 (- -149)) with 149. change (Z.max 0 (-149)) with 0. rewrite Z.pow_0_r, Z.mul_1_r.
  set (p := 2 ^ (e + 149)). assert (Hp : 0 < p) by (apply pow2_pos; lia).
  assert (Hlo : 4 * m - 2 <= lo4 m e <= 4 * m - 1) by (unfold lo4; destruct (_ && _); lia).
  assert (E : 4 * m * p * 10 ^ 149 = (m * p * 5 ^ 149) * 2 ^ 151).
  { assert (E1 : 10 ^ 149 = 2 ^ 149 * 5 ^ 149) by (vm_compute; reflexivity).
    assert (E2 : 2 ^ 151 = 4 * 2 ^ 149) by (vm_compute; reflexivity).
    rewrite E1, E2. generalize (2 ^ 149), (5 ^ 149). intros a b. ring. }
  exists (m * p * 5 ^ 149). unfold pick. rewrite E.
  assert (Hne : 2 ^ 151 <> 0) by (vm_compute; discriminate).
  rewrite Z.div_mul by exact Hne. rewrite Z.mod_mul by exact Hne.
  assert (2 * 0 <? 2 ^ 151 = true) as -> by (vm_compute; reflexivity). cbn [orb].
  assert (interval_ok m (lo4 m e * p * 10 ^ 149) ((4 * m + 2) * p * 10 ^ 149) (m * p * 5 ^ 149 * 2 ^ 151)
            (2 ^ 151) (m * p * 5 ^ 149) = true) as ->; [|reflexivity].
  unfold interval_ok. rewrite <- E.
  assert (Ht : 0 < 10 ^ 149) by (vm_compute; reflexivity). revert Ht. generalize (10 ^ 149). clear E Hne. intros t Ht.
  assert (lo4 m e * p * t < 4 * m * p * t).
  { apply Z.mul_lt_mono_pos_r; [assumption|]. apply Z.mul_lt_mono_pos_r; lia. }
  assert (4 * m * p * t < (4 * m + 2) * p * t).
  { apply Z.mul_lt_mono_pos_r; [assumption|]. apply Z.mul_lt_mono_pos_r; lia. }
  destruct (Z.even m); lia.
Qed.

Lemma shortest_from_spec m e : 0 <= m -> -149 <= e -> forall fuel k,
  k - Z.of_nat fuel = -149 ->
  exists c k', shortest_from fuel m e k = (c, k') /\ try_k m e k' = Some c /\ -149 <= k' <= k.
Proof.
  intros Hm He. induction fuel as [|f IH]; intros k Hk; cbn [shortest_from].
  - assert (k = -149) by lia. subst k. destruct (try_k_last m e Hm He) as [c E]. rewrite E.
    exists c, (-149). repeat split; auto; lia.
  - destruct (try_k m e k) as [c|] eqn:E.
    + exists c, k. repeat split; auto; lia.
    + destruct (IH (k - 1)) as (c & k' & E1 & E2 & E3); [lia|].
      exists c, k'. repeat split; auto; lia.
Qed.

(** What [shortest] guarantees, with [t = 10^max(0,-k)] and [T = 10^max(0,k)]. *)
Lemma shortest_spec m e : 0 < m -> -149 <= e ->
  exists c k, shortest m e = (c, k) /\ -149 <= k <= 39 /\ 1 <= c /\
    lo4 m e * 2 ^ (e + 149) * 10 ^ Z.max 0 (- k) <= c * (2 ^ 151 * 10 ^ Z.max 0 k) <=
      (4 * m + 2) * 2 ^ (e + 149) * 10 ^ Z.max 0 (- k) /\
    (Z.even m = false ->
     lo4 m e * 2 ^ (e + 149) * 10 ^ Z.max 0 (- k) < c * (2 ^ 151 * 10 ^ Z.max 0 k) <
      (4 * m + 2) * 2 ^ (e + 149) * 10 ^ Z.max 0 (- k)).
Proof.
  intros Hm He.
  destruct (shortest_from_spec m e ltac:(lia) He 188 39 ltac:(reflexivity)) as (c & k & E1 & E2 & E3).
  unfold try_k in E2. apply pick_bounds in E2. destruct E2 as [E2 E4].
  exists c, k. unfold shortest. rewrite E1.
  assert (Hlo : 4 * m - 2 <= lo4 m e) by (unfold lo4; destruct (_ && _); lia).
  assert (Hp : 0 < 2 ^ (e + 149)) by (apply pow2_pos; lia).
  assert (Ht : 0 < 10 ^ Z.max 0 (- k)) by (apply pow10_pos; lia).
  assert (HT : 0 < 10 ^ Z.max 0 k) by (apply pow10_pos; lia).
  split; [reflexivity|]. split; [lia|]. split; [|split; [exact E2|exact E4]].
  assert (Hu : 0 < 2 ^ 151 * 10 ^ Z.max 0 k) by (apply Z.mul_pos_pos; [reflexivity|assumption]).
  assert (0 < lo4 m e * 2 ^ (e + 149) * 10 ^ Z.max 0 (- k)) by (repeat apply Z.mul_pos_pos; lia).
  set (u := 2 ^ 151 * 10 ^ Z.max 0 k) in *. nia.
Qed.

(** A decimal [n / 10^s] equal to [c * 10^k] rounds to the float. *)
Lemma shortest_rounds m e c k n s :
  f32_valid (FFin false m e) = true -> 0 < m -> shortest m e = (c, k) ->
  n * 10 ^ Z.max 0 (- k) = c * 10 ^ Z.max 0 k * 10 ^ Z.of_nat s ->
  rounds_to n s (FFin false m e).
Proof.
  intros Hv Hm Hs E. pose proof Hv as Hv'. apply valid_fin in Hv'.
  destruct (shortest_spec m e Hm ltac:(lia)) as (c' & k' & E1 & E2 & E3 & E4 & E5).
  rewrite Hs in E1. injection E1 as <- <-.
  assert (Ht : 0 < 10 ^ Z.max 0 (- k)) by (apply pow10_pos; lia).
  assert (HT : 0 < 10 ^ Z.max 0 k) by (apply pow10_pos; lia).
  assert (Hs10 : 0 < 10 ^ Z.of_nat s) by (apply pow10_pos; lia).
  assert (Hp : 0 < 2 ^ (e + 149)) by (apply pow2_pos; lia).
  assert (E151 : 2 ^ 151 = 4 * 2 ^ 149) by (vm_compute; reflexivity). rewrite E151 in *. clear E151.
  assert (Hq : 0 < 2 ^ 149) by reflexivity.
  set (t := 10 ^ Z.max 0 (- k)) in *. set (T := 10 ^ Z.max 0 k) in *.
  set (S10 := 10 ^ Z.of_nat s) in *. set (p := 2 ^ (e + 149)) in *. set (q := 2 ^ 149) in *.
  assert (EX : c * (4 * q * T) * S10 = 4 * (n * q) * t).
  { replace (c * (4 * q * T) * S10) with (4 * q * (c * T * S10)) by ring. rewrite <- E. ring. }
  apply rounds_core; auto.
  - fold q p S10. split.
    + apply Z.mul_le_mono_pos_r with t; [assumption|]. rewrite <- EX.
      replace (lo4 m e * (p * S10) * t) with (lo4 m e * p * t * S10) by ring.
      apply Z.mul_le_mono_nonneg_r; lia.
    + apply Z.mul_le_mono_pos_r with t; [assumption|]. rewrite <- EX.
      replace ((4 * m + 2) * (p * S10) * t) with ((4 * m + 2) * p * t * S10) by ring.
      apply Z.mul_le_mono_nonneg_r; lia.
  - intro Ev. specialize (E5 Ev). fold q p S10. split.
    + apply Z.mul_lt_mono_pos_r with t; [assumption|]. rewrite <- EX.
      replace (lo4 m e * (p * S10) * t) with (lo4 m e * p * t * S10) by ring.
      apply Z.mul_lt_mono_pos_r; lia.
    + apply Z.mul_lt_mono_pos_r with t; [assumption|]. rewrite <- EX.
      replace ((4 * m + 2) * (p * S10) * t) with ((4 * m + 2) * p * t * S10) by ring.
      apply Z.mul_lt_mono_pos_r; lia.
Qed.
