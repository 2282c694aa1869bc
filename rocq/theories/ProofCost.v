(** How long a real number can get. *)

From Coq Require Import ZArith List Lia Bool Arith ZifyBool.
From Verif Require Import Bytes ModelFloat ModelBuf ModelObject ProofBasic ProofFloat ProofFloat2.
Import ListNotations.
Local Open Scope Z_scope.

(** One of the two neighbours of a value is in an interval that reaches at least half a unit to both sides. *)
Lemma pick_near m lo v hi u : 0 < u -> lo < v < hi -> u < 2 * (v - lo) -> u < 2 * (hi - v) -> pick m lo v hi u <> None.
Proof.
  intros Hu Hv H1 H2. unfold pick.
  pose proof (Z.div_mod v u ltac:(lia)) as D. pose proof (Z.mod_pos_bound v u Hu) as B.
  set (q := v / u) in *. set (r := v mod u) in *.
  destruct ((2 * r <? u) || ((2 * r =? u) && Z.even q)) eqn:E.
  - assert (X : interval_ok m lo hi v u q = true); [|rewrite X; discriminate].
    unfold interval_ok. destruct (Z.even m); nia.
  - assert (X : interval_ok m lo hi v u (q + 1) = true); [|rewrite X; discriminate].
    unfold interval_ok. destruct (Z.even m); nia.
Qed.

(** Powers on both sides of the point. *)
Definition below (k e : Z) : Prop := 2 ^ 149 * 10 ^ Z.max 0 k < 2 ^ (e + 149) * 10 ^ Z.max 0 (- k).

Lemma try_wide m e k : 0 < m -> -149 <= e -> below (k) (e - 1) \/ (e = -149 /\ below k e) -> try_k m e k <> None.
Proof.
  intros Hm He H. unfold try_k, below in *.
  assert (Hp : 0 < 2 ^ (e + 149)) by (apply pow2_pos; lia).
  assert (Ht : 0 < 10 ^ Z.max 0 (- k)) by (apply pow10_pos; lia).
  assert (HT : 0 < 10 ^ Z.max 0 k) by (apply pow10_pos; lia).
  assert (E151 : 2 ^ 151 = 4 * 2 ^ 149) by (vm_compute; reflexivity). rewrite E151. clear E151.
  assert (Hq : 0 < 2 ^ 149) by reflexivity.
  assert (L : 4 * m - 2 <= lo4 m e <= 4 * m - 1 /\ (e = -149 -> lo4 m e = 4 * m - 2)).
  { unfold lo4. destruct (m =? 2 ^ 23), (-149 <? e) eqn:E; cbn [andb]; lia. }
  assert (H2 : 2 * (2 ^ 149 * 10 ^ Z.max 0 k) < (4 * m - lo4 m e) * 2 ^ (e + 149) * 10 ^ Z.max 0 (- k)).
  { destruct H as [H|[-> H]].
    - destruct (Z.eq_dec e (-149)) as [->|N].
      + exfalso. change (2 ^ (-149 - 1 + 149)) with 0 in H. nia.
      + replace (e + 149) with (1 + (e - 1 + 149)) by lia. rewrite Z.pow_add_r by lia. change (2 ^ 1) with 2.
        set (p' := 2 ^ (e - 1 + 149)) in *. set (t := 10 ^ Z.max 0 (- k)) in *. assert (0 < p') by (apply pow2_pos; lia).
        assert (0 < p' * t) by nia. assert (1 * (p' * t) <= (4 * m - lo4 m e) * (p' * t)) by (apply Z.mul_le_mono_nonneg_r; lia). lia.
    - rewrite (proj2 L eq_refl). lia. }
  clear H.
  set (p := 2 ^ (e + 149)) in *. set (t := 10 ^ Z.max 0 (- k)) in *. set (T := 10 ^ Z.max 0 k) in *. set (q := 2 ^ 149) in *.
  assert (0 < p * t) by nia. assert (0 < q * T) by nia.
  replace (lo4 m e * p * t) with (lo4 m e * (p * t)) by ring.
  replace (4 * m * p * t) with (4 * m * (p * t)) by ring.
  replace ((4 * m + 2) * p * t) with ((4 * m + 2) * (p * t)) by ring.
  replace (4 * q * T) with (4 * (q * T)) by ring.
  replace ((4 * m - lo4 m e) * p * t) with ((4 * m - lo4 m e) * (p * t)) in H2 by ring.
  set (x := p * t) in *. set (y := q * T) in *.
  assert ((4 * m - lo4 m e) * x <= 2 * x) by (apply Z.mul_le_mono_nonneg_r; lia).
  apply pick_near; try lia.
Qed.

Lemma shortest_from_first m e : 0 <= m -> -149 <= e -> forall fuel k, k - Z.of_nat fuel = -149 ->
  exists c k', shortest_from fuel m e k = (c, k') /\ try_k m e k' = Some c /\ -149 <= k' <= k /\ (k' < k -> try_k m e (k' + 1) = None).
Proof.
  intros Hm He. induction fuel as [|f IH]; intros k Hk; cbn [shortest_from].
  - assert (k = -149) by lia. subst k. destruct (try_k_last m e Hm He) as [c E]. rewrite E.
    exists c, (-149). repeat split; auto; lia.
  - destruct (try_k m e k) as [c|] eqn:E.
    + exists c, k. repeat split; auto; lia.
    + destruct (IH (k - 1)) as (c & k' & E1 & E2 & E3 & E4); [lia|].
      exists c, k'. repeat split; auto; try lia. intro. destruct (Z.eq_dec k' (k - 1)) as [->|N]; [|apply E4; lia].
      replace (k - 1 + 1) with k by lia. exact E.
Qed.

(** At most nine digits, and at most 45 places behind the point. *)
Lemma shortest_digits m e c k : f32_valid (FFin false m e) = true -> 0 < m -> shortest m e = (c, k) ->
  1 <= c < 10 ^ 9 /\ -45 <= k < 39 /\ (0 <= k -> c * 10 ^ k < 10 ^ 39).
Proof.
  intros Hv Hm Hs. apply valid_fin in Hv.
  destruct (shortest_from_first m e ltac:(lia) ltac:(lia) 188 39 ltac:(reflexivity)) as (c' & k' & E1 & E2 & E3 & E4).
  destruct (shortest_spec m e Hm ltac:(lia)) as (c2 & k2 & F1 & F2 & F3 & [_ F4] & _).
  unfold shortest in Hs, F1. rewrite Hs in E1, F1.
  assert (c' = c /\ k' = k) as [-> ->] by (split; congruence). assert (c2 = c /\ k2 = k) as [-> ->] by (split; congruence). clear E1 F1 E2.
  assert (Hp : 0 < 2 ^ (e + 149)) by (apply pow2_pos; lia).
  assert (Hq : 0 < 2 ^ 149) by reflexivity.
  assert (E151 : 2 ^ 151 = 4 * 2 ^ 149) by (vm_compute; reflexivity). rewrite E151 in F4. clear E151.
  assert (Big : 0 <= k -> c * 10 ^ k < 10 ^ 39).
  { intro K. rewrite (Z.max_r 0 k) in F4 by exact K. rewrite (Z.max_l 0 (- k)) in F4 by lia. change (10 ^ 0) with 1 in F4. rewrite Z.mul_1_r in F4.
    assert (P : 2 ^ (e + 149) <= 2 ^ 253) by (apply Z.pow_le_mono_r; lia).
    assert (Q : (4 * m + 2) * 2 ^ (e + 149) <= (4 * 2 ^ 24) * 2 ^ 253) by (apply Z.mul_le_mono_nonneg; lia).
    assert (R : 4 * 2 ^ 24 * 2 ^ 253 < 10 ^ 39 * (4 * 2 ^ 149)) by reflexivity.
    apply (Z.mul_lt_mono_pos_r (4 * 2 ^ 149)); [reflexivity|]. replace (c * 10 ^ k * (4 * 2 ^ 149)) with (c * (4 * 2 ^ 149 * 10 ^ k)) by ring. lia. }
  assert (K39 : k < 39).
  { destruct (Z.eq_dec k 39) as [->|]; [exfalso|lia]. specialize (Big ltac:(lia)). clear - Big F3. assert (X : 0 < 10 ^ 39) by reflexivity. revert Big X. generalize (10 ^ 39). intros x. nia. }
  specialize (E4 K39).
  assert (NB : ~ (below (k + 1) (e - 1) \/ (e = -149 /\ below (k + 1) e))).
  { intro B. exact (try_wide m e (k + 1) Hm ltac:(lia) B E4). }
  assert (W : -149 < e /\ 2 ^ (e - 1 + 149) * 10 ^ Z.max 0 (- (k + 1)) <= 2 ^ 149 * 10 ^ Z.max 0 (k + 1) \/
              e = -149 /\ 10 ^ Z.max 0 (- (k + 1)) <= 2 ^ 149 * 10 ^ Z.max 0 (k + 1)).
  { destruct (Z.eq_dec e (-149)) as [->|N].
    - right. split; [reflexivity|]. apply Z.nlt_ge. intro B. apply NB. right. split; [reflexivity|]. unfold below. change (2 ^ (-149 + 149)) with 1. rewrite Z.mul_1_l. exact B.
    - left. split; [lia|]. apply Z.nlt_ge. intro B. apply NB. left. exact B. }
  assert (K45 : -45 <= k).
  { apply Z.nlt_ge. intro B. assert (L : 10 ^ 45 <= 10 ^ Z.max 0 (- (k + 1))) by (apply Z.pow_le_mono_r; lia).
    assert (X : 2 ^ 149 < 10 ^ 45) by reflexivity.
    rewrite (Z.max_l 0 (k + 1)) in W by lia. change (10 ^ 0) with 1 in W. rewrite Z.mul_1_r in W.
    destruct W as [[N W]|[N W]]; [|apply (Z.lt_irrefl (2 ^ 149)); apply (Z.lt_le_trans _ _ _ X); exact (Z.le_trans _ _ _ L W)].
    assert (0 < 2 ^ (e - 1 + 149)) by (apply pow2_pos; lia).
    assert (Y : 1 * 10 ^ Z.max 0 (- (k + 1)) <= 2 ^ (e - 1 + 149) * 10 ^ Z.max 0 (- (k + 1))) by (apply Z.mul_le_mono_nonneg_r; lia).
    rewrite Z.mul_1_l in Y. apply (Z.lt_irrefl (2 ^ 149)); apply (Z.lt_le_trans _ _ _ X); exact (Z.le_trans _ _ _ L (Z.le_trans _ _ _ Y W)). }
  split; [|split; [lia|exact Big]]. split; [exact F3|].
  (* p t <= 20 q T *)
  assert (PT : 2 ^ (e + 149) * 10 ^ Z.max 0 (- k) <= 20 * (2 ^ 149 * 10 ^ Z.max 0 k)).
  { destruct W as [[N W]|[-> W]].
    - replace (e + 149) with (1 + (e - 1 + 149)) by lia. rewrite Z.pow_add_r by lia. change (2 ^ 1) with 2.
      destruct (Z_le_gt_dec 0 k) as [K|K].
      + rewrite (Z.max_r 0 k) by lia. rewrite (Z.max_r 0 (k + 1)) in W by lia. rewrite (Z.max_l 0 (- k)) by lia. rewrite (Z.max_l 0 (- (k + 1))) in W by lia.
        rewrite (Z.pow_add_r 10 k 1) in W by lia. change (10 ^ 1) with 10 in W. change (10 ^ 0) with 1 in *. lia.
      + rewrite (Z.max_l 0 k) by lia. rewrite (Z.max_l 0 (k + 1)) in W by lia. rewrite (Z.max_r 0 (- k)) by lia. rewrite (Z.max_r 0 (- (k + 1))) in W by lia.
        replace (- k) with (1 + (- (k + 1))) by lia. rewrite (Z.pow_add_r 10 1) by lia. change (10 ^ 1) with 10. change (10 ^ 0) with 1 in *. 
        set (a := 2 ^ (e - 1 + 149)) in *. set (b := 10 ^ (- (k + 1))) in *. replace (2 * a * (10 * b)) with (20 * (a * b)) by ring. lia.
    - change (2 ^ (-149 + 149)) with 1. rewrite Z.mul_1_l.
      destruct (Z_le_gt_dec 0 k) as [K|K].
      + rewrite (Z.max_r 0 k) by lia. rewrite (Z.max_l 0 (- k)) by lia. change (10 ^ 0) with 1. assert (0 < 10 ^ k) by (apply pow10_pos; lia).
        assert (1 * 1 <= 2 ^ 149 * 10 ^ k) by (apply Z.mul_le_mono_nonneg; lia). lia.
      + rewrite (Z.max_l 0 k) by lia. rewrite (Z.max_l 0 (k + 1)) in W by lia. rewrite (Z.max_r 0 (- k)) by lia. rewrite (Z.max_r 0 (- (k + 1))) in W by lia.
        replace (- k) with (1 + (- (k + 1))) by lia. rewrite (Z.pow_add_r 10 1) by lia. change (10 ^ 1) with 10. change (10 ^ 0) with 1 in *. lia. }
  assert (HT : 0 < 10 ^ Z.max 0 k) by (apply pow10_pos; lia).
  assert (HY : 0 < 2 ^ 149 * 10 ^ Z.max 0 k) by (apply Z.mul_pos_pos; lia).
  rewrite <- Z.mul_assoc in F4.
  replace (c * (4 * 2 ^ 149 * 10 ^ Z.max 0 k)) with (4 * c * (2 ^ 149 * 10 ^ Z.max 0 k)) in F4 by ring.
  set (y := 2 ^ 149 * 10 ^ Z.max 0 k) in *. set (x := 2 ^ (e + 149) * 10 ^ Z.max 0 (- k)) in *.
  assert (F5 : (4 * m + 2) * x <= (4 * m + 2) * (20 * y)) by (apply Z.mul_le_mono_nonneg_l; lia).
  assert (F6 : 4 * c * y <= (4 * m + 2) * 20 * y) by lia.
  apply Z.mul_le_mono_pos_r in F6; [|exact HY]. assert (m < 16777216) by lia. change (10 ^ 9) with 1000000000. lia.
Qed.

Lemma blen_repeat (x : byte) (n : nat) : blen (repeat x n) = Z.of_nat n.
Proof. unfold blen. rewrite repeat_length. reflexivity. Qed.

Lemma digits_len c w : 0 <= c < 10 ^ Z.of_nat w -> (0 < w)%nat -> blen (dec_u c) <= Z.of_nat w.
Proof. intros H W. pose proof (dec_u_len c w H W). unfold blen. lia. Qed.

Lemma int_len v : in_i32 v = true -> blen (dec_i v) <= 11.
Proof.
  unfold in_i32, i32_min, i32_max, dec_i. intro H. destruct (v <? 0) eqn:E.
  - change (x2d :: dec_u (- v)) with ([x2d] ++ dec_u (- v)). rewrite blen_app. change (blen [x2d]) with 1.
    pose proof (digits_len (- v) 10 ltac:(change (10 ^ Z.of_nat 10) with 10000000000; lia) ltac:(lia)). lia.
  - pose proof (digits_len v 10 ltac:(change (10 ^ Z.of_nat 10) with 10000000000; lia) ltac:(lia)). lia.
Qed.

Lemma nat_len v : 0 <= v <= i32_max -> blen (dec_i v) <= 10.
Proof.
  unfold i32_max, dec_i. intro H. destruct (v <? 0) eqn:E; [lia|].
  pose proof (digits_len v 10 ltac:(change (10 ^ Z.of_nat 10) with 10000000000; lia) ltac:(lia)). lia.
Qed.

(** The number of digits in front of the point. *)
Lemma leading m e c k : f32_valid (FFin false m e) = true -> 0 < m -> shortest m e = (c, k) ->
  1 <= blen (dec_u c) <= 9 /\ -45 <= k < 39 /\ blen (dec_u c) + k <= 39.
Proof.
  intros V M S. destruct (shortest_digits m e c k V M S) as (C & K & B).
  pose proof (digits_len c 9 ltac:(change (Z.of_nat 9) with 9; lia) ltac:(lia)) as L. change (Z.of_nat 9) with 9 in L.
  destruct (dec_u_spec c ltac:(lia)) as (_ & _ & N & D & _).
  assert (1 <= blen (dec_u c)) by (destruct (dec_u c); [congruence|unfold blen; cbn [List.length]; lia]).
  split; [lia|]. split; [exact K|]. fold (blen (dec_u c)) in D.
  destruct D as [D|D]; [|unfold blen in *; lia].
  destruct (Z_le_gt_dec 0 k) as [Q|Q]; [|lia]. specialize (B Q).
  apply Z.nlt_ge. intro X. assert (Y : 10 ^ 39 <= 10 ^ (blen (dec_u c) - 1 + k)) by (apply Z.pow_le_mono_r; lia).
  rewrite Z.pow_add_r in Y by lia. assert (0 < 10 ^ k) by (apply pow10_pos; lia).
  assert (Z1 : 10 ^ (blen (dec_u c) - 1) * 10 ^ k <= c * 10 ^ k) by (apply Z.mul_le_mono_nonneg_r; lia).
  exact (Z.lt_irrefl _ (Z.le_lt_trans _ _ _ (Z.le_trans _ _ _ Y Z1) B)).
Qed.

Lemma sign_len (neg : bool) : blen (if neg then [x2d] else []) <= 1.
Proof. destruct neg; cbn; lia. Qed.

Lemma split_len n (d : bytes) : blen (firstn n d) + blen (skipn n d) = blen d.
Proof. rewrite <- blen_app, firstn_skipn. reflexivity. Qed.

Lemma display_len v : f32_valid v = true -> blen (display_f32 v) <= 48.
Proof.
  destruct v as [| |neg m e]; intro V; [cbn; lia|destruct neg; cbn; lia|].
  unfold display_f32. cbv zeta. pose proof (sign_len neg) as SL.
  destruct (m =? 0) eqn:M; [rewrite blen_app; change (blen (lit "0")) with 1; lia|].
  assert (V' : f32_valid (FFin false m e) = true) by exact V. pose proof V' as V2. apply valid_fin in V2.
  destruct (shortest m e) as [c k] eqn:S. destruct (leading m e c k V' ltac:(lia) S) as (D & K & KK).
  fold (blen (dec_u c)). rewrite blen_app.
  destruct (blen (dec_u c) + k <=? 0) eqn:E1.
  - rewrite !blen_app, blen_repeat. change (blen (lit "0.")) with 2. lia.
  - destruct (blen (dec_u c) <=? blen (dec_u c) + k) eqn:E2.
    + rewrite blen_app, blen_repeat. lia.
    + rewrite !blen_app. change (blen (lit ".")) with 1. pose proof (split_len (Z.to_nat (blen (dec_u c) + k)) (dec_u c)). lia.
Qed.

Lemma ryu_len v : f32_valid v = true -> blen (ryu_f32 v) <= 48.
Proof.
  destruct v as [| |neg m e]; intro V; [cbn; lia|destruct neg; cbn; lia|].
  unfold ryu_f32, ryu_fin. cbv zeta. pose proof (sign_len neg) as SL.
  destruct (m =? 0) eqn:M; [rewrite blen_app; change (blen (lit "0.0")) with 3; lia|].
  assert (V' : f32_valid (FFin false m e) = true) by exact V. pose proof V' as V2. apply valid_fin in V2.
  destruct (shortest m e) as [c k] eqn:S. destruct (leading m e c k V' ltac:(lia) S) as (D & K & KK).
  fold (blen (dec_u c)). rewrite blen_app.
  assert (P : blen (dec_i (blen (dec_u c) + k - 1)) <= 11) by (apply int_len; unfold in_i32, i32_min, i32_max; lia).
  destruct ((0 <=? k) && (blen (dec_u c) + k <=? 13)) eqn:E1.
  { rewrite !blen_app, blen_repeat. change (blen (lit ".0")) with 2. lia. }
  destruct ((0 <? blen (dec_u c) + k) && (blen (dec_u c) + k <=? 13)) eqn:E2.
  { rewrite !blen_app. change (blen (lit ".")) with 1. pose proof (split_len (Z.to_nat (blen (dec_u c) + k)) (dec_u c)). lia. }
  destruct ((-6 <? blen (dec_u c) + k) && (blen (dec_u c) + k <=? 0)) eqn:E3.
  { rewrite !blen_app, blen_repeat. change (blen (lit "0.")) with 2. lia. }
  destruct (blen (dec_u c) =? 1).
  { rewrite !blen_app. change (blen (lit "e")) with 1. lia. }
  rewrite !blen_app. change (blen (lit ".")) with 1. change (blen (lit "e")) with 1. pose proof (split_len 1 (dec_u c)). lia.
Qed.

Lemma as_i32_range v : in_i32 (f32_as_i32 v) = true.
Proof. destruct v as [|[]|neg m e]; try reflexivity. cbn [f32_as_i32]. unfold in_i32, i32_min, i32_max. lia. Qed.

Lemma float_len v : f32_valid v = true -> blen (float_bytes v) <= 48.
Proof.
  intro V. unfold float_bytes, decimal_bytes. destruct (f32_eqb (f32_of_i32 (f32_as_i32 v)) v).
  - pose proof (int_len _ (as_i32_range v)). lia.
  - destruct (_ || _); [apply ryu_len|apply display_len]; exact V.
Qed.
