(** Proofs about the small array writers. *)

From Coq Require Import ZArith List Lia Bool ZifyBool.
From Verif Require Import Bytes ModelFloat ModelBuf ModelObject ModelColor ModelSmall SpecLex SpecObj SpecText SpecMeans SpecTyped
  SpecColor SpecSmall ProofBasic ProofFloat ProofTyped ProofColor.
Import ListNotations.
Local Open Scope Z_scope.

(** ** Equal floats have the same decimals *)

Lemma mant_unique m e m' e' :
  f32_valid (FFin false m e) = true -> f32_valid (FFin false m' e') = true ->
  m * 2 ^ (e + 149) = m' * 2 ^ (e' + 149) -> e < e' -> False.
Proof.
  unfold f32_valid. intros V V' H L. rewrite !andb_true_iff, orb_true_iff, !Z.leb_le, !Z.ltb_lt, Z.eqb_eq in V, V'.
  assert (A : 0 <= m /\ m < 2 ^ 24 /\ -149 <= e) by (clear - V; lia).
  assert (B : 2 ^ 23 <= m') by (clear - V' L A; lia).
  destruct A as (A1 & A2 & A3).
  replace (e' + 149) with ((e' - e) + (e + 149)) in H by lia.
  rewrite (Z.pow_add_r 2 (e' - e)), Z.mul_assoc in H by lia.
  apply Z.mul_cancel_r in H; [|apply Z.pow_nonzero; lia].
  assert (C : 2 ^ 1 <= 2 ^ (e' - e)) by (apply Z.pow_le_mono_r; lia).
  change (2 ^ 1) with 2 in C. change (2 ^ 24) with (2 ^ 23 * 2) in A2.
  assert (D : 2 ^ 23 * 2 <= m' * 2 ^ (e' - e)) by (apply Z.mul_le_mono_nonneg; lia). lia.
Qed.

Lemma units_same v w : f32_finite v = true -> f32_finite w = true -> f32_valid v = true -> f32_valid w = true ->
  f32_units v = f32_units w -> even_significand v = even_significand w.
Proof.
  destruct v as [| |s m e]; try discriminate. destruct w as [| |s' m' e']; try discriminate.
  intros _ _ V V' H. cbn [even_significand].
  assert (P : 0 <= m /\ 0 <= m') by (unfold f32_valid in V, V'; rewrite !andb_true_iff, !Z.leb_le in V, V'; lia). destruct P as [P P'].
  assert (Q : 0 < 2 ^ (e + 149) /\ 0 < 2 ^ (e' + 149)).
  { split; apply Z.pow_pos_nonneg; unfold f32_valid in V, V'; rewrite !andb_true_iff, !Z.leb_le in V, V'; lia. }
  assert (X : m * 2 ^ (e + 149) = m' * 2 ^ (e' + 149)).
  { cbn [f32_units] in H. generalize dependent (2 ^ (e + 149)). generalize dependent (2 ^ (e' + 149)).
    intros a b H Q. assert (0 <= m * b) by (apply Z.mul_nonneg_nonneg; lia).
    assert (0 <= m' * a) by (apply Z.mul_nonneg_nonneg; lia). destruct s, s'; lia. }
  destruct (Z.lt_trichotomy e e') as [L|[->|L]].
  - exfalso. exact (mant_unique m e m' e' V V' X L).
  - apply Z.mul_cancel_r in X; [congruence|]. lia.
  - exfalso. exact (mant_unique m' e' m e V' V (eq_sym X) L).
Qed.

Lemma eqb_units v w : f32_finite v = true -> f32_finite w = true -> (f32_eqb v w = true <-> f32_units v = f32_units w).
Proof. destruct v; try discriminate. destruct w; try discriminate. intros _ _. cbn [f32_eqb]. apply Z.eqb_eq. Qed.

Lemma rounds_to_eqb n k v w : real_ok w = true -> f32_eqb v w = true -> rounds_to n k v -> rounds_to n k w.
Proof.
  intros K E (F & V & B & H). apply andb_true_iff in K as [F' V'].
  assert (U : f32_units v = f32_units w) by (apply eqb_units; assumption).
  split; [exact F'|]. split; [exact V'|]. split; [exact B|]. intros x Fx Vx. specialize (H x Fx Vx).
  unfold scaled_dist in *. rewrite U in H. rewrite <- (units_same v w) by assumption. exact H.
Qed.

Lemma real_means_eqb v w x : real_ok w = true -> f32_eqb v w = true -> real_means v x -> real_means w x.
Proof. intros K E M. inversion M; subst; constructor; eapply rounds_to_eqb; eassumption. Qed.

Lemma eqb_refl v : real_ok v = true -> f32_eqb v v = true.
Proof. intro K. apply andb_true_iff in K as [F _]. apply eqb_units; auto. Qed.

Lemma real_means_scalar f v : real_means f v -> is_array_value v = false /\ is_number v = true.
Proof. intro M. inversion M; split; reflexivity. Qed.

(** ** Sides *)

Lemma forall2_4 {A B} (R : A -> B -> Prop) a b c d vs : Forall2 R [a; b; c; d] vs ->
  exists w x y z, vs = [w; x; y; z] /\ R a w /\ R b x /\ R c y /\ R d z.
Proof.
  intro F. inversion F as [|? w ? ? R1 F1]; subst. inversion F1 as [|? x ? ? R2 F2]; subst.
  inversion F2 as [|? y ? ? R3 F3]; subst. inversion F3 as [|? z ? ? R4 F4]; subst. inversion F4; subst.
  exists w, x, y, z. auto.
Qed.

Lemma means_arr4 a b c d v : means (OArray [a; b; c; d]) v ->
  exists w x y z, v = VArr [w; x; y; z] /\ means a w /\ means b x /\ means c y /\ means d z.
Proof.
  intro M. inversion M as [| | | | | | | | | | |? vs F|]; subst.
  apply forall2_4 in F as (w & x & y & z & -> & H). exists w, x, y, z. auto.
Qed.

(** ** Pairs *)

Lemma prim_means_pairs {K} (inj : K -> prim) (es : list (K * prim)) vs :
  Forall2 means (flat_map (fun e => [OPrim (inj (fst e)); OPrim (snd e)]) es) vs ->
  exists ps, vs = flat_map (fun p => [fst p; snd p]) ps /\
    Forall2 (fun e p => means (OPrim (inj (fst e))) (fst p) /\ means (OPrim (snd e)) (snd p)) es ps.
Proof.
  revert vs. induction es as [|[k p] es IH]; intros vs F; cbn [flat_map app] in F.
  - inversion F; subst. exists []. split; [reflexivity|constructor].
  - inversion F as [|? x ? ? M1 F1]; subst. inversion F1 as [|? y ? ? M2 F2]; subst.
    destruct (IH _ F2) as (ps & -> & G). exists ((x, y) :: ps). split; [reflexivity|]. constructor; auto.
Qed.

Lemma name_pairs_read es vs :
  Forall2 means (flat_map (fun e => [OPrim (PStr (fst e)); OPrim (snd e)]) es) vs ->
  exists ps, read_name_pairs vs = Some ps /\
    Forall2 (fun e p => fst p = fst e /\ means (OPrim (snd e)) (snd p)) es ps.
Proof.
  intro F. apply (prim_means_pairs PStr) in F as (ps & -> & G). induction G as [|[k p] [a b] es ps [M1 M2] G IH].
  - exists []. split; [reflexivity|constructor].
  - destruct IH as (qs & E & H). cbn [fst snd] in *. apply m_str in M1. rewrite M1.
    exists ((k, b) :: qs). cbn [flat_map app fst snd read_name_pairs]. rewrite E. split; [reflexivity|]. constructor; auto.
Qed.

Lemma number_pairs_read es vs :
  Forall2 means (flat_map (fun e => [OPrim (PInt (fst e)); OPrim (snd e)]) es) vs ->
  exists ps, read_number_pairs vs = Some ps /\
    Forall2 (fun e p => fst p = fst e /\ means (OPrim (snd e)) (snd p)) es ps.
Proof.
  intro F. apply (prim_means_pairs PInt) in F as (ps & -> & G). induction G as [|[k p] [a b] es ps [M1 M2] G IH].
  - exists []. split; [reflexivity|constructor].
  - destruct IH as (qs & E & H). cbn [fst snd] in *. apply m_int in M1. rewrite M1.
    exists ((k, b) :: qs). cbn [flat_map app fst snd read_number_pairs]. rewrite E. split; [reflexivity|]. constructor; auto.
Qed.

(** ** Differences *)

Lemma means_names ns vs : Forall2 means (map (fun n => OPrim (PName n)) ns) vs -> vs = map VName ns.
Proof.
  revert vs. induction ns as [|n ns IH]; intros vs F; inversion F as [|? x ? ? M F']; subst; [reflexivity|].
  apply m_name in M. rewrite M. cbn. f_equal. auto.
Qed.

Lemma read_names c ns r : read_differences (Some c) (map VName ns ++ r) =
  option_map (app (numbered c ns)) (read_differences (Some (c + Z.of_nat (List.length ns))) r).
Proof.
  revert c. induction ns as [|n ns IH]; intro c; cbn [map app read_differences numbered List.length].
  - rewrite Z.add_0_r. destruct (read_differences (Some c) r); reflexivity.
  - rewrite IH. replace (c + 1 + Z.of_nat (List.length ns)) with (c + Z.of_nat (S (List.length ns))) by lia.
    destruct (read_differences _ r); reflexivity.
Qed.

Lemma diff_read cs vs : Forall2 means (flat_map diff_items cs) vs ->
  forall code, read_differences code vs = Some (flat_map (fun c => numbered (fst c) (snd c)) cs).
Proof.
  revert vs. induction cs as [|[c ns] cs IH]; intros vs F code; cbn [flat_map] in F.
  - inversion F; subst. reflexivity.
  - apply Forall2_app_inv_l in F as (v1 & v2 & F1 & F2 & ->).
    unfold diff_items in F1. cbn [fst snd] in F1. inversion F1 as [|? x ? y M1 F1']; subst.
    apply m_int in M1. rewrite M1. apply means_names in F1'. subst y. cbn [app read_differences].
    rewrite read_names, (IH _ F2). reflexivity.
Qed.

(** ** Widths *)

Lemma means_reals fs vs : Forall2 means (map (fun f => OPrim (PReal f)) fs) vs ->
  Forall2 real_means fs vs /\ forallb is_number vs = true.
Proof.
  revert vs. induction fs as [|f fs IH]; intros vs F; inversion F as [|? x ? ? M F']; subst; [split; [constructor|reflexivity]|].
  apply m_real in M. destruct (IH _ F') as [A B]. split; [constructor; assumption|].
  cbn [forallb]. rewrite B. destruct (real_means_scalar _ _ M) as [_ N]. rewrite N. reflexivity.
Qed.


Lemma numbered_means c fs vs : Forall2 real_means fs vs -> Forall2 same_assignment (numbered c fs) (numbered c vs).
Proof. intro F. revert c. induction F; intro c; cbn [numbered]; constructor; [split; [reflexivity|assumption]|auto]. Qed.

Lemma same_means l f v : real_means f v -> Forall2 same_assignment (map (fun c => (c, f)) l) (map (fun c => (c, v)) l).
Proof. intro M. induction l; cbn [map]; constructor; [split; [reflexivity|exact M]|assumption]. Qed.


Lemma widths_read cs vs : Forall2 means (flat_map width_items cs) vs ->
  exists ps, read_widths vs = Some ps /\ Forall2 same_assignment (flat_map asked_widths cs) ps.
Proof.
  revert vs. induction cs as [|c cs IH]; intros vs F; cbn [flat_map] in F.
  - inversion F; subst. exists []. split; [reflexivity|constructor].
  - apply Forall2_app_inv_l in F as (v1 & v2 & F1 & F2 & ->). destruct (IH _ F2) as (ps & E & G).
    destruct c as [start ws|first last w]; cbn [width_items] in F1.
    + inversion F1 as [|? x ? ? M1 F1']; subst. inversion F1' as [|? y ? ? M2 F1'']; subst. inversion F1''; subst.
      apply m_int in M1. rewrite M1. unfold reals in M2. inversion M2 as [| | | | | | | | | | |? us FU|]; subst.
      apply means_reals in FU as [A B]. cbn [app read_widths]. rewrite B, E. cbn [option_map].
      eexists. split; [reflexivity|]. apply Forall2_app; [apply numbered_means; exact A|exact G].
    + inversion F1 as [|? x ? ? M1 F1']; subst. inversion F1' as [|? y ? ? M2 F1'']; subst.
      inversion F1'' as [|? z ? ? M3 F1''']; subst. inversion F1'''; subst.
      apply m_int in M1. apply m_int in M2. apply m_real in M3. rewrite M1, M2.
      destruct (real_means_scalar _ _ M3) as [_ N]. cbn [app read_widths]. rewrite N, E. cbn [option_map].
      eexists. split; [reflexivity|]. apply Forall2_app; [apply same_means; exact M3|exact G].
Qed.

(** ** References *)

Lemma bump_step r : 0 < r <= i32_max ->
  ref_bump r = if r <? i32_max then Some (r, r + 1) else None.
Proof.
  intro H. unfold ref_bump, ref_next, ref_new. unfold i32_max in *.
  destruct (Z.ltb_spec r (2 ^ 31 - 1)) as [L|L].
  - replace (wrap_i32 (r + 1)) with (r + 1).
    + destruct (Z.ltb_spec 0 (r + 1)); [reflexivity|lia].
    + unfold wrap_i32. rewrite Z.mod_small by lia. lia.
  - replace r with (2 ^ 31 - 1) by lia. reflexivity.
Qed.

Lemma bumps_spec n r : 0 < r <= i32_max ->
  ref_bumps n r = if r + Z.of_nat n <=? i32_max then Some (range_from r n, r + Z.of_nat n) else None.
Proof.
  revert r. induction n as [|n IH]; intros r H.
  - cbn [ref_bumps range_from Z.of_nat]. rewrite Z.add_0_r. destruct (Z.leb_spec r i32_max); [reflexivity|lia].
  - cbn [ref_bumps range_from]. rewrite (bump_step r H).
    destruct (Z.ltb_spec r i32_max) as [L|L].
    + rewrite IH by lia. replace (r + 1 + Z.of_nat n) with (r + Z.of_nat (S n)) by lia.
      destruct (r + Z.of_nat (S n) <=? i32_max); reflexivity.
    + destruct (Z.leb_spec (r + Z.of_nat (S n)) i32_max); [lia|reflexivity].
Qed.

Lemma range_from_in r n x : In x (range_from r n) <-> r <= x < r + Z.of_nat n.
Proof.
  revert r. induction n as [|n IH]; intro r; cbn [range_from In].
  - lia.
  - rewrite IH. lia.
Qed.

Lemma range_from_nodup r n : NoDup (range_from r n).
Proof.
  revert r. induction n as [|n IH]; intro r; cbn [range_from]; constructor; [|apply IH].
  rewrite range_from_in. lia.
Qed.
Lemma range_from_length r n : List.length (range_from r n) = n.
Proof. revert r. induction n; intro r; cbn [range_from List.length]; congruence. Qed.
Lemma range_from_nth r n i d : (i < n)%nat -> nth i (range_from r n) d = r + Z.of_nat i.
Proof.
  revert r i. induction n as [|n IH]; intros r i H; [lia|]. destruct i as [|i]; cbn [range_from nth]; [lia|].
  rewrite IH by lia. lia.
Qed.
