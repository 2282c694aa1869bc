(** Limits. *)

From Coq Require Import ZArith List Lia Bool Arith ZifyBool.
From Verif Require Import Bytes ModelFloat ModelBuf ModelObject SpecLex SpecObj SpecText SpecMeans SpecLimits
  ProofBasic ProofText ProofFloat ProofFloat2 ProofObj ProofParse ProofTree.
Import ListNotations.
Local Open Scope Z_scope.

(** ** Reals as integers *)

Definition rank (r : f32) : Z :=
  match r with FNan => -1 | FInf s => if s then - 2 ^ 300 else 2 ^ 300 | FFin _ _ _ => f32_units r end.

Lemma limit_real_fin s m e : limit_real (FFin s m e) = true ->
  s = false /\ 0 <= m < 2 ^ 24 /\ -149 <= e <= 104 /\ (2 ^ 23 <= m \/ e = -149).
Proof.
  unfold limit_real. intro H. apply andb_true_iff in H. destruct H as [H1 H2]. apply valid_fin in H1.
  destruct s; [discriminate|]. split; [reflexivity|exact H1].
Qed.

Lemma units_small s m e : limit_real (FFin s m e) = true -> 0 <= f32_units (FFin s m e) < 2 ^ 300.
Proof.
  intro H. pose proof H as H'. unfold limit_real in H'. apply andb_true_iff in H'. destruct H' as [Hv _].
  pose proof (units_bound _ Hv) as Hb. apply limit_real_fin in H. destruct H as [-> [Hm [He _]]].
  unfold f32_units in *. pose proof (pow2_pos (e + 149) ltac:(lia)).
  assert (E : (2 ^ 24 - 1) * 2 ^ 253 < 2 ^ 300) by reflexivity. set (u := 2 ^ (e + 149)) in *.
  set (B1 := (2 ^ 24 - 1) * 2 ^ 253) in *. set (B := 2 ^ 300) in *. clearbody u B B1.
  split; [nia|lia].
Qed.

Lemma rank_nonneg r : limit_real r = true -> 0 <= rank r.
Proof.
  intro H. destruct r as [|s|s m e]; [discriminate|destruct s; [discriminate|cbn [rank]; lia]|].
  apply units_small in H. cbn [rank]. lia.
Qed.

Lemma rank_inj a b : limit_real a = true -> limit_real b = true -> rank a = rank b -> a = b.
Proof.
  intros Ha Hb E. destruct a as [|s|s m e]; [discriminate| |]; destruct b as [|s'|s' m' e']; try discriminate.
  - destruct s; [discriminate|]. destruct s'; [discriminate|reflexivity].
  - destruct s; [discriminate|]. apply units_small in Hb. cbn [rank] in E. rewrite <- E in Hb. exfalso. exact (Z.lt_irrefl _ (proj2 Hb)).
  - destruct s'; [discriminate|]. apply units_small in Ha. cbn [rank] in E. rewrite E in Ha. exfalso. exact (Z.lt_irrefl _ (proj2 Ha)).
  - apply limit_real_fin in Ha, Hb. destruct Ha as [-> [Hm [He Hc]]], Hb as [-> [Hm' [He' Hc']]].
    cbn [rank] in E. unfold f32_units in E.
    assert (G : forall m e m' e', 0 <= m < 2 ^ 24 -> -149 <= e -> 2 ^ 23 <= m' -> e < e' ->
              1 * (m * 2 ^ (e + 149)) = 1 * (m' * 2 ^ (e' + 149)) -> False).
    { clear. intros m e m' e' Hm He Hm' Hlt E.
      replace (e' + 149) with ((e + 149) + (1 + (e' - e - 1))) in E by lia.
      rewrite (Z.pow_add_r 2 (e + 149)), (Z.pow_add_r 2 1) in E by lia. pose proof (pow2_pos (e + 149) ltac:(lia)).
      pose proof (pow2_pos (e' - e - 1) ltac:(lia)).
      change (2 ^ 24) with 16777216 in *. change (2 ^ 23) with 8388608 in *. change (2 ^ 1) with 2 in E.
      set (u := 2 ^ (e + 149)) in *. set (v := 2 ^ (e' - e - 1)) in *. clearbody u v.
      assert (m = m' * 2 * v) by nia. nia. }
    destruct (Z.lt_trichotomy e e') as [Hl|[->|Hl]].
    + exfalso. apply (G m e m' e'); try assumption; try lia.
    + f_equal. pose proof (pow2_pos (e' + 149) ltac:(lia)). nia.
    + exfalso. apply (G m' e' m e); try assumption; try lia.
Qed.

Lemma ltb_rank a b : limit_real a = true -> limit_real b = true -> f32_ltb a b = (rank a <? rank b).
Proof.
  intros Ha Hb. destruct a as [|s|s m e]; [discriminate| |]; destruct b as [|s'|s' m' e']; try discriminate;
    try (destruct s; try discriminate); try (destruct s'; try discriminate); cbn [f32_ltb rank andb negb]; try reflexivity;
    try (apply units_small in Ha; unfold f32_units in *; symmetry; apply Z.ltb_lt; lia);
    try (apply units_small in Hb; unfold f32_units in *; symmetry; apply Z.ltb_ge; lia).
Qed.

Lemma leb_rank a b : limit_real a = true -> limit_real b = true -> f32_leb a b = true <-> rank a <= rank b.
Proof.
  intros Ha Hb. unfold f32_leb. rewrite ltb_rank by assumption. rewrite orb_true_iff, Z.ltb_lt. split.
  - intros [H|H]; [lia|]. destruct a as [|s|s m e]; [discriminate| |]; destruct b as [|s'|s' m' e']; try discriminate.
    + cbn in H. apply eqb_prop in H. subst. lia.
    + cbn [f32_eqb] in H. apply Z.eqb_eq in H. cbn [rank]. lia.
  - intro H. destruct (Z.lt_ge_cases (rank a) (rank b)) as [Hl|Hl]; [left; exact Hl|right].
    assert (a = b) as -> by (apply rank_inj; try assumption; lia).
    destruct b as [|s|s m e]; [discriminate|destruct s; reflexivity|]. cbn [f32_eqb]. apply Z.eqb_refl.
Qed.

Lemma max_limit a b : limit_real a = true -> limit_real b = true -> limit_real (f32_max a b) = true.
Proof.
  intros Ha Hb. unfold f32_max. destruct a; [assumption| |]; destruct b; try assumption; destruct (f32_ltb _ _); assumption.
Qed.

Lemma max_rank a b : limit_real a = true -> limit_real b = true -> rank (f32_max a b) = Z.max (rank a) (rank b).
Proof.
  intros Ha Hb. assert (E : f32_max a b = if f32_ltb a b then b else a).
  { destruct a; [discriminate| |]; destruct b; try discriminate; reflexivity. }
  rewrite E, ltb_rank by assumption. destruct (Z.ltb_spec (rank a) (rank b)); lia.
Qed.

Lemma abs_limit v : f32_valid v = true -> v <> FNan -> limit_real (f32_abs v) = true.
Proof. destruct v as [|s|s m e]; intros H Hn; [congruence|reflexivity|]. unfold limit_real. cbn [f32_abs]. apply andb_true_iff. split; [exact H|reflexivity]. Qed.

Lemma abs_limit_id r : limit_real r = true -> f32_abs r = r.
Proof.
  destruct r as [|s|s m e]; [discriminate|destruct s; [discriminate|reflexivity]|].
  intro H. apply limit_real_fin in H. destruct H as [-> _]. reflexivity.
Qed.

(** ** The lattice *)

Record lok (l : limits) : Prop := mkLok {
  ok_int : 0 <= l_int l <= i32_max; ok_real : limit_real (l_real l) = true; ok_name : 0 <= l_name l;
  ok_str : 0 <= l_str l; ok_array : 0 <= l_array l; ok_dict : 0 <= l_dict l }.

Lemma limits_ok_iff l : limits_ok l = true <-> lok l.
Proof.
  unfold limits_ok. rewrite !andb_true_iff, !Z.leb_le. split.
  - intros [[[[[[A B] C] D] E] F] G]. constructor; auto.
  - intros [A B C D E F]. tauto.
Qed.

Lemma wrap_id z : i32_min <= z <= i32_max -> wrap_i32 z = z.
Proof.
  unfold wrap_i32, i32_min, i32_max. intro H. change (2 ^ 31) with 2147483648 in *. change (2 ^ 32) with 4294967296.
  rewrite Z.mod_small by lia. lia.
Qed.

Lemma abs_id z : 0 <= z <= i32_max -> abs_i32 z = z.
Proof. intro H. unfold abs_i32. rewrite Z.abs_eq by lia. apply wrap_id. unfold i32_min. change (2 ^ 31) with 2147483648. lia. Qed.

Lemma abs_le z : i32_min <= z <= i32_max -> abs_i32 z <= i32_max.
Proof.
  intro H. unfold abs_i32, wrap_i32, i32_min, i32_max in *. change (2 ^ 31) with 2147483648 in *. change (2 ^ 32) with 4294967296 in *.
  pose proof (Z.mod_pos_bound (Z.abs z + 2147483648) 4294967296 ltac:(lia)). lia.
Qed.

(** [wrap_i32] never exceeds the range, whatever the argument. *)
Lemma abs_le' z : abs_i32 z <= i32_max.
Proof.
  unfold abs_i32, wrap_i32, i32_max. change (2 ^ 31) with 2147483648 in *. change (2 ^ 32) with 4294967296 in *.
  pose proof (Z.mod_pos_bound (Z.abs z + 2147483648) 4294967296 ltac:(lia)). lia.
Qed.

Lemma merge_fields a b : lok a -> lok b -> merge a b =
  mkLimits (Z.max (l_int a) (l_int b)) (f32_max (l_real a) (l_real b)) (Z.max (l_name a) (l_name b))
           (Z.max (l_str a) (l_str b)) (Z.max (l_array a) (l_array b)) (Z.max (l_dict a) (l_dict b)).
Proof.
  intros Ha Hb. unfold merge, register_int, register_real, register_name_len, register_str_len, register_array_len, register_dict_entries.
  cbn [l_int l_real l_name l_str l_array l_dict]. rewrite abs_id by apply Hb. rewrite abs_limit_id by apply Hb. reflexivity.
Qed.

Lemma merge_ok a b : lok a -> lok b -> lok (merge a b).
Proof.
  intros Ha Hb. rewrite merge_fields by assumption. destruct Ha, Hb.
  constructor; cbn [l_int l_real l_name l_str l_array l_dict]; try lia. apply max_limit; assumption.
Qed.

Lemma f32_max_ext a b c d : limit_real a = true -> limit_real b = true -> limit_real c = true -> limit_real d = true ->
  Z.max (rank a) (rank b) = Z.max (rank c) (rank d) -> f32_max a b = f32_max c d.
Proof. intros. apply rank_inj; [apply max_limit|apply max_limit|rewrite !max_rank]; assumption. Qed.

Lemma merge_comm a b : lok a -> lok b -> merge a b = merge b a.
Proof.
  intros Ha Hb. rewrite !merge_fields by assumption. f_equal; try lia.
  apply f32_max_ext; try apply ok_real; try assumption. lia.
Qed.

Lemma merge_assoc a b c : lok a -> lok b -> lok c -> merge a (merge b c) = merge (merge a b) c.
Proof.
  intros Ha Hb Hc. rewrite (merge_fields a (merge b c)), (merge_fields (merge a b) c) by auto using merge_ok.
  rewrite (merge_fields b c), (merge_fields a b) by assumption. cbn [l_int l_real l_name l_str l_array l_dict].
  f_equal; try lia. destruct Ha, Hb, Hc. apply f32_max_ext; try assumption; try (apply max_limit; assumption).
  rewrite !max_rank by assumption. lia.
Qed.

Lemma limits0_ok : lok limits0.
Proof. constructor; cbn; try lia; try reflexivity. Qed.

Lemma merge_0 a : lok a -> merge a limits0 = a.
Proof.
  intro Ha. rewrite merge_fields by (assumption || apply limits0_ok). destruct a as [i r n s ar d].
  pose proof Ha as [A B C D E F]. cbn [l_int l_real l_name l_str l_array l_dict limits0] in *. f_equal; try lia.
  apply rank_inj; [apply max_limit; [assumption|reflexivity]|assumption|]. rewrite max_rank by (assumption || reflexivity).
  change (rank f32_zero) with 0. pose proof (rank_nonneg _ B). lia.
Qed.

Lemma merge_idem a : lok a -> merge a a = a.
Proof.
  intro Ha. rewrite merge_fields by assumption. destruct a as [i r n s ar d].
  pose proof Ha as [A B C D E F]. cbn [l_int l_real l_name l_str l_array l_dict] in *. f_equal; try lia.
  apply rank_inj; [apply max_limit; assumption|assumption|]. rewrite max_rank by assumption. lia.
Qed.

Lemma le_iff a b : lok a -> lok b -> limits_le a b <-> merge a b = b.
Proof.
  intros Ha Hb. rewrite merge_fields by assumption. destruct a as [i r n s ar d], b as [i' r' n' s' ar' d'].
  unfold limits_le. destruct Ha as [? HA ? ? ? ?], Hb as [? HB ? ? ? ?]. cbn [l_int l_real l_name l_str l_array l_dict] in *.
  rewrite leb_rank by assumption. split.
  - intros (A & B & C & D & E & F). f_equal; try lia. apply rank_inj; [apply max_limit; assumption|assumption|].
    rewrite max_rank by assumption. lia.
  - intro E. injection E as E1 E2 E3 E4 E5 E6. repeat split; try lia.
    rewrite <- E2. rewrite max_rank by assumption. lia.
Qed.

(** ** Single registrations as merges *)

Definition int_lim (z : Z) := mkLimits (Z.max 0 (abs_i32 z)) f32_zero 0 0 0 0.
Definition real_lim (v : f32) := mkLimits 0 (f32_max f32_zero (f32_abs v)) 0 0 0 0.
Definition name_lim (n : Z) := mkLimits 0 f32_zero n 0 0 0.
Definition str_lim (n : Z) := mkLimits 0 f32_zero 0 n 0 0.
Definition array_lim (n : Z) := mkLimits 0 f32_zero 0 0 n 0.
Definition dict_lim (n : Z) := mkLimits 0 f32_zero 0 0 0 n.

Lemma int_lim_ok z : lok (int_lim z).
Proof. pose proof (abs_le' z). constructor; cbn [int_lim l_int l_real l_name l_str l_array l_dict]; try lia; try reflexivity. unfold i32_max in *. lia. Qed.

Lemma zero_max_limit v : f32_valid v = true -> limit_real (f32_max f32_zero (f32_abs v)) = true.
Proof.
  intro H. destruct v as [|s|s m e]; [reflexivity| |]; apply max_limit; try reflexivity;
    apply abs_limit; congruence || assumption.
Qed.

Lemma real_lim_ok v : f32_valid v = true -> lok (real_lim v).
Proof. intro H. constructor; cbn [real_lim l_int l_real l_name l_str l_array l_dict]; try lia; [unfold i32_max; lia|]. apply zero_max_limit; assumption. Qed.
Lemma name_lim_ok n : 0 <= n -> lok (name_lim n).
Proof. intro H. constructor; cbn; try lia; try reflexivity. Qed.
Lemma str_lim_ok n : 0 <= n -> lok (str_lim n).
Proof. intro H. constructor; cbn; try lia; try reflexivity. Qed.
Lemma array_lim_ok n : 0 <= n -> lok (array_lim n).
Proof. intro H. constructor; cbn; try lia; try reflexivity. Qed.
Lemma dict_lim_ok n : 0 <= n -> lok (dict_lim n).
Proof. intro H. constructor; cbn; try lia; try reflexivity. Qed.

Lemma max_zero r : limit_real r = true -> f32_max r f32_zero = r.
Proof.
  intro H. apply rank_inj; [apply max_limit; [assumption|reflexivity]|assumption|].
  rewrite max_rank by (assumption || reflexivity). pose proof (rank_nonneg r H). change (rank f32_zero) with 0. lia.
Qed.

Ltac reg Ha H := rewrite merge_fields; [|exact Ha|exact H]; destruct Ha;
  unfold register_int, register_real, register_name_len, register_str_len, register_array_len, register_dict_entries;
  cbn [int_lim real_lim name_lim str_lim array_lim dict_lim l_int l_real l_name l_str l_array l_dict];
  rewrite ?max_zero by assumption; f_equal; try lia.

Lemma register_int_merge z l : lok l -> register_int z l = merge l (int_lim z).
Proof. intro Ha. pose proof (int_lim_ok z) as H. reg Ha H. Qed.
Lemma register_real_merge v l : lok l -> f32_valid v = true -> register_real v l = merge l (real_lim v).
Proof.
  intros Ha Hv. pose proof (real_lim_ok v Hv) as H. reg Ha H.
  destruct v as [|s|s m e].
  - cbn [f32_abs]. change (f32_max f32_zero FNan) with f32_zero. rewrite max_zero by assumption.
    destruct (l_real l); reflexivity.
  - pose proof (abs_limit (FInf s) Hv ltac:(discriminate)) as K.
    apply rank_inj; [apply max_limit; assumption|apply max_limit; [assumption|apply max_limit; [reflexivity|assumption]]|].
    rewrite !max_rank by (assumption || reflexivity || (apply max_limit; [reflexivity|assumption])).
    change (rank f32_zero) with 0. pose proof (rank_nonneg _ K). lia.
  - pose proof (abs_limit (FFin s m e) Hv ltac:(discriminate)) as K.
    apply rank_inj; [apply max_limit; assumption|apply max_limit; [assumption|apply max_limit; [reflexivity|assumption]]|].
    rewrite !max_rank by (assumption || reflexivity || (apply max_limit; [reflexivity|assumption])).
    change (rank f32_zero) with 0. pose proof (rank_nonneg _ K). lia.
Qed.
Lemma register_name_merge n l : lok l -> 0 <= n -> register_name_len n l = merge l (name_lim n).
Proof. intros Ha Hn. pose proof (name_lim_ok n Hn) as H. reg Ha H. Qed.
Lemma register_str_merge n l : lok l -> 0 <= n -> register_str_len n l = merge l (str_lim n).
Proof. intros Ha Hn. pose proof (str_lim_ok n Hn) as H. reg Ha H. Qed.
Lemma register_array_merge n l : lok l -> 0 <= n -> register_array_len n l = merge l (array_lim n).
Proof. intros Ha Hn. pose proof (array_lim_ok n Hn) as H. reg Ha H. Qed.
Lemma register_dict_merge n l : lok l -> 0 <= n -> register_dict_entries n l = merge l (dict_lim n).
Proof. intros Ha Hn. pose proof (dict_lim_ok n Hn) as H. reg Ha H. Qed.

(** ** The limits of a tree *)

Definition float_lim (v : f32) : limits :=
  if f32_eqb (f32_of_i32 (f32_as_i32 v)) v then int_lim (f32_as_i32 v) else real_lim v.

Definition lang_total (segs : list (langid * list Z)) : Z :=
  fold_left (fun n seg => n + (blen (str_utf8 (snd seg)) + lang_len (fst seg) + 2)) segs 0.

Definition prim_lim (p : prim) : limits :=
  match p with
  | PNull | PBool _ | PDate _ => limits0
  | PInt z => int_lim z
  | PReal v => float_lim v
  | PStr s => str_lim (blen s)
  | PText t => str_lim (blen (str_utf8 t))
  | PTextLang segs => str_lim (lang_total segs)
  | PName s => name_lim (blen s)
  | PRef r => int_lim r
  | PRect r => merge (merge (merge (merge (float_lim (x1 r)) (float_lim (y1 r))) (float_lim (x2 r))) (float_lim (y2 r))) (array_lim 4)
  end.

Fixpoint obj_lim (o : obj) : limits :=
  match o with
  | OPrim p => prim_lim p
  | OArray l => merge (fold_right (fun it a => merge (obj_lim it) a) limits0 l) (array_lim (Z.of_nat (List.length l)))
  | ODict l => merge (fold_right (fun e a => merge (merge (name_lim (blen (fst e))) (obj_lim (snd e))) a) limits0 l)
                     (dict_lim (Z.of_nat (List.length l)))
  end.

(** Values have their Rust types. *)
Definition prim_real_valid (p : prim) : bool :=
  match p with
  | PReal v => f32_valid v
  | PRect r => f32_valid (x1 r) && f32_valid (y1 r) && f32_valid (x2 r) && f32_valid (y2 r)
  | _ => true
  end.
Fixpoint reals_valid (o : obj) : bool :=
  match o with
  | OPrim p => prim_real_valid p
  | OArray l => forallb reals_valid l
  | ODict l => forallb (fun e => reals_valid (snd e)) l
  end.

Lemma blen_nonneg s : 0 <= blen s.
Proof. unfold blen. lia. Qed.

Lemma float_lim_ok v : f32_valid v = true -> lok (float_lim v).
Proof. intro H. unfold float_lim. destruct (f32_eqb _ _); [apply int_lim_ok|apply real_lim_ok; exact H]. Qed.

Lemma lang_total_nonneg segs : 0 <= lang_total segs.
Proof.
  unfold lang_total. assert (G : forall n, 0 <= n -> 0 <= fold_left (fun n seg => n + (blen (str_utf8 (snd seg)) + lang_len (fst seg) + 2)) segs n).
  { induction segs as [|a segs IH]; intros n Hn; [exact Hn|]. cbn [fold_left]. apply IH.
    pose proof (blen_nonneg (str_utf8 (snd a))). unfold lang_len. destruct (region _); lia. }
  apply G. lia.
Qed.

Lemma prim_lim_ok p : prim_real_valid p = true -> lok (prim_lim p).
Proof.
  destruct p; cbn [prim_lim prim_real_valid]; intro H; try apply limits0_ok; try apply int_lim_ok;
    try (apply str_lim_ok; apply blen_nonneg); try (apply name_lim_ok; apply blen_nonneg).
  - apply float_lim_ok; assumption.
  - apply str_lim_ok, lang_total_nonneg.
  - rewrite !andb_true_iff in H. destruct H as [[[H1 H2] H3] H4].
    repeat apply merge_ok; try (apply float_lim_ok; assumption). apply array_lim_ok. lia.
Qed.

Lemma lims_extend s b : lims (extend s b) = lims b. Proof. reflexivity. Qed.
Lemma lims_push s b : lims (push s b) = lims b. Proof. reflexivity. Qed.
Lemma lims_with f b : lims (with_limits f b) = f (lims b). Proof. reflexivity. Qed.
Lemma lims_endobj i p b : lims (endobj i p b) = lims b.
Proof. unfold endobj. destruct i; [|reflexivity]. destruct p; reflexivity. Qed.

Lemma push_int_lims z b : lok (lims b) -> lims (push_int z b) = merge (lims b) (int_lim z).
Proof. intro H. unfold push_int. rewrite lims_extend, lims_with. apply register_int_merge. exact H. Qed.

Lemma push_float_lims v b : lok (lims b) -> f32_valid v = true -> lims (push_float v b) = merge (lims b) (float_lim v).
Proof.
  intros H Hv. unfold push_float, float_lim. destruct (f32_eqb _ _).
  - apply push_int_lims. exact H.
  - unfold push_decimal. cbv zeta. destruct (_ || _); rewrite lims_extend, lims_with; apply register_real_merge; assumption.
Qed.

Lemma write_prim_lims p b : lok (lims b) -> prim_real_valid p = true ->
  lims (write_prim p b) = merge (lims b) (prim_lim p).
Proof.
  intros Hb Hv. destruct p; cbn [write_prim prim_lim prim_real_valid] in *.
  - symmetry; apply merge_0; assumption.
  - symmetry; apply merge_0; assumption.
  - apply push_int_lims; assumption.
  - apply push_float_lims; assumption.
  - unfold write_str. rewrite lims_extend, lims_with. apply register_str_merge; [assumption|apply blen_nonneg].
  - assert (E : register_str_len (blen (str_utf8 t)) (lims b) = merge (lims b) (str_lim (blen (str_utf8 t))))
      by (apply register_str_merge; [assumption|apply blen_nonneg]).
    pose proof (str_lim_ok _ (blen_nonneg (str_utf8 t))) as Hs.
    unfold write_text. cbv zeta. destruct (forallb _ _).
    + unfold write_str. rewrite lims_extend, !lims_with, E.
      rewrite register_str_merge; [|apply merge_ok; assumption|apply blen_nonneg].
      rewrite <- merge_assoc by assumption. rewrite merge_idem by assumption. reflexivity.
    + rewrite lims_extend, lims_with. exact E.
  - unfold write_text_lang. cbv zeta. rewrite lims_extend, lims_with. fold (lang_total segs).
    apply register_str_merge; [assumption|apply lang_total_nonneg].
  - unfold write_name. rewrite lims_extend, lims_with. apply register_name_merge; [assumption|apply blen_nonneg].
  - unfold write_ref. rewrite lims_extend. apply push_int_lims; assumption.
  - rewrite !andb_true_iff in Hv. destruct Hv as [[[H1 H2] H3] H4].
    unfold write_rect. cbv zeta.
    pose proof (float_lim_ok _ H1). pose proof (float_lim_ok _ H2). pose proof (float_lim_ok _ H3). pose proof (float_lim_ok _ H4).
    pose proof (array_lim_ok 4 ltac:(lia)).
    assert (P : forall v c b, lok (lims b) -> f32_valid v = true ->
      lims (push c (push_float v b)) = merge (lims b) (float_lim v) /\ lok (lims (push c (push_float v b)))).
    { clear. intros v c b Hb Hv. rewrite lims_push, push_float_lims by assumption. split; [reflexivity|].
      apply merge_ok; [assumption|apply float_lim_ok; assumption]. }
    rewrite lims_with.
    set (b0 := push x5b b). assert (O0 : lok (lims b0)) by exact Hb.
    destruct (P (x1 r) x20 b0 O0 H1) as [E1 O1]. set (b1 := push x20 (push_float (x1 r) b0)) in *. clearbody b1.
    destruct (P (y1 r) x20 b1 O1 H2) as [E2 O2]. set (b2 := push x20 (push_float (y1 r) b1)) in *. clearbody b2.
    destruct (P (x2 r) x20 b2 O2 H3) as [E3 O3]. set (b3 := push x20 (push_float (x2 r) b2)) in *. clearbody b3.
    destruct (P (y2 r) x5d b3 O3 H4) as [E4 O4]. set (b4 := push x5d (push_float (y2 r) b3)) in *. clearbody b4.
    rewrite register_array_merge by (lia || assumption). rewrite E4, E3, E2, E1. change (lims b0) with (lims b).
    rewrite <- !merge_assoc by auto 8 using merge_ok. reflexivity.
  - symmetry; apply merge_0; assumption.
Qed.

Opaque merge.

Definition obj_limits (o : obj) : Prop := reals_valid o = true ->
  lok (obj_lim o) /\ forall w b, lok (lims b) -> lims (write_obj o w b) = merge (lims b) (obj_lim o).

Definition items_lim (l : list obj) : limits := fold_right (fun it a => merge (obj_lim it) a) limits0 l.
Definition entries_lim (l : list (bytes * obj)) : limits :=
  fold_right (fun e a => merge (merge (name_lim (blen (fst e))) (obj_lim (snd e))) a) limits0 l.

Lemma items_lim_cons it l : items_lim (it :: l) = merge (obj_lim it) (items_lim l).
Proof. reflexivity. Qed.
Lemma entries_lim_cons k v l : entries_lim ((k, v) :: l) = merge (merge (name_lim (blen k)) (obj_lim v)) (entries_lim l).
Proof. reflexivity. Qed.
Lemma obj_lim_array l : obj_lim (OArray l) = merge (items_lim l) (array_lim (Z.of_nat (List.length l))).
Proof. reflexivity. Qed.
Lemma obj_lim_dict l : obj_lim (ODict l) = merge (entries_lim l) (dict_lim (Z.of_nat (List.length l))).
Proof. reflexivity. Qed.

Lemma array_push_lims a b w' a' b' : array_push a b = (w', a', b') -> lims b' = lims b /\ a_len a' = a_len a + 1.
Proof. unfold array_push. intro E. destruct (negb _); [destruct (a_pretty a)|]; injection E as _ <- <-; split; reflexivity. Qed.

Lemma dict_insert_lims k d b w' d' b' : lok (lims b) -> dict_insert k d b = (w', d', b') ->
  lims b' = merge (lims b) (name_lim (blen k)) /\ d_len d' = d_len d + 1.
Proof.
  intros Hb E. rewrite <- register_name_merge by (assumption || apply blen_nonneg).
  unfold dict_insert in E. cbv zeta in E. cbn [d_pretty d_indent] in E.
  destruct (d_pretty d); injection E as _ <- <-; split; reflexivity.
Qed.

Lemma write_items_cons it l a b : write_items (it :: l) a b =
  let '(w', a, b) := array_push a b in write_items l a (write_obj it w' b).
Proof. reflexivity. Qed.
Lemma write_entries_cons k v l d b : write_entries ((k, v) :: l) d b =
  let '(w', d, b) := dict_insert k d b in write_entries l d (write_obj v w' b).
Proof. reflexivity. Qed.

Lemma items_limits l : Forall obj_limits l -> forallb reals_valid l = true ->
  lok (items_lim l) /\ forall a b, lok (lims b) ->
  lims (snd (write_items l a b)) = merge (lims b) (items_lim l) /\
  a_len (fst (write_items l a b)) = a_len a + Z.of_nat (List.length l).
Proof.
  induction 1 as [|it l H1 H2 IH]; intro Hv.
  - split; [apply limits0_ok|]. intros a b Hb. change (items_lim []) with limits0. rewrite merge_0 by assumption.
    cbn [write_items fst snd List.length]. split; [reflexivity|lia].
  - cbn [forallb] in Hv. apply andb_true_iff in Hv. destruct Hv as [V1 V2]. destruct (H1 V1) as [O1 W1].
    destruct (IH V2) as [O2 W2]. rewrite items_lim_cons. split; [apply merge_ok; assumption|].
    intros a b Hb. rewrite write_items_cons. destruct (array_push a b) as [[w' a'] b'] eqn:E.
    destruct (array_push_lims _ _ _ _ _ E) as [Eb Ea].
    assert (Hb' : lok (lims b')) by (rewrite Eb; exact Hb).
    assert (Hw : lok (lims (write_obj it w' b'))) by (rewrite W1 by assumption; apply merge_ok; assumption).
    destruct (W2 a' (write_obj it w' b') Hw) as [I2 I3]. rewrite I2, I3, Ea. split; [|cbn [List.length]; lia].
    rewrite W1, Eb by assumption. symmetry. apply merge_assoc; assumption.
Qed.

Lemma entries_limits l : Forall (fun e => obj_limits (snd e)) l -> forallb (fun e => reals_valid (snd e)) l = true ->
  lok (entries_lim l) /\ forall d b, lok (lims b) ->
  lims (snd (write_entries l d b)) = merge (lims b) (entries_lim l) /\
  d_len (fst (write_entries l d b)) = d_len d + Z.of_nat (List.length l).
Proof.
  induction 1 as [|[k v] l H1 H2 IH]; intro Hv.
  - split; [apply limits0_ok|]. intros a b Hb. change (entries_lim []) with limits0. rewrite merge_0 by assumption.
    cbn [write_entries fst snd List.length]. split; [reflexivity|lia].
  - cbn [forallb fst snd] in Hv, H1. apply andb_true_iff in Hv. destruct Hv as [V1 V2]. destruct (H1 V1) as [O1 W1].
    pose proof (name_lim_ok _ (blen_nonneg k)) as Hn. pose proof (merge_ok _ _ Hn O1) as Hno.
    destruct (IH V2) as [O2 W2]. rewrite entries_lim_cons. split; [apply merge_ok; assumption|].
    intros d b Hb. rewrite write_entries_cons. destruct (dict_insert k d b) as [[w' d'] b'] eqn:E.
    destruct (dict_insert_lims _ _ _ _ _ _ Hb E) as [Eb Ea].
    assert (Hb' : lok (lims b')) by (rewrite Eb; apply merge_ok; assumption).
    assert (Hw : lok (lims (write_obj v w' b'))) by (rewrite W1 by assumption; apply merge_ok; assumption).
    destruct (W2 d' (write_obj v w' b') Hw) as [I2 I3]. rewrite I2, I3, Ea. split; [|cbn [List.length]; lia].
    rewrite W1, Eb by assumption.
    rewrite (merge_assoc (lims b) (merge (name_lim (blen k)) (obj_lim v)) (entries_lim l)) by assumption.
    rewrite (merge_assoc (lims b)) by assumption. reflexivity.
Qed.

Lemma tree_limits o : obj_limits o.
Proof.
  induction o as [q|l IH|l IH] using obj_ind'; intro Hv.
  - cbn [reals_valid obj_lim] in *. split; [apply prim_lim_ok; assumption|]. intros w b Hb. cbn [write_obj].
    unfold obj_primitive. cbv zeta. rewrite lims_endobj. destruct (_ && _); rewrite (write_prim_lims q) by assumption; reflexivity.
  - cbn [reals_valid] in Hv. rewrite obj_lim_array. destruct (items_limits l IH Hv) as [X Y].
    pose proof (array_lim_ok (Z.of_nat (List.length l)) ltac:(lia)) as Ho.
    split; [apply merge_ok; assumption|]. intros w b Hb. rewrite write_obj_array. unfold array_start.
    destruct (Y (mkArrw (o_indirect w) (o_indent w) (o_pretty w) 0) (push x5b b) Hb) as [Y1 Y2].
    destruct (write_items l _ _) as [a' b']. cbn [fst snd a_len] in Y1, Y2. unfold array_drop.
    rewrite lims_endobj, lims_push, lims_with, Y1, Y2, lims_push.
    rewrite register_array_merge by (lia || (apply merge_ok; assumption)). rewrite Z.add_0_l. symmetry. apply merge_assoc; assumption.
  - cbn [reals_valid] in Hv. rewrite obj_lim_dict. destruct (entries_limits l IH Hv) as [X Y].
    pose proof (dict_lim_ok (Z.of_nat (List.length l)) ltac:(lia)) as Ho.
    split; [apply merge_ok; assumption|]. intros w b Hb. rewrite write_obj_dict. unfold dict_start.
    destruct (Y (mkDictw (o_indirect w) (sat_add_u8 (o_indent w) 2) (o_pretty w) 0) (extend [x3c; x3c] b) Hb) as [Y1 Y2].
    destruct (write_entries l _ _) as [d' b']. cbn [fst snd d_len] in Y1, Y2. unfold dict_drop. cbv zeta.
    rewrite lims_endobj, lims_extend.
    assert (E : lims (if negb (d_len d' =? 0) && d_pretty d' then extend (spaces (d_indent d' - 2)) (push x0a (with_limits (register_dict_entries (d_len d')) b'))
                else with_limits (register_dict_entries (d_len d')) b') = register_dict_entries (d_len d') (lims b'))
      by (destruct (_ && _); reflexivity).
    rewrite E, Y1, Y2, lims_extend.
    rewrite register_dict_merge by (lia || (apply merge_ok; assumption)). rewrite Z.add_0_l. symmetry. apply merge_assoc; assumption.
Qed.
