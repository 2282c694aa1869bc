(** Proofs for C104: values and limits. *)

From Coq Require Import ZArith List Lia Bool ZifyBool ZifyNat.
From Verif Require Import Bytes ModelFloat ModelBuf ModelObject ModelRenumber ModelChunk ModelPdf SpecLex SpecObj SpecText SpecMeans
  SpecRenum SpecChunk SpecLimits SpecWithin ProofBasic ProofText ProofFloat ProofFloat2 ProofObj ProofParse ProofTree ProofChunk ProofChunk2
  ProofLimits ProofLimits2 ProofLimits3 PropChunk PropLimits PropLimits2 ProofRound ProofCost2.
Import ListNotations.
Local Open Scope Z_scope.

(** ** Valid reals *)
Lemma ok_reals_valid o : obj_ok o = true -> reals_valid o = true.
Proof.
  induction o as [q|l IH|l IH] using obj_ind'; cbn [obj_ok reals_valid].
  - destruct q; cbn [prim_ok prim_real_valid]; unfold real_ok; try reflexivity; rewrite ?andb_true_iff; tauto.
  - intro H. rewrite forallb_forall in H |- *. rewrite Forall_forall in IH. intros x Hx. apply IH; [exact Hx|]. apply H; exact Hx.
  - intro H. rewrite forallb_forall in H |- *. rewrite Forall_forall in IH. intros x Hx. apply IH; [exact Hx|]. apply H; exact Hx.
Qed.

(** ** Lengths *)
Lemma utf16_len c : is_scalar c = true -> 2 * Z.of_nat (List.length (utf16 c)) <= 2 * utf8_size c.
Proof.
  unfold is_scalar, utf16, utf8_size. intro H. destruct (c <? 65536) eqn:E; cbn [List.length];
    destruct (c <? 128) eqn:E1, (c <? 2048) eqn:E2; lia.
Qed.
Lemma unit_bytes_len l : Z.of_nat (List.length (flat_map unit_bytes l)) = 2 * Z.of_nat (List.length l).
Proof. induction l as [|u l IH]; [reflexivity|]. cbn [flat_map]. rewrite app_length. unfold unit_bytes at 1. cbn [List.length] in *. lia. Qed.
Lemma units_size t : forallb is_scalar t = true -> 2 * Z.of_nat (List.length (flat_map utf16 t)) <= 2 * text_size t.
Proof.
  induction t as [|c t IH]; intro H; [unfold text_size; cbn; lia|]. cbn [forallb] in H. apply andb_true_iff in H. destruct H as [H1 H2]. specialize (IH H2).
  cbn [flat_map]. rewrite app_length. pose proof (utf16_len c H1). unfold text_size in *. cbn [map sum fold_right]. fold (sum (map utf8_size t)). lia.
Qed.
Lemma text_size_nonneg t : 0 <= text_size t.
Proof. rewrite <- text_size_len. unfold blen. lia. Qed.
Lemma text_str_size t : forallb is_scalar t = true -> blen (text_str t) <= 2 * text_size t + 2.
Proof.
  intro H. unfold text_str. pose proof (text_size_nonneg t). destruct (is_plain_text t); [rewrite text_size_len; lia|].
  unfold blen. cbn [List.length]. pose proof (unit_bytes_len (flat_map utf16 t)). pose proof (units_size t H). lia.
Qed.
Lemma lang_str_size segs : forallb (fun s => forallb is_scalar (snd s) && seg_clean s) segs = true ->
  blen (lang_str segs) <= 2 * sum (map segment_size segs) + 2.
Proof.
  intro H. unfold lang_str, blen. cbn [List.length]. rewrite !Nat2Z.inj_succ, unit_bytes_len.
  assert (G : Z.of_nat (List.length (flat_map utf16 (flat_map seg_scalars segs))) <= sum (map segment_size segs)); [|lia].
  induction segs as [|s segs IH]; [cbn; lia|]. cbn [forallb] in H. apply andb_true_iff in H. destruct H as [H1 H2]. specialize (IH H2).
  apply andb_true_iff in H1. destruct H1 as [H1 _]. pose proof (units_size _ H1) as U. cbn [flat_map map]. rewrite flat_map_app, app_length. cbn [sum fold_right]. fold (sum (map segment_size segs)).
  assert (V : Z.of_nat (List.length (flat_map utf16 (seg_scalars s))) <= segment_size s); [|lia].
  unfold seg_scalars, segment_size, lang_scalars, code_size. destruct s as [[[a b] [[c d]|]] t]; cbn [fst snd lang region] in *; cbn [app flat_map];
    rewrite !utf16_bz; change (utf16 27) with [27]; cbn [app List.length]; lia.
Qed.
Lemma date_size d : date_ok d = true -> blen (lit "D:" ++ date_body d) <= 22.
Proof.
  intro H. pose proof (date_len d H) as D. unfold date_bytes in D. rewrite !blen_app in *. change (blen (lit "(D:")) with 3 in D. change (blen (lit ")")) with 1 in D.
  change (blen (lit "D:")) with 2. lia.
Qed.

(** ** Numbers *)
Lemma real_as_int_none v : f32_finite v = true -> real_as_int v = None -> not_an_i32 v.
Proof.
  intros Hf E z Hz. unfold real_as_int in E. rewrite Hf, Hz in E. rewrite Z.mod_mul, Z.div_mul in E by discriminate. change (0 =? 0) with true in E.
  cbn [andb] in E. destruct ((i32_min <=? z) && (z <=? 2 ^ 31)) eqn:B; [discriminate|]. unfold i32_min in B. lia.
Qed.
Lemma real_lim_le l v : real_ok v = true -> lok l -> limits_le (real_lim v) l -> f32_leb (f32_abs v) (l_real l) = true.
Proof.
  unfold real_ok. intros H Hl (_ & LE & _). apply andb_true_iff in H. destruct H as [Hf Hv]. cbn [real_lim l_real] in LE.
  assert (NN : v <> FNan) by (destruct v; discriminate). pose proof (abs_limit v Hv NN) as A.
  assert (Z0 : limit_real f32_zero = true) by reflexivity. destruct Hl as [_ LR _ _ _ _].
  apply leb_rank in LE; [|apply zero_max_limit; exact Hv|exact LR]. rewrite max_rank in LE by assumption.
  apply leb_rank; [exact A|exact LR|]. lia.
Qed.
Lemma int_lim_le l z : in_i32 z = true -> limits_le (int_lim z) l -> Z.abs z <= l_int l \/ z = - 2 ^ 31.
Proof.
  intros H (LE & _). cbn [int_lim l_int] in LE. destruct (Z.eq_dec z (- 2 ^ 31)) as [E|E]; [right; exact E|left].
  rewrite <- (absz_abs z H); [exact LE|exact E].
Qed.
Lemma real_within l v : real_ok v = true -> lok l -> limits_le (float_lim v) l -> within l (num_val (float_bytes v)).
Proof.
  intros H Hl LE. pose proof H as RO. unfold real_ok in RO. apply andb_true_iff in RO. destruct RO as [Hf Hv].
  pose proof (real_as_int_spec v Hv) as RI. pose proof (real_means_val v H) as RM. unfold float_lim in LE.
  destruct (real_as_int v) as [z|] eqn:E.
  - destruct RI as (E1 & E2 & E3). rewrite E1, E2 in LE. unfold float_bytes in *. rewrite E1, E2 in *.
    assert (I : in_i32 z = true) by (unfold in_i32; lia).
    assert (N : num_val (dec_i z) = VInt z).
    { unfold num_val, num_tok. destruct (dec_i_spec z) as (D & _ & _). rewrite D. reflexivity. }
    rewrite N. apply in_int. apply int_lim_le; assumption.
  - rewrite RI in LE. pose proof (real_lim_le l v H Hl LE) as LR. pose proof (real_as_int_none v Hf E) as NI.
    inversion RM as [z R E0|n k R E0]; [eapply in_whole|eapply in_real]; eassumption.
Qed.

(** ** Trees *)
Lemma lub a b c : lok a -> lok b -> lok c -> limits_le (merge a b) c -> limits_le a c /\ limits_le b c.
Proof. intros Ha Hb Hc H. apply (C21_merge_is_least_upper_bound a b c); try (apply limits_ok_iff; assumption). exact H. Qed.
Lemma items_ok xs : forallb reals_valid xs = true -> lok (items_lim xs).
Proof.
  induction xs as [|x xs IH]; intro H; [apply limits0_ok|]. cbn [forallb] in H. apply andb_true_iff in H. destruct H as [H1 H2].
  rewrite items_lim_cons. apply merge_ok; [apply obj_lim_ok; exact H1|apply IH, H2].
Qed.
Lemma entries_ok xs : forallb (fun e => reals_valid (snd e)) xs = true -> lok (entries_lim xs).
Proof.
  induction xs as [|[k x] xs IH]; intro H; [apply limits0_ok|]. cbn [forallb snd] in H. apply andb_true_iff in H. destruct H as [H1 H2].
  rewrite entries_lim_cons. apply merge_ok; [apply merge_ok; [apply name_lim_ok; unfold blen; lia|apply obj_lim_ok; exact H1]|apply IH, H2].
Qed.
Lemma tree_within l o : obj_ok o = true -> lok l -> limits_le (obj_lim o) l -> within l (obj_val o).
Proof.
  intros Hok Hl. revert Hok. induction o as [q|xs IH|xs IH] using obj_ind'; intros Hok LE.
  - destruct q; cbn [obj_val obj_ok prim_ok obj_lim prim_lim] in *; try (constructor; fail).
    + apply in_int. apply int_lim_le; assumption.
    + apply real_within; assumption.
    + apply in_str. left. destruct LE as (_ & _ & _ & LS & _). cbn [str_lim l_str] in LS. pose proof (blen_nonneg s). lia.
    + apply in_str. left. destruct LE as (_ & _ & _ & LS & _). cbn [str_lim l_str] in LS. rewrite text_size_len in LS. pose proof (text_str_size t Hok). lia.
    + apply in_str. left. destruct LE as (_ & _ & _ & LS & _). cbn [str_lim l_str] in LS. rewrite lang_total_size in LS. pose proof (lang_str_size segs Hok). lia.
    + apply in_name. destruct LE as (_ & _ & LS & _). exact LS.
    + apply in_ref. assert (I : in_i32 r = true) by (unfold in_i32, i32_min, i32_max in *; lia). destruct (int_lim_le l r I LE); lia.
    + rewrite !andb_true_iff in Hok. destruct Hok as [[[H1 H2] H3] H4].
      assert (V : forall v, real_ok v = true -> lok (float_lim v)) by (intros v V; apply float_lim_ok; unfold real_ok in V; apply andb_true_iff in V; tauto).
      pose proof (V _ H1). pose proof (V _ H2). pose proof (V _ H3). pose proof (V _ H4). pose proof (array_lim_ok 4 ltac:(lia)).
      apply lub in LE; auto using merge_ok. destruct LE as [LE LA]. apply lub in LE; auto using merge_ok. destruct LE as [LE L4].
      apply lub in LE; auto using merge_ok. destruct LE as [LE L3]. apply lub in LE; auto using merge_ok. destruct LE as [L1 L2].
      apply in_array; [destruct LA as (_ & _ & _ & _ & LA & _); exact LA|].
      repeat (constructor; [apply real_within; assumption|]). constructor.
    + apply in_str. right. apply date_size. exact Hok.
  - cbn [obj_val obj_ok] in *. pose proof (ok_reals_valid (OArray xs) Hok) as RV. cbn [reals_valid] in RV. rewrite obj_lim_array in LE.
    pose proof (items_ok xs RV) as IO. apply lub in LE; [|exact IO|apply array_lim_ok; lia|exact Hl]. destruct LE as [LI LA].
    apply in_array; [unfold size; rewrite map_length; destruct LA as (_ & _ & _ & _ & LA & _); exact LA|]. clear LA.
    induction IH as [|x xs Hx HF IHl]; [constructor|]. cbn [forallb map] in *. apply andb_true_iff in Hok, RV. destruct Hok as [K1 K2]. destruct RV as [R1 R2].
    rewrite items_lim_cons in LI. apply lub in LI; [|apply obj_lim_ok; exact R1|apply items_ok; exact R2|exact Hl]. destruct LI as [L1 L2].
    constructor; [apply Hx; assumption|]. apply IHl; auto using items_ok.
  - cbn [obj_val obj_ok] in *. pose proof (ok_reals_valid (ODict xs) Hok) as RV. cbn [reals_valid] in RV. rewrite obj_lim_dict in LE.
    pose proof (entries_ok xs RV) as IO. apply lub in LE; [|exact IO|apply dict_lim_ok; lia|exact Hl]. destruct LE as [LI LA].
    apply in_dict; [unfold size; rewrite map_length; destruct LA as (_ & _ & _ & _ & _ & LA); exact LA|]. clear LA.
    induction IH as [|[k x] xs Hx HF IHl]; [constructor|]. cbn [forallb map fst snd] in *. apply andb_true_iff in Hok, RV. destruct Hok as [K1 K2]. destruct RV as [R1 R2].
    assert (NL : lok (name_lim (blen k))) by (apply name_lim_ok; unfold blen; lia). pose proof (obj_lim_ok _ R1) as OL.
    rewrite entries_lim_cons in LI. apply lub in LI; [|auto using merge_ok|apply entries_ok; exact R2|exact Hl]. destruct LI as [L1 L2].
    apply lub in L1; try assumption. destruct L1 as [L0 L1].
    constructor; [cbn [fst snd]; split; [destruct L0 as (_ & _ & L0 & _); exact L0|apply Hx; assumption]|]. apply IHl; auto using entries_ok.
Qed.

(** ** The limits of the standard *)
Lemma rounds_below n k r b : rounds_to n k r -> f32_finite b = true -> f32_valid b = true -> f32_units r < f32_units b -> n * 2 ^ 149 < f32_units b * 10 ^ Z.of_nat k.
Proof.
  intros (_ & _ & _ & R) Fb Vb L. destruct (R b Fb Vb) as [D _]. unfold scaled_dist in D. pose proof (Z.pow_pos_nonneg 10 (Z.of_nat k) ltac:(lia) ltac:(lia)) as P.
  set (a := n * 2 ^ 149) in *. set (t := 10 ^ Z.of_nat k) in *. set (u := f32_units r) in *. set (w := f32_units b) in *. clearbody a t u w.
  destruct (Z.lt_ge_cases a (w * t)) as [X|X]; [exact X|exfalso]. nia.
Qed.
Lemma rounds_above n k r b : rounds_to n k r -> f32_finite b = true -> f32_valid b = true -> f32_units b < f32_units r -> f32_units b * 10 ^ Z.of_nat k < n * 2 ^ 149.
Proof.
  intros (_ & _ & _ & R) Fb Vb L. destruct (R b Fb Vb) as [D _]. unfold scaled_dist in D. pose proof (Z.pow_pos_nonneg 10 (Z.of_nat k) ltac:(lia) ltac:(lia)) as P.
  set (a := n * 2 ^ 149) in *. set (t := 10 ^ Z.of_nat k) in *. set (u := f32_units r) in *. set (w := f32_units b) in *. clearbody a t u w.
  destruct (Z.lt_ge_cases (w * t) a) as [X|X]; [exact X|exfalso]. nia.
Qed.
Definition top : f32 := FFin false 16776704 (-9).
Lemma top_units : f32_units top = 32767 * 2 ^ 149. Proof. vm_compute. reflexivity. Qed.
Lemma neg_top_units : f32_units (FFin true 16776704 (-9)) = - 32767 * 2 ^ 149. Proof. vm_compute. reflexivity. Qed.
Lemma real_conforms n k r l : lok l -> rounds_to n k r -> not_an_i32 r -> f32_leb (f32_abs r) (l_real l) = true -> f32_leb (l_real l) top = true ->
  Z.abs n < 32767 * 10 ^ Z.of_nat k.
Proof.
  intros Hl R NI L1 L2. pose proof R as R0. destruct R0 as (Fr & Vr & R').
  assert (NN : r <> FNan) by (destruct r; discriminate). destruct Hl as [_ LR _ _ _ _].
  apply leb_rank in L1; [|apply abs_limit; assumption|exact LR]. apply leb_rank in L2; [|exact LR|reflexivity].
  assert (U : Z.abs (f32_units r) <= 32767 * 2 ^ 149).
  { destruct r as [|s|s m e]; try discriminate. cbn [f32_abs rank] in L1.
    assert (rank top = 32767 * 2 ^ 149) as T by (vm_compute; reflexivity). rewrite T in L2.
    assert (Z.abs (f32_units (FFin s m e)) = f32_units (FFin false m e)) as ->; [|lia].
    unfold f32_units. apply valid_fin in Vr. pose proof (pow2_pos (e + 149) ltac:(lia)) as P2. set (b := 2 ^ (e + 149)) in *. clearbody b. destruct s; nia. }
  assert (NE : Z.abs (f32_units r) <> 32767 * 2 ^ 149).
  { intro E. destruct (Z.abs_spec (f32_units r)) as [[_ S]|[_ S]]; rewrite S in E.
    - specialize (NI 32767 E). lia.
    - assert (X : f32_units r = (-32767) * 2 ^ 149) by (set (p := 2 ^ 149) in *; clearbody p; lia). specialize (NI _ X). lia. }
  pose proof (rounds_below n k r top R eq_refl eq_refl) as B. rewrite top_units in B.
  pose proof (rounds_above n k r (FFin true 16776704 (-9)) R eq_refl eq_refl) as A. rewrite neg_top_units in A.
  pose proof (Z.pow_pos_nonneg 10 (Z.of_nat k) ltac:(lia) ltac:(lia)) as P.
  assert (P2 : 0 < 2 ^ 149) by reflexivity.
  set (p := 2 ^ 149) in *. set (t := 10 ^ Z.of_nat k) in *. set (u := f32_units r) in *. clearbody p t u.
  assert (B' := B ltac:(lia)). assert (A' := A ltac:(lia)). clear A B NI R R' U NE L1 L2. apply Z.abs_lt. split; nia.
Qed.
Fixpoint within_conforms l (Hl : lok l) (A : archival_limits l) v (H : within l v) {struct H} : conforming v.
Proof.
  pose proof A as A0. destruct A0 as (A1 & A2 & A3 & A4 & A5). destruct H as [|b|z H|z r H1 H2 H3|n k r H1 H2 H3|s H|s H|n H|items H F|entries H F].
  - constructor.
  - constructor.
  - constructor. destruct Hl as [L0 _ _ _ _ _]. unfold i32_max in L0. lia.
  - constructor. pose proof (real_conforms z 0 r l Hl H1 H2 H3 A1) as X. change (10 ^ Z.of_nat 0) with 1 in X. lia.
  - constructor. pose proof (real_conforms n k r l Hl H1 H2 H3 A1) as X. lia.
  - constructor. lia.
  - constructor. lia.
  - constructor.
  - constructor; [lia|]. clear H. induction F as [|x xs Hx F IH]; constructor; [exact (within_conforms l Hl A x Hx)|exact IH].
  - constructor; [lia|]. clear H. induction F as [|x xs Hx F IH]; constructor; [|exact IH]. destruct Hx as [H1 H2]. split; [lia|exact (within_conforms l Hl A _ H2)].
Qed.
