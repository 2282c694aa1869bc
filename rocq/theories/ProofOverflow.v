(** The writers with explicit i32 arithmetic against the model without. *)

From Coq Require Import ZArith List Lia Bool.
From Verif Require Import Bytes ModelFloat ModelBuf ModelObject ModelRenumber ModelChunk ModelPdf ModelOverflow SpecLex SpecObj SpecText SpecMeans SpecRenum SpecChunk SpecOverflow
  ProofBasic ProofText ProofFloat ProofFloat2 ProofObj ProofTree ProofLimits ProofApi.
Import ListNotations.
Local Open Scope Z_scope.

(** The shape of all the statements: what happens, and when it is what the model says. *)
Definition agrees {A} (p : profile) (bad : Prop) (r : option A) (v : A) : Prop :=
  match r with
  | Some v' => (~ bad -> v' = v) /\ (p = Debug -> ~ bad)
  | None => p = Debug /\ bad
  end.
Lemma agrees_good {A} p (bad : Prop) (v : A) : ~ bad -> agrees p bad (Some v) v.
Proof. intro H. split; [reflexivity|intros _; exact H]. Qed.
Lemma agrees_iff {A} p (bad bad' : Prop) (r : option A) v : (bad <-> bad') -> agrees p bad r v -> agrees p bad' r v.
Proof. unfold agrees. destruct r; tauto. Qed.
Lemma agrees_map {A B} p bad (r : option A) v (f : A -> B) : agrees p bad r v -> agrees p bad (option_map f r) (f v).
Proof.
  unfold agrees. destruct r as [a|]; cbn [option_map]; [|tauto]. intros [H1 H2]. split; [|exact H2]. intro H. rewrite (H1 H). reflexivity.
Qed.
Lemma agrees_bind {A B} p bad1 bad2 (r : option A) v (f : A -> option B) w :
  agrees p bad1 r v -> (p = Release -> forall a, f a <> None) -> agrees p bad2 (f v) w ->
  agrees p (bad1 \/ bad2) (match r with Some a => f a | None => None end) w.
Proof.
  unfold agrees at 1. destruct r as [a|].
  - intros [H1 H2] Hr Hv. destruct p.
    + assert (N : ~ bad1) by auto. rewrite (H1 N). unfold agrees in *. destruct (f v); tauto.
    + specialize (Hr eq_refl a). unfold agrees. destruct (f a) as [b|] eqn:E; [|congruence]. split; [|discriminate].
      intro N. assert (N1 : ~ bad1) by tauto. assert (N2 : ~ bad2) by tauto. rewrite (H1 N1) in E. unfold agrees in Hv. rewrite E in Hv. apply Hv. exact N2.
  - intros [-> H] _ _. split; [reflexivity|left; exact H].
Qed.

Lemma agrees_map' {A B} p bad (r : option A) v (f : A -> B) w : agrees p bad r v -> (~ bad -> f v = w) -> agrees p bad (option_map f r) w.
Proof.
  unfold agrees. destruct r as [a|]; cbn [option_map]; [|tauto]. intros [H1 H2] H3. split; [|exact H2]. intro H. rewrite (H1 H). apply H3. exact H.
Qed.
Lemma beq_sym a b : beq a b = beq b a.
Proof. destruct (beq b a) eqn:E; [apply beq_spec in E; subst; apply beq_refl|]. apply beq_neq. apply beq_neq in E. congruence. Qed.
Lemma release_map {A B} (f : A -> B) r : r <> None -> option_map f r <> None.
Proof. destruct r; [discriminate|congruence]. Qed.

(** ** Integers *)

Lemma wrap_next n : i32_min <= n < i32_max -> wrap_i32 (n + 1) = n + 1.
Proof. intro H. apply wrap_id. lia. Qed.
Lemma succ_agrees p n : 0 <= n <= i32_max -> agrees p (n = i32_max) (i32_succ p n) (n + 1).
Proof.
  intro H. unfold i32_succ. destruct p.
  - destruct (Z.eqb_spec n i32_max); [split; [reflexivity|assumption]|apply agrees_good; assumption].
  - split; [|discriminate]. intro N. apply wrap_next. unfold i32_min. lia.
Qed.

Lemma push_int_agrees p v b : i32_min <= v <= i32_max ->
  agrees p (match p with Debug => v = i32_min | Release => False end) (push_int_in p v b) (push_int v b).
Proof.
  intro H. unfold push_int_in, i32_abs. destruct p.
  - destruct (Z.eqb_spec v i32_min); [split; [reflexivity|assumption]|]. split; [|intros _; assumption]. intros _.
    unfold push_int, with_limits, register_int, abs_i32. rewrite wrap_id; [reflexivity|]. unfold i32_min, i32_max in *. lia.
  - apply agrees_good. tauto.
Qed.

Definition min_real (p : profile) (v : f32) : Prop := match p with Debug => is_min v | Release => False end.
Lemma push_float_agrees p v b : f32_valid v = true -> agrees p (min_real p v) (push_float_in p v b) (push_float v b).
Proof.
  intro V. unfold push_float_in, push_float. destruct (f32_eqb (f32_of_i32 (f32_as_i32 v)) v) eqn:E.
  - assert (R : i32_min <= f32_as_i32 v <= i32_max).
    { destruct (shortcut_inv v V E) as [[_ R]|[_ R]]; [exact R|]. rewrite R. unfold i32_min, i32_max. lia. }
    eapply agrees_iff; [|apply push_int_agrees; exact R]. destruct p; [|tauto]. cbn [min_real]. split.
    + intro M. destruct (shortcut_inv v V E) as [[I _]|[_ X]]; [|rewrite X in M; discriminate].
      rewrite M in I. exact I.
    + intro M. apply (as_i32_int v i32_min V); [exact M|]. unfold i32_min, i32_max. lia.
  - apply agrees_good. destruct p; [|tauto]. cbn [min_real]. intro M.
    rewrite (shortcut_int v i32_min V) in E; [discriminate|exact M|unfold i32_min, i32_max; lia].
Qed.
Lemma release_float v b : push_float_in Release v b <> None.
Proof. unfold push_float_in. destruct (f32_eqb _ _); discriminate. Qed.

(** ** Strings *)

Lemma count_cons c d s : count c (d :: s) = (if beq c d then 1 else 0) + count c s.
Proof. unfold count. cbn [List.filter]. destruct (beq c d); cbn [length]; lia. Qed.
Lemma count_nonneg c s : 0 <= count c s.
Proof. unfold count. lia. Qed.
Lemma count_nil c : count c [] = 0. Proof. reflexivity. Qed.

Lemma opened_nil d : 0 <= d <= i32_max -> ~ opened_beyond d [].
Proof.
  intros D (pre & post & E & _ & B). symmetry in E. apply app_eq_nil in E as [-> _]. rewrite !count_nil in B. lia.
Qed.
(** A step of the scan. *)
Lemma opened_cons d c s d' : 0 <= d <= i32_max ->
  d' = d + (if beq x28 c then 1 else 0) - (if beq x29 c then 1 else 0) -> 0 <= d' ->
  (opened_beyond d (c :: s) <-> opened_beyond d' s).
Proof.
  intros D E P. split.
  - intros (pre & post & S & A & B). destruct pre as [|c' pre]; [rewrite !count_nil in B; lia|].
    cbn [app] in S. injection S as -> S. exists pre, post. split; [exact S|]. rewrite !count_cons in B. split; [|lia].
    intros a b X. specialize (A (c' :: a) b). rewrite !count_cons in A. subst pre. specialize (A eq_refl). lia.
  - intros (pre & post & S & A & B). exists (c :: pre), post. split; [cbn [app]; f_equal; exact S|]. split.
    + intros a b X. destruct a as [|c' a]; [rewrite !count_nil; lia|]. cbn [app] in X. injection X as <- X.
      specialize (A a b X). rewrite !count_cons. lia.
    + rewrite !count_cons. lia.
Qed.
Lemma opened_now d c s : d = i32_max -> c = x28 -> opened_beyond d (c :: s).
Proof.
  intros -> ->. exists [x28], s. split; [reflexivity|]. split.
  - intros a b X. destruct a as [|c a]; [rewrite !count_nil; unfold i32_max; lia|]. cbn [app] in X. injection X as <- X.
    symmetry in X. apply app_eq_nil in X as [-> ->]. rewrite !count_cons, !count_nil. cbn. lia.
  - rewrite !count_cons, !count_nil. cbn. lia.
Qed.
Lemma opened_stop d c s : d <= 0 -> c = x29 -> ~ opened_beyond d (c :: s).
Proof.
  intros D -> (pre & post & S & A & B). destruct pre as [|c pre]; [rewrite !count_nil in B; unfold i32_max in B; lia|].
  cbn [app] in S. injection S as <- S. specialize (A [x29] pre eq_refl). rewrite !count_cons, !count_nil in A. cbn in A. lia.
Qed.

Lemma release_balanced s : forall d, is_balanced_in Release d s <> None.
Proof.
  induction s as [|c s IH]; intro d; cbn [is_balanced_in i32_succ]; [discriminate|].
  destruct (beq c x28); [apply IH|]. destruct (beq c x29); [destruct (0 <? d); [apply IH|discriminate]|apply IH].
Qed.
Lemma balanced_agrees p s : forall d, 0 <= d <= i32_max ->
  agrees p (opened_beyond d s) (is_balanced_in p d s) (is_balanced_from d s).
Proof.
  induction s as [|c s IH]; intros d D; cbn [is_balanced_in is_balanced_from].
  - apply agrees_good. apply opened_nil. exact D.
  - destruct (beq c x28) eqn:E1.
    + apply beq_spec in E1. subst c. unfold i32_succ. destruct p.
      * destruct (Z.eqb_spec d i32_max) as [M|M]; [split; [reflexivity|apply opened_now; auto]|].
        eapply agrees_iff; [symmetry; apply (opened_cons d x28 s (d + 1)); [exact D|cbn; lia|lia]|apply IH; lia].
      * destruct (Z.eq_dec d i32_max) as [M|M].
        { unfold agrees. destruct (is_balanced_in Release (wrap_i32 (d + 1)) s) eqn:X; [|exfalso; exact (release_balanced _ _ X)].
          split; [|discriminate]. intro N. exfalso. apply N. apply opened_now; auto. }
        rewrite wrap_next by (unfold i32_min; lia).
        eapply agrees_iff; [symmetry; apply (opened_cons d x28 s (d + 1)); [exact D|cbn; lia|lia]|apply IH; lia].
    + destruct (beq c x29) eqn:E2.
      * apply beq_spec in E2. subst c. destruct (0 <? d) eqn:P.
        { eapply agrees_iff; [symmetry; apply (opened_cons d x29 s (d - 1)); [exact D|cbn; lia|lia]|apply IH; lia]. }
        apply agrees_good. apply opened_stop; [lia|reflexivity].
      * eapply agrees_iff; [symmetry; apply (opened_cons d c s d); [exact D| |lia]|apply IH; lia].
        rewrite (beq_sym x28 c), (beq_sym x29 c), E1, E2. lia.
Qed.

Definition plain (s : bytes) : Prop := Forall (fun c => beq c x28 = false /\ beq c x29 = false) s.
Lemma opened_plain pre s : plain pre -> forall d, 0 <= d <= i32_max -> (opened_beyond d (pre ++ s) <-> opened_beyond d s).
Proof.
  induction 1 as [|c pre [H1 H2] H IH]; intros d D; [reflexivity|]. cbn [app]. rewrite (opened_cons d c (pre ++ s) d); [apply IH; exact D|exact D| |lia].
  rewrite (beq_sym x28 c), (beq_sym x29 c), H1, H2. lia.
Qed.
Lemma str_literal_known p whole v s : str_literal_in p whole (Some v) s = Some (str_literal whole (Some v) s).
Proof.
  induction s as [|c s IH]; [reflexivity|]. cbn [str_literal_in str_literal].
  replace (if beq c x28 || beq c x29 then Some (Some v) else Some (Some v)) with (Some (Some v)) by (destruct (beq c x28 || beq c x29); reflexivity).
  assert (E : fst (str_byte whole (Some v) c) = Some v).
  { unfold str_byte. repeat match goal with |- context [if ?x then _ else _] => destruct x end; reflexivity. }
  destruct (str_byte whole (Some v) c) as [bal out]. cbn [fst] in E. subst bal. rewrite IH. reflexivity.
Qed.
Lemma str_byte_plain whole balanced c : beq c x28 = false -> beq c x29 = false -> fst (str_byte whole balanced c) = balanced.
Proof.
  intros H1 H2. unfold str_byte. rewrite H1, H2. cbn [orb].
  repeat match goal with |- context [if ?x then _ else _] => destruct x end; reflexivity.
Qed.
Lemma i32_max_pos : 0 <= 0 <= i32_max. Proof. unfold i32_max. lia. Qed.
Lemma str_literal_agrees p whole s : forall pre, whole = pre ++ s -> plain pre ->
  agrees p (opened_beyond 0 whole) (str_literal_in p whole None s) (str_literal whole None s).
Proof.
  induction s as [|c s IH]; intros pre W P; cbn [str_literal_in str_literal].
  - apply agrees_good. subst whole. rewrite opened_plain; [apply opened_nil; apply i32_max_pos|exact P|apply i32_max_pos].
  - destruct (beq c x28) eqn:E1; cbn [orb].
    + apply beq_spec in E1. subst c. cbn [beq Byte.eqb]. change (beq x28 x29) with false. cbv iota.
      pose proof (balanced_agrees p whole 0 i32_max_pos) as B. unfold agrees in B |- *.
      destruct (is_balanced_in p 0 whole) as [v|]; cbn [option_map]; [|exact B]. destruct B as [B1 B2].
      assert (X : str_byte whole (Some v) x28 = (Some v, (if v then [] else [x5c]) ++ [x28])) by reflexivity. rewrite X.
      rewrite str_literal_known. cbn [option_map]. split; [|exact B2]. intro N. specialize (B1 N). unfold str_byte.
      change (beq x28 x28) with true. change (beq x28 x29) with false. cbn [orb negb andb]. fold (is_balanced whole) in B1. rewrite <- B1. reflexivity.
    + destruct (beq c x29) eqn:E2.
      * apply beq_spec in E2. subst c. cbv iota.
        assert (X : str_byte whole (Some false) x29 = (Some false, [x5c; x29])) by reflexivity. rewrite X.
        assert (Y : str_byte whole None x29 = (Some false, [x5c; x29])) by reflexivity. rewrite Y.
        rewrite str_literal_known. cbn [option_map]. apply agrees_good. subst whole.
        rewrite opened_plain; [apply opened_stop; [lia|reflexivity]|exact P|apply i32_max_pos].
      * cbv iota. pose proof (str_byte_plain whole None c E1 E2) as F. destruct (str_byte whole None c) as [bal out]. cbn [fst] in F. subst bal.
        apply agrees_map. apply (IH (pre ++ [c])); [rewrite <- app_assoc; exact W|]. apply Forall_app. split; [exact P|]. constructor; [split; assumption|constructor].
Qed.
Lemma release_literal whole s : forall bal, str_literal_in Release whole bal s <> None.
Proof.
  induction s as [|c s IH]; intro bal; cbn [str_literal_in]; [discriminate|].
  assert (E : exists k, (if beq c x28 || beq c x29 then
      match bal with Some v => Some (Some v) | None => if beq c x29 then Some (Some false) else option_map Some (is_balanced_in Release 0 whole) end
    else Some bal) = Some k).
  { destruct (beq c x28 || beq c x29); [|eexists; reflexivity]. destruct bal; [eexists; reflexivity|]. destruct (beq c x29); [eexists; reflexivity|].
    pose proof (release_balanced whole 0). destruct (is_balanced_in Release 0 whole); [eexists; reflexivity|congruence]. }
  destruct E as [k ->]. destruct (str_byte whole k c) as [bal' out]. specialize (IH bal'). destruct (str_literal_in Release whole bal' s); [discriminate|congruence].
Qed.
Lemma write_str_agrees p s b : agrees p (deep_string s) (write_str_in p s b) (write_str s b).
Proof.
  unfold write_str_in, write_str, deep_string, str_bytes. destruct (forallb (fun c => bz c <? 128) s) eqn:E.
  - eapply agrees_iff; [|apply (agrees_map p (opened_beyond 0 s) _ (str_literal s None s) (fun out => extend ([x28] ++ out ++ [x29]) _))]; [tauto|].
    apply (str_literal_agrees p s s []); [reflexivity|constructor].
  - apply agrees_good. intros [X _]. congruence.
Qed.
Lemma release_str s b : write_str_in Release s b <> None.
Proof.
  unfold write_str_in. destruct (forallb _ s); [|discriminate]. pose proof (release_literal s s None). destruct (str_literal_in Release s None s); [discriminate|congruence].
Qed.
Lemma visible_ascii s : forallb (fun c => (32 <=? bz c) && (bz c <=? 126)) s = true -> forallb (fun c => bz c <? 128) s = true.
Proof. intro H. rewrite forallb_forall in *. intros c I. specialize (H c I). lia. Qed.
Lemma write_text_agrees p t b : agrees p (deep (PText t)) (write_text_in p t b) (write_text t b).
Proof.
  unfold write_text_in, write_text. cbn [deep]. destruct (forallb (fun c => (32 <=? bz c) && (bz c <=? 126)) (str_utf8 t)) eqn:E.
  - eapply agrees_iff; [|apply write_str_agrees]. unfold deep_string. pose proof (visible_ascii _ E). tauto.
  - apply agrees_good. intros [X _]. congruence.
Qed.

(** ** Primitive values *)

Definition bad_prim (p : profile) (v : prim) : Prop := deep v \/ (p = Debug /\ has_min v).

Ltac some_float := repeat match goal with |- context [push_float_in Release ?v ?b] =>
  let H := fresh in pose proof (release_float v b) as H; destruct (push_float_in Release v b); [clear H|congruence] end; discriminate.
Lemma write_rect_agrees p r b : f32_valid (x1 r) && f32_valid (y1 r) && f32_valid (x2 r) && f32_valid (y2 r) = true ->
  agrees p (bad_prim p (PRect r)) (write_rect_in p r b) (write_rect r b).
Proof.
  intro V. apply andb_prop in V as [V V4]. apply andb_prop in V as [V V3]. apply andb_prop in V as [V1 V2].
  eapply (agrees_iff p (min_real p (x1 r) \/ (min_real p (y1 r) \/ (min_real p (x2 r) \/ min_real p (y2 r))))).
  { unfold bad_prim; destruct p; cbn [deep has_min min_real]; intuition discriminate. }
  unfold write_rect_in, write_rect.
  apply (agrees_bind p _ _ _ _ (fun b => match push_float_in p (y1 r) (push x20 b) with
    | Some b => match push_float_in p (x2 r) (push x20 b) with
      | Some b => match push_float_in p (y2 r) (push x20 b) with
        | Some b => Some (with_limits (register_array_len 4) (push x5d b))
        | None => None end
      | None => None end
    | None => None end) _ (push_float_agrees p (x1 r) (push x5b b) V1)).
  { intros -> a. some_float. }
  apply (agrees_bind p _ _ _ _ (fun b => match push_float_in p (x2 r) (push x20 b) with
      | Some b => match push_float_in p (y2 r) (push x20 b) with
        | Some b => Some (with_limits (register_array_len 4) (push x5d b))
        | None => None end
      | None => None end) _ (push_float_agrees p (y1 r) _ V2)).
  { intros -> a. some_float. }
  apply (agrees_bind p _ _ _ _ (fun b => match push_float_in p (y2 r) (push x20 b) with
        | Some b => Some (with_limits (register_array_len 4) (push x5d b))
        | None => None end) _ (push_float_agrees p (x2 r) _ V3)).
  { intros -> a. some_float. }
  apply (agrees_map p _ _ _ (fun b => with_limits (register_array_len 4) (push x5d b)) (push_float_agrees p (y2 r) _ V4)).
Qed.

Lemma release_rect r b : write_rect_in Release r b <> None.
Proof. unfold write_rect_in. some_float. Qed.
Lemma release_text t b : write_text_in Release t b <> None.
Proof. unfold write_text_in. destruct (forallb _ _); [apply release_str|discriminate]. Qed.
Lemma release_prim v b : write_prim_in Release v b <> None.
Proof.
  destruct v; cbn [write_prim_in]; try discriminate; [apply release_float|apply release_str|apply release_text|apply release_rect].
Qed.
Lemma write_prim_agrees p v b : prim_fits v = true -> agrees p (bad_prim p v) (write_prim_in p v b) (write_prim v b).
Proof.
  intro F. destruct v; cbn [write_prim_in write_prim prim_fits prim_typed] in *;
    try (apply agrees_good; unfold bad_prim; cbn [deep has_min]; tauto).
  - eapply agrees_iff; [|apply push_int_agrees; unfold in_i32 in F; lia]. unfold bad_prim, i32_min. destruct p; cbn [deep has_min]; intuition discriminate.
  - eapply agrees_iff; [|apply push_float_agrees; exact F]. unfold bad_prim. destruct p; cbn [deep has_min min_real]; intuition discriminate.
  - eapply agrees_iff; [|apply write_str_agrees]. unfold bad_prim. cbn [deep has_min]. tauto.
  - eapply agrees_iff; [|apply write_text_agrees]. unfold bad_prim. cbn [has_min]. tauto.
  - apply (agrees_map p _ _ (push_int r b)). eapply agrees_iff; [|apply push_int_agrees; unfold i32_min; lia].
    unfold bad_prim, i32_min. destruct p; cbn [deep has_min]; [split; [lia|tauto]|tauto].
  - apply write_rect_agrees. exact F.
Qed.
Lemma obj_primitive_agrees p w v b : prim_fits v = true ->
  agrees p (bad_prim p v) (obj_primitive_in p w v b) (obj_primitive w v b).
Proof. intro F. unfold obj_primitive_in, obj_primitive. apply agrees_map. apply write_prim_agrees. exact F. Qed.

(** ** Trees *)

Lemma write_array_in p l w b : write_obj_in p (OArray l) w b =
  let '(a, b) := array_start w b in option_map (fun x => array_drop_in (fst x) (snd x)) (write_items_in p l a b).
Proof.
  cbn [write_obj_in]. destruct (array_start w b) as [a b1].
  match goal with |- match ?g l a b1 with _ => _ end = _ => enough (H : forall a b, g l a b = write_items_in p l a b) by (rewrite H; destruct (write_items_in p l a b1) as [[? ?]|]; reflexivity) end.
  clear. induction l as [|o l IH]; intros a b; [reflexivity|]. cbn [write_items_in].
  destruct (array_push_in p a b) as [[[w' a'] b']|]; [|reflexivity]. destruct (write_obj_in p o w' b'); [apply IH|reflexivity].
Qed.
Lemma write_dict_in p l w b : write_obj_in p (ODict l) w b =
  let '(d, b) := dict_start w b in option_map (fun x => dict_drop_in (fst x) (snd x)) (write_entries_in p l d b).
Proof.
  cbn [write_obj_in]. destruct (dict_start w b) as [d b1].
  match goal with |- match ?g l d b1 with _ => _ end = _ => enough (H : forall d b, g l d b = write_entries_in p l d b) by (rewrite H; destruct (write_entries_in p l d b1) as [[? ?]|]; reflexivity) end.
  clear. induction l as [|[k v] l IH]; intros d b; [reflexivity|]. cbn [write_entries_in].
  destruct (dict_insert_in p k d b) as [[[w' d'] b']|]; [|reflexivity]. destruct (write_obj_in p v w' b'); [apply IH|reflexivity].
Qed.

Lemma array_push_in_eq p a b : array_push_in p a b =
  option_map (fun n => let '(w, a', b) := array_push a b in (w, mkArrw (a_indirect a) (a_indent a) (a_pretty a) n, b)) (i32_succ p (a_len a)).
Proof. unfold array_push_in. destruct (i32_succ p (a_len a)); [|reflexivity]. destruct (array_push a b) as [[w a'] b']. reflexivity. Qed.
Lemma dict_insert_in_eq p k d b : dict_insert_in p k d b =
  option_map (fun n => let '(w, d', b) := dict_insert k d b in (w, mkDictw (d_indirect d) (d_indent d) (d_pretty d) n, b)) (i32_succ p (d_len d)).
Proof. unfold dict_insert_in. destruct (i32_succ p (d_len d)); [|reflexivity]. destruct (dict_insert k d b) as [[w d'] b']. reflexivity. Qed.
Lemma array_push_agrees p a b : 0 <= a_len a <= i32_max ->
  agrees p (a_len a = i32_max) (array_push_in p a b) (array_push a b).
Proof.
  intro H. rewrite array_push_in_eq. apply (agrees_map' p _ _ _ _ _ (succ_agrees p _ H)). intros _.
  unfold array_push. destruct (if negb (a_len a =? 0) then _ else _) as [n b']. reflexivity.
Qed.
Lemma dict_insert_agrees p k d b : 0 <= d_len d <= i32_max ->
  agrees p (d_len d = i32_max) (dict_insert_in p k d b) (dict_insert k d b).
Proof.
  intro H. rewrite dict_insert_in_eq. apply (agrees_map' p _ _ _ _ _ (succ_agrees p _ H)). intros _.
  unfold dict_insert. cbn [d_pretty d_indent d_indirect d_len]. destruct (d_pretty d); reflexivity.
Qed.

Lemma release_obj o : forall w b, write_obj_in Release o w b <> None.
Proof.
  induction o as [v|l IH|l IH] using obj_ind'; intros w b.
  - cbn [write_obj_in]. apply release_map. apply release_prim.
  - rewrite write_array_in. destruct (array_start w b) as [a b1]. apply release_map. revert a b1.
    induction IH as [|o l H _ IH]; intros a b1; cbn [write_items_in]; [discriminate|].
    unfold array_push_in. cbn [i32_succ]. destruct (array_push a b1) as [[w' a'] b2]. specialize (H w' b2).
    destruct (write_obj_in Release o w' b2); [apply IH|congruence].
  - rewrite write_dict_in. destruct (dict_start w b) as [d b1]. apply release_map. revert d b1.
    induction IH as [|[k o] l H _ IH]; intros d b1; cbn [write_entries_in]; [discriminate|].
    unfold dict_insert_in. cbn [i32_succ]. destruct (dict_insert k d b1) as [[w' d'] b2]. specialize (H w' b2). cbn [snd] in H.
    destruct (write_obj_in Release o w' b2); [apply IH|congruence].
Qed.
Lemma release_items l : forall a b, write_items_in Release l a b <> None.
Proof.
  induction l as [|o l IH]; intros a b1; cbn [write_items_in]; [discriminate|].
  unfold array_push_in. cbn [i32_succ]. destruct (array_push a b1) as [[w' a'] b2]. pose proof (release_obj o w' b2) as H.
  destruct (write_obj_in Release o w' b2); [apply IH|congruence].
Qed.
Lemma release_entries l : forall d b, write_entries_in Release l d b <> None.
Proof.
  induction l as [|[k o] l IH]; intros d b1; cbn [write_entries_in]; [discriminate|].
  unfold dict_insert_in. cbn [i32_succ]. destruct (dict_insert k d b1) as [[w' d'] b2]. pose proof (release_obj o w' b2) as H.
  destruct (write_obj_in Release o w' b2); [apply IH|congruence].
Qed.

Lemma array_push_len a b : a_len (snd (fst (array_push a b))) = a_len a + 1.
Proof. unfold array_push. destruct (if negb (a_len a =? 0) then _ else _). reflexivity. Qed.
Lemma dict_insert_len k d b : d_len (snd (fst (dict_insert k d b))) = d_len d + 1.
Proof. unfold dict_insert. cbn [d_pretty]. destruct (d_pretty d); reflexivity. Qed.
Lemma write_items_len l : forall a b, a_len (fst (write_items l a b)) = a_len a + Z.of_nat (length l).
Proof.
  induction l as [|o l IH]; intros a b; cbn [write_items length fst]; [lia|]. pose proof (array_push_len a b) as L.
  destruct (array_push a b) as [[w' a'] b']. cbn [fst snd] in L. rewrite IH, L. lia.
Qed.
Lemma write_entries_len l : forall d b, d_len (fst (write_entries l d b)) = d_len d + Z.of_nat (length l).
Proof.
  induction l as [|[k o] l IH]; intros d b; cbn [write_entries length fst]; [lia|]. pose proof (dict_insert_len k d b) as L.
  destruct (dict_insert k d b) as [[w' d'] b']. cbn [fst snd] in L. rewrite IH, L. lia.
Qed.
Lemma as_usize_id n : 0 <= n <= i32_max -> as_usize n = n.
Proof. intro H. unfold as_usize. apply Z.mod_small. unfold i32_max in H. split; [lia|]. apply Z.le_lt_trans with (2 ^ 31); [lia|reflexivity]. Qed.

Definition bad_items (p : profile) (n : Z) (l : list obj) : Prop := i32_max < n + Z.of_nat (length l) \/ exists o, In o l /\ overflows p o.
Definition bad_entries (p : profile) (n : Z) (l : list (bytes * obj)) : Prop :=
  i32_max < n + Z.of_nat (length l) \/ exists k o, In (k, o) l /\ overflows p o.
Lemma bad_items_cons p n o l : n < i32_max -> (False \/ (overflows p o \/ bad_items p (n + 1) l) <-> bad_items p n (o :: l)).
Proof.
  intro H. unfold bad_items. cbn [length In]. split.
  - intros [[]|[X|[X|(o' & I & X)]]]; [right; eauto|left; lia|right; eauto].
  - intros [X|(o' & [<-|I] & X)]; [right; right; left; lia|right; left; exact X|right; right; right; eauto].
Qed.
Lemma bad_entries_cons p n k o l : n < i32_max -> (False \/ (overflows p o \/ bad_entries p (n + 1) l) <-> bad_entries p n ((k, o) :: l)).
Proof.
  intro H. unfold bad_entries. cbn [length In]. split.
  - intros [[]|[X|[X|(k' & o' & I & X)]]]; [right; eauto|left; lia|right; eauto].
  - intros [X|(k' & o' & [E|I] & X)]; [right; right; left; lia| |right; right; right; eauto].
    injection E as <- <-. right. left. exact X.
Qed.

Lemma items_agrees p l : Forall (fun o => fits o = true -> forall w b, agrees p (overflows p o) (write_obj_in p o w b) (write_obj o w b)) l ->
  forallb fits l = true -> forall a b, 0 <= a_len a <= i32_max ->
  agrees p (bad_items p (a_len a) l) (write_items_in p l a b) (write_items l a b).
Proof.
  induction 1 as [|o l H _ IH]; intros F a b R.
  - cbn [write_items_in write_items]. apply agrees_good. unfold bad_items. cbn [length In]. intros [X|(o & [] & _)]. lia.
  - cbn [forallb] in F. apply andb_prop in F as [F1 F2]. pose proof (array_push_agrees p a b R) as P.
    destruct (Z.eq_dec (a_len a) i32_max) as [M|M].
    + assert (B : bad_items p (a_len a) (o :: l)) by (left; cbn [length]; lia).
      destruct p.
      * cbn [write_items_in]. unfold agrees in P. destruct (array_push_in Debug a b) as [x|]; [exfalso; apply P; auto|]. split; [reflexivity|exact B].
      * pose proof (release_items (o :: l) a b) as N. unfold agrees. destruct (write_items_in Release (o :: l) a b); [|congruence]. split; [tauto|discriminate].
    + pose proof (array_push_len a b) as L. cbn [write_items_in write_items]. destruct (array_push a b) as [[w' a'] b'] eqn:E. cbn [fst snd] in L.
      eapply agrees_iff; [apply bad_items_cons; lia|].
      apply (agrees_bind p False _ _ (w', a', b') (fun x => let '(w', a, b) := x in match write_obj_in p o w' b with Some b => write_items_in p l a b | None => None end)).
      * eapply agrees_iff; [|exact P]. tauto.
      * intros -> [[w1 a1] b1]. pose proof (release_obj o w1 b1). destruct (write_obj_in Release o w1 b1); [apply release_items|congruence].
      * cbv beta iota. apply (agrees_bind p _ _ _ _ (fun b => write_items_in p l a' b) _ (H F1 w' b')).
        { intros -> b1. apply release_items. }
        rewrite <- L. apply IH; [exact F2|lia].
Qed.
Lemma entries_agrees p l : Forall (fun e => fits (snd e) = true -> forall w b, agrees p (overflows p (snd e)) (write_obj_in p (snd e) w b) (write_obj (snd e) w b)) l ->
  forallb (fun e => fits (snd e)) l = true -> forall d b, 0 <= d_len d <= i32_max ->
  agrees p (bad_entries p (d_len d) l) (write_entries_in p l d b) (write_entries l d b).
Proof.
  induction 1 as [|[k o] l H _ IH]; intros F d b R.
  - cbn [write_entries_in write_entries]. apply agrees_good. unfold bad_entries. cbn [length In]. intros [X|(k & o & [] & _)]. lia.
  - cbn [forallb snd] in F, H. apply andb_prop in F as [F1 F2]. pose proof (dict_insert_agrees p k d b R) as P.
    destruct (Z.eq_dec (d_len d) i32_max) as [M|M].
    + assert (B : bad_entries p (d_len d) ((k, o) :: l)) by (left; cbn [length]; lia).
      destruct p.
      * cbn [write_entries_in]. unfold agrees in P. destruct (dict_insert_in Debug k d b) as [x|]; [exfalso; apply P; auto|]. split; [reflexivity|exact B].
      * pose proof (release_entries ((k, o) :: l) d b) as N. unfold agrees. destruct (write_entries_in Release ((k, o) :: l) d b); [|congruence]. split; [tauto|discriminate].
    + pose proof (dict_insert_len k d b) as L. cbn [write_entries_in write_entries]. destruct (dict_insert k d b) as [[w' d'] b'] eqn:E. cbn [fst snd] in L.
      eapply agrees_iff; [apply (bad_entries_cons p (d_len d) k o l); lia|].
      apply (agrees_bind p False _ _ (w', d', b') (fun x => let '(w', d, b) := x in match write_obj_in p o w' b with Some b => write_entries_in p l d b | None => None end)).
      * eapply agrees_iff; [|exact P]. tauto.
      * intros -> [[w1 d1] b1]. pose proof (release_obj o w1 b1). destruct (write_obj_in Release o w1 b1); [apply release_entries|congruence].
      * cbv beta iota. apply (agrees_bind p _ _ _ _ (fun b => write_entries_in p l d' b) _ (H F1 w' b')).
        { intros -> b1. apply release_entries. }
        rewrite <- L. apply IH; [exact F2|lia].
Qed.

Lemma overflows_array p l : bad_items p 0 l <-> overflows p (OArray l).
Proof.
  unfold bad_items, overflows, too_long, writes_min. split.
  - intros [X|(o & I & [(x & P & X)|(D & v & P & X)])].
    + left. exists (OArray l). split; [constructor|lia].
    + left. exists x. split; [eapply part_item; eassumption|exact X].
    + right. split; [exact D|]. exists v. split; [eapply part_item; eassumption|exact X].
  - intros [(x & P & X)|(D & v & P & X)]; inversion P; subst.
    + left. lia.
    + right. exists o. split; [assumption|]. left. eauto.
    + right. exists o. split; [assumption|]. right. eauto.
Qed.
Lemma overflows_dict p l : bad_entries p 0 l <-> overflows p (ODict l).
Proof.
  unfold bad_entries, overflows, too_long, writes_min. split.
  - intros [X|(k & o & I & [(x & P & X)|(D & v & P & X)])].
    + left. exists (ODict l). split; [constructor|lia].
    + left. exists x. split; [eapply part_entry; eassumption|exact X].
    + right. split; [exact D|]. exists v. split; [eapply part_entry; eassumption|exact X].
  - intros [(x & P & X)|(D & v & P & X)]; inversion P; subst.
    + left. lia.
    + right. exists k, o. split; [assumption|]. left. eauto.
    + right. exists k, o. split; [assumption|]. right. eauto.
Qed.
Lemma overflows_prim p v : bad_prim p v <-> overflows p (OPrim v).
Proof.
  unfold bad_prim, overflows, too_long, writes_min. split.
  - intros [X|(D & X)]; [left; exists (OPrim v); split; [constructor|exact X]|right; split; [exact D|]; exists v; split; [constructor|exact X]].
  - intros [(x & P & X)|(D & v' & P & X)]; inversion P; subst; auto.
Qed.

Theorem write_obj_agrees p o : fits o = true -> forall w b, agrees p (overflows p o) (write_obj_in p o w b) (write_obj o w b).
Proof.
  induction o as [v|l IH|l IH] using obj_ind'; intros F w b.
  - cbn [write_obj_in write_obj]. eapply agrees_iff; [apply overflows_prim|]. apply obj_primitive_agrees. exact F.
  - rewrite write_array_in, ProofApi.write_array. destruct (array_start w b) as [a b1] eqn:E.
    assert (A : a_len a = 0) by (unfold array_start in E; injection E as <- _; reflexivity).
    eapply agrees_iff; [apply overflows_array|]. rewrite <- A.
    apply (agrees_map' p _ _ (write_items l a b1)). { apply items_agrees; [exact IH|exact F|rewrite A; apply i32_max_pos]. }
    intro N. pose proof (write_items_len l a b1) as L. destruct (write_items l a b1) as [a' b']. cbn [fst snd] in *.
    unfold array_drop_in, array_drop. rewrite as_usize_id; [reflexivity|]. rewrite L. unfold bad_items in N. lia.
  - rewrite write_dict_in, ProofApi.write_dict. destruct (dict_start w b) as [d b1] eqn:E.
    assert (A : d_len d = 0) by (unfold dict_start in E; injection E as <- _; reflexivity).
    eapply agrees_iff; [apply overflows_dict|]. rewrite <- A.
    apply (agrees_map' p _ _ (write_entries l d b1)). { apply entries_agrees; [exact IH|exact F|rewrite A; apply i32_max_pos]. }
    intro N. pose proof (write_entries_len l d b1) as L. destruct (write_entries l d b1) as [d' b']. cbn [fst snd] in *.
    unfold dict_drop_in, dict_drop. rewrite as_usize_id; [reflexivity|]. rewrite L. unfold bad_entries in N. lia.
Qed.
