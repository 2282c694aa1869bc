(** Proofs for the typed writers: generic lemmas and tactics. *)

From Coq Require Import ZArith List Lia Bool ZifyBool.
From Verif Require Import Bytes ModelFloat ModelBuf ModelObject ModelChunk ModelColor ModelSmall ModelTw SpecLex SpecObj SpecText SpecMeans
  SpecTyped SpecColor SpecSmall SpecChunk SpecTw ProofBasic ProofTyped ProofColor ProofSmall PropTree PropChunk.
Import ListNotations.
Local Open Scope Z_scope.

(** The object can be written and read, and what is read satisfies [P]. *)
Definition good (o : obj) (P : val -> Prop) : Prop := fine o = true /\ forall v, means o v -> P v.

Lemma good_reads o P : good o P -> reads o P.
Proof. intros [H1 H2]. apply reads_fine; assumption. Qed.

Definition good_entry (e : bytes * obj) (x : entry_spec) : Prop :=
  fst e = fst x /\ name_ok (fst e) = true /\ good (snd e) (snd x).
Definition good_entries : list (bytes * obj) -> list entry_spec -> Prop := Forall2 good_entry.

Lemma good_entries_fine es xs : good_entries es xs -> fine (ODict es) = true.
Proof.
  intro H. rewrite fine_dict. induction H as [|e x es xs (K1 & K2 & K3 & K4) H IH]; [reflexivity|].
  cbn [forallb]. rewrite K2, K3, IH. reflexivity.
Qed.
Lemma good_dict es xs : good_entries es xs -> good (ODict es) (is_dict xs).
Proof.
  intro H. split; [eapply good_entries_fine; exact H|]. intros v. apply means_dict.
  induction H as [|e x es xs (K1 & K2 & K3 & K4) H IH]; constructor; auto. split; assumption.
Qed.
Lemma good_entries_app a b x y : good_entries a x -> good_entries b y -> good_entries (a ++ b) (x ++ y).
Proof. apply Forall2_app. Qed.
Lemma good_cons k o P es xs : name_ok k = true -> good o P -> good_entries es xs -> good_entries ((k, o) :: es) ((k, P) :: xs).
Proof. intros H1 H2 H3. constructor; [|exact H3]. split; [reflexivity|]. split; assumption. Qed.
Lemma good_nil : good_entries [] [].
Proof. constructor. Qed.

Lemma good_raw o : obj_arg_ok o = true -> good o (means o).
Proof. intro H. split; [exact H|auto]. Qed.

(** Dictionary writers. *)
Lemma good_calls {C} (f : C -> list (bytes * obj)) doc ok cs :
  (forall c, ok c = true -> good_entries (f c) (doc c)) ->
  forallb (raw_ok ok) cs = true -> good_entries (flat_map (raw_entries f) cs) (flat_map (raw_doc doc) cs).
Proof.
  intros H K. induction cs as [|c cs IH]; [constructor|]. cbn [forallb flat_map] in *.
  apply andb_true_iff in K as [K1 K2]. apply good_entries_app; [|auto].
  destruct c as [c|k o]; cbn [raw_entries raw_doc raw_ok] in *; [auto|].
  apply andb_true_iff in K1 as [K1 K3]. apply good_cons; [exact K1|apply good_raw; exact K3|constructor].
Qed.
Lemma good_writer {C} hdr hdr' (f : C -> list (bytes * obj)) doc ok cs :
  good_entries hdr hdr' -> (forall c, ok c = true -> good_entries (f c) (doc c)) ->
  forallb (raw_ok ok) cs = true -> good (dict_writer hdr f cs) (writer_reads hdr' doc cs).
Proof. intros H1 H2 H3. apply good_dict. apply good_entries_app; [exact H1|]. eapply good_calls; eassumption. Qed.

(** Dictionary writers that may panic. *)
Lemma all_some_concat {C} (f : C -> option (list (bytes * obj))) doc (ok : C -> bool) cs l :
  (forall c es, ok c = true -> f c = Some es -> good_entries es (doc c)) ->
  forallb ok cs = true -> all_some f cs = Some l -> good_entries (concat l) (flat_map doc cs).
Proof.
  intros H K S. apply all_some_forall2 in S. revert K. induction S as [|c es cs l E S IH]; intro K; [constructor|].
  cbn [forallb flat_map concat] in *. apply andb_true_iff in K as [K1 K2]. apply good_entries_app; eauto.
Qed.
Lemma good_writer_opt {C} hdr hdr' (f : C -> option (list (bytes * obj))) doc ok cs o :
  good_entries hdr hdr' -> (forall c es, ok c = true -> f c = Some es -> good_entries es (doc c)) ->
  forallb (raw_ok ok) cs = true -> dict_writer_opt hdr f cs = Some o -> good o (writer_reads hdr' doc cs).
Proof.
  intros H1 H2 H3 S. unfold dict_writer_opt in S.
  destruct (all_some (raw_entries_opt f) cs) as [l|] eqn:E; [|discriminate]. apply some_inj in S. subst o.
  apply good_dict. apply good_entries_app; [exact H1|].
  eapply all_some_concat; [|exact H3|exact E]. intros [c|k o] es K F; cbn [raw_ok raw_entries_opt raw_doc] in *; [eauto|].
  apply some_inj in F. subst es. apply andb_true_iff in K as [K1 K3].
  apply good_cons; [exact K1|apply good_raw; exact K3|constructor].
Qed.
Lemma all_some_none {A B} (f : A -> option B) (P : A -> Prop) l :
  (forall a, f a <> None <-> P a) -> (all_some f l <> None <-> Forall P l).
Proof.
  intro H. induction l as [|a l IH]; cbn [all_some]; [split; [constructor|discriminate]|].
  specialize (H a). destruct (f a) as [b|]; split; intro K.
  - destruct (all_some f l); [|contradiction K; reflexivity]. constructor; [apply H; discriminate|apply IH; discriminate].
  - inversion K; subst. destruct (all_some f l); [discriminate|]. apply IH in H3. contradiction H3; reflexivity.
  - contradiction K; reflexivity.
  - inversion K; subst. apply H in H2. contradiction H2; reflexivity.
Qed.
Lemma omap_none {A B} (f : A -> B) o : option_map f o <> None <-> o <> None.
Proof. destruct o; cbn; split; congruence. Qed.
Lemma writer_opt_none {C} hdr (f : C -> option (list (bytes * obj))) allowed cs :
  (forall c, f c <> None <-> allowed c) ->
  (dict_writer_opt hdr f cs <> None <-> Forall (raw_allowed allowed) cs).
Proof.
  intro H. unfold dict_writer_opt. rewrite omap_none. apply all_some_none.
  intros [c|k o]; cbn [raw_entries_opt raw_allowed]; [apply H|]. split; [auto|discriminate].
Qed.
Lemma sub_entry_none k o : sub_entry k o <> None <-> o <> None.
Proof. apply omap_none. Qed.
Lemma good_sub_entry k o P es : name_ok k = true -> (forall x, o = Some x -> good x P) -> sub_entry k o = Some es ->
  good_entries es [(k, P)].
Proof.
  intros K H E. destruct o as [x|]; [|discriminate]. cbn in E. apply some_inj in E. subst es.
  apply good_cons; [exact K|auto|constructor].
Qed.

(** Arrays. *)
Lemma good_array os ps : Forall2 good os ps -> good (OArray os) (is_array ps).
Proof.
  intro H. split.
  - rewrite fine_array. induction H as [|o p os ps [K1 K2] H IH]; [reflexivity|]. cbn [forallb]. rewrite K1, IH. reflexivity.
  - intros v. apply means_array. induction H as [|o p os ps [K1 K2] H IH]; constructor; auto.
Qed.
Lemma good_arr_of {A} (f : A -> obj) (p : A -> val -> Prop) ok l :
  (forall a, ok a = true -> good (f a) (p a)) -> forallb ok l = true -> good (arr_of f l) (is_array_of p l).
Proof.
  intros H K. split.
  - unfold arr_of. rewrite fine_array, forallb_map. revert K. apply forallb_impl. intros a Ha. apply H. exact Ha.
  - intros v M. unfold arr_of in M. inversion M as [| | | | | | | | | | |l' vs F E1 E2|]; subst.
    exists vs. split; [reflexivity|]. clear M. revert vs F K. induction l as [|a l IH]; intros vs F K.
    + inversion F; subst. constructor.
    + cbn [forallb] in K. apply andb_true_iff in K as [K1 K2]. inversion F; subst. constructor; [|auto].
      apply (H a K1). assumption.
Qed.
Lemma good_dict_of {A} (f : A -> obj) (p : A -> val -> Prop) ok l :
  (forall a, ok a = true -> good (f a) (p a)) -> dict_ok ok l = true -> good (dict_of f l) (is_dict_of p l).
Proof.
  intros H K. apply good_dict. unfold dict_ok in K. induction l as [|[k a] l IH]; [constructor|].
  cbn [forallb map fst snd] in *. apply andb_true_iff in K as [K1 K2]. apply andb_true_iff in K1 as [K1 K3].
  apply good_cons; auto.
Qed.
Lemma good_array_writer {C} (f : C -> list obj) doc ok cs :
  (forall c, ok c = true -> Forall2 good (f c) (doc c)) ->
  forallb (item_ok ok) cs = true -> good (array_writer f cs) (array_reads doc cs).
Proof.
  intros H K. apply good_array. induction cs as [|c cs IH]; [constructor|]. cbn [forallb flat_map] in *.
  apply andb_true_iff in K as [K1 K2]. apply Forall2_app; [|auto].
  destruct c as [c|o]; cbn [raw_items item_doc item_ok] in *; [auto|]. constructor; [apply good_raw; exact K1|constructor].
Qed.

(** Primitive values. *)
Lemma good_name n : name_ok n = true -> good (OPrim (PName n)) (is_name n).
Proof. intro H. split; [rewrite fine_name; exact H|]. intros v. apply m_name. Qed.
Lemma good_int n : in_i32 n = true -> good (OPrim (PInt n)) (is_int n).
Proof. intro H. split; [rewrite fine_int; exact H|]. intros v. apply m_int. Qed.
Lemma good_real n : real_ok n = true -> good (OPrim (PReal n)) (is_real n).
Proof. intro H. split; [rewrite fine_real; exact H|]. intros v. apply m_real. Qed.
Lemma good_ref n : ref_ok n = true -> good (OPrim (PRef n)) (is_ref n).
Proof. intro H. split; [rewrite fine_ref; exact H|]. intros v. apply m_ref. Qed.
Lemma good_bool b : good (OPrim (PBool b)) (is_bool b).
Proof. split; [reflexivity|]. intros v. apply m_bool. Qed.
Lemma good_str s : good (OPrim (PStr s)) (is_str s).
Proof. split; [reflexivity|]. intros v. apply m_str. Qed.
Lemma good_null : good (OPrim PNull) is_null.
Proof. split; [reflexivity|]. intros v M. inversion M. reflexivity. Qed.
Lemma good_text t : text_ok t = true -> good (OPrim (PText t)) (is_text t).
Proof. intro H. split; [unfold fine; cbn; rewrite andb_true_r; exact H|]. intros v. apply m_text. Qed.
Lemma good_textlike t : textlike_ok t = true -> good (OPrim (text_prim t)) (is_textlike t).
Proof.
  destruct t as [t|segs]; intro H; [apply good_text; exact H|].
  split; [unfold fine; cbn [text_prim obj_ok names_nonempty is_empty_name negb prim_ok]; rewrite andb_true_r; exact H|].
  intros v M. inversion M; subst. eexists. split; [reflexivity|assumption].
Qed.
Lemma good_date d : date_ok d = true -> good (OPrim (PDate d)) (is_date_of d).
Proof.
  intro H. split; [unfold fine; cbn [obj_ok names_nonempty is_empty_name negb prim_ok]; rewrite andb_true_r; exact H|].
  intros v M. inversion M; subst. eexists. split; [reflexivity|assumption].
Qed.
Lemma good_rect r : rect_ok r = true -> good (OPrim (PRect r)) (is_rect r).
Proof.
  intro H. split; [unfold fine; cbn [obj_ok names_nonempty is_empty_name negb prim_ok]; rewrite andb_true_r; exact H|].
  intros v. apply m_rect.
Qed.
Lemma u8_i32 z : u8_ok z = true -> in_i32 z = true.
Proof. unfold u8_ok, in_i32, i32_min, i32_max. intro H. apply andb_true_iff in H as [H1 H2]. apply andb_true_iff. lia. Qed.
Lemma u16_i32 z : u16_ok z = true -> in_i32 z = true.
Proof. unfold u16_ok, in_i32, i32_min, i32_max. intro H. apply andb_true_iff in H as [H1 H2]. apply andb_true_iff. lia. Qed.
Lemma good_u8 z : u8_ok z = true -> good (OPrim (PInt z)) (is_int z).
Proof. intro H. apply good_int. apply u8_i32. exact H. Qed.
Lemma good_u16 z : u16_ok z = true -> good (OPrim (PInt z)) (is_int z).
Proof. intro H. apply good_int. apply u16_i32. exact H. Qed.

(** Lists of primitive values. *)
Lemma good_reals l : forallb real_ok l = true -> good (reals l) (is_reals l).
Proof. intro H. apply (good_arr_of (fun f => OPrim (PReal f)) is_real real_ok); [exact good_real|exact H]. Qed.
Lemma good_refs l : forallb ref_ok l = true -> good (refs l) (is_refs l).
Proof. intro H. apply (good_arr_of (fun f => OPrim (PRef f)) is_ref ref_ok); [exact good_ref|exact H]. Qed.
Lemma good_names l : forallb name_ok l = true -> good (names l) (is_names l).
Proof. intro H. apply (good_arr_of (fun f => OPrim (PName f)) is_name name_ok); [exact good_name|exact H]. Qed.
Lemma good_ints l : forallb in_i32 l = true -> good (ints l) (is_array_of is_int l).
Proof. intro H. apply (good_arr_of (fun f => OPrim (PInt f)) is_int in_i32); [exact good_int|exact H]. Qed.
Lemma good_bools l : good (bools l) (is_array_of is_bool l).
Proof. apply (good_arr_of (fun f => OPrim (PBool f)) is_bool (fun _ => true)); [intros a _; apply good_bool|]. induction l; auto. Qed.
Lemma good_strs l : good (arr_of (fun s => OPrim (PStr s)) l) (is_array_of is_str l).
Proof. apply (good_arr_of (fun f => OPrim (PStr f)) is_str (fun _ => true)); [intros a _; apply good_str|]. induction l; auto. Qed.
Lemma good_texts l : forallb text_ok l = true -> good (arr_of (fun t => OPrim (PText t)) l) (is_array_of is_text l).
Proof. apply good_arr_of. exact good_text. Qed.
Lemma good_3 t : ok3 t = true -> good (reals (l3 t)) (is_reals (in_order3 t)).
Proof. apply good_reals. Qed.
Lemma good_4 t : ok4 t = true -> good (reals (l4 t)) (is_reals (in_order4 t)).
Proof. apply good_reals. Qed.
Lemma good_6 t : ok6 t = true -> good (reals (l6 t)) (is_reals (in_order6 t)).
Proof. destruct t as [[[? ?] ?] [[? ?] ?]]. apply good_reals. Qed.

(** Raw dictionaries and arrays of them. *)
Lemma good_raw_dict l : obj_arg_ok (ODict l) = true -> good (ODict l) (means (ODict l)).
Proof. apply good_raw. Qed.

(** Flags. *)
Lemma flags_testbit {F} (bit : F -> Z) l a k : Z.testbit (fold_left (fun a f => Z.lor a (bit f)) l a) k =
  Z.testbit a k || existsb (fun f => Z.testbit (bit f) k) l.
Proof.
  revert a. induction l as [|f l IH]; intro a; cbn [fold_left existsb]; [rewrite orb_false_r; reflexivity|].
  rewrite IH, Z.lor_spec. destruct (Z.testbit a k), (Z.testbit (bit f) k); reflexivity.
Qed.
Lemma good_flags {F} (bit pos : F -> Z) l :
  (forall f, 1 <= pos f <= 31 /\ bit f = 2 ^ (pos f - 1)) -> good (OPrim (PInt (flags_bits bit l))) (is_flags pos l).
Proof.
  intro H.
  assert (T : forall k, 0 <= k -> (Z.testbit (flags_bits bit l) k = true <-> exists f, In f l /\ pos f = k + 1)).
  { intros k Hk. unfold flags_bits. rewrite flags_testbit, Z.testbit_0_l. cbn [orb]. rewrite existsb_exists.
    split; intros (f & I & E); exists f; (split; [exact I|]); destruct (H f) as [B1 B2].
    - rewrite B2, Z.pow2_bits_eqb in E by lia. lia.
    - rewrite B2, Z.pow2_bits_eqb by lia. lia. }
  assert (N : 0 <= flags_bits bit l).
  { unfold flags_bits. assert (G : forall a, 0 <= a -> 0 <= fold_left (fun a f => Z.lor a (bit f)) l a); [|apply G; lia].
    induction l as [|f l IH]; intros a Ha; cbn [fold_left]; [exact Ha|]. apply IH.
    - intros k Hk. unfold flags_bits. rewrite flags_testbit, Z.testbit_0_l. cbn [orb]. rewrite existsb_exists.
      split; intros (g & I & E); exists g; (split; [exact I|]); destruct (H g) as [B1 B2].
      + rewrite B2, Z.pow2_bits_eqb in E by lia. lia.
      + rewrite B2, Z.pow2_bits_eqb by lia. lia.
    - apply Z.lor_nonneg. split; [exact Ha|]. destruct (H f) as [B1 ->]. apply Z.pow_nonneg. lia. }
  assert (U : flags_bits bit l < 2 ^ 31).
  { destruct (Z.lt_ge_cases (flags_bits bit l) (2 ^ 31)) as [L|L]; [exact L|]. exfalso.
    assert (P : 0 < flags_bits bit l) by (eapply Z.lt_le_trans; [|exact L]; reflexivity).
    assert (Q : 31 <= Z.log2 (flags_bits bit l)) by (apply Z.log2_le_pow2; assumption).
    destruct (T (Z.log2 (flags_bits bit l)) ltac:(lia)) as [T1 _]. rewrite (Z.bit_log2 _ P) in T1.
    destruct (T1 eq_refl) as (f & _ & E). destruct (H f) as [B _]. lia. }
  split.
  - rewrite fine_int. unfold in_i32, i32_min, i32_max. apply andb_true_iff. change (2 ^ 31) with 2147483648 in U. lia.
  - intros v M. apply m_int in M. exists (flags_bits bit l). split; [exact M|]. split; assumption.
Qed.

(** Versions. *)
Lemma good_version a b : u8_ok a = true -> u8_ok b = true -> good (OPrim (PName (version_name a b))) (is_version a b).
Proof.
  intros Ha Hb. unfold u8_ok in *. split.
  - rewrite fine_name. unfold version_name, name_ok. destruct (dec_u a); reflexivity.
  - intros v M. apply m_name in M. exists (dec_u a), (dec_u b). split; [exact M|].
    assert (0 <= a /\ 0 <= b) as [A B] by lia.
    split; [apply dec_u_ne; exact A|]. split; [apply dec_u_ne; exact B|].
    split; [apply dec_u_digits; exact A|]. split; [apply dec_u_digits; exact B|].
    split; [apply dec_u_val; exact A|apply dec_u_val; exact B].
Qed.

(** Trees, sides, differences and widths (ModelSmall.v). *)
Lemma reads_of_good {o} {P : val -> Prop} : good o P -> fine o = true. Proof. intros [H _]. exact H. Qed.

(** ** Streams *)

Lemma good_stream {S C} (fs : S -> option (list (bytes * obj))) hdr hdr' (f : C -> option (list (bytes * obj))) sdoc doc sok ok cs es :
  good_entries hdr hdr' ->
  (forall s es, sok s = true -> fs s = Some es -> good_entries es (sdoc s)) ->
  (forall c es, ok c = true -> f c = Some es -> good_entries es (doc c)) ->
  forallb (stream_ok sok ok) cs = true -> stream_writer fs hdr f cs = Some es ->
  good_entries es (hdr' ++ flat_map (stream_doc sdoc doc) cs).
Proof.
  intros H1 H2 H3 H4 E. unfold stream_writer in E.
  destruct (all_some (stream_entries fs f) cs) as [l|] eqn:X; [|discriminate]. apply some_inj in E. subst es.
  apply good_entries_app; [exact H1|]. eapply all_some_concat; [|exact H4|exact X].
  intros [c|s|k o] es K F; cbn [stream_ok stream_entries stream_doc] in *; [eauto|eauto|].
  apply some_inj in F. subst es. apply andb_true_iff in K as [K1 K3].
  apply good_cons; [exact K1|apply good_raw; exact K3|constructor].
Qed.
Lemma stream_none {S C} (fs : S -> option (list (bytes * obj))) hdr (f : C -> option (list (bytes * obj))) sallowed allowed cs :
  (forall s, fs s <> None <-> sallowed s) -> (forall c, f c <> None <-> allowed c) ->
  (stream_writer fs hdr f cs <> None <-> Forall (stream_allowed sallowed allowed) cs).
Proof.
  intros H1 H2. unfold stream_writer. rewrite omap_none. apply all_some_none.
  intros [c|s|k o]; cbn [stream_entries stream_allowed]; [apply H2|apply H1|]. split; [auto|discriminate].
Qed.
Lemma good_stream_reads es xs : good_entries es xs -> stream_reads es xs.
Proof.
  intros H id data c c' S. assert (F := good_entries_fine _ _ H).
  unfold fine in F. apply andb_true_iff in F as [F1 F2].
  assert (R : entries_readable es = true).
  { unfold entries_readable. rewrite F1, (C11_nonempty_names_suffice _ F2). reflexivity. }
  destruct (C15_stream_reads_back id es data c c' S R) as (s & vs & E1 & M & E2).
  exists s, vs. split; [exact E1|]. split; [|exact E2]. destruct (good_dict _ _ H) as [_ G]. apply G. exact M.
Qed.

(** ** Tactics *)

Create HintDb tw discriminated.
#[export] Hint Resolve good_name good_int good_real good_ref good_bool good_str good_null good_text good_textlike good_date good_rect
  good_u8 good_u16 good_reals good_refs good_names good_ints good_bools good_strs good_texts good_3 good_4 good_6 good_raw
  good_version : tw.
#[export] Hint Extern 1 (good (arr_of _ _) _) => apply good_arr_of : tw.

Ltac split_ok :=
  repeat match goal with H : _ && _ = true |- _ => apply andb_true_iff in H as [? ?] end.
(** One value. *)
Ltac tw_good := solve [auto with tw | eauto with tw].
(** Entries. *)
Ltac tw_entries := repeat (apply good_cons; [reflexivity| tw_good |]); apply good_nil.
Ltac tw_call := intros; split_ok; tw_entries.
