(** Proofs about the arguments of typed writers. *)

From Coq Require Import ZArith List Bool Lia.
From Verif Require ModelCmap.
From Verif Require Import Bytes ModelFloat ModelBuf ModelObject ModelColor ModelSmall ModelPdf ModelTw ModelEnums ModelRoles ModelTwArgs
  SpecLex SpecObj SpecText SpecMeans SpecPdf SpecTyped SpecColor SpecSmall SpecTw SpecEnums SpecRoles SpecTwArgs
  ProofTyped ProofColor ProofTw ProofEnums PropSmall PropRoles.
Import ListNotations.
Local Open Scope Z_scope.

Lemma good_LineHeight h : LineHeight_ok h = true -> good (LineHeight_obj h) (is_LineHeight h).
Proof. destruct h; intro H; [apply good_name; reflexivity|apply good_name; reflexivity|apply good_real; exact H]. Qed.
Lemma good_GlyphOrientationVertical o : GlyphOrientationVertical_ok o = true ->
  good (GlyphOrientationVertical_obj o) (is_GlyphOrientationVertical o).
Proof. destruct o; intro H; [apply good_name; reflexivity|apply good_int; exact H]. Qed.
Lemma good_TransitionAngle a : good (TransitionAngle_obj a) (is_TransitionAngle a).
Proof. destruct a; first [apply good_int; reflexivity|apply good_name; reflexivity]. Qed.
Lemma good_MdpSignatureType t : good (OPrim (PInt (MdpSignatureType_int t))) (is_MdpSignatureType t).
Proof.
  destruct t as [|p]; [apply good_int; reflexivity|]. cbn [MdpSignatureType_int is_MdpSignatureType].
  destruct (good_AccessPermissions p) as [H1 H2]. split; [exact H1|]. intros v M. split; [apply H2; exact M|].
  apply m_int in M. unfold is_int in M. subst v. destruct p; discriminate.
Qed.
Lemma good_key_usage u : good (OPrim (PStr (into_ascii u))) (is_key_usage u).
Proof.
  split; [reflexivity|]. intros v M. apply m_str in M. exists (into_ascii u). split; [exact M|].
  destruct u as [a b c d e f g h i]. unfold into_ascii. cbn [map digital_signature non_repudiation key_encipherment data_encipherment
    key_agreement key_cert_sign crl_sign encipher_only decipher_only].
  assert (T : forall x, read_key_usage_char (to_byte x) = Some x) by (intros [[]|]; reflexivity).
  rewrite !T. reflexivity.
Qed.
Lemma good_system_info i : system_info_ok i = true -> good (system_info_obj i) (is_system_info i).
Proof. intro H. unfold system_info_ok in H. apply good_dict. tw_entries. Qed.
Lemma good_role2 r : role2_ok r = true -> good (OPrim (PName (role2_name r))) (is_StructRole2 r).
Proof.
  intro H. destruct (C42_role2_names r H) as (n & E & R & N). unfold role2_name. rewrite E. split; [rewrite fine_name; exact N|].
  intros v M. apply m_name in M. exists n. split; assumption.
Qed.
Lemma good_text_or_null t : opt_text_ok t = true -> good (text_or_null t) (is_text_or_null t).
Proof. destruct t; intro H; [apply good_text; exact H|apply good_null]. Qed.
Lemma good_dict_refs l : dict_ok ref_ok l = true -> good (dict_of (fun r => OPrim (PRef r)) l) (is_dict_of is_ref l).
Proof. apply good_dict_of. exact good_ref. Qed.
Lemma good_AppearanceEntry c : AppearanceEntry_ok c = true -> good (AppearanceEntry_obj c) (AppearanceEntry_reads c).
Proof. destruct c; intro H; [apply good_ref; exact H|apply good_dict_refs; exact H]. Qed.
Lemma good_TrackSizes c : TrackSizes_ok c = true -> good (TrackSizes_obj c) (TrackSizes_reads c).
Proof. destruct c; intro H; [apply good_real; exact H|apply good_reals; exact H]. Qed.
Lemma good_border h v w d : real_ok h = true -> real_ok v = true -> real_ok w = true -> dash_ok d = true ->
  good (OArray (border_items h v w d)) (is_border h v w d).
Proof.
  intros H1 H2 H3 H4. apply good_array. unfold border_items. apply Forall2_app.
  - repeat (constructor; [apply good_real; assumption|]). constructor.
  - destruct d as [d|]; constructor; [apply good_reals; exact H4|constructor].
Qed.
Lemma good_weaken o (P Q : val -> Prop) : good o P -> (forall v, P v -> Q v) -> good o Q.
Proof. intros [H1 H2] H. split; auto. Qed.
Lemma good_sides_reals s : all_sides real_ok s = true -> good (sides_reals s) (is_sides_reals s).
Proof. intro H. eapply good_weaken; [exact (sides_reals_fm s H)|]. intros v [K _]. exact K. Qed.
Lemma good_sides_colors s : all_sides ok3 s = true -> good (sides_colors s) (is_sides_colors s).
Proof. intro H. eapply good_weaken; [exact (sides_colors_fm s H)|]. intros v K. exact K. Qed.
Lemma good_sides_styles s : good (sides_styles s) (is_sides_styles s).
Proof. eapply good_weaken; [exact (sides_styles_fm s)|]. intros v [K _]. exact K. Qed.
Lemma good_name_tree l : forallb name_tree_ok l = true -> good (name_tree_obj l) (is_name_tree l).
Proof. exact (name_tree_fm l). Qed.
Lemma good_number_tree l : forallb number_tree_ok l = true -> good (number_tree_obj l) (is_number_tree l).
Proof. exact (number_tree_fm l). Qed.
Lemma good_differences l : forallb diff_ok l = true -> good (diff_obj l) (is_differences l).
Proof. exact (differences_fm l). Qed.
Lemma good_widths l : forallb width_ok l = true -> good (width_obj l) (is_widths l).
Proof. exact (widths_fm l). Qed.
Lemma good_filter f : good (OPrim (PName (filter_name f))) (is_filter f).
Proof. split; [destruct f; reflexivity|]. intros v M. apply m_name in M. rewrite M. destruct f; reflexivity. Qed.
Lemma good_cs c o : cs_ok c = true -> cs_obj c = Some o -> good o (cs_reads c).
Proof. intros H E. split; [exact (proj1 cs_fine_all c o H E)|]. intros v M. exact (proj1 cs_reads_all c o v E M). Qed.

(** Entries in the caller's dictionary. *)
Lemma good_writer_list {C} hdr hdr' (f : C -> list (bytes * obj)) doc ok cs :
  good_entries hdr hdr' -> (forall c, ok c = true -> good_entries (f c) (doc c)) ->
  forallb (raw_ok ok) cs = true -> good_entries (writer_list hdr f cs) (writer_doc hdr' doc cs).
Proof. intros H1 H2 H3. apply good_entries_app; [exact H1|]. eapply good_calls; eassumption. Qed.
Lemma good_raw_entries l : obj_arg_ok (ODict l) = true -> good_entries l (map (fun e => (fst e, means (snd e))) l).
Proof.
  intro H. change (obj_arg_ok (ODict l)) with (fine (ODict l)) in H. rewrite fine_dict in H.
  induction l as [|[k o] l IH]; [constructor|]. cbn [forallb map fst snd] in *. apply andb_true_iff in H as [H1 H2].
  apply andb_true_iff in H1 as [H1 H3]. apply good_cons; [exact H1|apply good_raw; exact H3|apply IH; exact H2].
Qed.

#[export] Hint Resolve good_LineHeight good_GlyphOrientationVertical good_TransitionAngle good_MdpSignatureType good_key_usage
  good_system_info good_role2 good_text_or_null good_dict_refs good_AppearanceEntry good_TrackSizes good_border good_sides_reals
  good_sides_colors good_sides_styles good_name_tree good_number_tree good_differences good_widths good_filter : tw.

Lemma good_list_opt {C} hdr hdr' (f : C -> option (list (bytes * obj))) doc ok cs es :
  good_entries hdr hdr' -> (forall c es, ok c = true -> f c = Some es -> good_entries es (doc c)) ->
  forallb (raw_ok ok) cs = true -> writer_list_opt hdr f cs = Some es -> good_entries es (writer_doc hdr' doc cs).
Proof.
  intros H1 H2 H3 S. unfold writer_list_opt in S.
  destruct (all_some (raw_entries_opt f) cs) as [l|] eqn:E; [|discriminate]. apply some_inj in S. subst es.
  apply good_entries_app; [exact H1|].
  eapply all_some_concat; [|exact H3|exact E]. intros [c|k o] es K F; cbn [raw_ok raw_entries_opt raw_doc] in *; [eauto|].
  apply some_inj in F. subst es. apply andb_true_iff in K as [K1 K3].
  apply good_cons; [exact K1|apply good_raw; exact K3|constructor].
Qed.
Lemma list_opt_none {C} hdr (f : C -> option (list (bytes * obj))) allowed cs :
  (forall c, f c <> None <-> allowed c) ->
  (writer_list_opt hdr f cs <> None <-> Forall (raw_allowed allowed) cs).
Proof.
  intro H. unfold writer_list_opt. rewrite omap_none. apply all_some_none.
  intros [c|k o]; cbn [raw_entries_opt raw_allowed]; [apply H|]. split; [auto|discriminate].
Qed.
Lemma eqb_zero x : f32_eqb x f32_zero = true <-> is_zero x.
Proof.
  unfold is_zero. destruct x as [|s|s m e]; cbn [f32_eqb f32_finite f32_zero].
  - split; [discriminate|intros [H _]; discriminate].
  - split; [discriminate|intros [H _]; discriminate].
  - change (f32_units (FFin false 0 (-149))) with 0. rewrite Z.eqb_eq. tauto.
Qed.

Lemma step_none {A} x (a : A) : (if f32_eqb x f32_zero then None else Some a) <> None <-> ~ is_zero x.
Proof. rewrite <- eqb_zero. destruct (f32_eqb x f32_zero); split; intro H; first [discriminate|congruence]. Qed.

(** Arrays of arguments without a condition. *)
Lemma good_arr_all {A} (f : A -> obj) (p : A -> val -> Prop) l :
  (forall a, good (f a) (p a)) -> good (arr_of f l) (is_array_of p l).
Proof. intro H. apply (good_arr_of f p (fun _ => true)); [intros a _; apply H|]. induction l; auto. Qed.
Lemma good_ref_single r : ref_ok r = true -> good (refs [r]) (is_array [is_ref r]).
Proof. intro H. apply good_array. constructor; [apply good_ref; exact H|constructor]. Qed.

(** ** Tactics *)
Create HintDb twn discriminated.
#[export] Hint Resolve cs_none : twn.
Create HintDb twh discriminated.
#[export] Hint Resolve good_ref_single good_cs : tw.
#[export] Hint Resolve good_nil : twh.
#[export] Hint Extern 1 (good (OArray _) (is_array _)) => (apply good_array; repeat first [apply Forall2_nil | apply Forall2_cons; [solve [auto with tw]|]]) : tw.
#[export] Hint Extern 2 (good (ODict _) (is_dict _)) =>
  (apply good_dict; repeat (apply good_cons; [reflexivity|solve [auto with tw]|]); apply good_nil) : tw.
#[export] Hint Extern 2 (good (arr_of _ _) (is_array_of _ _)) => (apply good_arr_all; intro; solve [auto with tw]) : tw.
#[export] Hint Extern 3 (good (arr_of _ _) (is_array_of _ _)) =>
  (eapply good_arr_of; [|eassumption]; intros; solve [auto with tw]) : tw.
#[export] Hint Extern 2 (good (reals _) (is_reals _)) => (apply good_reals; cbn [forallb]; repeat match goal with |- _ && _ = true => apply andb_true_iff; split end; assumption || reflexivity) : tw.
#[export] Hint Extern 2 (good (arr_of _ _) (is_array _)) => (apply good_array; repeat first [apply Forall2_nil | apply Forall2_cons; [apply good_name; reflexivity|]]) : tw.
#[export] Hint Extern 2 (good (bools _) _) => apply good_bools : tw.
#[export] Hint Extern 3 (in_i32 _ = true) => (first [reflexivity | match goal with |- in_i32 (if ?b then _ else _) = true => destruct b; reflexivity end]) : tw.
#[export] Hint Extern 3 (name_ok _ = true) => (first [reflexivity | match goal with |- name_ok (if ?b then _ else _) = true => destruct b; reflexivity end]) : tw.
#[export] Hint Extern 3 (text_ok _ = true) => reflexivity : tw.
#[export] Hint Extern 3 (real_ok _ = true) =>
  (match goal with |- real_ok (match ?o with _ => _ end) = true => destruct o; [assumption|reflexivity] end) : tw.

Ltac tw_key := first [reflexivity | assumption | match goal with |- name_ok (if ?b then _ else _) = true => destruct b; reflexivity end].
Ltac tw_entries ::=
  repeat match goal with |- good_entries (_ :: _) _ => apply good_cons; [tw_key|solve [auto 6 with tw]|] end;
  first [apply good_nil | apply good_raw_entries; assumption | eapply good_writer_list; [solve [eauto with twh]|solve [eauto with twh]|eassumption]].
Ltac tw_call ::= intros; split_ok; tw_entries.
(** Items of an array. *)
Lemma good_map {A} (f : A -> obj) (p : A -> val -> Prop) ok l :
  (forall a, ok a = true -> good (f a) (p a)) -> forallb ok l = true -> Forall2 good (map f l) (map p l).
Proof.
  intros H K. induction l as [|a l IH]; [constructor|]. cbn [forallb map] in *. apply andb_true_iff in K as [K1 K2].
  constructor; auto.
Qed.
Ltac tw_items_call := intros; unfold rect_ok in *; split_ok;
  first [ eapply good_map; [|eassumption]; intros; unfold pair_ok in *; split_ok; solve [auto with tw]
        | solve [repeat first [apply Forall2_nil | apply Forall2_cons; [solve [auto with tw]|]]] ].
(** Calls that may panic. *)
Ltac tw_call_opt :=
  let H := fresh "H" in let E := fresh "E" in intros H E; cbv beta in H; split_ok;
  repeat match type of E with
         | (if ?b then _ else _) = Some _ => destruct b; try discriminate E
         | match ?x with _ => _ end = Some _ => destruct x; try discriminate E
         end;
  first [ apply some_inj in E; subst; tw_entries
        | eapply good_sub_entry; [reflexivity| |exact E]; intros; solve [eauto with tw] ].
Ltac tw_none :=
  first [ split; [intros _; exact I|intros _; discriminate]
        | rewrite sub_entry_none; first [reflexivity | solve [auto with twn]]
        | apply step_none
        | match goal with |- (if ?a <=? ?b then _ else _) <> None <-> _ =>
            destruct (Z.leb_spec a b); let Q := fresh in split; intro Q; first [lia | discriminate | contradiction Q; reflexivity] end
        | match goal with |- (if negb (existsb ?f ?l) then _ else _) <> None <-> _ =>
            let Q := fresh in let X := fresh in let Q1 := fresh in let Q2 := fresh in
            destruct (existsb f l) eqn:X; cbn [negb]; split; intro Q;
            [ apply existsb_exists in X as (? & Q1 & Q2); apply Z.eqb_eq in Q2; subst; exact Q1
            | discriminate
            | contradiction Q; reflexivity
            | exfalso; assert (existsb f l = true) by (apply existsb_exists; eexists; split; [exact Q|apply Z.eqb_refl]); congruence ] end
        | match goal with |- match ?x with _ => _ end <> None <-> _ =>
            destruct x; let Q := fresh in split; intro Q; first [discriminate | intro; discriminate | contradiction Q; reflexivity | congruence] end ].

(** For the theorems about keys that differ from the documented ones. *)
Lemma reads_weaken o (P Q : val -> Prop) : reads o P -> (forall v, P v -> Q v) -> reads o Q.
Proof. intros H W indent pretty pad b. destruct (H indent pretty pad b) as (s & v & E1 & E2 & E3). exists s, v. auto. Qed.
Lemma dict_conflict k k' P P' xs ys v : k <> k' -> is_dict ((k, P) :: xs) v -> ~ is_dict ((k', P') :: ys) v.
Proof.
  intros N (d & -> & F) (d' & E & F'). apply N. injection E as E. subst d'.
  inversion F as [|? x ? ? [A _] _]; subst. inversion F' as [|? x' ? ? [B _] _]; subst. cbn in A, B. congruence.
Qed.
