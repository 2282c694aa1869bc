(** Limits of chunks. *)

From Coq Require Import ZArith List Lia Bool Arith ZifyBool.
From Verif Require Import Bytes ModelFloat ModelBuf ModelObject ModelRenumber ModelChunk SpecLex SpecObj SpecText SpecMeans
  SpecRenum SpecChunk SpecLimits
  ProofBasic ProofText ProofFloat ProofFloat2 ProofObj ProofParse ProofTree ProofRenum ProofRenumTree ProofChunk ProofLimits ProofLimits2.
Import ListNotations.
Local Open Scope Z_scope.
Opaque merge.

Definition le (a b : limits) : Prop := merge a b = b.

Lemma le_refl a : lok a -> le a a.
Proof. exact (merge_idem a). Qed.
Lemma le_trans a b c : lok a -> lok b -> lok c -> le a b -> le b c -> le a c.
Proof. unfold le. intros Ha Hb Hc H1 H2. rewrite <- H2. rewrite merge_assoc by assumption. rewrite H1. reflexivity. Qed.
Lemma le_l a b : lok a -> lok b -> le a (merge a b).
Proof. unfold le. intros Ha Hb. rewrite merge_assoc, merge_idem by assumption. reflexivity. Qed.
Lemma le_r a b : lok a -> lok b -> le b (merge a b).
Proof. intros Ha Hb. rewrite merge_comm by assumption. apply le_l; assumption. Qed.
Lemma le_lub a b c : lok a -> lok b -> lok c -> le a c -> le b c -> le (merge a b) c.
Proof. unfold le. intros Ha Hb Hc H1 H2. rewrite <- merge_assoc by assumption. rewrite H2. exact H1. Qed.
Lemma le_0 a : lok a -> le limits0 a.
Proof. intro Ha. unfold le. rewrite merge_comm by (assumption || apply limits0_ok). apply merge_0. assumption. Qed.
Lemma le_up_l a b c : lok a -> lok b -> lok c -> le a b -> le a (merge b c).
Proof. intros. eapply le_trans; [ | |apply merge_ok|eassumption|apply le_l]; assumption. Qed.
Lemma le_up_r a b c : lok a -> lok b -> lok c -> le a c -> le a (merge b c).
Proof. intros. eapply le_trans; [ | |apply merge_ok|eassumption|apply le_r]; assumption. Qed.

Lemma typed_valid o : obj_typed o = true -> reals_valid o = true.
Proof.
  induction o as [q|l IH|l IH] using obj_ind'; intro H.
  - destruct q; try reflexivity; exact H.
  - cbn [obj_typed reals_valid] in *. rewrite forallb_forall in *. rewrite Forall_forall in IH. intros x Hx. auto.
  - cbn [obj_typed reals_valid] in *. rewrite forallb_forall in *. rewrite Forall_forall in IH. intros x Hx. apply IH; [exact Hx|]. apply H. exact Hx.
Qed.

Lemma body_obj_valid b : body_typed b = true -> reals_valid (body_obj b) = true.
Proof.
  destruct b as [o|es d]; cbn [body_typed body_obj].
  - apply typed_valid.
  - intro H. unfold stream_obj. cbn [reals_valid forallb snd prim_real_valid andb]. apply (typed_valid (ODict es)). exact H.
Qed.

Definition item_lim (it : item) : limits := merge (int_lim (fst it)) (obj_lim (body_obj (snd it))).

Lemma obj_lim_ok o : reals_valid o = true -> lok (obj_lim o).
Proof. intro H. apply (tree_limits o H). Qed.
Lemma body_lim_ok b : body_typed b = true -> lok (obj_lim (body_obj b)).
Proof. intro H. apply obj_lim_ok, body_obj_valid, H. Qed.
Lemma item_lim_ok it : item_typed it = true -> lok (item_lim it).
Proof.
  unfold item_typed. intro H. apply andb_true_iff in H. destruct H as [_ H].
  apply merge_ok; [apply int_lim_ok|apply body_lim_ok, H].
Qed.

Lemma object_limits id o c : lok (chunk_limits c) -> item_typed (id, BObj o) = true ->
  chunk_limits (chunk_object id o c) = merge (chunk_limits c) (item_lim (id, BObj o)).
Proof.
  intros Hc Ht. unfold item_typed in Ht. cbn [fst snd body_typed] in Ht. apply andb_true_iff in Ht. destruct Ht as [_ Ht].
  unfold chunk_object, chunk_indirect, obj_indirect, chunk_limits. cbn [c_buf].
  destruct (tree_limits o (typed_valid o Ht)) as [O1 W1].
  rewrite W1; rewrite lims_extend, push_int_lims by exact Hc.
  - unfold item_lim. cbn [fst snd body_obj]. rewrite merge_assoc by (exact Hc || apply int_lim_ok || exact O1). reflexivity.
  - apply merge_ok; [exact Hc|apply int_lim_ok].
Qed.

Lemma stream_limits id es data c c' : lok (chunk_limits c) -> item_typed (id, BStream es data) = true ->
  chunk_stream id es data c = Some c' ->
  chunk_limits c' = merge (chunk_limits c) (item_lim (id, BStream es data)).
Proof.
  intros Hc Ht H. unfold item_typed in Ht. cbn [fst snd] in Ht. apply andb_true_iff in Ht. destruct Ht as [_ Ht].
  pose proof (body_obj_valid (BStream es data) Ht) as Hv. cbn [body_obj stream_obj reals_valid] in Hv.
  unfold chunk_stream, chunk_indirect, obj_indirect, write_stream, stream_start, dict_start in H.
  cbn [o_indirect o_indent o_pretty c_buf c_offsets c_pretty] in H.
  destruct (blen data <=? i32_max); [|discriminate].
  set (b0 := extend (lit " 0 obj" ++ [x0a]) (push_int id (c_buf c))) in *.
  set (b1 := extend [x3c; x3c] b0) in H.
  set (d0 := mkDictw true (sat_add_u8 0 2) (c_pretty c) 0) in H.
  destruct (dict_insert (lit "Length") d0 b1) as [[w' d1] b2] eqn:Ei.
  assert (Ew : write_entries es d1 (obj_primitive w' (PInt (blen data)) b2) = write_entries (len_entry data :: es) d0 b1).
  { unfold len_entry. rewrite write_entries_cons, Ei. reflexivity. }
  rewrite Ew in H.
  destruct (entries_limits (len_entry data :: es)) as [X Y]; [apply Forall_forall; intros; apply tree_limits|exact Hv|].
  assert (L0 : lims b1 = merge (chunk_limits c) (int_lim id)).
  { unfold b1, b0. rewrite !lims_extend. apply push_int_lims. exact Hc. }
  assert (K0 : lok (lims b1)) by (rewrite L0; apply merge_ok; [exact Hc|apply int_lim_ok]).
  destruct (Y d0 b1 K0) as [Y1 Y2].
  destruct (write_entries (len_entry data :: es) d0 b1) as [d2 b3]. cbn [fst snd] in Y1, Y2.
  injection H as <-. unfold chunk_limits at 1. cbn [c_buf]. unfold stream_drop.
  assert (E : forall D B, lims (let b := with_limits (register_dict_entries (d_len D)) B in
     let b := if d_pretty D then extend [x0a] b else b in
     let b := extend [x3e; x3e] b in let b := extend ([x0a] ++ lit "stream" ++ [x0a]) b in
     let b := extend data b in let b := extend ([x0a] ++ lit "endstream") b in
     let b := extend ([x0a] ++ lit "endobj" ++ [x0a]) b in if d_pretty D then extend [x0a] b else b) =
     register_dict_entries (d_len D) (lims B)).
  { intros D B. cbv zeta. destruct (d_pretty D); reflexivity. }
  rewrite E, Y1, Y2. unfold d0. cbn [d_len]. rewrite Z.add_0_l.
  rewrite register_dict_merge by (lia || (apply merge_ok; assumption)).
  unfold item_lim. cbn [fst snd body_obj]. unfold stream_obj. rewrite obj_lim_dict. fold (len_entry data).
  pose proof (dict_lim_ok (Z.of_nat (List.length (len_entry data :: es))) ltac:(lia)) as Hd.
  rewrite L0.
  pose proof (int_lim_ok id).
  rewrite <- (merge_assoc (merge (chunk_limits c) (int_lim id))) by (assumption || (apply merge_ok; assumption)).
  rewrite <- merge_assoc by (assumption || (apply merge_ok; assumption)). reflexivity.
Qed.

(** ** Renumbering *)

Definition refs_lim (ns : list Z) : limits := fold_right (fun n a => merge (int_lim n) a) limits0 ns.
Lemma refs_lim_cons n ns : refs_lim (n :: ns) = merge (int_lim n) (refs_lim ns).
Proof. reflexivity. Qed.
Lemma refs_lim_ok ns : lok (refs_lim ns).
Proof. induction ns as [|n ns IH]; [apply limits0_ok|]. rewrite refs_lim_cons. apply merge_ok; [apply int_lim_ok|exact IH]. Qed.
Lemma refs_lim_app a b : refs_lim (a ++ b) = merge (refs_lim a) (refs_lim b).
Proof.
  induction a as [|n a IH]; cbn [app].
  - change (refs_lim []) with limits0. symmetry. apply le_0. apply refs_lim_ok.
  - rewrite !refs_lim_cons, IH. apply merge_assoc; [apply int_lim_ok|apply refs_lim_ok|apply refs_lim_ok].
Qed.

Lemma note_refs_merge ns : forall l, lok l -> note_refs ns l = merge l (refs_lim ns).
Proof.
  induction ns as [|n ns IH]; intros l Hl.
  - change (refs_lim []) with limits0. rewrite merge_0 by assumption. reflexivity.
  - change (note_refs (n :: ns) l) with (note_refs ns (register_int 0 (register_int n l))).
    pose proof (int_lim_ok n). pose proof (refs_lim_ok ns).
    rewrite (register_int_merge n l) by assumption. rewrite register_int_merge by (apply merge_ok; assumption).
    change (int_lim 0) with limits0. rewrite merge_0 by (apply merge_ok; assumption).
    rewrite IH by (apply merge_ok; assumption). rewrite refs_lim_cons. symmetry. apply merge_assoc; assumption.
Qed.

Section Map.
  Context {T : Type} (f : T -> Z -> Z * T).

  Definition bounded (o o' : obj) : Prop :=
    reals_valid o' = true /\ le (obj_lim o') (merge (obj_lim o) (refs_lim (obj_refs o'))).

  Lemma map_bounded o : forall t, reals_valid o = true -> bounded o (fst (map_refs_st f o t)).
  Proof using Type.
    induction o as [q|l IH|l IH] using obj_ind'; intros t Hv.
    - assert (K : forall q', q' = q -> bounded (OPrim q) (OPrim q')).
      { intros q' ->. split; [exact Hv|]. apply le_l; [apply obj_lim_ok; exact Hv|apply refs_lim_ok]. }
      destruct q; cbn [map_refs_st fst]; try (apply K; reflexivity).
      destruct (f t r) as [n t']. cbn [fst]. split; [reflexivity|]. cbn [obj_refs].
      change (obj_lim (OPrim (PRef n))) with (int_lim n). rewrite refs_lim_cons. change (refs_lim []) with limits0.
      rewrite merge_0 by apply int_lim_ok. apply le_r; [apply obj_lim_ok; reflexivity|apply int_lim_ok].
    - cbn [map_refs_st reals_valid] in *.
      assert (H : let l' := fst (thread (map_refs_st f) l t) in
        forallb reals_valid l' = true /\ le (items_lim l') (merge (items_lim l) (refs_lim (flat_map obj_refs l'))) /\
        length l' = length l).
      { revert t. induction IH as [|a l H1 H2 IHl]; intro t.
        - cbn [thread fst forallb flat_map length]. split; [reflexivity|]. split; [|reflexivity]. apply le_l; apply limits0_ok.
        - cbn [forallb] in Hv. apply andb_true_iff in Hv. destruct Hv as [V1 V2]. rewrite thread_cons.
          destruct (H1 t V1) as [A B]. destruct (map_refs_st f a t) as [a' t1]. cbn [fst] in A, B.
          destruct (IHl V2 t1) as [C [D E]]. destruct (thread (map_refs_st f) l t1) as [l' t2]. cbn [fst] in C, D, E.
          cbn [fst forallb flat_map length]. rewrite A, C. split; [reflexivity|]. split; [|f_equal; exact E].
          destruct (items_limits l) as [L1 _]; [apply Forall_forall; intros; apply tree_limits|exact V2|].
          destruct (items_limits l') as [L2 _]; [apply Forall_forall; intros; apply tree_limits|exact C|].
          pose proof (obj_lim_ok a V1). pose proof (obj_lim_ok a' A).
          pose proof (refs_lim_ok (obj_refs a')). pose proof (refs_lim_ok (flat_map obj_refs l')).
          rewrite !items_lim_cons, refs_lim_app.
          assert (Q : merge (merge (obj_lim a) (items_lim l)) (merge (refs_lim (obj_refs a')) (refs_lim (flat_map obj_refs l'))) =
                      merge (merge (obj_lim a) (refs_lim (obj_refs a'))) (merge (items_lim l) (refs_lim (flat_map obj_refs l')))).
          { rewrite <- !(merge_assoc (obj_lim a)) by auto using merge_ok. f_equal.
            rewrite !merge_assoc by auto using merge_ok. f_equal. apply merge_comm; assumption. }
          rewrite Q. apply le_lub; auto using merge_ok.
          + apply le_up_l; auto using merge_ok.
          + apply le_up_r; auto using merge_ok. }
      cbv zeta in H. destruct (thread (map_refs_st f) l t) as [l' t']. cbn [fst] in *. destruct H as [A [B C]].
      split; [exact A|]. rewrite !obj_lim_array, C. cbn [obj_refs].
      destruct (items_limits l) as [L1 _]; [apply Forall_forall; intros; apply tree_limits|exact Hv|].
      destruct (items_limits l') as [L2 _]; [apply Forall_forall; intros; apply tree_limits|exact A|].
      pose proof (array_lim_ok (Z.of_nat (length l)) ltac:(lia)) as La.
      pose proof (refs_lim_ok (flat_map obj_refs l')) as Lr.
      apply le_lub; auto using merge_ok.
      + rewrite <- merge_assoc by assumption. rewrite (merge_comm (array_lim _)) by assumption. rewrite merge_assoc by assumption.
        apply le_up_l; auto using merge_ok.
      + apply le_up_l; auto using merge_ok. apply le_r; assumption.
    - cbn [map_refs_st reals_valid] in *.
      set (G := fun (e : bytes * obj) t => let '(v, t) := map_refs_st f (snd e) t in ((fst e, v), t)).
      assert (H : let l' := fst (thread G l t) in
        forallb (fun e => reals_valid (snd e)) l' = true /\
        le (entries_lim l') (merge (entries_lim l) (refs_lim (flat_map (fun e => obj_refs (snd e)) l'))) /\
        length l' = length l).
      { revert t. induction IH as [|[k a] l H1 H2 IHl]; intro t.
        - cbn [thread fst forallb flat_map length]. split; [reflexivity|]. split; [|reflexivity]. apply le_l; apply limits0_ok.
        - cbn [forallb fst snd] in Hv, H1. apply andb_true_iff in Hv. destruct Hv as [V1 V2]. rewrite thread_cons. unfold G at 1. cbn [fst snd].
          destruct (H1 t V1) as [A B]. destruct (map_refs_st f a t) as [a' t1]. cbn [fst] in A, B.
          destruct (IHl V2 t1) as [C [D E]]. destruct (thread G l t1) as [l' t2]. cbn [fst] in C, D, E.
          cbn [fst snd forallb flat_map length]. rewrite A, C. split; [reflexivity|]. split; [|f_equal; exact E].
          destruct (entries_limits l) as [L1 _]; [apply Forall_forall; intros; apply tree_limits|exact V2|].
          destruct (entries_limits l') as [L2 _]; [apply Forall_forall; intros; apply tree_limits|exact C|].
          pose proof (obj_lim_ok a V1). pose proof (obj_lim_ok a' A). pose proof (name_lim_ok _ (blen_nonneg k)).
          pose proof (refs_lim_ok (obj_refs a')). set (rl := flat_map _ l') in *. pose proof (refs_lim_ok rl).
          rewrite !entries_lim_cons, refs_lim_app.
          set (N := name_lim (blen k)) in *.
          assert (Q : merge (merge (merge N (obj_lim a)) (entries_lim l)) (merge (refs_lim (obj_refs a')) (refs_lim rl)) =
                      merge (merge N (merge (obj_lim a) (refs_lim (obj_refs a')))) (merge (entries_lim l) (refs_lim rl))).
          { rewrite !merge_assoc by auto 6 using merge_ok. f_equal.
            rewrite <- (merge_assoc (merge N (obj_lim a))) by auto 6 using merge_ok.
            rewrite (merge_comm (entries_lim l)) by assumption. apply merge_assoc; auto using merge_ok. }
          rewrite Q. apply le_lub; auto 6 using merge_ok.
          + apply le_up_l; auto 6 using merge_ok. apply le_lub; auto 6 using merge_ok.
            * apply le_l; auto using merge_ok.
            * apply le_up_r; auto using merge_ok.
          + apply le_up_r; auto 6 using merge_ok. }
      cbv zeta in H. destruct (thread G l t) as [l' t']. cbn [fst] in *. destruct H as [A [B C]].
      split; [exact A|]. rewrite !obj_lim_dict, C. cbn [obj_refs].
      destruct (entries_limits l) as [L1 _]; [apply Forall_forall; intros; apply tree_limits|exact Hv|].
      destruct (entries_limits l') as [L2 _]; [apply Forall_forall; intros; apply tree_limits|exact A|].
      pose proof (dict_lim_ok (Z.of_nat (length l)) ltac:(lia)) as La.
      set (rl := flat_map _ l') in *. pose proof (refs_lim_ok rl) as Lr.
      apply le_lub; auto using merge_ok.
      + rewrite <- merge_assoc by assumption. rewrite (merge_comm (dict_lim _)) by assumption. rewrite merge_assoc by assumption.
        apply le_up_l; auto using merge_ok.
      + apply le_up_l; auto using merge_ok. apply le_r; assumption.
  Qed.

  Lemma map_body_bounded b t : body_typed b = true ->
    let b' := fst (map_body_st f b t) in
    bounded (body_obj b) (body_obj b') /\ obj_refs (body_obj b') = body_refs b'.
  Proof using Type.
    intro H. pose proof (body_obj_valid b H) as Hv. destruct b as [o|es d].
    - pose proof (map_bounded o t Hv) as B. cbn [map_body_st]. destruct (map_refs_st f o t) as [o' t'].
      split; [exact B|reflexivity].
    - cbn [body_obj] in *. pose proof (map_bounded (stream_obj es d) t Hv) as B. unfold stream_obj in B at 2.
      cbn [map_refs_st] in B. rewrite thread_cons in B. cbn [map_refs_st fst snd] in B.
      cbn [map_body_st]. unfold map_entries_st. destruct (thread _ es t) as [es' t']. cbn [fst] in *.
      split; [exact B|reflexivity].
  Qed.

  Lemma map_item_bounded it t : item_typed it = true ->
    let it' := fst (map_item_st f it t) in
    lok (item_lim it') /\ le (item_lim it') (merge (item_lim it) (refs_lim (item_refs it'))).
  Proof using Type.
    destruct it as [id bd]. unfold item_typed, map_item_st. cbn [fst snd]. intro H.
    apply andb_true_iff in H. destruct H as [_ H]. destruct (f t id) as [n t1].
    destruct (map_body_bounded bd t1 H) as [[B1 B2] E]. destruct (map_body_st f bd t1) as [bd' t2]. cbn [fst] in *.
    unfold item_lim, item_refs. cbn [fst snd]. rewrite refs_lim_cons, <- E.
    pose proof (int_lim_ok id). pose proof (int_lim_ok n). pose proof (obj_lim_ok _ B1). pose proof (body_lim_ok _ H).
    pose proof (refs_lim_ok (obj_refs (body_obj bd'))).
    split; [auto using merge_ok|]. apply le_lub; auto 6 using merge_ok.
    - apply le_up_r; auto using merge_ok. apply le_l; auto using merge_ok.
    - eapply le_trans; [assumption| |auto 6 using merge_ok|exact B2|]; [auto using merge_ok|].
      apply le_lub; auto 6 using merge_ok.
      + apply le_up_l; auto using merge_ok. apply le_r; assumption.
      + apply le_up_r; auto using merge_ok. apply le_r; assumption.
  Qed.

  Lemma map_items_bounded l : forall t, forallb item_typed l = true ->
    let l' := fst (thread (map_item_st f) l t) in
    Forall (fun it' => lok (item_lim it') /\ exists it, In it l /\
       le (item_lim it') (merge (item_lim it) (refs_lim (flat_map item_refs l')))) l'.
  Proof using Type.
    induction l as [|it l IH]; intros t H; [constructor|].
    cbn [forallb] in H. apply andb_true_iff in H. destruct H as [H1 H2]. rewrite thread_cons.
    destruct (map_item_bounded it t H1) as [A B]. destruct (map_item_st f it t) as [it' t1]. cbn [fst] in A, B.
    specialize (IH t1 H2). cbv zeta in IH |- *. destruct (thread (map_item_st f) l t1) as [l' t2]. cbn [fst] in *.
    cbn [flat_map]. pose proof (item_lim_ok it H1).
    pose proof (refs_lim_ok (item_refs it')). pose proof (refs_lim_ok (flat_map item_refs l')).
    rewrite refs_lim_app. constructor.
    - split; [exact A|]. exists it. split; [left; reflexivity|].
      rewrite merge_assoc by assumption. apply le_up_l; auto using merge_ok.
    - rewrite Forall_forall in *. intros x Hx. destruct (IH x Hx) as [C [y [D E]]]. split; [exact C|]. exists y. split; [right; exact D|].
      assert (lok (item_lim y)) by (apply item_lim_ok; rewrite forallb_forall in H2; apply H2; exact D).
      rewrite (merge_comm (refs_lim (item_refs it'))) by assumption. rewrite merge_assoc by assumption. apply le_up_l; auto using merge_ok.
  Qed.
End Map.

(** ** Histories *)

Lemma run_bounds h : hist_typed h -> merges_ok h -> forall c, run h = Some c ->
  lok (chunk_limits c) /\ Forall (fun it => lok (item_lim it) /\ le (item_lim it) (chunk_limits c)) (hist_items h).
Proof.
  induction h as [p|h IH id o|h IH id es data|h1 IH1 h2 IH2|h IH lm|h1 IH1 h2 IH2 T f s];
    cbn [hist_typed merges_ok hist_items run]; intros Ht Hm c Hr.
  - injection Hr as <-. split; [apply limits0_ok|constructor].
  - destruct Ht as [H1 H2]. destruct (run h) as [c0|]; [|discriminate]. injection Hr as <-.
    destruct (IH H1 Hm c0 eq_refl) as [A B]. pose proof (item_lim_ok _ H2) as K.
    rewrite object_limits by assumption. split; [auto using merge_ok|]. apply Forall_app. split.
    + eapply Forall_impl; [|exact B]. intros it [L1 L2]. split; [exact L1|]. apply le_up_l; assumption.
    + constructor; [|constructor]. split; [exact K|]. apply le_r; assumption.
  - destruct Ht as [H1 H2]. destruct (run h) as [c0|]; [|discriminate].
    destruct (IH H1 Hm c0 eq_refl) as [A B]. pose proof (item_lim_ok _ H2) as K.
    rewrite (stream_limits _ _ _ _ _ A H2 Hr). split; [auto using merge_ok|]. apply Forall_app. split.
    + eapply Forall_impl; [|exact B]. intros it [L1 L2]. split; [exact L1|]. apply le_up_l; assumption.
    + constructor; [|constructor]. split; [exact K|]. apply le_r; assumption.
  - destruct Ht as [H1 H2]. destruct Hm as [M1 M2]. destruct (run h1) as [c1|]; [|discriminate]. destruct (run h2) as [c2|]; [|discriminate].
    injection Hr as <-. destruct (IH1 H1 M1 c1 eq_refl) as [A1 B1]. destruct (IH2 H2 M2 c2 eq_refl) as [A2 B2].
    change (chunk_limits (chunk_extend c2 c1)) with (merge (chunk_limits c1) (chunk_limits c2)).
    split; [auto using merge_ok|]. apply Forall_app. split.
    + eapply Forall_impl; [|exact B1]. intros it [L1 L2]. split; [exact L1|]. apply le_up_l; assumption.
    + eapply Forall_impl; [|exact B2]. intros it [L1 L2]. split; [exact L1|]. apply le_up_r; assumption.
  - destruct Hm as [M1 M2]. apply limits_ok_iff in M2. destruct (run h) as [c0|]; [|discriminate]. injection Hr as <-.
    destruct (IH Ht M1 c0 eq_refl) as [A B].
    change (chunk_limits (chunk_merge_limits lm c0)) with (merge (chunk_limits c0) lm).
    split; [auto using merge_ok|]. eapply Forall_impl; [|exact B]. intros it [L1 L2]. split; [exact L1|]. apply le_up_l; assumption.
  - destruct Ht as [H1 [H2 H3]]. destruct Hm as [M1 M2].
    destruct (run h1) as [c1|] eqn:R1; [|discriminate]. destruct (run h2) as [c2|] eqn:R2; [|discriminate].
    destruct (IH1 H1 M1 c1 eq_refl) as [A1 B1]. destruct (IH2 H2 M2 c2 eq_refl) as [A2 B2].
    pose proof (run_holds h1 H1) as P1. pose proof (run_holds h2 H2) as P2.
    destruct (items_fit (hist_items h1)); [|congruence]. destruct (items_fit (hist_items h2)); [|congruence].
    destruct P1 as [x1 [l1 [X1 [X2 [X3 X4]]]]]. destruct P2 as [x2 [l2 [Y1 [Y2 [Y3 Y4]]]]].
    rewrite R1 in X1. injection X1 as <-. rewrite R2 in Y1. injection Y1 as <-.
    pose proof (items_typed h2 H2) as Tt.
    destruct (renumber_holds f [] [] l2 l1 c2 c1 s Y2 X2 ltac:(rewrite Y3; exact Tt)) as [c' [E [_ [_ EL]]]].
    rewrite E in Hr. cbn [option_map fst] in Hr. injection Hr as <-.
    rewrite Y3 in EL. set (l' := fst (thread (map_item_st f) (hist_items h2) s)) in *.
    rewrite note_refs_merge in EL by auto using merge_ok. rewrite EL.
    pose proof (refs_lim_ok (flat_map item_refs l')) as Lr.
    split; [auto using merge_ok|]. apply Forall_app. split.
    + eapply Forall_impl; [|exact B1]. intros it [L1 L2]. split; [exact L1|]. apply le_up_l; auto using merge_ok. apply le_up_l; assumption.
    + pose proof (map_items_bounded f (hist_items h2) s Tt) as Q. cbv zeta in Q. fold l' in Q.
      rewrite Forall_forall in *. intros x Hx. destruct (Q x Hx) as [L1 [y [Iy Ly]]]. destruct (B2 y Iy) as [L3 L4].
      split; [exact L1|]. eapply le_trans; [exact L1| |auto using merge_ok|exact Ly|]; [auto using merge_ok|].
      apply le_lub; auto using merge_ok.
      * apply le_up_l; auto using merge_ok. apply le_up_r; assumption.
      * apply le_r; auto using merge_ok.
Qed.

(** ** Exactness for histories without renumbering and merging *)

Definition all_lim (l : list item) : limits := fold_right (fun it a => merge (item_lim it) a) limits0 l.

Lemma all_lim_ok l : forallb item_typed l = true -> lok (all_lim l).
Proof.
  induction l as [|it l IH]; intro H; [apply limits0_ok|]. cbn [forallb] in H. apply andb_true_iff in H. destruct H as [A B].
  change (all_lim (it :: l)) with (merge (item_lim it) (all_lim l)). apply merge_ok; [apply item_lim_ok; exact A|auto].
Qed.

Lemma all_lim_app a b : forallb item_typed a = true -> forallb item_typed b = true ->
  all_lim (a ++ b) = merge (all_lim a) (all_lim b).
Proof.
  induction a as [|it a IH]; intros Ha Hb.
  - change (all_lim []) with limits0. cbn [app]. symmetry. apply le_0. apply all_lim_ok; exact Hb.
  - cbn [forallb] in Ha. apply andb_true_iff in Ha. destruct Ha as [A B]. cbn [app].
    change (all_lim (it :: a ++ b)) with (merge (item_lim it) (all_lim (a ++ b))).
    change (all_lim (it :: a)) with (merge (item_lim it) (all_lim a)). rewrite IH by assumption.
    apply merge_assoc; [apply item_lim_ok; exact A|apply all_lim_ok; exact B|apply all_lim_ok; exact Hb].
Qed.

Lemma run_exact h : hist_typed h -> plain_hist h -> forall c, run h = Some c -> chunk_limits c = all_lim (hist_items h).
Proof.
  induction h as [p|h IH id o|h IH id es data|h1 IH1 h2 IH2|h IH lm|h1 IH1 h2 IH2 T f s];
    cbn [hist_typed plain_hist hist_items run]; intros Ht Hm c Hr; try contradiction.
  - injection Hr as <-. reflexivity.
  - destruct Ht as [H1 H2]. destruct (run h) as [c0|]; [|discriminate]. injection Hr as <-.
    pose proof (items_typed h H1) as Tt. pose proof (all_lim_ok _ Tt) as K.
    specialize (IH H1 Hm c0 eq_refl). rewrite object_limits by (rewrite ?IH; assumption). rewrite IH.
    rewrite all_lim_app by (cbn [forallb]; rewrite ?H2; auto).
    change (all_lim [?x]) with (merge (item_lim x) limits0). rewrite merge_0 by (apply item_lim_ok; exact H2). reflexivity.
  - destruct Ht as [H1 H2]. destruct (run h) as [c0|]; [|discriminate].
    pose proof (items_typed h H1) as Tt. pose proof (all_lim_ok _ Tt) as K.
    specialize (IH H1 Hm c0 eq_refl). rewrite (stream_limits _ _ _ _ _ ltac:(rewrite IH; exact K) H2 Hr). rewrite IH.
    rewrite all_lim_app by (cbn [forallb]; rewrite ?H2; auto).
    change (all_lim [?x]) with (merge (item_lim x) limits0). rewrite merge_0 by (apply item_lim_ok; exact H2). reflexivity.
  - destruct Ht as [H1 H2]. destruct Hm as [M1 M2]. destruct (run h1) as [c1|]; [|discriminate]. destruct (run h2) as [c2|]; [|discriminate].
    injection Hr as <-. change (chunk_limits (chunk_extend c2 c1)) with (merge (chunk_limits c1) (chunk_limits c2)).
    rewrite (IH1 H1 M1 c1 eq_refl), (IH2 H2 M2 c2 eq_refl). symmetry. apply all_lim_app; apply items_typed; assumption.
Qed.
