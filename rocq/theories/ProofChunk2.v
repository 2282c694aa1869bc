(** Consequences for chunks: readability under renumbering, pure and logged closures,
    uniform histories, and the scanner on arbitrary bytes. *)

From Coq Require Import ZArith List Lia Bool ZifyBool ZifyNat.
From Verif Require Import Bytes ModelFloat ModelBuf ModelObject ModelRenumber ModelChunk SpecLex SpecObj SpecMeans
  SpecRenum SpecChunk ProofBasic ProofObj ProofParse ProofTree ProofRenum ProofRenumTree ProofChunk ProofChunkParse.
Import ListNotations.
Local Open Scope Z_scope.

(** ** Renumbering keeps objects readable *)

Section Readable.
  Context {T : Type} (f : T -> Z -> Z * T) (Hf : forall t id, id_ok (fst (f t id)) = true).

  Lemma map_refs_shape o t :
    begins_with_delimiter (fst (map_refs_st f o t)) = begins_with_delimiter o /\
    is_empty_name (fst (map_refs_st f o t)) = is_empty_name o.
  Proof.
    destruct o as [q|l|l]; cbn [map_refs_st].
    - destruct q; try (split; reflexivity). destruct (f t r). split; reflexivity.
    - destruct (thread _ l t). split; reflexivity.
    - destruct (thread _ l t). split; reflexivity.
  Qed.

  Lemma map_refs_ok o : forall t, obj_ok o = true -> obj_ok (fst (map_refs_st f o t)) = true.
  Proof.
    induction o as [q|l IH|l IH] using obj_ind'; intros t Ht.
    - destruct q; cbn [map_refs_st]; try exact Ht. pose proof (Hf t r) as Hf'. destruct (f t r) as [n t']. exact Hf'.
    - cbn [map_refs_st]. cbn [obj_ok] in Ht.
      assert (H : forallb obj_ok (fst (thread (map_refs_st f) l t)) = true).
      { revert t. induction IH as [|a l H1 H2 IHl]; intro t; [reflexivity|]. cbn [forallb] in Ht.
        apply andb_true_iff in Ht. destruct Ht as [T1 T2]. rewrite thread_cons. specialize (H1 t T1).
        destruct (map_refs_st f a t) as [a' t1]. specialize (IHl T2 t1). destruct (thread _ l t1) as [l' t2].
        cbn [fst forallb] in *. rewrite H1, IHl. reflexivity. }
      destruct (thread _ l t). exact H.
    - cbn [map_refs_st]. cbn [obj_ok] in Ht.
      set (G := fun (e : bytes * obj) t => let '(v, t) := map_refs_st f (snd e) t in ((fst e, v), t)).
      assert (H : forallb (fun e => obj_ok (snd e)) (fst (thread G l t)) = true).
      { revert t. induction IH as [|a l H1 H2 IHl]; intro t; [reflexivity|]. cbn [forallb] in Ht.
        apply andb_true_iff in Ht. destruct Ht as [T1 T2]. rewrite thread_cons. specialize (H1 t T1). unfold G at 1.
        destruct (map_refs_st f (snd a) t) as [a' t1]. specialize (IHl T2 t1). destruct (thread _ l t1) as [l' t2].
        cbn [fst snd forallb] in *. rewrite H1, IHl. reflexivity. }
      destruct (thread G l t). exact H.
  Qed.

  Definition sep_go := (fix go (prev : bool) (l : list obj) : bool :=
         match l with
         | [] => true
         | it :: r => (negb prev || begins_with_delimiter it) && separable it && go (is_empty_name it) r
         end).

  Lemma map_refs_sep o : forall t, separable o = true -> separable (fst (map_refs_st f o t)) = true.
  Proof.
    induction o as [q|l IH|l IH] using obj_ind'; intros t Ht.
    - destruct q; cbn [map_refs_st]; try reflexivity. destruct (f t r). reflexivity.
    - cbn [map_refs_st]. change (sep_go false l = true) in Ht.
      assert (H : forall prev, sep_go prev l = true -> sep_go prev (fst (thread (map_refs_st f) l t)) = true).
      { clear Ht. revert t. induction IH as [|a l H1 H2 IHl]; intros t prev Ht; [reflexivity|]. cbn [sep_go] in Ht.
        apply andb_true_iff in Ht. destruct Ht as [T1 T2]. apply andb_true_iff in T1. destruct T1 as [T0 T1].
        rewrite thread_cons. specialize (H1 t T1). destruct (map_refs_shape a t) as [S1 S2].
        destruct (map_refs_st f a t) as [a' t1]. specialize (IHl t1 _ T2). destruct (thread _ l t1) as [l' t2].
        cbn [fst sep_go] in *. fold sep_go. rewrite S1, S2, T0, H1, IHl. reflexivity. }
      specialize (H false Ht). destruct (thread _ l t). exact H.
    - cbn [map_refs_st]. cbn [separable] in Ht.
      set (G := fun (e : bytes * obj) t => let '(v, t) := map_refs_st f (snd e) t in ((fst e, v), t)).
      assert (H : forallb (fun e => (negb (is_nil (fst e)) || begins_with_delimiter (snd e)) && separable (snd e)) (fst (thread G l t)) = true).
      { revert t. induction IH as [|a l H1 H2 IHl]; intro t; [reflexivity|]. cbn [forallb] in Ht.
        apply andb_true_iff in Ht. destruct Ht as [T1 T2]. apply andb_true_iff in T1. destruct T1 as [T0 T1].
        rewrite thread_cons. specialize (H1 t T1). unfold G at 1. destruct (map_refs_shape (snd a) t) as [S1 S2].
        destruct (map_refs_st f (snd a) t) as [a' t1]. specialize (IHl T2 t1). destruct (thread _ l t1) as [l' t2].
        cbn [fst snd forallb] in *. rewrite S1, T0, H1, IHl. reflexivity. }
      destruct (thread G l t). exact H.
  Qed.

  Lemma map_body_readable b t : body_readable b = true -> body_readable (fst (map_body_st f b t)) = true.
  Proof.
    destruct b as [o|es d]; cbn [map_body_st body_readable]; intro H.
    - apply andb_true_iff in H. destruct H as [H1 H2].
      pose proof (map_refs_ok o t H1) as A. pose proof (map_refs_sep o t H2) as B.
      destruct (map_refs_st f o t). cbn [fst body_readable] in *. rewrite A, B. reflexivity.
    - unfold entries_readable in H. apply andb_true_iff in H. destruct H as [H1 H2].
      pose proof (map_refs_ok (ODict es) t H1) as A. pose proof (map_refs_sep (ODict es) t H2) as B.
      cbn [map_refs_st] in A, B. unfold map_entries_st.
      destruct (thread _ es t). cbn [fst body_readable] in *. unfold entries_readable. rewrite A, B. reflexivity.
  Qed.

  Lemma map_items_readable l : forall t, forallb (fun it => body_readable (snd it)) l = true ->
    forallb (fun it => body_readable (snd it)) (fst (thread (map_item_st f) l t)) = true.
  Proof.
    induction l as [|[id b] l IH]; intros t H; [reflexivity|]. cbn [forallb snd] in H. apply andb_true_iff in H.
    destruct H as [H1 H2]. rewrite thread_cons. unfold map_item_st at 1. cbn [fst snd].
    destruct (f t id) as [n t1]. pose proof (map_body_readable b t1 H1) as B.
    destruct (map_body_st f b t1) as [b' t2]. specialize (IH t2 H2).
    destruct (thread (map_item_st f) l t2) as [l' t3]. cbn [fst snd forallb] in *. rewrite B, IH. reflexivity.
  Qed.
End Readable.

Lemma items_readable h : hist_typed h -> hist_readable h ->
  forallb (fun it => body_readable (snd it)) (hist_items h) = true.
Proof.
  induction h as [p|h IH id o|h IH id es data|h1 IH1 h2 IH2|h IH l|h1 IH1 h2 IH2 T f s];
    cbn [hist_typed hist_readable hist_items].
  - reflexivity.
  - intros [H1 _] [H3 H4]. rewrite forallb_app', (IH H1 H3). cbn [forallb snd]. rewrite H4. reflexivity.
  - intros [H1 _] [H3 H4]. rewrite forallb_app', (IH H1 H3). cbn [forallb snd]. rewrite H4. reflexivity.
  - intros [H1 H2] [H3 H4]. rewrite forallb_app', (IH1 H1 H3), (IH2 H2 H4). reflexivity.
  - exact IH.
  - intros [H1 [H2 H3]] [H4 H5]. rewrite forallb_app', (IH1 H1 H4). cbn [andb].
    apply map_items_readable; auto.
Qed.

(** ** Pure closures *)

Section Pure.
  Context {T : Type} (f : Z -> Z).
  Let g := fun (t : T) id => (f id, t).

  Lemma thread_pure {A} (h : A -> T -> A * T) (k : A -> A) l t : (forall a, In a l -> forall t, h a t = (k a, t)) ->
    thread h l t = (map k l, t).
  Proof.
    intro H. revert t. induction l as [|a l IH]; intro t; [reflexivity|].
    rewrite thread_cons, H by (left; reflexivity). rewrite IH; [reflexivity|].
    intros b Hb. apply H. right. exact Hb.
  Qed.

  Lemma map_refs_pure o : forall t, map_refs_st g o t = (map_refs f o, t).
  Proof.
    induction o as [q|l IH|l IH] using obj_ind'; intro t.
    - destruct q; reflexivity.
    - cbn [map_refs_st map_refs]. rewrite (thread_pure _ (map_refs f)); [reflexivity|].
      rewrite Forall_forall in IH. exact IH.
    - cbn [map_refs_st map_refs]. rewrite (thread_pure _ (fun e => (fst e, map_refs f (snd e)))); [reflexivity|].
      rewrite Forall_forall in IH. intros e He t'. rewrite (IH e He). reflexivity.
  Qed.

  Lemma map_item_pure it t : map_item_st g it t = (map_item f it, t).
  Proof.
    destruct it as [id [o|es d]]; unfold map_item_st, map_item, g; cbn [fst snd map_body_st map_body]; fold g.
    - rewrite map_refs_pure. reflexivity.
    - unfold map_entries_st. rewrite (thread_pure _ (fun e => (fst e, map_refs f (snd e)))); [reflexivity|].
      intros e _ t'. rewrite map_refs_pure. reflexivity.
  Qed.

  Lemma map_items_pure l t : thread (map_item_st g) l t = (map (map_item f) l, t).
  Proof. apply thread_pure. intros a _ t'. apply map_item_pure. Qed.
End Pure.

(** Pure maps: extensionality on the references that occur, composition. *)
Lemma map_ext_in' {A} (f : A -> A) l : (forall a, In a l -> f a = a) -> map f l = l.
Proof. intro H. induction l as [|a l IH]; [reflexivity|]. cbn [map]. rewrite H, IH; [reflexivity| |left; reflexivity].
  intros b Hb. apply H. right. exact Hb. Qed.

Lemma map_refs_id f o : (forall r, In r (obj_refs o) -> f r = r) -> map_refs f o = o.
Proof.
  induction o as [q|l IH|l IH] using obj_ind'; intro H.
  - destruct q; try reflexivity. cbn [map_refs]. rewrite H by (left; reflexivity). reflexivity.
  - cbn [map_refs]. f_equal. apply map_ext_in'. intros a Ha. rewrite Forall_forall in IH. apply IH; [exact Ha|].
    intros r Hr. apply H. cbn [obj_refs]. apply in_flat_map. exists a. split; assumption.
  - cbn [map_refs]. f_equal. apply map_ext_in'. intros [k v] Ha. rewrite Forall_forall in IH. cbn [fst snd]. f_equal.
    apply (IH _ Ha). intros r Hr. apply H. cbn [obj_refs]. apply in_flat_map. exists (k, v). split; assumption.
Qed.

Lemma map_refs_comp f g o : map_refs g (map_refs f o) = map_refs (fun r => g (f r)) o.
Proof.
  induction o as [q|l IH|l IH] using obj_ind'.
  - destruct q; reflexivity.
  - cbn [map_refs]. f_equal. rewrite map_map. apply map_ext_in. rewrite Forall_forall in IH. exact IH.
  - cbn [map_refs]. f_equal. rewrite map_map. apply map_ext_in. rewrite Forall_forall in IH.
    intros a Ha. cbn [fst snd]. rewrite (IH a Ha). reflexivity.
Qed.

Lemma map_item_id f it : (forall r, In r (item_refs it) -> f r = r) -> map_item f it = it.
Proof.
  destruct it as [id bd]. unfold map_item, item_refs. cbn [fst snd]. intro H.
  rewrite H by (left; reflexivity). f_equal. destruct bd as [o|es d]; cbn [map_body body_refs] in *.
  - rewrite map_refs_id; [reflexivity|]. intros r Hr. apply H. right. exact Hr.
  - f_equal. pose proof (map_refs_id f (ODict es)) as P. cbn [map_refs obj_refs] in P.
    assert (E : ODict (map_entries f es) = ODict es) by (apply P; intros r Hr; apply H; right; exact Hr).
    injection E as E. exact E.
Qed.

Lemma map_item_comp f g it : map_item g (map_item f it) = map_item (fun r => g (f r)) it.
Proof.
  destruct it as [id [o|es d]]; unfold map_item; cbn [fst snd map_body]; f_equal.
  - rewrite map_refs_comp. reflexivity.
  - f_equal. unfold map_entries. rewrite map_map. apply map_ext. intros [k v]. cbn [fst snd]. rewrite map_refs_comp. reflexivity.
Qed.

(** ** The calls of the closure *)

Section Calls.
  Context {T : Type} (f : T -> Z -> Z * T).

  Lemma call_all_app a b t : call_all f (a ++ b) t =
    let '(na, t1) := call_all f a t in let '(nb, t2) := call_all f b t1 in (na ++ nb, t2).
  Proof.
    revert t. induction a as [|x a IH]; intro t; cbn [app call_all].
    - destruct (call_all f b t). reflexivity.
    - destruct (f t x) as [n t1]. rewrite IH. destruct (call_all f a t1) as [na t2].
      destruct (call_all f b t2) as [nb t3]. reflexivity.
  Qed.

  Lemma calls_list {A} (h : A -> T -> A * T) (rf : A -> list Z) l :
    (forall a, In a l -> forall t, call_all f (rf a) t = (rf (fst (h a t)), snd (h a t))) ->
    forall t, call_all f (flat_map rf l) t = (flat_map rf (fst (thread h l t)), snd (thread h l t)).
  Proof.
    induction l as [|a l IH]; intros H t; [reflexivity|].
    cbn [flat_map]. rewrite call_all_app, thread_cons, (H a (or_introl eq_refl)).
    destruct (h a t) as [a' t1]. cbn [fst snd].
    rewrite IH by (intros b Hb; apply H; right; exact Hb).
    destruct (thread h l t1) as [l' t2]. reflexivity.
  Qed.

  Lemma calls_obj o : forall t, call_all f (obj_refs o) t = (obj_refs (fst (map_refs_st f o t)), snd (map_refs_st f o t)).
  Proof.
    induction o as [q|l IH|l IH] using obj_ind'; intro t.
    - destruct q; try reflexivity. cbn [obj_refs call_all map_refs_st]. destruct (f t r). reflexivity.
    - cbn [obj_refs map_refs_st]. rewrite Forall_forall in IH. rewrite (calls_list _ _ _ IH).
      destruct (thread _ l t). reflexivity.
    - cbn [obj_refs map_refs_st]. rewrite Forall_forall in IH.
      rewrite (calls_list (fun e t => let '(v, t) := map_refs_st f (snd e) t in ((fst e, v), t))).
      + destruct (thread _ l t). reflexivity.
      + intros [k v] Ha t'. specialize (IH _ Ha t'). cbn [fst snd] in *. destruct (map_refs_st f v t'). exact IH.
  Qed.

  Lemma calls_item it t : call_all f (item_refs it) t = (item_refs (fst (map_item_st f it t)), snd (map_item_st f it t)).
  Proof.
    destruct it as [id bd]. unfold item_refs, map_item_st. cbn [fst snd call_all].
    destruct (f t id) as [n t1].
    assert (E : call_all f (body_refs bd) t1 = (body_refs (fst (map_body_st f bd t1)), snd (map_body_st f bd t1))).
    { destruct bd as [o|es d]; cbn [body_refs map_body_st].
      - rewrite calls_obj. destruct (map_refs_st f o t1). reflexivity.
      - pose proof (calls_obj (ODict es) t1) as E. cbn [obj_refs map_refs_st] in E. unfold map_entries_st.
        destruct (thread _ es t1). exact E. }
    rewrite E. destruct (map_body_st f bd t1) as [b' t2]. reflexivity.
  Qed.

  Lemma calls_items l t : call_all f (flat_map item_refs l) t =
    (flat_map item_refs (fst (thread (map_item_st f) l t)), snd (thread (map_item_st f) l t)).
  Proof. apply calls_list. intros a _ t'. apply calls_item. Qed.

  Lemma call_all_logged ids : forall t log,
    call_all (logged f) ids (t, log) = (fst (call_all f ids t), (snd (call_all f ids t), log ++ ids)).
  Proof.
    induction ids as [|i ids IH]; intros t log; cbn [call_all].
    - rewrite app_nil_r. reflexivity.
    - unfold logged at 1. cbn [fst snd]. destruct (f t i) as [n t1]. rewrite IH.
      destruct (call_all f ids t1) as [ns t2]. cbn [fst snd]. rewrite <- app_assoc. reflexivity.
  Qed.

  (** The logged closure maps the same. *)
  Lemma thread_logged {A} (h : A -> T -> A * T) (hl : A -> T * list Z -> A * (T * list Z)) l :
    (forall a, In a l -> forall t, fst (hl a t) = fst (h a (fst t)) /\ fst (snd (hl a t)) = snd (h a (fst t))) ->
    forall t, fst (thread hl l t) = fst (thread h l (fst t)) /\ fst (snd (thread hl l t)) = snd (thread h l (fst t)).
  Proof.
    induction l as [|a l IH]; intros H t; [split; reflexivity|].
    rewrite !thread_cons. destruct (H a (or_introl eq_refl) t) as [A1 A2].
    destruct (hl a t) as [a1 t1]. destruct (h a (fst t)) as [a2 t2]. cbn [fst snd] in *. subst a2 t2.
    destruct (IH (fun b Hb => H b (or_intror Hb)) t1) as [B1 B2].
    destruct (thread hl l t1) as [l1 t3]. destruct (thread h l (fst t1)) as [l2 t4]. cbn [fst snd] in *.
    subst. split; reflexivity.
  Qed.

  Lemma logged_refs o : forall t, fst (map_refs_st (logged f) o t) = fst (map_refs_st f o (fst t)) /\
    fst (snd (map_refs_st (logged f) o t)) = snd (map_refs_st f o (fst t)).
  Proof.
    induction o as [q|l IH|l IH] using obj_ind'; intro t.
    - destruct q; try (split; reflexivity). cbn [map_refs_st]. unfold logged. destruct (f (fst t) r). split; reflexivity.
    - cbn [map_refs_st]. rewrite Forall_forall in IH. destruct (thread_logged _ _ _ IH t) as [A B].
      destruct (thread (map_refs_st (logged f)) l t), (thread (map_refs_st f) l (fst t)). cbn [fst snd] in *. subst. split; reflexivity.
    - cbn [map_refs_st]. rewrite Forall_forall in IH.
      set (G := fun (e : bytes * obj) t => let '(v, t) := map_refs_st f (snd e) t in ((fst e, v), t)).
      set (GL := fun (e : bytes * obj) t => let '(v, t) := map_refs_st (logged f) (snd e) t in ((fst e, v), t)).
      assert (H : forall a, In a l -> forall t, fst (GL a t) = fst (G a (fst t)) /\ fst (snd (GL a t)) = snd (G a (fst t))).
      { intros a Ha t'. destruct (IH a Ha t') as [A B]. unfold G, GL.
        destruct (map_refs_st (logged f) (snd a) t'), (map_refs_st f (snd a) (fst t')). cbn [fst snd] in *. subst. split; reflexivity. }
      destruct (thread_logged _ _ _ H t) as [A B].
      destruct (thread GL l t), (thread G l (fst t)). cbn [fst snd] in *. subst. split; reflexivity.
  Qed.

  Lemma logged_item it t : fst (map_item_st (logged f) it t) = fst (map_item_st f it (fst t)) /\
    fst (snd (map_item_st (logged f) it t)) = snd (map_item_st f it (fst t)).
  Proof.
    destruct it as [id bd]. unfold map_item_st. cbn [fst snd]. unfold logged at 1 3.
    destruct (f (fst t) id) as [n t1]. set (t1' := (t1, snd t ++ [id])).
    change t1 with (fst t1'). clearbody t1'. clear t1.
    assert (E : fst (map_body_st (logged f) bd t1') = fst (map_body_st f bd (fst t1')) /\
      fst (snd (map_body_st (logged f) bd t1')) = snd (map_body_st f bd (fst t1'))).
    { destruct bd as [o|es d]; cbn [map_body_st].
      - destruct (logged_refs o t1') as [A B].
        destruct (map_refs_st (logged f) o t1'), (map_refs_st f o (fst t1')). cbn [fst snd] in *. subst. split; reflexivity.
      - destruct (logged_refs (ODict es) t1') as [A B]. cbn [map_refs_st] in A, B. unfold map_entries_st.
        destruct (thread _ es t1'), (thread _ es (fst t1')). cbn [fst snd] in *. injection A as ->. subst. split; reflexivity. }
    destruct E as [A B].
    destruct (map_body_st (logged f) bd t1'), (map_body_st f bd (fst t1')). cbn [fst snd] in *. subst. split; reflexivity.
  Qed.

  Lemma logged_items l t : fst (thread (map_item_st (logged f)) l t) = fst (thread (map_item_st f) l (fst t)) /\
    fst (snd (thread (map_item_st (logged f)) l t)) = snd (thread (map_item_st f) l (fst t)).
  Proof. apply thread_logged. intros a _ t'. apply logged_item. Qed.
End Calls.

(** ** Uniform histories *)

Definition uniform (p : bool) (l : list placed) : Prop := Forall (fun pl => pl_style pl = p /\ pl_nl pl = p) l.

Lemma uniform_layout p l k : uniform p l -> uniform p k -> map pl_item l = map pl_item k -> l = k.
Proof.
  intros Hl. revert k. induction Hl as [|[s n i] l [A B] H IH]; intros k Hk E.
  - destruct k; [reflexivity|discriminate].
  - destruct k as [|[s' n' i'] k]; [discriminate|]. inversion Hk as [|? ? [C D] Hk']; subst.
    cbn [map pl_item pl_style pl_nl] in *. injection E as -> E. rewrite (IH k Hk' E). subst. reflexivity.
Qed.

Lemma uniform_thread {T} (f : T -> Z -> Z * T) p nl l : forall t,
  Forall (fun pl => pl_style pl = p) l ->
  Forall (fun pl => pl_style pl = p /\ pl_nl pl = nl) (fst (thread (map_placed_st f nl) l t)).
Proof.
  induction l as [|pl l IH]; intros t H; [constructor|]. inversion H as [|? ? A B]; subst.
  rewrite thread_cons. unfold map_placed_st at 1. destruct (map_item_st f (pl_item pl) t) as [it t1].
  specialize (IH t1 B). destruct (thread _ l t1) as [l' t2]. cbn [fst] in *. constructor; [split; reflexivity|exact IH].
Qed.

Lemma hist_uniform_pretty p h : hist_uniform p h -> hist_pretty h = p.
Proof. induction h; cbn [hist_uniform hist_pretty]; intuition. Qed.

Lemma run_uniform p h : hist_typed h -> hist_uniform p h -> forall c, run h = Some c ->
  exists l, holds [] l c /\ map pl_item l = hist_items h /\ uniform p l /\ c_pretty c = p.
Proof.
  induction h as [q|h IH id o|h IH id es data|h1 IH1 h2 IH2|h IH m|h1 IH1 h2 IH2 T f s];
    cbn [hist_typed hist_uniform run hist_items]; intros Ht Hu c Hc.
  - injection Hc as <-. exists []. split; [split; reflexivity|]. split; [reflexivity|]. split; [constructor|].
    subst. reflexivity.
  - destruct Ht as [Ht _]. destruct (run h) as [c0|]; [|discriminate]. injection Hc as <-.
    destruct (IH Ht Hu c0 eq_refl) as (l & A & B & C & D).
    destruct (object_holds [] l c0 id o A) as [E F].
    exists (l ++ [mkPl (c_pretty c0) (c_pretty c0) (id, BObj o)]). split; [exact E|].
    split; [rewrite map_app, B; reflexivity|]. split; [|congruence].
    apply Forall_app. split; [exact C|]. constructor; [|constructor]. cbn. subst. split; reflexivity.
  - destruct Ht as [Ht _]. destruct (run h) as [c0|]; [|discriminate].
    destruct (IH Ht Hu c0 eq_refl) as (l & A & B & C & D).
    destruct (stream_holds [] l c0 id es data c A Hc) as [E F].
    exists (l ++ [mkPl (c_pretty c0) (c_pretty c0) (id, BStream es data)]). split; [exact E|].
    split; [rewrite map_app, B; reflexivity|]. split; [|congruence].
    apply Forall_app. split; [exact C|]. constructor; [|constructor]. cbn. subst. split; reflexivity.
  - destruct Ht as [T1 T2]. destruct Hu as [U1 U2].
    destruct (run h1) as [c1|]; [|discriminate]. destruct (run h2) as [c2|]; [|discriminate]. injection Hc as <-.
    destruct (IH1 T1 U1 c1 eq_refl) as (l & A & B & C & D). destruct (IH2 T2 U2 c2 eq_refl) as (k & A' & B' & C' & D').
    exists (l ++ k). split; [apply extend_holds; assumption|]. split; [rewrite map_app; congruence|].
    split; [apply Forall_app; split; assumption|exact D].
  - destruct (run h) as [c0|]; [|discriminate]. injection Hc as <-.
    destruct (IH Ht Hu c0 eq_refl) as (l & A & B & C & D). exists l. split; [exact A|]. split; [exact B|]. split; assumption.
  - destruct Ht as [T1 [T2 T3]]. destruct Hu as [U1 U2].
    destruct (run h1) as [c1|]; [|discriminate]. destruct (run h2) as [c2|]; [|discriminate].
    destruct (IH1 T1 U1 c1 eq_refl) as (k & A & B & C & D). destruct (IH2 T2 U2 c2 eq_refl) as (l & A' & B' & C' & D').
    destruct (renumber_holds f [] [] l k c2 c1 s A' A) as (c' & E & F & G & _).
    { rewrite B'. apply items_typed. exact T2. }
    rewrite E in Hc. injection Hc as <-. exists (k ++ fst (thread (map_placed_st f (c_pretty c1)) l s)).
    split; [exact F|]. destruct (thread_placed f (c_pretty c1) l s) as [P _].
    split; [rewrite map_app, B, P, B'; reflexivity|].
    split; [|congruence]. apply Forall_app. split; [exact C|]. rewrite D.
    apply uniform_thread. eapply Forall_impl; [|exact C']. cbn. intuition.
Qed.

Lemma anew_items p l : hist_items (written_anew p l) = l.
Proof.
  unfold written_anew.
  assert (H : forall h, hist_items (fold_left write_item l h) = hist_items h ++ l).
  { induction l as [|[id b] l IH]; intro h; cbn [fold_left]; [rewrite app_nil_r; reflexivity|].
    rewrite IH. unfold write_item. cbn [fst snd]. destruct b; cbn [hist_items]; rewrite <- app_assoc; reflexivity. }
  rewrite H. reflexivity.
Qed.

Lemma anew_typed p l : forallb item_typed l = true -> hist_typed (written_anew p l).
Proof.
  unfold written_anew. intro Hl.
  assert (H : forall h, hist_typed h -> hist_typed (fold_left write_item l h)).
  { induction l as [|[id b] l IH]; intros h Hh; cbn [fold_left]; [exact Hh|]. cbn [forallb] in Hl.
    apply andb_true_iff in Hl. destruct Hl as [A B]. apply (IH B). unfold write_item. cbn [fst snd].
    destruct b; split; assumption. }
  apply H. exact I.
Qed.

Lemma anew_uniform p l : hist_uniform p (written_anew p l).
Proof.
  unfold written_anew.
  assert (H : forall h, hist_uniform p h -> hist_uniform p (fold_left write_item l h)).
  { induction l as [|[id b] l IH]; intros h Hh; cbn [fold_left]; [exact Hh|]. apply IH. unfold write_item. cbn [fst snd].
    destruct b; exact Hh. }
  apply H. reflexivity.
Qed.

Lemma anew_run p l : forallb item_typed l = true -> items_fit l = true ->
  exists c k, run (written_anew p l) = Some c /\ holds [] k c /\ map pl_item k = l /\ uniform p k /\ c_pretty c = p.
Proof.
  intros Ht Hf. pose proof (anew_typed p l Ht) as HT. pose proof (run_holds _ HT) as R. rewrite anew_items, Hf in R.
  destruct R as (c & _ & R & _). destruct (run_uniform p _ HT (anew_uniform p l) c R) as (k & A & B & C & D).
  exists c, k. rewrite anew_items in B. repeat split; try assumption; apply A.
Qed.

Lemma fits_of_run h c : hist_typed h -> run h = Some c -> items_fit (hist_items h) = true.
Proof. intros Ht Hc. pose proof (run_holds h Ht) as R. destruct (items_fit (hist_items h)); [reflexivity|]. congruence. Qed.

(** ** The scanner on arbitrary bytes *)

Section Arbitrary.
  Context {T : Type} (f : T -> Z -> Z * T).

  Lemma replaced_app t a b t1 c d t2 : replaced f t a b t1 -> replaced f t1 c d t2 -> replaced f t (a ++ c) (b ++ d) t2.
  Proof.
    induction 1 as [t|t x a b t' H IH|t id dg w1 gen g w2 new t1 a b t' H1 H2 H3 H4 H5 H6 H7 IH]; intro H0.
    - exact H0.
    - cbn [app]. constructor. apply IH. exact H0.
    - rewrite <- !app_assoc. eapply Rep_ref; eauto.
  Qed.

  Lemma replaced_refl t a : replaced f t a a t.
  Proof. induction a; constructor. assumption. Qed.

  Lemma parse_i32_digits d v : forallb is_digit d = true -> parse_i32 d = Some v -> digits v d /\ v <= i32_max.
  Proof.
    intros Hd. unfold parse_i32. destruct d as [|c d]; [discriminate|].
    match goal with |- (if ?c then _ else _) = _ -> _ => destruct c eqn:E end; [|discriminate].
    intro H. injection H as <-. split; [|apply Z.leb_le; exact E].
    split; [discriminate|]. split; [exact Hd|reflexivity].
  Qed.

  Lemma validate_ref_inv pre h id gen : validate_ref pre = Some (h, id, gen) ->
    exists p d w1 g w2, pre = p ++ d ++ w1 ++ g ++ w2 /\ length p = h /\ digits id d /\ gap w1 /\ digits gen g /\ gap w2 /\
      0 < id <= i32_max.
  Proof.
    unfold validate_ref, require_whitespace_rev, eat_number_rev.
    destruct (eat_suffix rn_whitespace pre) as [p1 t1] eqn:E1.
    destruct t1 as [|a1 t1]; [discriminate|]. cbn [negb].
    destruct (eat_suffix is_digit p1) as [p2 t2] eqn:E2.
    destruct (parse_i32 t2) as [g|] eqn:P2; [|discriminate].
    destruct (eat_suffix rn_whitespace p2) as [p3 t3] eqn:E3.
    destruct t3 as [|a3 t3]; [discriminate|]. cbn [negb].
    destruct (eat_suffix is_digit p3) as [p4 t4] eqn:E4.
    destruct (parse_i32 t4) as [i|] eqn:P4; [|discriminate].
    destruct (0 <? i)%Z eqn:Ei; [|discriminate].
    intro H. injection H as <- <- <-.
    apply eat_suffix_split in E1, E2, E3, E4.
    destruct E1 as [-> F1], E2 as [-> F2], E3 as [-> F3], E4 as [-> F4].
    apply (parse_i32_digits _ _ F2) in P2. apply (parse_i32_digits _ _ F4) in P4.
    exists p4, t4, (a3 :: t3), t2, (a1 :: t1). split; [rewrite <- !app_assoc; reflexivity|].
    split; [reflexivity|]. destruct P2 as [P2 _], P4 as [P4 P4']. repeat split; try assumption; try discriminate;
      try apply P2; try apply P4; try lia.
  Qed.

  (** The state of the eager scanner after [pre]: up to the last replaced reference the
      output is a replacement of the input, and the rest of [pre] was copied. *)
  Lemma eager_replaced : forall fuel pre rest b s, (length rest < fuel)%nat ->
    forall t0 base q out p1, pre = q ++ p1 -> inner b = base ++ out ++ p1 -> replaced f t0 q out s ->
      w_inv pre (length q) ->
    exists b' s' r, eager f fuel pre rest b s = Some (b', s') /\ inner b' = base ++ r /\
      replaced f t0 (pre ++ rest) r s'.
  Proof.
    induction fuel as [|fuel IH]; intros pre rest b s Hf t0 base q out p1 Hpre Hb Hr Hw; [lia|].
    cbn [eager]. destruct rest as [|c r].
    - exists b, s, (out ++ p1). split; [reflexivity|]. split; [exact Hb|].
      rewrite app_nil_r, Hpre. eapply replaced_app; [exact Hr|apply replaced_refl].
    - cbn [length] in Hf.
      assert (Hcopy : forall n, (1 <= n)%nat -> exists b' s' r0,
        eager f fuel (pre ++ firstn n (c :: r)) (skipn n (c :: r)) (extend (firstn n (c :: r)) b) s = Some (b', s') /\
        inner b' = base ++ r0 /\ replaced f t0 (pre ++ c :: r) r0 s').
      { intros n Hn.
        destruct (IH (pre ++ firstn n (c :: r)) (skipn n (c :: r)) (extend (firstn n (c :: r)) b) s) with
          (t0 := t0) (base := base) (q := q) (out := out) (p1 := p1 ++ firstn n (c :: r)) as (b' & s' & r0 & A & B & C).
        - rewrite skipn_length. cbn [length]. lia.
        - rewrite Hpre, <- app_assoc. reflexivity.
        - unfold extend. cbn [inner]. rewrite Hb, <- !app_assoc. reflexivity.
        - exact Hr.
        - apply w_inv_app. exact Hw.
        - exists b', s', r0. split; [exact A|]. split; [exact B|].
          rewrite <- app_assoc, firstn_skipn in C. exact C. }
      destruct (beq c x52) eqn:Ec.
      + apply beq_spec in Ec. subst c.
        destruct (validate_ref pre) as [[[head id] gen]|] eqn:EV; [|apply (Hcopy 1%nat); lia].
        pose proof (ref_after_written f _ _ _ _ _ Hw EV) as Hh.
        destruct (validate_ref_inv _ _ _ _ EV) as (p & d & w1 & g & w2 & E & El & D1 & G1 & D2 & G2 & Hi).
        destruct (f s id) as [new s1] eqn:Ef.
        assert (Ep : exists m, p = q ++ m /\ p1 = m ++ d ++ w1 ++ g ++ w2).
        { rewrite Hpre in E. apply app_eq_app in E. destruct E as [m [[E1 E2]|[E1 E2]]].
          - assert (m = []) by (destruct m; [reflexivity|]; subst; rewrite app_length in Hh; cbn [length] in Hh; lia).
            subst m. exists []. rewrite app_nil_r in *. split; [congruence|]. cbn [app] in *. congruence.
          - exists m. split; assumption. }
        destruct Ep as (m & Ep & Ep1).
        destruct (IH (pre ++ [x52]) r (push_ref new gen (drop_last (length pre - head) b)) s1) with
          (t0 := t0) (base := base) (q := pre ++ [x52]) (p1 := @nil byte)
          (out := out ++ m ++ dec_i new ++ [x20] ++ dec_i gen ++ [x20; x52]) as (b' & s' & r0 & A & B & C).
        * lia.
        * rewrite app_nil_r. reflexivity.
        * unfold push_ref, push, push_int, extend, with_limits, drop_last. cbn [inner].
          assert (EF : firstn (length (inner b) - (length pre - head)) (inner b) = base ++ out ++ m).
          { rewrite Hb, Ep1.
            replace (base ++ out ++ m ++ d ++ w1 ++ g ++ w2) with ((base ++ out ++ m) ++ (d ++ w1 ++ g ++ w2)) by (rewrite <- !app_assoc; reflexivity).
            set (tl := d ++ w1 ++ g ++ w2) in *.
            replace (length pre - head)%nat with (length tl) by (subst head; rewrite E, app_length; unfold tl; lia).
            rewrite app_length.
            replace (length (base ++ out ++ m) + length tl - length tl)%nat with (length (base ++ out ++ m)) by lia.
            apply firstn_mid. }
          rewrite EF. rewrite <- !app_assoc. cbn [app]. reflexivity.
        * replace (pre ++ [x52]) with (q ++ m ++ (d ++ w1 ++ g ++ w2 ++ [x52] ++ []))
            by (rewrite E, Ep, <- !app_assoc; reflexivity).
          eapply replaced_app; [exact Hr|]. eapply replaced_app; [apply replaced_refl|].
          replace (dec_i new ++ [x20] ++ dec_i gen ++ [x20; x52]) with (dec_i new ++ [x20] ++ dec_i gen ++ [x20; x52] ++ []) by reflexivity.
          eapply Rep_ref; eauto. constructor.
        * split; [lia|right]. rewrite app_length. cbn [length].
          replace (length pre + 1 - 1)%nat with (length pre) by lia. apply nth_error_mid.
        * exists b', s', r0. split; [exact A|]. split; [exact B|].
          rewrite <- app_assoc in C. exact C.
      + cbv zeta. apply Hcopy. destruct (beq c x25); [lia|]. destruct (beq c x28); [lia|].
        destruct (_ && _ && _); cbn [length]; lia.
  Qed.

  Lemma patch_replaced slice b s : exists b' s' r,
    patch_object f slice b s = Some (b', s') /\ inner b' = inner b ++ r /\ replaced f s slice r s'.
  Proof.
    rewrite patch_object_eag. unfold eag.
    destruct (eager_replaced (S (length slice)) [] slice b s) with
      (t0 := s) (base := inner b) (q := @nil byte) (out := @nil byte) (p1 := @nil byte) as (b' & s' & r & H).
    - lia.
    - reflexivity.
    - rewrite !app_nil_r. reflexivity.
    - constructor.
    - split; [cbn; lia|left; reflexivity].
    - exists b', s', r. exact H.
  Qed.

  (** Offsets ascending and inside the bytes. *)
  Lemma loop_never_panics src nl : forall offsets b o s,
    (forall i x y, nth_error (map snd offsets ++ [blen src]) i = Some x ->
                   nth_error (map snd offsets ++ [blen src]) (S i) = Some y -> 0 <= x <= y) ->
    renumber_loop f src offsets nl b o s <> None.
  Proof.
    induction offsets as [|[id off] iter IH]; intros b o s H; cbn [renumber_loop]; [discriminate|].
    assert (Hi : forall i x y, nth_error (map snd iter ++ [blen src]) i = Some x ->
                   nth_error (map snd iter ++ [blen src]) (S i) = Some y -> 0 <= x <= y).
    { intros i x y A B. apply (H (S i)); [exact A|exact B]. }
    assert (Hlast : forall l : list (Z * Z), (forall i x y, nth_error (map snd l ++ [blen src]) i = Some x ->
                   nth_error (map snd l ++ [blen src]) (S i) = Some y -> 0 <= x <= y) ->
       match l with [] => blen src | (_, x) :: _ => x end <= blen src).
    { clear. induction l as [|[a x] l IH]; intro H; [lia|].
      assert (Hl : match l with [] => blen src | (_, x) :: _ => x end <= blen src).
      { apply IH. intros i u v A B. apply (H (S i)); [exact A|exact B]. }
      destruct l as [|[a' x'] l]; pose proof (H 0%nat) as H0; cbn [map snd app nth_error] in H0.
      - specialize (H0 _ _ eq_refl eq_refl). lia.
      - specialize (H0 _ _ eq_refl eq_refl). lia. }
    specialize (Hlast iter Hi).
    assert (H0 : 0 <= off <= match iter with [] => blen src | (_, x) :: _ => x end).
    { pose proof (H 0%nat) as H0. destruct iter as [|[a x] iter]; cbn [map snd app nth_error] in H0;
        apply (H0 _ _ eq_refl eq_refl). }
    destruct (f s id) as [new s1].
    set (stop := match iter with [] => blen src | (_, x) :: _ => x end) in *.
    rewrite slice_get_eq by (unfold blen in *; lia).
    destruct (extract_object _) as [[gen slice]|]; [|apply IH; exact Hi].
    destruct (patch_replaced slice (extend (lit " obj" ++ [x0a]) (push_int gen (push x20 (push_int new b)))) s1)
      as (b' & s' & r & E & _). rewrite E. apply IH. exact Hi.
  Qed.
End Arbitrary.
