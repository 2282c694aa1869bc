(** Proofs for the typed writers: generic lemmas. *)

From Coq Require Import ZArith List Lia Bool.
From Verif Require Import Bytes ModelFloat ModelBuf ModelObject ModelColor SpecLex SpecObj SpecText SpecMeans SpecTyped SpecColor
  ProofBasic ProofText ProofFloat2 ProofObj ProofParse ProofTree ProofPrint PropTree.
Import ListNotations.
Local Open Scope Z_scope.

Lemma reads_means o (P : val -> Prop) :
  obj_ok o = true -> names_nonempty o = true -> (forall v, means o v -> P v) -> reads o P.
Proof.
  intros Hok Hn HP indent pretty pad b.
  destruct (C11_tree_alone o (obj_direct indent pretty pad) b eq_refl Hok) as (s & v & H1 & H2 & H3).
  { right. apply C11_nonempty_names_suffice. exact Hn. }
  exists s, v. auto.
Qed.

Definition entry_rel (e : bytes * obj) (x : bytes * (val -> Prop)) : Prop :=
  fst e = fst x /\ forall v, means (snd e) v -> snd x v.

Lemma means_dict es xs v : Forall2 entry_rel es xs -> means (ODict es) v -> is_dict xs v.
Proof.
  intros H M. inversion M as [| | | | | | | | | | | |l vs F E1 E2]; subst.
  exists vs. split; [reflexivity|]. clear M. revert vs F. induction H as [|e x es xs [H1 H2] H IH]; intros vs F.
  - inversion F; subst. constructor.
  - inversion F as [|? y ? ys [K1 K2] F']; subst. constructor; [|apply IH; exact F'].
    split; [congruence|]. apply H2. exact K2.
Qed.

Lemma means_array os ps v : Forall2 (fun o (p : val -> Prop) => forall v, means o v -> p v) os ps ->
  means (OArray os) v -> is_array ps v.
Proof.
  intros H M. inversion M as [| | | | | | | | | | |l vs F E1 E2|]; subst.
  exists vs. split; [reflexivity|]. clear M. revert vs F. induction H as [|o p os ps H1 H IH]; intros vs F.
  - inversion F; subst. constructor.
  - inversion F; subst. constructor; auto.
Qed.

Lemma means_array_of {A} (f : A -> obj) (p : A -> val -> Prop) l v :
  (forall a v, means (f a) v -> p a v) -> means (OArray (map f l)) v -> is_array_of p l v.
Proof.
  intros H M. inversion M as [| | | | | | | | | | |l' vs F E1 E2|]; subst.
  exists vs. split; [reflexivity|]. clear M. revert vs F. induction l as [|a l IH]; intros vs F.
  - inversion F; subst. constructor.
  - inversion F; subst. constructor; auto.
Qed.

Lemma means_map_dict {C} (f : C -> bytes * obj) (g : C -> bytes * (val -> Prop)) cs :
  (forall c, entry_rel (f c) (g c)) -> Forall2 entry_rel (map f cs) (map g cs).
Proof. intro H. induction cs; cbn; constructor; auto. Qed.

Lemma m_name n v : means (OPrim (PName n)) v -> is_name n v.
Proof. intro M. inversion M; subst. reflexivity. Qed.
Lemma m_int n v : means (OPrim (PInt n)) v -> is_int n v.
Proof. intro M. inversion M; subst. reflexivity. Qed.
Lemma m_ref n v : means (OPrim (PRef n)) v -> is_ref n v.
Proof. intro M. inversion M; subst. reflexivity. Qed.
Lemma m_bool n v : means (OPrim (PBool n)) v -> is_bool n v.
Proof. intro M. inversion M; subst. reflexivity. Qed.
Lemma m_str n v : means (OPrim (PStr n)) v -> is_str n v.
Proof. intro M. inversion M; subst. reflexivity. Qed.
Lemma m_real n v : means (OPrim (PReal n)) v -> is_real n v.
Proof. intro M. inversion M; subst. assumption. Qed.
Lemma m_text n v : means (OPrim (PText n)) v -> is_text n v.
Proof. intro M. inversion M; subst. eexists. split; [reflexivity|assumption]. Qed.
Lemma m_rect n v : means (OPrim (PRect n)) v -> is_rect n v.
Proof. intro M. inversion M; subst. do 4 eexists. split; [reflexivity|]. auto. Qed.

Lemma m_reals l v : means (reals l) v -> is_reals l v.
Proof. apply means_array_of. exact m_real. Qed.
Lemma m_names l v : means (names l) v -> is_names l v.
Proof. apply means_array_of. exact m_name. Qed.
Lemma m_refs l v : means (refs l) v -> is_refs l v.
Proof. apply means_array_of. exact m_ref. Qed.
Lemma m_ints l v : means (ints l) v -> is_array_of is_int l v.
Proof. apply means_array_of. exact m_int. Qed.
Lemma m_bools l v : means (bools l) v -> is_array_of is_bool l v.
Proof. apply means_array_of. exact m_bool. Qed.

Lemma entry_opt {A} key (f : A -> obj) (p : A -> val -> Prop) o :
  (forall a v, means (f a) v -> p a v) -> Forall2 entry_rel (opt_pair key f o) (entry_if key p o).
Proof. intro H. destruct o; cbn; constructor; [|constructor]. split; [reflexivity|]. cbn. apply H. Qed.

Lemma m_exp l v : means (exp_obj l) v -> is_exponential l v.
Proof.
  apply means_dict. constructor; [split; [reflexivity|exact (m_int 2)]|].
  apply means_map_dict. intros []; (split; [reflexivity|]); cbn; first [apply m_reals|apply m_real].
Qed.
Lemma m_stitch l v : means (stitch_obj l) v -> is_stitching l v.
Proof.
  apply means_dict. constructor; [split; [reflexivity|exact (m_int 3)]|].
  apply means_map_dict. intros []; (split; [reflexivity|]); cbn; first [apply m_reals|apply m_refs].
Qed.
Lemma m_real_dict l v : means (real_dict l) v -> is_real_dict l v.
Proof. apply means_dict. apply means_map_dict. intros [n f]. split; [reflexivity|]. cbn. apply m_real. Qed.
Lemma m_mix l v : means (ODict (map mix_entry l)) v -> is_dict (map mix_reads l) v.
Proof.
  apply means_dict. apply means_map_dict.
  intros []; (split; [reflexivity|]); cbn; first [apply m_real_dict|apply m_names].
Qed.

(** ** Arguments that are fine give objects that are fine *)

Definition fine (o : obj) : bool := obj_ok o && names_nonempty o.

Lemma fine_array l : fine (OArray l) = forallb fine l.
Proof.
  unfold fine. cbn [obj_ok names_nonempty]. induction l as [|o l IH]; [reflexivity|].
  cbn [forallb]. rewrite <- IH. destruct (obj_ok o), (names_nonempty o), (forallb obj_ok l); reflexivity.
Qed.
Lemma fine_dict l : fine (ODict l) = forallb (fun e => name_ok (fst e) && fine (snd e)) l.
Proof.
  unfold fine. cbn [obj_ok names_nonempty]. induction l as [|o l IH]; [reflexivity|].
  cbn [forallb]. rewrite <- IH. unfold name_ok.
  destruct (obj_ok (snd o)), (names_nonempty (snd o)), (is_nil (fst o)), (forallb (fun e => obj_ok (snd e)) l); reflexivity.
Qed.
Lemma fine_name n : fine (OPrim (PName n)) = name_ok n.
Proof. destruct n; reflexivity. Qed.
Lemma fine_real n : fine (OPrim (PReal n)) = real_ok n.
Proof. unfold fine. cbn. apply andb_true_r. Qed.
Lemma fine_ref n : fine (OPrim (PRef n)) = ref_ok n.
Proof. unfold fine. cbn. apply andb_true_r. Qed.
Lemma fine_int n : fine (OPrim (PInt n)) = in_i32 n.
Proof. unfold fine. cbn [obj_ok names_nonempty is_empty_name negb prim_ok]. apply andb_true_r. Qed.
Lemma forallb_map {A B} (f : A -> B) g l : forallb g (map f l) = forallb (fun a => g (f a)) l.
Proof. induction l; cbn; congruence. Qed.
Lemma forallb_ext' {A} (f g : A -> bool) l : (forall a, f a = g a) -> forallb f l = forallb g l.
Proof. intro H. induction l; cbn; congruence. Qed.
Lemma fine_reals l : fine (reals l) = forallb real_ok l.
Proof. unfold reals. rewrite fine_array, forallb_map. apply forallb_ext'. exact fine_real. Qed.
Lemma fine_names l : fine (names l) = forallb name_ok l.
Proof. unfold names. rewrite fine_array, forallb_map. apply forallb_ext'. exact fine_name. Qed.
Lemma fine_refs l : fine (refs l) = forallb ref_ok l.
Proof. unfold refs. rewrite fine_array, forallb_map. apply forallb_ext'. exact fine_ref. Qed.
Lemma fine_ints l : fine (ints l) = forallb in_i32 l.
Proof. unfold ints. rewrite fine_array, forallb_map. apply forallb_ext'. exact fine_int. Qed.

Lemma reads_fine o (P : val -> Prop) : fine o = true -> (forall v, means o v -> P v) -> reads o P.
Proof. intros H HP. apply andb_true_iff in H as [H1 H2]. apply reads_means; assumption. Qed.

Lemma forallb_impl {A} (f g : A -> bool) l :
  (forall a, f a = true -> g a = true) -> forallb f l = true -> forallb g l = true.
Proof. intros H F. rewrite forallb_forall in *. auto. Qed.

Lemma fine_exp l : forallb exp_ok l = true -> fine (exp_obj l) = true.
Proof.
  intro H. unfold exp_obj. rewrite fine_dict. cbn [forallb fst snd]. rewrite forallb_map.
  apply andb_true_iff. split; [reflexivity|]. revert H. apply forallb_impl.
  intros []; cbn [exp_ok exp_entry fst snd]; rewrite ?fine_reals, ?fine_real; intro H; exact H.
Qed.
Lemma fine_stitch l : forallb stitch_ok l = true -> fine (stitch_obj l) = true.
Proof.
  intro H. unfold stitch_obj. rewrite fine_dict. cbn [forallb fst snd]. rewrite forallb_map.
  apply andb_true_iff. split; [reflexivity|]. revert H. apply forallb_impl.
  intros []; cbn [stitch_ok stitch_entry fst snd]; rewrite ?fine_reals, ?fine_refs; intro H; exact H.
Qed.
Lemma fine_mix l : forallb mix_ok l = true -> fine (ODict (map mix_entry l)) = true.
Proof.
  intro H. rewrite fine_dict, forallb_map. revert H. apply forallb_impl.
  intros []; cbn [mix_ok mix_entry fst snd]; rewrite ?fine_names; unfold real_dict; rewrite ?fine_dict, ?forallb_map;
    intro H; cbn [andb]; try exact H.
  all: apply andb_true_iff; split; [reflexivity|]; rewrite <- H; apply forallb_ext'; intros []; cbn [fst snd]; rewrite fine_real; reflexivity.
Qed.
