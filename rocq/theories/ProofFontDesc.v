(** Proofs about font descriptors. *)

From Coq Require Import ZArith List Bool.
From Verif Require Import Bytes ModelFloat ModelBuf ModelObject ModelColor ModelSmall ModelPdf ModelTw ModelEnums ModelTwArgs ModelFontDesc SpecLex SpecObj
  SpecText SpecMeans SpecPdf SpecTyped SpecColor SpecSmall SpecTw SpecEnums SpecTwArgs SpecFontDesc
  ProofTyped ProofColor ProofTw ProofEnums ProofTwArgs.
Import ListNotations.
Local Open Scope Z_scope.

Section fd_induction.
  Variables (P : fd_call -> Prop) (Q : ov_call -> Prop).
  Hypothesis Hp : forall c, (forall l, c <> Fd_override l) -> P c.
  Hypothesis Ho : forall l, Forall Q l -> P (Fd_override l).
  Hypothesis Hq : forall c, (forall k l, c <> Ov_custom_class k l) -> (forall k l, c <> Ov_cjk_class k l) -> Q c.
  Hypothesis Hc : forall k l, Forall P l -> Q (Ov_custom_class k l).
  Hypothesis Hj : forall k l, Forall P l -> Q (Ov_cjk_class k l).
  Fixpoint fd_call_rec (c : fd_call) : P c :=
    match c with
    | Fd_override l => Ho l ((fix go l : Forall Q l := match l with [] => Forall_nil _ | a :: l => Forall_cons a (ov_call_rec a) (go l) end) l)
    | c => Hp c (fun _ => ltac:(discriminate))
    end
  with ov_call_rec (c : ov_call) : Q c :=
    match c with
    | Ov_custom_class k l =>
      Hc k l ((fix go l : Forall P l := match l with [] => Forall_nil _ | a :: l => Forall_cons a (fd_call_rec a) (go l) end) l)
    | Ov_cjk_class k l =>
      Hj k l ((fix go l : Forall P l := match l with [] => Forall_nil _ | a :: l => Forall_cons a (fd_call_rec a) (go l) end) l)
    | c => Hq c (fun _ _ => ltac:(discriminate)) (fun _ _ => ltac:(discriminate))
    end.
End fd_induction.

Lemma cjk_same class : CjkClass_name class = cjk_name class.
Proof. destruct class; reflexivity. Qed.
Lemma cjk_ok class : name_ok (cjk_name class) = true.
Proof. destruct class; reflexivity. Qed.
Lemma fd_head_good : good_entries fd_header fd_head.
Proof. unfold fd_header, fd_head. tw_entries. Qed.
Lemma good_style a b l : Nat.eqb (length l) 10 = true ->
  good (ODict [(lit "Panose", OPrim (PStr (a :: b :: l)))]) (is_style a b l).
Proof.
  intro H. apply Nat.eqb_eq in H. unfold is_style. apply good_dict. apply good_cons; [reflexivity| |constructor].
  eapply good_weaken; [apply good_str|]. unfold is_str. intros v ->. exists (a :: b :: l).
  split; [reflexivity|]. split; [cbn [length]; rewrite H; reflexivity|]. split; [reflexivity|]. split; [reflexivity|].
  intros i _. reflexivity.
Qed.
Lemma good_flat {C} (f : C -> list (bytes * obj)) doc (ok : C -> bool) l :
  Forall (fun c => ok c = true -> good_entries (f c) (doc c)) l -> forallb ok l = true ->
  good_entries (flat_map f l) (flat_map doc l).
Proof.
  induction 1 as [|c l H F IH]; intro K; [constructor|]. cbn [forallb flat_map] in *. apply andb_true_iff in K as [K1 K2].
  apply good_entries_app; auto.
Qed.

Definition fd_P (c : fd_call) := fd_call_ok c = true -> good_entries (fd_entries c) (fd_doc c).
Definition ov_P (c : ov_call) := ov_call_ok c = true -> good_entries (ov_entries c) (ov_doc c).
Lemma fd_descriptor l : Forall fd_P l -> forallb fd_call_ok l = true ->
  good (ODict (fd_header ++ flat_map fd_entries l)) (is_dict (fd_head ++ flat_map fd_doc l)).
Proof. intros F K. apply good_dict. apply good_entries_app; [exact fd_head_good|]. eapply good_flat; eassumption. Qed.
Lemma fd_step c : (forall l, c <> Fd_override l) -> fd_P c.
Proof.
  intros N K. destruct c; try (contradiction (N calls); reflexivity); cbn [fd_entries fd_doc fd_call_ok] in *.
  all: match goal with
       | |- good_entries [(lit "Style", _)] _ => apply good_cons; [reflexivity|apply good_style; exact K|constructor]
       | |- good_entries [(?key, ?o)] [(?key, means ?o)] => apply andb_true_iff in K as [K1 K2]; apply good_cons; [exact K1|apply good_raw; exact K2|constructor]
       | _ => apply good_cons; [reflexivity|solve [auto with tw]|constructor]
       end.
Qed.
Lemma fd_over l : Forall ov_P l -> fd_P (Fd_override l).
Proof.
  intros F K. cbn [fd_entries fd_doc fd_call_ok] in *. apply good_cons; [reflexivity| |constructor].
  apply good_dict. eapply good_flat; eassumption.
Qed.
Lemma ov_step c : (forall k l, c <> Ov_custom_class k l) -> (forall k l, c <> Ov_cjk_class k l) -> ov_P c.
Proof.
  intros N M K. destruct c; cbn [ov_entries ov_doc ov_call_ok] in *.
  - contradiction (N class calls). reflexivity.
  - apply andb_true_iff in K as [K1 K2]. apply good_cons; [exact K1|apply good_ref; exact K2|constructor].
  - contradiction (M class calls). reflexivity.
  - rewrite cjk_same. apply good_cons; [apply cjk_ok|apply good_ref; exact K|constructor].
  - apply andb_true_iff in K as [K1 K2]. apply good_cons; [exact K1|apply good_raw; exact K2|constructor].
Qed.
Lemma ov_custom k l : Forall fd_P l -> ov_P (Ov_custom_class k l).
Proof.
  intros F K. cbn [ov_entries ov_doc ov_call_ok] in *. apply andb_true_iff in K as [K1 K2].
  apply good_cons; [exact K1|apply fd_descriptor; assumption|constructor].
Qed.
Lemma ov_cjk k l : Forall fd_P l -> ov_P (Ov_cjk_class k l).
Proof.
  intros F K. cbn [ov_entries ov_doc ov_call_ok] in *. rewrite cjk_same.
  apply good_cons; [apply cjk_ok|apply fd_descriptor; assumption|constructor].
Qed.
Lemma fd_all c : fd_P c.
Proof. exact (fd_call_rec fd_P ov_P fd_step fd_over ov_step ov_custom ov_cjk c). Qed.
Lemma ov_all c : ov_P c.
Proof. exact (ov_call_rec fd_P ov_P fd_step fd_over ov_step ov_custom ov_cjk c). Qed.
Lemma good_fd l : fd_ok l = true -> good (fd_obj l) (fd_reads l).
Proof. intro K. apply fd_descriptor; [|exact K]. apply Forall_forall. intros c _. apply fd_all. Qed.
