(** Property C99: a file of which only the first bytes were stored. *)

From Coq Require Import ZArith List Lia Bool Permutation Sorted ZifyBool.
From Verif Require Import Bytes ModelFloat ModelBuf ModelObject ModelRenumber ModelChunk ModelPdf SpecLex SpecObj SpecMeans
  SpecRenum SpecChunk SpecFile SpecPdf SpecLimits SpecSerial SpecCut ProofBasic ProofObj ProofParse ProofTree ProofRenum ProofXref ProofChunk ProofChunkParse ProofChunk2
  ProofFile ProofFile2 ProofPdf ProofFile3 ProofFile4 PropChunk PropPdf PropPdf2 PropSerial ProofCut ProofCut2 ProofCut3.
Import ListNotations.
Local Open Scope Z_scope.

Lemma firstn_forall2 {A B} (R : A -> B -> Prop) : forall k l m, Forall2 R l m -> Forall2 R (firstn k l) (firstn k m).
Proof.
  induction k as [|k IH]; intros l m H; [constructor|]. destruct H as [|x y l m Hx H]; [constructor|].
  cbn [firstn]. constructor; [exact Hx|apply IH; exact H].
Qed.

Lemma found_by_number decode file es tr l : read_file decode file = Some (es, tr) ->
  Forall (fun x => exists r, parse_indirect (from file (fst x)) = Some (snd x, r)) l ->
  Forall (fun x => snd (indirect_id (snd x)) = 0) l ->
  Forall (fun x => find_entry (fst (indirect_id (snd x))) es = Some (XUsed (fst x) 0)) l ->
  Forall (fun x => resolve decode file (fst (indirect_id (snd x))) = Some (snd x)) l.
Proof.
  intros RD A B C. rewrite Forall_forall in *. intros x Hx. specialize (A x Hx). specialize (B x Hx). specialize (C x Hx). cbv beta in *.
  unfold resolve. rewrite RD, C. destruct A as [r ->]. rewrite B, Z.eqb_refl. reflexivity.
Qed.

Lemma means_generation l m : Forall2 (fun it (x : Z * indirect) => item_means it (snd x)) l m -> Forall (fun x => snd (indirect_id (snd x)) = 0) m.
Proof. induction 1 as [|it x l m H _ IH]; constructor; [|exact IH]. destruct H; reflexivity. Qed.

Lemma firstn_forall {A} (P : A -> Prop) k l : Forall P l -> Forall P (firstn k l).
Proof. intro H. rewrite Forall_forall in *. intros x Hx. apply H. rewrite <- (firstn_skipn k l). apply in_or_app. left. exact Hx. Qed.

(** ** C99 *)

(** With a cross-reference table.  Whatever number of bytes was stored, what can be read of the objects is: those
    that end within these bytes, all of them, in the order in which they were written, each with the content it was
    given, and the same that the whole file gives for the number.  Nothing else is taken for an object. *)
Theorem C99_cut_short : forall decode pretty ops p file,
  ops_typed ops -> pdf_run ops (pdf_with_settings pretty) = Some p -> finish p = Some file ->
  ids_below (pdf_ids ops) -> blen file <= 10 ^ 10 ->
  Forall (fun it => body_readable (snd it) = true) (pdf_items ops) -> one_line (marker_of ops) = true ->
  exists objects,
    Forall2 (fun it x => item_means it (snd x)) (pdf_items ops) objects /\
    salvaged file = objects /\
    forall n,
      salvaged (cut n file) = List.filter (fun x => end_at file (fst x) <=? Z.of_nat n) objects /\
      (exists k, Forall2 (fun it x => item_means it (snd x)) (firstn k (pdf_items ops)) (salvaged (cut n file))) /\
      Forall (fun x => resolve decode file (fst (indirect_id (snd x))) = Some (snd x)) (salvaged (cut n file)).
Proof.
  intros decode pretty ops p file HT HR HF HB HL HA HM.
  destruct (C93_read_through decode pretty ops p file HT HR HF HB HL HA HM) as (objects & start & es & tr & RS & F2 & _ & RD & FE & _).
  exists objects. split; [exact F2|]. split; [exact (salvaged_all _ _ RS)|]. intro n.
  split; [exact (salvaged_cut _ _ n RS)|].
  destruct (salvaged_front _ _ n RS) as [k Hk]. cbn [se_objects] in Hk. rewrite Hk.
  split; [exists k; apply firstn_forall2; exact F2|]. apply firstn_forall.
  eapply found_by_number; [exact RD|exact (serial_reads _ _ RS)|exact (means_generation _ _ F2)|exact FE].
Qed.

(** With a cross-reference stream, which is an object itself, the last one. *)
Theorem C99_cut_short_stream : forall decode pretty ops p xref_id file,
  ops_typed ops -> pdf_run ops (pdf_with_settings pretty) = Some p ->
  id_ok xref_id = true -> ids_below (xref_id :: pdf_ids ops) ->
  finished_with_stream decode p xref_id file -> blen file < 2 ^ 64 ->
  Forall (fun it => body_readable (snd it) = true) (pdf_items ops) -> one_line (marker_of ops) = true ->
  exists objects start trailer data,
    let all := objects ++ [(start, IStream xref_id 0 trailer data)] in
    Forall2 (fun it x => item_means it (snd x)) (pdf_items ops) objects /\
    salvaged file = all /\
    forall n,
      salvaged (cut n file) = List.filter (fun x => end_at file (fst x) <=? Z.of_nat n) all /\
      (exists k, salvaged (cut n file) = firstn k all) /\
      Forall (fun x => resolve decode file (fst (indirect_id (snd x))) = Some (snd x)) (salvaged (cut n file)).
Proof.
  intros decode pretty ops p xref_id file HT HR HI HB HF HL HA HM.
  destruct (C93_read_through_stream decode pretty ops p xref_id file HT HR HI HB HF HL HA HM) as (objects & start & es & tr & data & RS & F2 & _ & RD & FE & _).
  exists objects, start, tr, data. split; [exact F2|]. split; [exact (salvaged_all _ _ RS)|]. intro n.
  split; [exact (salvaged_cut _ _ n RS)|].
  destruct (salvaged_front _ _ n RS) as [k Hk]. cbn [se_objects] in Hk. split; [exists k; exact Hk|]. rewrite Hk. apply firstn_forall.
  eapply found_by_number; [exact RD|exact (serial_reads _ _ RS)| |exact FE].
  apply Forall_app. split; [exact (means_generation _ _ F2)|]. constructor; [reflexivity|constructor].
Qed.

(** One byte less than an object needs loses this object and those after it. *)
Definition left_of (ops : list pdf_op) (n : nat) : option (option (list Z)) :=
  option_map (option_map (fun f => map (fun x => fst (indirect_id (snd x))) (salvaged (cut n f))))
    (option_map finish (pdf_run ops (pdf_with_settings false))).

Definition ends_of (ops : list pdf_op) : option (option (list Z)) :=
  option_map (option_map (fun f => map (fun x => end_at f (fst x)) (salvaged f)))
    (option_map finish (pdf_run ops (pdf_with_settings false))).

Example C99_case :
  let ops := example_ops in
  ops_typed ops /\ ids_below (pdf_ids ops) /\ one_line (marker_of ops) = true /\
  Forall (fun it => body_readable (snd it) = true) (pdf_items ops) /\
  ends_of ops = Some (Some [53; 123; 141; 162; 182; 227]) /\ left_of ops 10 = Some (Some []) /\ left_of ops 122 = Some (Some [7]) /\ left_of ops 123 = Some (Some [7; 2]) /\ left_of ops 1000 = Some (Some [7; 2; 4; 9; 3; 1]).
Proof.
  cbv zeta. split; [exact example_ops_typed|].
  split; [unfold ids_below; repeat constructor|]. split; [reflexivity|].
  split; [apply Forall_forall; apply forallb_forall; vm_compute; reflexivity|].
  repeat split; vm_compute; reflexivity.
Qed.

Print Assumptions C99_cut_short.
Print Assumptions C99_cut_short_stream.
