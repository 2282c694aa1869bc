(** Property C39: PostScript calculator functions. *)

From Coq Require Import ZArith List Lia Bool ZifyBool ZifyNat.
From Verif Require Import Bytes ModelFloat ModelBuf ModelPs SpecLex SpecText SpecMeans SpecPs ProofRound ProofPs.
Import ListNotations.
Local Open Scope Z_scope.

(** Any program, nested to any depth, reads back as itself. *)
Theorem C39_round_trip : forall ops, forallb ps_ok ops = true ->
  exists vs, ps_parse (inner (ps_encode ops)) = Some vs /\ Forall2 ps_means ops vs.
Proof.
  intros ops H. exists (map ps_val ops). split; [apply ps_encode_parses; assumption|].
  induction ops as [|o r IH]; [constructor|]. cbn [forallb map] in *. apply andb_true_iff in H.
  constructor; [apply ps_val_means|apply IH]; tauto.
Qed.

(** Real constants below 10^12 are read as reals (they are written with a period), integers as integers. *)
Theorem C39_types : forall ops, forallb ps_ok ops = true -> forallb ps_moderate ops = true ->
  exists vs, ps_parse (inner (ps_encode ops)) = Some vs /\ Forall2 ps_means ops vs /\ Forall2 same_types ops vs.
Proof.
  intros ops H Hm. destruct (C39_round_trip ops H) as (vs & H1 & H2). exists vs. split; [exact H1|]. split; [exact H2|].
  rewrite (ps_encode_parses ops H) in H1. injection H1 as <-. clear H2.
  induction ops as [|o r IH]; [constructor|]. cbn [forallb map] in *. apply andb_true_iff in H, Hm.
  constructor; [apply ps_val_types|apply IH]; tauto.
Qed.

(** From 10^12 on they are not: such a constant is read as an integer, one that does not fit 32 bits. *)
Theorem C39_large_real_refuted : exists r vs,
  real_ok r = true /\ ps_parse (inner (ps_encode [PsReal r])) = Some vs /\
  vs = [NInt 1000000000000] /\ ~ Forall2 same_types [PsReal r] vs.
Proof.
  exists f32_1e12. eexists. split; [reflexivity|]. split; [vm_compute; reflexivity|]. split; [reflexivity|].
  intro H. inversion H as [|? ? ? ? H1 H2]; subst. inversion H1.
Qed.

(** So different programs have different encodings. *)
Lemma means_same : forall o o' v, ps_means o v -> ps_means o' v -> same_types o v -> same_types o' v -> ps_same o o'.
Proof.
  assert (L : forall l, Forall (fun o => forall o' v, ps_means o v -> ps_means o' v -> same_types o v -> same_types o' v -> ps_same o o') l ->
     forall l' vs, Forall2 ps_means l vs -> Forall2 ps_means l' vs -> Forall2 same_types l vs -> Forall2 same_types l' vs -> Forall2 ps_same l l').
  { induction 1 as [|x l Hx Hl IH]; intros l' vs M M' S S'.
    - inversion M; subst. inversion M'; subst. constructor.
    - inversion M; subst. inversion M'; subst. inversion S; subst. inversion S'; subst. constructor; eauto. }
  induction o as [r|i|k|l IH|a c IHa IHc] using psop_ind'; intros o' v M M' S S'.
  - inversion S; subst. inversion M; subst. inversion S'; subst. inversion M'; subst. constructor. eapply rounds_to_unique; eassumption.
  - inversion M; subst. inversion S'; subst. inversion M'; subst. constructor.
  - inversion M; subst. inversion S'; subst. inversion M'; subst.
    match goal with E : ps_word ?a = ps_word ?b |- _ =>
      assert (b = a) as -> by (destruct a, b; first [reflexivity|discriminate E]) end. constructor.
  - inversion M; subst. inversion S'; subst. inversion M'; subst. inversion S; subst. constructor. eapply L; eassumption.
  - inversion M; subst. inversion S'; subst. inversion M'; subst. inversion S; subst. constructor; eapply L; eassumption.
Qed.

Theorem C39_encoding_is_faithful : forall ops ops',
  forallb ps_ok ops = true -> forallb ps_moderate ops = true -> forallb ps_ok ops' = true -> forallb ps_moderate ops' = true ->
  inner (ps_encode ops) = inner (ps_encode ops') -> Forall2 ps_same ops ops'.
Proof.
  intros ops ops' H1 H2 H3 H4 E. destruct (C39_types ops H1 H2) as (vs & P & M & S). destruct (C39_types ops' H3 H4) as (vs' & P' & M' & S').
  rewrite E, P' in P. injection P as <-. clear -M M' S S'. revert ops' M' S'.
  induction M as [|o v l vs HM M IH]; intros l' M' S'.
  - inversion M'; subst. constructor.
  - inversion M'; subst. inversion S'; subst. inversion S; subst. constructor; [eapply means_same; eassumption|apply IH; assumption].
Qed.

Definition example_ps : list psop :=
  [PsReal (FFin false 12582912 (-22)); PsReal (FFin false 8388608 (-22)); PsSimple PsMul; PsSimple PsExch; PsSimple PsDup;
   PsReal f32_zero; PsSimple PsGe;
   PsIfElse [PsInteger 1; PsSimple PsAdd; PsSimple PsTrue; PsIf []] [PsSimple PsNeg]; PsReal (FFin true 13421773 (-47)); PsSimple PsAdd].

Example C39_case : forallb ps_ok example_ps = true /\ forallb ps_moderate example_ps = true /\
  inner (ps_encode example_ps) = lit "{ 3.0 2.0 mul exch dup 0.0 ge { 1 add true {} if } {neg} ifelse -0.00000009536743 add }".
Proof. vm_compute. repeat split; reflexivity. Qed.

Print Assumptions C39_round_trip.
Print Assumptions C39_types.
Print Assumptions C39_encoding_is_faithful.
