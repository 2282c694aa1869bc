(** C44: setters with a documented range, outside the generated writers. *)

From Coq Require Import ZArith List Bool Lia.
From Verif Require Import Bytes ModelFloat ModelBuf ModelObject ModelColor ModelContent.
Import ListNotations.
Local Open Scope Z_scope.

(** A number that is not negative: plus infinity or a finite number from zero (of either sign) up; not NaN. *)
Definition nonnegative (w : f32) : Prop := w = FInf false \/ (f32_finite w = true /\ 0 <= f32_units w).

Lemma leb_zero w : f32_leb f32_zero w = true <-> nonnegative w.
Proof.
  unfold f32_leb, nonnegative. destruct w as [|[]|s m e]; cbn [f32_ltb f32_eqb f32_zero f32_finite orb negb].
  - split; [discriminate|intros [H|[H _]]; discriminate].
  - split; [discriminate|intros [H|[H _]]; discriminate].
  - split; [left; reflexivity|reflexivity].
  - change (f32_units (FFin false 0 (-149))) with 0. rewrite orb_true_iff, Z.ltb_lt, Z.eqb_eq. split.
    + intro H. right. split; [reflexivity|]. destruct H as [H|H]; [apply Z.lt_le_incl; exact H|rewrite <- H; apply Z.le_refl].
    + intros [H|[_ H]]; [discriminate|]. apply Z.le_lteq in H. exact H.
Qed.

(** A content stream history panics exactly if it sets a line width that is negative or NaN, or a flatness
    outside 0..=100. *)
Theorem C44_content : forall calls c,
  content_run calls c = None <->
  (exists w, In (CSetLineWidth w) calls /\ ~ nonnegative w) \/
  (exists v, In (CSetFlatness v) calls /\ ~ (0 <= v <= 100)).
Proof.
  induction calls as [|a calls IH]; intro c; cbn [content_run].
  - split; [discriminate|]. intros [(w & [] & _)|(v & [] & _)].
  - unfold content_step. destruct (call_allowed a) eqn:E.
    + destruct (call_op a) as [os op]. rewrite IH. split.
      * intros [(w & I & N)|(v & I & N)]; [left; exists w|right; exists v]; (split; [right; exact I|exact N]).
      * intros [(w & [->|I] & N)|(v & [->|I] & N)].
        -- cbn [call_allowed] in E. apply leb_zero in E. contradiction.
        -- left. exists w. split; assumption.
        -- cbn [call_allowed] in E. apply andb_true_iff in E as [E1 E2]. apply Z.leb_le in E1. apply Z.leb_le in E2. lia.
        -- right. exists v. split; assumption.
    + split; [intros _|reflexivity].
      destruct a; cbn [call_allowed] in E; try discriminate E.
      * left. eexists. split; [left; reflexivity|]. intro N. apply leb_zero in N. congruence.
      * right. eexists. split; [left; reflexivity|]. intros [N1 N2].
        apply Z.leb_le in N1. apply Z.leb_le in N2. rewrite N1, N2 in E. discriminate.
Qed.

(** [IccProfile::n] accepts 1, 3 and 4 components and nothing else. *)
Theorem C44_icc_n : forall n, icc_entry (IccN n) <> None <-> n = 1 \/ n = 3 \/ n = 4.
Proof.
  intro n. cbn [icc_entry]. destruct (Z.eqb_spec n 1), (Z.eqb_spec n 3), (Z.eqb_spec n 4); cbn [orb]; split; intro H;
    try discriminate; try lia; try (contradiction H; reflexivity).
Qed.

Example C44_case : nonnegative f32_zero /\ nonnegative (FFin true 0 (-149)) /\ ~ nonnegative FNan /\
  content_run [CSetFlatness 100; CSetLineWidth f32_zero] content_new <> None /\ content_run [CSetFlatness 101] content_new = None.
Proof.
  split; [right; split; [reflexivity|vm_compute; discriminate]|].
  split; [right; split; [reflexivity|vm_compute; discriminate]|].
  split; [intros [H|[H _]]; discriminate|]. split; [vm_compute; discriminate|reflexivity].
Qed.

Print Assumptions C44_content.
Print Assumptions C44_icc_n.
