(** Property C41: when the colours of the sides share one array. *)

From Coq Require Import ZArith List Lia Bool ZifyBool.
From Verif Require Import Bytes ModelFloat ModelBuf ModelObject ModelColor ModelSmall SpecLex SpecObj SpecText SpecMeans SpecTyped
  SpecColor SpecSmall ProofBasic ProofFloat ProofTyped ProofColor ProofSmall PropSmall.
Import ListNotations.
Local Open Scope Z_scope.

(** Two colours with equal components, as floats compare. *)
Definition same_color (a b : f3) : Prop :=
  Forall2 (fun x y => f32_eqb x y = true) (in_order3 a) (in_order3 b).

Lemma same_color_eqb a b : same_color a b <-> f3_eqb a b = true.
Proof.
  destruct a as [[a1 a2] a3], b as [[b1 b2] b3]. unfold same_color. cbn [in_order3 f3_eqb]. split.
  - intro F. inversion F as [|? ? ? ? E1 F1]; subst. inversion F1 as [|? ? ? ? E2 F2]; subst.
    inversion F2 as [|? ? ? ? E3 F3]; subst. rewrite E1, E2, E3. reflexivity.
  - intro E. apply andb_true_iff in E as [E E3]. apply andb_true_iff in E as [E1 E2]. repeat constructor; assumption.
Qed.

(** The array has three elements, and so is read as one colour for all sides, exactly if the four colours are equal; otherwise it
    has four. *)
Theorem C41_colors_shared : forall s, sides_forall (fun c => forallb real_ok (in_order3 c)) s = true ->
  reads (sides_colors s) (fun v => exists l, v = VArr l /\
    (List.length l = 3%nat \/ List.length l = 4%nat) /\
    (List.length l = 3%nat <->
     same_color (s_before s) (s_after s) /\ same_color (s_before s) (s_start s) /\ same_color (s_before s) (s_end s))).
Proof.
  intros s K. destruct (sides_colors_fm s K) as [W _]. apply reads_fine; [exact W|]. clear W.
  assert (E : forall c : f3, OArray (map OPrim (map PReal (l3 c))) = reals (l3 c)).
  { intro c. unfold reals. rewrite map_map. reflexivity. }
  intros v M. pose proof (same_color_eqb (s_before s) (s_after s)) as Q1. pose proof (same_color_eqb (s_before s) (s_start s)) as Q2.
  pose proof (same_color_eqb (s_before s) (s_end s)) as Q3. unfold sides_colors, sides_iter in M.
  destruct (is_uniform f3_eqb s) eqn:U; unfold is_uniform in U.
  - apply andb_true_iff in U as [U U3]. apply andb_true_iff in U as [U1 U2].
    rewrite E in M. apply m_reals in M. destruct M as (vs & -> & F). exists vs. split; [reflexivity|].
    destruct (s_before s) as [[b1 b2] b3]. cbn [l3] in F.
    inversion F as [|? ? ? ? R1 F1]; subst. inversion F1 as [|? ? ? ? R2 F2]; subst. inversion F2 as [|? ? ? ? R3 F3]; subst.
    inversion F3; subst. split; [left; reflexivity|]. split; [intros _|intros _; reflexivity]. tauto.
  - cbn [sides_array map] in M. rewrite !E in M. apply means_arr4 in M as (a & b & c & d & -> & _).
    exists [a; b; c; d]. split; [reflexivity|]. split; [right; reflexivity|]. split; [cbn [List.length]; discriminate|].
    intros (E1 & E2 & E3). apply Q1 in E1. apply Q2 in E2. apply Q3 in E3. rewrite E1, E2, E3 in U. discriminate U.
Qed.

Example C41_colors_shared_case :
  let one := FFin false 8388608 (-23) in
  let white := (one, one, one) in let red := (one, f32_zero, f32_zero) in
  inner (write_obj (sides_colors (mkSides white white white white)) (obj_direct 0 false false) buf_new) = lit "[1 1 1]" /\
  inner (write_obj (sides_colors (mkSides white white red white)) (obj_direct 0 false false) buf_new) = lit "[[1 1 1][1 1 1][1 0 0][1 1 1]]".
Proof. split; vm_compute; reflexivity. Qed.

Print Assumptions C41_colors_shared.
