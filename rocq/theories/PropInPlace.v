(** Property C36: contents written in pieces. *)

From Coq Require Import ZArith List Lia Bool ZifyBool ZifyNat.
From Verif Require Import Bytes ModelFloat ModelBuf ModelObject ModelContent SpecLex SpecObj SpecText SpecMeans SpecContent
  ProofBasic ProofText ProofFloat2 ProofObj ProofParse ProofTree ProofChunkParse ProofContent PropContent.
Import ListNotations.
Local Open Scope Z_scope.

Lemma run_total_app a b p c1 c2 : content_run a (content_with_settings p) = Some c1 -> content_run b (content_with_settings p) = Some c2 ->
  exists w, content_run (a ++ b) (content_with_settings p) = Some w.
Proof.
  intros A B. rewrite content_run_app, A. clear A. revert B. generalize (content_with_settings p). revert c1 c2.
  induction b as [|x b IH]; intros c1 c2 c B; [exists c1; reflexivity|]. cbn [content_run] in *. unfold content_step in *.
  destruct (call_allowed x); [|discriminate]. destruct (call_op x) as [os k]. eapply IH, B.
Qed.
Lemma units_ne p calls : forallb (ccall_ok p) calls = true -> Forall (u_ne p) (flat_map call_units calls).
Proof.
  intro Hr. apply Forall_forall. intros u Hu. apply in_flat_map in Hu. destruct Hu as (x & Hx & Hu).
  rewrite forallb_forall in Hr. pose proof (call_ok_ne _ _ (Hr x Hx)) as Hk. unfold op_ne in Hk.
  unfold call_units in Hu. destruct (call_op x) as [os k]. pose proof (op_units_ne p os k Hk) as Hf.
  rewrite Forall_forall in Hf. apply Hf, Hu.
Qed.
Lemma last_regular p calls c : calls <> [] -> forallb (ccall_ok p) calls = true -> content_run calls (content_with_settings p) = Some c ->
  exists d, last_byte (content_bytes c) = Some d /\ is_delimiter_character d = false.
Proof.
  intros N Hok Hr. destruct (last_byte (content_bytes c)) as [d|] eqn:L.
  - exists d. split; [reflexivity|].
    assert (Hd : is_regular d = true).
    { destruct (content_run_inner _ _ _ Hr (calls_ne _ _ Hok)) as [H1 _]. unfold content_bytes in L. rewrite H1 in L. clear H1 Hr.
      cbn [content_with_settings ct_buf ct_pretty buf_new inner app] in L.
      destruct calls as [|call r _] using rev_ind; [discriminate L|].
      rewrite flat_map_app in L. cbn [flat_map] in L. rewrite app_nil_r in L. rewrite forallb_app in Hok.
      apply andb_true_iff in Hok. destruct Hok as [Hr Hc]. cbn [forallb] in Hc. rewrite andb_true_r in Hc.
      assert (Hne : Forall (u_ne p) (flat_map call_units r)).
      { apply Forall_forall. intros u Hu. apply in_flat_map in Hu. destruct Hu as (x & Hx & Hu).
        rewrite forallb_forall in Hr. pose proof (call_ok_ne _ _ (Hr x Hx)) as Hk. unfold op_ne in Hk.
        unfold call_units in Hu. destruct (call_op x) as [os k]. pose proof (op_units_ne p os k Hk) as Hf.
        rewrite Forall_forall in Hf. apply Hf, Hu. }
      unfold ccall_ok in Hc. rewrite iso_call in Hc. unfold call_units in L at 2. destruct (call_op call) as [os k].
      rewrite !andb_true_iff in Hc. destruct Hc as [[_ Hk] _]. apply operator_ok_spec in Hk. destruct Hk as (Hk & Hreg & _).
      unfold op_units in L. rewrite app_assoc in L. rewrite c_out_app in L by (apply Forall_app; split; [exact Hne|apply operand_units_ne]).
      cbn [c_out u_body] in L. rewrite app_nil_r in L. rewrite app_assoc, last_byte_app_ne in L by exact Hk.
      eapply last_byte_forall; eassumption. }
    destruct d; try reflexivity; discriminate Hd.
  - exfalso. destruct (content_run_inner _ _ _ Hr (calls_ne _ _ Hok)) as [H1 _]. apply last_byte_none in L. unfold content_bytes in L. rewrite H1 in L.
    cbn [content_with_settings ct_buf ct_pretty buf_new inner app] in L. pose proof (units_ne p calls Hok) as F. destruct calls as [|x r]; [apply N; reflexivity|].
    cbn [flat_map] in *. unfold call_units in L at 1, F at 1. destruct (call_op x) as [os k]. unfold op_units in L, F.
    destruct os as [|o os]; cbn [operand_units app is_nil] in L, F; cbn [c_out] in L; inversion F as [|? ? F1 _]; subst;
      apply app_eq_nil in L as [_ L]; apply app_eq_nil in L as [L _]; exact (F1 L).
Qed.

(** Writing the calls [b] after the calls [a] into one content stream gives the bytes of [a] alone, in compact mode possibly a line end, in pretty
    mode always a line end, and the bytes of [b] alone. *)
Theorem C36_in_place : forall p a b c1 c2, a <> [] -> b <> [] ->
  forallb (ccall_ok p) a = true -> forallb (ccall_ok p) b = true ->
  content_run a (content_with_settings p) = Some c1 -> content_run b (content_with_settings p) = Some c2 ->
  exists w sep, content_run (a ++ b) (content_with_settings p) = Some w /\
    (sep = [x0a] \/ (p = false /\ sep = [])) /\
    content_bytes w = content_bytes c1 ++ sep ++ content_bytes c2 /\
    inner (content_finish w) = inner (content_finish c1) ++ sep ++ inner (content_finish c2).
Proof.
  intros p a b c1 c2 Na Nb Oa Ob A B. destruct (run_total_app a b p c1 c2 A B) as [w W].
  assert (Oab : forallb (ccall_ok p) (a ++ b) = true) by (rewrite forallb_app, Oa, Ob; reflexivity).
  assert (E : exists sep, (sep = [x0a] \/ (p = false /\ sep = [])) /\ content_bytes w = content_bytes c1 ++ sep ++ content_bytes c2).
  { destruct (last_regular p a c1 Na Oa A) as (d & L & D).
    rewrite content_run_app, A in W.
    destruct (content_run_inner _ _ _ A (calls_ne _ _ Oa)) as [_ P1]. destruct (content_run_inner _ _ _ B (calls_ne _ _ Ob)) as [B1 _].
    destruct (content_run_inner _ _ _ W (calls_ne _ _ Ob)) as [W1 _].
    cbn [content_with_settings ct_buf ct_pretty buf_new inner app] in *. unfold content_bytes in *. rewrite W1, B1, L, P1. clear - Nb D.
    destruct b as [|x b]; [contradiction Nb; reflexivity|]. cbn [flat_map]. unfold call_units at 1 3. destruct (call_op x) as [os k].
    change (last_byte []) with (@None byte). unfold op_units.
    destruct os as [|o os]; cbn [operand_units app is_nil c_out u_sep].
    - exists [x0a]. split; [left; reflexivity|]. rewrite D, orb_true_r. reflexivity.
    - destruct p.
      + exists [x0a]. split; [left; reflexivity|]. reflexivity.
      + exists []. split; [right; split; reflexivity|]. unfold pad. cbn [ends_delim]. rewrite D. reflexivity. }
  destruct E as (sep & S1 & E). exists w, sep. split; [exact W|]. split; [exact S1|]. split; [exact E|].
  rewrite (proj1 (C36_finish_keeps_operations p _ _ Oab W)), (proj1 (C36_finish_keeps_operations p _ _ Oa A)), (proj1 (C36_finish_keeps_operations p _ _ Ob B)).
  exact E.
Qed.

Example C36_in_place_case :
  let one := FFin false 8388608 (-23) in let a := [CSaveState; CSetLineWidth one] in let b := [CMoveTo one one; CRestoreState] in
  forallb (ccall_ok true) (a ++ b) = true /\ forallb (ccall_ok false) (a ++ b) = true /\
  option_map content_bytes (content_run a (content_with_settings true)) = Some (lit "q" ++ [x0a] ++ lit "1 w") /\
  option_map content_bytes (content_run b (content_with_settings true)) = Some (lit "1 1 m" ++ [x0a] ++ lit "Q") /\
  option_map content_bytes (content_run (a ++ b) (content_with_settings true)) = Some (lit "q" ++ [x0a] ++ lit "1 w" ++ [x0a] ++ lit "1 1 m" ++ [x0a] ++ lit "Q").
Proof. cbv zeta. repeat split; vm_compute; reflexivity. Qed.

Print Assumptions C36_in_place.
