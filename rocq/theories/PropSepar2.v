(** C35: exactly which operations are read as they were written in compact output. *)

From Coq Require Import ZArith List Lia Bool.
From Verif Require Import Bytes ModelFloat ModelBuf ModelObject ModelContent SpecLex SpecObj SpecMeans SpecContent ProofBasic ProofObj ProofParse ProofTree ProofChunkParse ProofContent
  ProofSepar PropContent.
Import ListNotations.
Local Open Scope Z_scope.

Definition u_base (u : unit_) : bool := match u with UObj _ o => obj_ok o | UKey _ k => operator_ok k end.
Definition last_is_key (l : list unit_) : Prop := match List.rev l with UObj _ _ :: _ => False | _ => True end.

Lemma u_follow u u' r : u_ok false u = true -> u_apart u (u' :: r) = true ->
  (match u with UObj _ o => ends_regular o = false | UKey _ _ => False end) \/ boundary (c_out false (last_byte (u_body false u)) (u' :: r)).
Proof.
  intros Hu Ha. destruct (last_byte_ne (u_body false u) (u_body_ne _ _ Hu)) as (c & Ec). cbn [c_out].
  destruct u as [f o|f k]; cbn [u_body] in *.
  - cbn [u_ok orb] in Hu. apply andb_true_iff in Hu. destruct Hu as [Ho _]. cbn [u_apart] in Ha.
    destruct u' as [f' o'|f' k']; cbn [u_sep u_body].
    + apply pad_boundary; [assumption|]. destruct (is_empty_name o); [exact Ha|reflexivity].
    + destruct (is_empty_name o) eqn:En; [discriminate|]. destruct (ends_regular o) eqn:Er; [right|left; reflexivity].
      pose proof (out_last false 0 o Ho Er En) as Hl. rewrite Ec in *. cbn [ends_delim] in Hl. rewrite Hl. cbn [orb negb]. destruct f'; reflexivity.
  - right. cbn [u_ok] in Hu. apply operator_ok_spec in Hu. destruct Hu as (_ & Hreg & _).
    pose proof (word_ends k Hreg) as Hl. rewrite Ec in *. cbn [ends_delim] in Hl.
    destruct u' as [f' o'|f' k']; cbn [u_sep u_body].
    + unfold pad. cbn [ends_delim]. rewrite Hl. destruct (begins_with_delimiter o') eqn:Eb; cbn [negb andb]; [apply begins_first; assumption|reflexivity].
    + rewrite Hl. cbn [orb negb]. destruct f'; reflexivity.
Qed.

Lemma last_key_tail u r : last_is_key (u :: r) -> r <> [] -> last_is_key r.
Proof.
  unfold last_is_key. cbn [rev]. intros H N. destruct (rev r) as [|x y] eqn:E; [destruct r; [congruence|]; cbn [rev] in E; destruct (rev r); discriminate|]. exact H.
Qed.

Lemma us_wrong l : forall prev, forallb u_base l = true -> last_is_key l -> us_ok false l = false -> goes_wrong (c_out false prev l) (flat_map u_toks l).
Proof.
  induction l as [|u r IH]; intros prev Hb Hk H; [discriminate|]. cbn [forallb] in Hb. apply andb_true_iff in Hb. destruct Hb as [Hu Hr].
  cbn [c_out flat_map]. apply wrong_ws; [apply u_sep_ws|]. cbn [us_ok orb] in H.
  destruct (u_ok false u) eqn:Ok.
  - cbn [andb] in H. destruct (u_apart u r) eqn:Ap.
    + cbn [andb] in H. destruct r as [|u' r']; [discriminate|].
      apply (wrong_l _ _ (c_out false (last_byte (u_body false u)) (u' :: r'))); [|apply IH; [exact Hr|eapply last_key_tail; [exact Hk|discriminate]|exact H]].
      pose proof (u_follow u u' r' Ok Ap) as B. destruct u as [f o|f k]; cbn [u_body u_toks u_ok] in *.
      * apply andb_true_iff in Ok. destruct Ok as [Ho Hs]. apply out_lexes; assumption.
      * apply operator_ok_spec in Ok. destruct Ok as (H1 & H2 & H3 & _). apply lexes_one. destruct B as [[]|B]. apply keyword; assumption.
    + destruct u as [f o|f k]; [|discriminate]. cbn [u_apart] in Ap. destruct (is_empty_name o) eqn:En; [|discriminate].
      destruct o as [[]| |]; try discriminate. destruct s; [|discriminate].
      destruct r as [|u' r']; [destruct Hk|]. exists [], (flat_map u_toks (u' :: r')). eexists. split; [reflexivity|]. split; [constructor|].
      cbn [u_body out prim_bytes name_bytes flat_map last_byte c_out app]. cbn [forallb] in Hr. apply andb_true_iff in Hr. destruct Hr as [Hu' _].
      destruct u' as [f' o'|f' k']; cbn [u_base u_sep u_body] in *.
      * destruct (regular_first false 0 o' Hu' Ap) as (c & t & E & C). unfold pad. change (ends_delim (Some x2f)) with true. rewrite andb_false_r, E. cbn [app].
        exists [], c. eexists. split; [reflexivity|]. split; [reflexivity|exact C].
      * apply operator_ok_spec in Hu'. destruct Hu' as (N & R & _). destruct k' as [|c k']; [congruence|]. cbn [forallb] in R. apply andb_true_iff in R. destruct R as [R _].
        change (false || negb (is_delimiter_character x2f)) with false. cbn [app]. exists [], c. eexists. split; [reflexivity|]. split; [reflexivity|exact R].
  - destruct u as [f o|f k]; cbn [u_ok u_base u_body u_toks orb] in *; [|congruence]. rewrite Hu in Ok. cbn [andb] in Ok. apply wrong_r, out_wrong; assumption.
Qed.

Lemma operands_back k fk os : forall first, us_ok false (operand_units first os ++ [UKey fk k]) = true -> operands_apart os = true.
Proof.
  induction os as [|o r IH]; intros first H; [reflexivity|]. cbn [operand_units app us_ok] in H. rewrite !andb_true_iff in H. destruct H as [[Hu Ha] Hr].
  cbn [operands_apart]. rewrite (IH false Hr). cbn [u_ok orb] in *. apply andb_true_iff in Hu. destruct Hu as [_ Hu]. rewrite Hu.
  cbn [u_apart] in Ha. destruct (is_empty_name o); [|reflexivity]. destruct r as [|o' r']; cbn [operand_units app] in Ha; [discriminate|]. rewrite Ha. reflexivity.
Qed.
Lemma us_ok_split l1 : forall l2, us_ok false (l1 ++ l2) = true -> last_is_key l1 -> us_ok false l1 = true /\ us_ok false l2 = true.
Proof.
  induction l1 as [|u r IH]; intros l2 H K; [split; [reflexivity|exact H]|]. cbn [app us_ok] in *. rewrite !andb_true_iff in *. destruct H as [[Hu Ha] Hr].
  destruct r as [|u' r'].
  - cbn [app] in Hr. split; [|exact Hr]. destruct u; [destruct K|]. auto.
  - destruct (IH l2 Hr (last_key_tail _ _ K ltac:(discriminate))) as [A B]. split; [|exact B]. auto.
Qed.
Lemma last_call c : last_is_key (call_units c).
Proof. unfold last_is_key, call_units, op_units. destruct (call_op c) as [os k]. rewrite rev_unit. exact Logic.I. Qed.
Lemma last_calls calls : last_is_key (flat_map call_units calls).
Proof.
  induction calls as [|c r IH]; [exact Logic.I|]. cbn [flat_map]. unfold last_is_key in *. rewrite rev_app_distr. destruct (rev (flat_map call_units r)) as [|u l]; [apply last_call|exact IH].
Qed.
Lemma calls_back calls : us_ok false (flat_map call_units calls) = true -> forallb (fun call => operands_apart (fst (iso_operation call))) calls = true.
Proof.
  induction calls as [|c r IH]; intro H; [reflexivity|]. cbn [flat_map] in H. apply us_ok_split in H; [|apply last_call]. destruct H as [A B].
  cbn [forallb]. rewrite (IH B), andb_true_r, iso_call. unfold call_units, op_units in A. destruct (call_op c) as [os k]. exact (operands_back k _ os true A).
Qed.
Lemma calls_base calls : forallb (ccall_ok true) calls = true -> forallb u_base (flat_map call_units calls) = true.
Proof.
  induction calls as [|c r IH]; intro H; [reflexivity|]. cbn [forallb flat_map] in *. apply andb_true_iff in H. destruct H as [A B]. rewrite forallb_app, (IH B), andb_true_r.
  unfold ccall_ok in A. rewrite iso_call in A. unfold call_units, op_units. destruct (call_op c) as [os k]. rewrite !andb_true_iff in A. destruct A as [[A K] _].
  rewrite forallb_app. cbn [forallb u_base]. rewrite K, andb_true_r. generalize true at 1. clear - A. induction os as [|o os IH]; intro f; [reflexivity|].
  cbn [operand_units forallb u_base] in *. apply andb_true_iff in A. destruct A as [A1 A2]. rewrite A1. apply IH, A2.
Qed.

Definition op_tok (op : list val * bytes) : list token := flat_map untok (fst op) ++ [TKeyword (snd op)].
Lemma operations_untok : forall f s ops, operations f s = Some ops -> exists m, lexes s (flat_map op_tok ops) m.
Proof.
  induction f as [|f IH]; intros s ops H; [discriminate|]. cbn [operations] in H.
  destruct (objects (Datatypes.S (List.length s)) [] s) as [[[l t] r]|] eqn:O; [|discriminate].
  apply objects_untok in O. destruct O as (ts & m & L & Y & E). cbn [rev flat_map app] in E.
  destruct t as [t|].
  - destruct t; try (destruct l; discriminate). assert (H' : option_map (cons (l, s0)) (operations f r) = Some ops) by (destruct l; exact H). clear H.
    destruct (operations f r) as [ops'|] eqn:O; [|discriminate]. injection H' as <-. apply IH in O. destruct O as [m' L']. rewrite (Y ltac:(discriminate)) in L.
    exists m'. cbn [flat_map]. unfold op_tok at 1. cbn [fst snd]. cbn [opt_tok] in E. rewrite E. eapply lexes_app; eassumption.
  - destruct l; [|discriminate]. injection H as <-. exists s. constructor.
Qed.
Lemma calls_untok calls ops : Forall2 ccall_means calls ops -> Forall2 same_name (flat_map u_toks (flat_map call_units calls)) (flat_map op_tok ops).
Proof.
  induction 1 as [|c op calls ops [H1 H2] F IH]; [constructor|]. cbn [flat_map]. rewrite flat_map_app. apply Forall2_app; [|exact IH].
  rewrite iso_call in *. unfold call_units, op_units, op_tok. destruct (call_op c) as [os k]. cbn [fst snd] in *. rewrite flat_map_app, operand_units_toks. apply Forall2_app.
  - induction H1 as [|o v os vs M H1 IH1]; [constructor|]. cbn [flat_map]. apply Forall2_app; [apply means_untok; exact M|exact IH1].
  - rewrite H2. repeat constructor; apply same_name_refl.
Qed.

(** In compact output the operations are read as they were asked for if and only if no empty name among their operands - inside of an operand, or as an
    operand - is followed directly by a number, a boolean, null, a reference or the operator. *)
Theorem C35_exactly : forall calls c, forallb (ccall_ok true) calls = true -> content_run calls (content_with_settings false) = Some c ->
  (forallb (fun call => operands_apart (fst (iso_operation call))) calls = true <->
   exists ops, parse_content (content_bytes c) = Some ops /\ Forall2 ccall_means calls ops).
Proof.
  intros calls c Hok Hr. split.
  - intro A. assert (Hf : forallb (ccall_ok false) calls = true).
    { clear Hr. induction calls as [|x r IH]; [reflexivity|]. cbn [forallb] in *. apply andb_true_iff in Hok. apply andb_true_iff in A. destruct Hok as [O1 O2], A as [A1 A2].
      rewrite (IH O2 A2), andb_true_r. unfold ccall_ok in *. destruct (iso_operation x) as [os k]. cbn [fst] in A1. rewrite A1. rewrite !andb_true_iff in *. tauto. }
    exact (C35_operations_round_trip false calls c Hf Hr).
  - intros (ops & P & M). apply calls_back. destruct (us_ok false (flat_map call_units calls)) eqn:E; [reflexivity|]. exfalso.
    destruct (content_run_inner _ _ _ Hr (calls_ne _ _ Hok)) as [I _]. cbn [content_with_settings ct_buf ct_pretty buf_new inner app] in I.
    pose proof (us_wrong _ (last_byte []) (calls_base calls Hok) (last_calls calls) E) as W. rewrite <- I in W.
    unfold parse_content, content_bytes in P. apply operations_untok in P. destruct P as [m L]. exact (mismatch _ _ _ _ W L (calls_untok calls ops M)).
Qed.

Example C35_exactly_case :
  let calls := [CSetFont [] f32_zero; CShow (lit "a"); COp (lit "k") [OPrim (PInt 1)]] in
  forallb (ccall_ok true) calls = true /\ forallb (fun call => operands_apart (fst (iso_operation call))) calls = false /\
  option_map (fun c => parse_content (content_bytes c)) (content_run calls (content_with_settings false)) =
    Some (Some [([VName (lit "0")], lit "Tf"); ([VStr (lit "a")], lit "Tj"); ([VInt 1], lit "k")]).
Proof. vm_compute. auto. Qed.

Print Assumptions C35_exactly.
