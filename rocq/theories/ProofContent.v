(** Content streams: what is appended, and how it lexes and parses. *)

From Coq Require Import ZArith List Lia Bool ZifyBool ZifyNat.
From Verif Require Import Bytes ModelFloat ModelBuf ModelObject ModelContent SpecLex SpecObj SpecText SpecMeans SpecContent
  ProofBasic ProofText ProofFloat2 ProofObj ProofParse ProofTree ProofChunkParse.
Import ListNotations.
Local Open Scope Z_scope.

(** An operand or an operator; [first]: nothing of the same operation precedes it. *)
Inductive unit_ := UObj (first : bool) (o : obj) | UKey (first : bool) (k : bytes).

Definition u_body (p : bool) (u : unit_) : bytes := match u with UObj _ o => out p 0 o | UKey _ k => k end.
Definition u_sep (p : bool) (prev : option byte) (u : unit_) : bytes :=
  match u with
  | UObj first o =>
      if p then match prev with None => [] | Some _ => [if first then x0a else x20] end else pad prev o
  | UKey first _ =>
      match prev with
      | None => []
      | Some c => if p || negb (is_delimiter_character c) then [if first then x0a else x20] else []
      end
  end.
Fixpoint c_out (p : bool) (prev : option byte) (l : list unit_) : bytes :=
  match l with
  | [] => []
  | u :: r => u_sep p prev u ++ u_body p u ++ c_out p (last_byte (u_body p u)) r
  end.

Definition u_ne (p : bool) (u : unit_) : Prop := u_body p u <> [].

Fixpoint operand_units (first : bool) (l : list obj) : list unit_ :=
  match l with [] => [] | o :: r => UObj first o :: operand_units false r end.
Definition op_units (operands : list obj) (operator : bytes) : list unit_ :=
  operand_units true operands ++ [UKey (is_nil operands) operator].
(** The methods write what the standard prescribes. *)
Lemma iso_call c : iso_operation c = call_op c.
Proof.
  destruct c; try reflexivity.
  all: try (destruct cap; reflexivity). all: try (destruct join; reflexivity).
  all: try (destruct intent; reflexivity). all: destruct mode; reflexivity.
Qed.

Definition call_units (c : ccall) : list unit_ := let '(os, k) := call_op c in op_units os k.

Lemma last_byte_none s : last_byte s = None <-> s = [].
Proof.
  destruct s as [|a s] using rev_ind; [split; reflexivity|].
  rewrite last_byte_app. split; [discriminate|]. intro H. destruct s; discriminate H.
Qed.

(** ** What is appended *)

Lemma op_operand_inner p first o b :
  inner (op_operand p first o b) = inner b ++ u_sep p (last_byte (inner b)) (UObj first o) ++ out p 0 o.
Proof.
  unfold op_operand. cbn [u_sep]. destruct p.
  - rewrite (write_obj_inner o). cbn [obj_direct o_pad o_pretty o_indent o_indirect pad_if end_bytes].
    rewrite app_nil_r. cbn [app]. destruct (inner b) as [|c s] eqn:E.
    + rewrite E. reflexivity.
    + rewrite inner_push, E, <- app_assoc. destruct (last_byte (c :: s)) eqn:L; [reflexivity|].
      apply last_byte_none in L. discriminate L.
  - rewrite (write_obj_inner o). cbn [obj_direct o_pad o_pretty o_indent o_indirect pad_if end_bytes].
    rewrite app_nil_r. reflexivity.
Qed.

Lemma op_drop_inner p first k b :
  inner (op_drop p first k b) = inner b ++ u_sep p (last_byte (inner b)) (UKey first k) ++ k.
Proof.
  unfold op_drop. rewrite inner_extend. cbn [u_sep].
  destruct (inner b) as [|c s] eqn:E.
  - cbn [negb]. rewrite andb_false_r, E. reflexivity.
  - destruct (last_byte (c :: s)) as [d|] eqn:L; [|apply last_byte_none in L; discriminate L].
    cbn [negb]. rewrite andb_true_r. destruct (p || negb (is_delimiter_character d)).
    + rewrite inner_push, E, <- app_assoc. reflexivity.
    + rewrite E. reflexivity.
Qed.

Lemma c_out_app p l1 : forall prev l2, Forall (u_ne p) l1 ->
  c_out p prev (l1 ++ l2) =
  c_out p prev l1 ++ c_out p (match l1 with [] => prev | _ => last_byte (c_out p prev l1) end) l2.
Proof.
  induction l1 as [|u r IH]; intros prev l2 H; [reflexivity|].
  inversion H as [|? ? H1 H2]; subst. cbn [app c_out]. rewrite (IH _ _ H2), <- !app_assoc. do 3 f_equal.
  destruct r as [|u' r']; cbn [c_out].
  - rewrite app_nil_r, last_byte_app_ne by exact H1. reflexivity.
  - rewrite !app_assoc. f_equal. inversion H2 as [|? ? H3 H4]; subst.
    remember (c_out p (last_byte (u_body p u')) r') as t.
    rewrite <- !app_assoc.
    assert (Hne : u_sep p (last_byte (u_body p u)) u' ++ u_body p u' ++ t <> []).
    { intro X. apply app_eq_nil in X. destruct X as [_ X]. apply app_eq_nil in X. destruct X as [X _]. exact (H3 X). }
    rewrite (last_byte_app_ne (u_sep p prev u)) by
      (intro X; apply app_eq_nil in X; destruct X as [_ X]; exact (Hne X)).
    rewrite (last_byte_app_ne (u_body p u)) by exact Hne. reflexivity.
Qed.

Lemma operand_units_ne p l : forall first, Forall (u_ne p) (operand_units first l).
Proof. induction l as [|o r IH]; intro f; constructor; [apply out_ne|apply IH]. Qed.

Lemma op_operands_inner p l : forall first b,
  inner (snd (op_operands p first l b)) = inner b ++ c_out p (last_byte (inner b)) (operand_units first l) /\
  fst (op_operands p first l b) = match l with [] => first | _ => false end.
Proof.
  induction l as [|o r IH]; intros first b.
  - cbn. rewrite app_nil_r. split; reflexivity.
  - cbn [op_operands operand_units c_out u_body].
    destruct (IH false (op_operand p first o b)) as [H1 H2]. split.
    + rewrite H1, op_operand_inner, <- !app_assoc. do 4 f_equal.
      rewrite app_assoc, last_byte_app_ne by apply out_ne. reflexivity.
    + rewrite H2. destruct r; reflexivity.
Qed.

Lemma write_op_inner os k c :
  inner (ct_buf (write_op os k c)) = inner (ct_buf c) ++ c_out (ct_pretty c) (last_byte (inner (ct_buf c))) (op_units os k).
Proof.
  unfold write_op, op_units. destruct (op_operands_inner (ct_pretty c) os true (ct_buf c)) as [H1 H2].
  destruct (op_operands (ct_pretty c) true os (ct_buf c)) as [f b]. cbn [fst snd ct_buf] in *.
  rewrite op_drop_inner, H1, c_out_app by apply operand_units_ne.
  rewrite <- !app_assoc. f_equal. f_equal. cbn [c_out u_body]. rewrite app_nil_r.
  assert (E : f = is_nil os) by (rewrite H2; destruct os; reflexivity). rewrite E.
  f_equal. destruct os as [|o r]; [cbn [operand_units c_out]; rewrite app_nil_r; reflexivity|].
  cbn [operand_units]. f_equal. rewrite last_byte_app_ne; [reflexivity|].
  cbn [c_out u_body]. intro X. apply app_eq_nil in X. destruct X as [_ X]. apply app_eq_nil in X.
  destruct X as [X _]. exact (out_ne _ _ _ X).
Qed.

Lemma some_inj {A} (a b : A) : Some a = Some b -> a = b.
Proof. congruence. Qed.

Definition op_ne (c : ccall) : Prop := snd (call_op c) <> [].

Lemma op_units_ne p os k : k <> [] -> Forall (u_ne p) (op_units os k).
Proof. intro H. apply Forall_app. split; [apply operand_units_ne|]. constructor; [exact H|constructor]. Qed.

Lemma op_units_nonempty os k : op_units os k <> [].
Proof. unfold op_units. destruct (operand_units true os); discriminate. Qed.

Lemma c_out_ne p prev l : l <> [] -> Forall (u_ne p) l -> c_out p prev l <> [].
Proof.
  intros H F X. destruct l as [|u r]; [congruence|]. inversion F; subst. cbn [c_out] in X.
  apply app_eq_nil in X. destruct X as [_ X]. apply app_eq_nil in X. destruct X as [X _]. contradiction.
Qed.

Lemma content_run_inner calls : forall c c', content_run calls c = Some c' -> Forall op_ne calls ->
  inner (ct_buf c') = inner (ct_buf c) ++ c_out (ct_pretty c) (last_byte (inner (ct_buf c))) (flat_map call_units calls) /\
  ct_pretty c' = ct_pretty c.
Proof.
  induction calls as [|call r IH]; intros c c' H F.
  - cbn in H. injection H as <-. cbn. rewrite app_nil_r. split; reflexivity.
  - inversion F as [|? ? F1 F2]; subst. cbn [content_run] in H.
    destruct (content_step call c) as [c1|] eqn:E; [|discriminate].
    destruct (IH c1 c' H F2) as [H1 H2]. unfold content_step in E.
    destruct (call_allowed call); [|discriminate].
    cbn [flat_map]. unfold call_units at 1. unfold op_ne in F1. destruct (call_op call) as [os k] eqn:Ec. cbn [snd] in F1.
    assert (Ei : inner (ct_buf c1) = inner (ct_buf c) ++ c_out (ct_pretty c) (last_byte (inner (ct_buf c))) (op_units os k) /\
                 ct_pretty c1 = ct_pretty c).
    { apply some_inj in E. subst c1. cbn [ct_buf ct_pretty]. rewrite write_op_inner. split; [reflexivity|].
      unfold write_op. destruct (op_operands _ _ _ _). reflexivity. }
    destruct Ei as [E1 E2]. rewrite H1, E2, E1. split; [|rewrite H2; exact E2].
    rewrite c_out_app by (apply op_units_ne; assumption).
    rewrite <- !app_assoc. do 2 f_equal. pose proof (op_units_nonempty os k) as Hn.
    destruct (op_units os k) as [|u us] eqn:Eu; [congruence|]. f_equal.
    rewrite last_byte_app_ne; [reflexivity|]. apply c_out_ne; [discriminate|].
    rewrite <- Eu. apply op_units_ne. assumption.
Qed.

(** ** Lexing *)

Definition u_toks (u : unit_) : list token := match u with UObj _ o => obj_toks o | UKey _ k => [TKeyword k] end.
Definition u_ok (p : bool) (u : unit_) : bool :=
  match u with UObj _ o => obj_ok o && (p || separable o) | UKey _ k => operator_ok k end.
Definition u_apart (u : unit_) (next : list unit_) : bool :=
  match u with
  | UObj _ o => if is_empty_name o then match next with UObj _ o' :: _ => begins_with_delimiter o' | _ => false end else true
  | UKey _ _ => true
  end.
Fixpoint us_ok (p : bool) (l : list unit_) : bool :=
  match l with [] => true | u :: r => u_ok p u && (p || u_apart u r) && us_ok p r end.

Lemma operator_ok_spec w : operator_ok w = true ->
  w <> [] /\ forallb is_regular w = true /\ number w = None /\ bytes_eqb w (lit "R") = false /\
  bytes_eqb w (lit "null") = false /\ bytes_eqb w (lit "true") = false /\ bytes_eqb w (lit "false") = false.
Proof.
  unfold operator_ok. rewrite !andb_true_iff, !negb_true_iff. intros [[[[[[H1 H2] H3] H4] H5] H6] H7].
  repeat split; try assumption.
  - destruct w; [discriminate|discriminate].
  - destruct (number w); [discriminate|reflexivity].
Qed.

Lemma u_sep_ws p prev u : forallb is_ws (u_sep p prev u) = true.
Proof.
  destruct u as [f o|f k]; cbn [u_sep].
  - destruct p; [destruct prev; [destruct f; reflexivity|reflexivity]|apply pad_ws].
  - destruct prev; [|reflexivity]. destruct (_ || _); [destruct f; reflexivity|reflexivity].
Qed.

Lemma u_toks_ne u : u_toks u <> [].
Proof. destruct u; [apply obj_toks_ne|discriminate]. Qed.

Lemma u_body_ne p u : u_ok p u = true -> u_body p u <> [].
Proof. destruct u as [f o|f k]; intro H; [apply out_ne|]. apply operator_ok_spec in H. tauto. Qed.

Lemma last_byte_ne s : s <> [] -> exists c, last_byte s = Some c.
Proof. intro H. destruct (last_byte s) as [c|] eqn:E; [eauto|]. apply last_byte_none in E. congruence. Qed.

(** A unit that ends with a regular byte is followed by something that ends a word. *)
Lemma u_boundary p u r : us_ok p (u :: r) = true ->
  (match u with UObj _ o => ends_regular o = false | UKey _ _ => False end) \/ boundary (c_out p (last_byte (u_body p u)) r).
Proof.
  intro H. cbn [us_ok] in H. rewrite !andb_true_iff in H. destruct H as [[Hu Ha] Hr].
  destruct r as [|u' r]; [right; exact I|].
  destruct (last_byte_ne (u_body p u) (u_body_ne _ _ Hu)) as (c & Ec).
  destruct p.
  { right. cbn [c_out]. rewrite Ec. destruct u' as [f o|f k]; cbn [u_sep orb]; destruct f; reflexivity. }
  cbn [orb] in Ha. cbn [c_out].
  destruct u as [f o|f k]; cbn [u_body] in *.
  - cbn [u_ok orb] in Hu. apply andb_true_iff in Hu. destruct Hu as [Ho _]. cbn [u_apart] in Ha.
    destruct u' as [f' o'|f' k']; cbn [u_sep u_body].
    + apply pad_boundary; [assumption|]. destruct (is_empty_name o); [exact Ha|reflexivity].
    + destruct (is_empty_name o) eqn:En; [discriminate|].
      destruct (ends_regular o) eqn:Er; [right|left; reflexivity].
      pose proof (out_last false 0 o Ho Er En) as Hl. rewrite Ec in *. cbn [ends_delim] in Hl. rewrite Hl.
      cbn [orb negb]. destruct f'; reflexivity.
  - right. cbn [u_ok] in Hu. apply operator_ok_spec in Hu. destruct Hu as (_ & Hreg & _).
    pose proof (word_ends k Hreg) as Hl. rewrite Ec in *. cbn [ends_delim] in Hl.
    destruct u' as [f' o'|f' k']; cbn [u_sep u_body].
    + unfold pad. cbn [ends_delim]. rewrite Hl. destruct (begins_with_delimiter o') eqn:Eb; cbn [negb andb].
      * apply begins_first. assumption.
      * reflexivity.
    + rewrite Hl. cbn [orb negb]. destruct f'; reflexivity.
Qed.

Lemma boundary_app s rest : boundary s -> boundary rest -> boundary (s ++ rest).
Proof. destruct s; [intros _ H; exact H|intros H _; exact H]. Qed.

Lemma us_lex_rest p l rest : boundary rest -> forall prev, us_ok p l = true ->
  lexes (c_out p prev l ++ rest) (flat_map u_toks l) rest.
Proof.
  intro B. induction l as [|u r IH]; intros prev H; [constructor|].
  pose proof (u_boundary p u r H) as Hb. cbn [us_ok] in H. rewrite !andb_true_iff in H. destruct H as [[Hu _] Hr].
  cbn [c_out flat_map]. rewrite <- !app_assoc. apply lexes_ws; [apply u_sep_ws| |].
  { intro X. apply app_eq_nil in X. destruct X as [X _]. exact (u_toks_ne _ X). }
  apply lexes_app with (m := c_out p (last_byte (u_body p u)) r ++ rest); [|apply IH; exact Hr].
  destruct u as [f o|f k]; cbn [u_body u_toks u_ok] in *.
  - apply andb_true_iff in Hu. destruct Hu as [Ho Hs]. apply out_lexes; [assumption|assumption|].
    destruct Hb as [Hb|Hb]; [left; exact Hb|right; apply boundary_app; assumption].
  - apply operator_ok_spec in Hu. destruct Hu as (H1 & H2 & H3 & _).
    apply lexes_one. destruct Hb as [[]|Hb]. apply keyword; [assumption..|apply boundary_app; assumption].
Qed.
Lemma us_lex p l : forall prev, us_ok p l = true -> lexes (c_out p prev l) (flat_map u_toks l) [].
Proof. intros prev H. pose proof (us_lex_rest p l [] I prev H) as X. rewrite app_nil_r in X. exact X. Qed.

(** ** From calls to units *)

Lemma us_ok_app p l1 l2 : us_ok p l1 = true -> us_ok p l2 = true ->
  match List.rev l1 with UObj _ _ :: _ => False | _ => True end -> us_ok p (l1 ++ l2) = true.
Proof.
  induction l1 as [|u r IH]; intros H1 H2 Hl; [exact H2|].
  cbn [us_ok app] in *. rewrite !andb_true_iff in *. destruct H1 as [[Hu Ha] Hr].
  destruct r as [|u' r'].
  - cbn [app]. repeat split; try assumption. cbn in Hl. destruct u; [contradiction|]. cbn [u_apart]. apply orb_true_r.
  - split; [split; [exact Hu|]|].
    + destruct p; [reflexivity|]. cbn [orb] in *. destruct u as [f o|f k]; [|reflexivity]. cbn [u_apart app] in *. exact Ha.
    + apply IH; try assumption. cbn [rev] in Hl |- *.
      destruct (rev r') as [|x y]; cbn [app] in *; assumption.
Qed.

Lemma operand_units_ok p k fk os : forall first,
  forallb obj_ok os = true -> operator_ok k = true -> p || operands_apart os = true ->
  us_ok p (operand_units first os ++ [UKey fk k]) = true.
Proof.
  induction os as [|o r IH]; intros first H1 H2 H3.
  - cbn [operand_units app us_ok u_ok u_apart]. rewrite H2, orb_true_r. reflexivity.
  - cbn [forallb] in H1. apply andb_true_iff in H1. destruct H1 as [Ho Hr].
    cbn [operand_units app us_ok]. rewrite !andb_true_iff.
    assert (Hr' : p || operands_apart r = true).
    { destruct p; [reflexivity|]. cbn [orb operands_apart] in H3. rewrite !andb_true_iff in H3. cbn [orb]. tauto. }
    split; [split|apply IH; assumption].
    + cbn [u_ok]. rewrite Ho. destruct p; [reflexivity|]. cbn [orb operands_apart] in *. rewrite !andb_true_iff in H3. tauto.
    + destruct p; [reflexivity|]. cbn [orb operands_apart u_apart] in *. rewrite !andb_true_iff in H3.
      destruct H3 as [[_ H3] _]. destruct (is_empty_name o); [|reflexivity].
      destruct r as [|o' r']; [discriminate H3|exact H3].
Qed.

Lemma call_units_ok p c : ccall_ok p c = true -> us_ok p (call_units c) = true.
Proof.
  unfold ccall_ok, call_units. rewrite iso_call. destruct (call_op c) as [os k]. rewrite !andb_true_iff. intros [[H1 H2] H3].
  apply operand_units_ok; assumption.
Qed.

Lemma calls_units_ok p calls : forallb (ccall_ok p) calls = true -> us_ok p (flat_map call_units calls) = true.
Proof.
  induction calls as [|c r IH]; intro H; [reflexivity|]. cbn [forallb] in H. apply andb_true_iff in H. destruct H as [H1 H2].
  cbn [flat_map]. apply us_ok_app; [apply call_units_ok; assumption|apply IH; assumption|].
  unfold call_units. destruct (call_op c) as [os k]. unfold op_units. rewrite rev_unit. exact I.
Qed.

Lemma call_ok_ne p c : ccall_ok p c = true -> op_ne c.
Proof.
  unfold ccall_ok, op_ne. rewrite iso_call. destruct (call_op c) as [os k]. rewrite !andb_true_iff. intros [[_ H] _].
  apply operator_ok_spec in H. tauto.
Qed.

Lemma calls_ne p calls : forallb (ccall_ok p) calls = true -> Forall op_ne calls.
Proof. intro H. apply Forall_forall. intros c Hc. rewrite forallb_forall in H. eapply call_ok_ne. apply H, Hc. Qed.

(** ** Parsing *)

Definition call_vals (c : ccall) : list val * bytes := (map obj_val (fst (call_op c)), snd (call_op c)).

Lemma call_means_vals p c : ccall_ok p c = true -> ccall_means c (call_vals c).
Proof.
  unfold ccall_ok, ccall_means, call_vals. rewrite iso_call. destruct (call_op c) as [os k]. cbn [fst snd]. rewrite !andb_true_iff.
  intros [[H _] _]. split; [|reflexivity]. induction os as [|o r IH]; [constructor|].
  cbn [forallb] in H. apply andb_true_iff in H. constructor; [apply means_val|apply IH]; tauto.
Qed.

Lemma operand_units_toks os : forall f, flat_map u_toks (operand_units f os) = flat_map obj_toks os.
Proof. induction os as [|o r IH]; intro f; [reflexivity|]. cbn [operand_units flat_map u_toks]. rewrite IH. reflexivity. Qed.

Lemma oks_some p calls : forallb (ccall_ok p) calls = true -> Forall (fun c => exists p, ccall_ok p c = true) calls.
Proof. intro H. apply Forall_forall. intros c Hc. rewrite forallb_forall in H. exists p. apply H. exact Hc. Qed.

Lemma operations_lexed w calls : forallb is_ws w = true -> forall s fuel, Forall (fun c => exists p, ccall_ok p c = true) calls ->
  lexes s (flat_map u_toks (flat_map call_units calls)) w -> (List.length calls < fuel)%nat ->
  operations fuel s = Some (map call_vals calls).
Proof.
  intro Hw. induction calls as [|c r IH]; intros s fuel Hok Hl Hf.
  - inversion Hl; subst. destruct fuel; [lia|]. cbn [operations objects].
    assert (E : blanks w = []) by (rewrite <- (app_nil_r w), blanks_wss by assumption; reflexivity).
    rewrite E. reflexivity.
  - inversion Hok as [|? ? [p Hc] Hr]; subst.
    cbn [flat_map] in Hl. rewrite flat_map_app in Hl. cbn [List.length] in Hf. destruct fuel as [|fuel]; [lia|].
    apply lexes_app_inv in Hl. destruct Hl as (m & H1 & H2).
    cbn [operations]. fold (objs [] s). cbn [map].
    unfold call_vals at 1. unfold ccall_ok in Hc. rewrite iso_call in Hc. unfold call_units in H1. destruct (call_op c) as [os k]. cbn [fst snd].
    rewrite !andb_true_iff in Hc. destruct Hc as [[Ho Hk] _]. apply operator_ok_spec in Hk.
    unfold op_units in H1. rewrite flat_map_app, operand_units_toks in H1. cbn [flat_map u_toks app] in H1.
    apply lexes_app_inv in H1. destruct H1 as (m1 & H3 & H4). inversion H4 as [|? ? m2 ? ? Hn Hl2]; subst. inversion Hl2; subst.
    rewrite (items_parse os) with (r := m1); [|apply Forall_forall; intros; apply tree_parses|assumption|assumption].
    rewrite (objs_step _ _ _ _ Hn). destruct Hk as (_ & _ & _ & -> & -> & -> & ->).
    rewrite app_nil_r, rev_involutive.
    assert (E : operations fuel m = Some (map call_vals r)) by (apply IH; [assumption|assumption|lia]).
    destruct (map obj_val os); rewrite E; reflexivity.
Qed.

Lemma flat_len calls :
  (List.length calls <= List.length (flat_map u_toks (flat_map call_units calls)))%nat.
Proof.
  induction calls as [|c r IH]; [cbn; lia|].
  cbn [flat_map]. rewrite flat_map_app, app_length. unfold call_units at 1.
  destruct (call_op c) as [os k]. unfold op_units. rewrite flat_map_app, app_length. cbn [flat_map u_toks app List.length]. lia.
Qed.

Lemma content_parses p calls c : forallb (ccall_ok p) calls = true ->
  content_run calls (content_with_settings p) = Some c ->
  parse_content (content_bytes c) = Some (map call_vals calls).
Proof.
  intros Hok Hr. destruct (content_run_inner _ _ _ Hr (calls_ne _ _ Hok)) as [H1 _].
  cbn [content_with_settings ct_buf ct_pretty buf_new inner app] in H1.
  pose proof (us_lex p _ (last_byte []) (calls_units_ok p calls Hok)) as Hl. rewrite <- H1 in Hl.
  unfold parse_content, content_bytes. eapply (operations_lexed []); [reflexivity|apply (oks_some p); exact Hok|exact Hl|].
  pose proof (lexes_len _ _ _ Hl). pose proof (flat_len calls). lia.
Qed.

(** The content may be split over streams, each written with its own setting. *)
Lemma join_lexed parts : Forall (fun x => us_ok (fst x) (flat_map call_units (snd x)) = true) parts ->
  exists w, forallb is_ws w = true /\
    lexes (join_lines (map (fun x => c_out (fst x) None (flat_map call_units (snd x))) parts))
      (flat_map u_toks (flat_map call_units (flat_map snd parts))) w.
Proof.
  induction parts as [|x r IH]; intro F; [exists []; split; [reflexivity|constructor]|].
  inversion F as [|? ? F1 F2]; subst. destruct (IH F2) as (w & Hw & L).
  cbn [flat_map]. rewrite (flat_map_app _ (snd x)), flat_map_app. cbn [map join_lines].
  destruct r as [|y r].
  - exists []. split; [reflexivity|]. cbn [map flat_map app]. rewrite app_nil_r. apply us_lex. exact F1.
  - cbn [map] in *.
    set (rest := join_lines (c_out (fst y) None (flat_map call_units (snd y)) :: map (fun x => c_out (fst x) None (flat_map call_units (snd x))) r)) in *.
    assert (X : exists w', forallb is_ws w' = true /\ lexes (x0a :: rest) (flat_map u_toks (flat_map call_units (flat_map snd (y :: r)))) w').
    { destruct (flat_map u_toks (flat_map call_units (flat_map snd (y :: r)))) as [|t ts].
      - inversion L; subst. exists (x0a :: rest). split; [cbn [forallb]; rewrite Hw; reflexivity|constructor].
      - exists w. split; [exact Hw|]. apply (lexes_ws [x0a]); [reflexivity|discriminate|exact L]. }
    destruct X as (w' & Hw' & X). exists w'. split; [exact Hw'|].
    eapply lexes_app; [apply us_lex_rest; [reflexivity|exact F1]|exact X].
Qed.
Lemma contents_parse parts : Forall (fun x => forallb (ccall_ok (fst x)) (snd x) = true) parts -> forall outs,
  Forall2 (fun x s => exists c, content_run (snd x) (content_with_settings (fst x)) = Some c /\ s = content_bytes c) parts outs ->
  parse_content (join_lines outs) = Some (map call_vals (flat_map snd parts)).
Proof.
  intros K outs H.
  assert (E : outs = map (fun x => c_out (fst x) None (flat_map call_units (snd x))) parts).
  { induction H as [|[p calls] s parts outs (c & R & ->) H IH]; [reflexivity|]. inversion K as [|? ? K1 K2]; subst. cbn [map fst snd] in *.
    f_equal; [|apply IH; exact K2]. destruct (content_run_inner _ _ _ R (calls_ne _ _ K1)) as [H1 _]. exact H1. }
  subst outs. clear H.
  assert (U : Forall (fun x => us_ok (fst x) (flat_map call_units (snd x)) = true) parts)
    by (eapply Forall_impl; [|exact K]; intros x Hx; apply calls_units_ok; exact Hx).
  assert (A : Forall (fun c => exists p, ccall_ok p c = true) (flat_map snd parts)).
  { clear U. induction K as [|x parts K1 K IH]; [constructor|]. cbn [flat_map]. apply Forall_app. split; [|exact IH].
    apply (oks_some (fst x)). exact K1. }
  destruct (join_lexed parts U) as (w & Hw & L). unfold parse_content. eapply (operations_lexed w); [exact Hw|exact A|exact L|].
  pose proof (lexes_len _ _ _ L). pose proof (flat_len (flat_map snd parts)). lia.
Qed.
