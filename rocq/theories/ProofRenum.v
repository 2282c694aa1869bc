(** Proofs about the renumbering scanner. *)

From Coq Require Import ZArith List Lia Bool Arith.
From Verif Require Import Bytes ModelFloat ModelBuf ModelObject ModelRenumber SpecLex ProofBasic ProofObj.
Import ListNotations.

(** ** Suffix eating *)

Lemma eat_len_le p s : eat_len p s <= length s.
Proof. induction s as [|c s IH]; cbn [eat_len length]; [lia|]. destruct (p c); lia. Qed.

Lemma eat_len_all p s : forallb p (firstn (eat_len p s) s) = true.
Proof.
  induction s as [|c s IH]; cbn [eat_len firstn forallb]; [reflexivity|].
  destruct (p c) eqn:E; cbn [firstn forallb]; [rewrite E; exact IH | reflexivity].
Qed.

Lemma eat_len_app p a b : forallb p a = true -> eat_len p (a ++ b) = length a + eat_len p b.
Proof.
  induction a as [|c a IH]; intro H; [reflexivity|].
  cbn [forallb] in H. apply andb_true_iff in H. destruct H as [H1 H2].
  cbn [app eat_len length]. rewrite H1, (IH H2). reflexivity.
Qed.

Lemma forallb_rev {A} (p : A -> bool) l : forallb p (rev l) = forallb p l.
Proof.
  induction l as [|a l IH]; [reflexivity|]. cbn [rev forallb].
  rewrite forallb_app', IH. cbn [forallb]. rewrite andb_true_r. apply andb_comm.
Qed.

Definition stops (p : byte -> bool) (h : bytes) : Prop :=
  match last_byte h with Some c => p c = false | None => True end.

Lemma last_byte_none s : last_byte s = None -> s = [].
Proof.
  destruct s as [|a s]; [reflexivity|]. intro H.
  assert (Hne : a :: s <> []) by discriminate.
  destruct (exists_last Hne) as [t [b E]]. rewrite E, last_byte_app in H. discriminate.
Qed.

Lemma last_byte_some s c : last_byte s = Some c -> exists t, s = t ++ [c].
Proof.
  destruct s as [|a s]; [discriminate|]. intro H.
  assert (Hne : a :: s <> []) by discriminate.
  destruct (exists_last Hne) as [t [b E]]. rewrite E, last_byte_app in H.
  injection H as ->. exists t. exact E.
Qed.

Lemma eat_len_stop p h : stops p h -> eat_len p (rev h) = 0.
Proof.
  unfold stops. destruct (last_byte h) as [c|] eqn:E; intro H.
  - apply last_byte_some in E. destruct E as [t ->]. rewrite rev_app_distr. cbn [rev app eat_len].
    rewrite H. reflexivity.
  - apply last_byte_none in E. subst. reflexivity.
Qed.

Lemma eat_suffix_eq p h t : forallb p t = true -> stops p h -> eat_suffix p (h ++ t) = (h, t).
Proof.
  intros Ht Hs. unfold eat_suffix.
  rewrite rev_app_distr, eat_len_app by (rewrite forallb_rev; exact Ht).
  rewrite eat_len_stop by exact Hs. rewrite app_length, rev_length.
  replace (length h + length t - (length t + 0)) with (length h) by lia.
  rewrite firstn_app, Nat.sub_diag, firstn_all, app_nil_r.
  rewrite skipn_app, Nat.sub_diag, skipn_all. reflexivity.
Qed.

Lemma eat_suffix_split p s h t : eat_suffix p s = (h, t) -> s = h ++ t /\ forallb p t = true.
Proof.
  unfold eat_suffix. intro H. injection H as <- <-. split; [symmetry; apply firstn_skipn|].
  pose proof (eat_len_le p (rev s)) as Hl. rewrite rev_length in Hl.
  pose proof (eat_len_all p (rev s)) as Ha.
  rewrite <- forallb_rev in Ha. rewrite firstn_rev, rev_involutive in Ha.
  rewrite <- Ha. reflexivity.
Qed.

Definition digit_or_ws (c : byte) : bool := is_digit c || rn_whitespace c.

Lemma forallb_impl {A} (p q : A -> bool) l : (forall a, p a = true -> q a = true) ->
  forallb p l = true -> forallb q l = true.
Proof.
  intros H. induction l as [|a l IH]; [reflexivity|]. cbn [forallb]. intro E.
  apply andb_true_iff in E. destruct E as [E1 E2]. rewrite (H _ E1), (IH E2). reflexivity.
Qed.

(** What is eaten by a successful [validate_ref] is digits and white space. *)
Lemma validate_ref_split pre h id gen : validate_ref pre = Some (h, id, gen) ->
  exists p q, pre = p ++ q /\ length p = h /\ forallb digit_or_ws q = true /\ (0 < id <= i32_max)%Z.
Proof.
  unfold validate_ref, require_whitespace_rev, eat_number_rev.
  destruct (eat_suffix rn_whitespace pre) as [p1 t1] eqn:E1.
  destruct (negb _); [discriminate|].
  destruct (eat_suffix is_digit p1) as [p2 t2] eqn:E2.
  destruct (parse_i32 t2) as [g|]; [|discriminate].
  destruct (eat_suffix rn_whitespace p2) as [p3 t3] eqn:E3.
  destruct (negb _); [discriminate|].
  destruct (eat_suffix is_digit p3) as [p4 t4] eqn:E4.
  destruct (parse_i32 t4) as [i|] eqn:Ep; [|discriminate].
  destruct (0 <? i)%Z eqn:Ei; [|discriminate].
  intro H. injection H as <- <- <-.
  apply eat_suffix_split in E1, E2, E3, E4.
  destruct E1 as [-> F1], E2 as [-> F2], E3 as [-> F3], E4 as [-> F4].
  exists p4, (t4 ++ t3 ++ t2 ++ t1). split; [rewrite <- !app_assoc; reflexivity|].
  split; [reflexivity|]. split.
  - rewrite !forallb_app'.
    rewrite (forallb_impl is_digit digit_or_ws t4), (forallb_impl rn_whitespace digit_or_ws t3),
            (forallb_impl is_digit digit_or_ws t2), (forallb_impl rn_whitespace digit_or_ws t1);
      try assumption; try reflexivity; intros a Ha; unfold digit_or_ws; rewrite Ha, ?orb_true_r; reflexivity.
  - unfold parse_i32 in Ep. destruct t4 as [|d t4]; [discriminate|].
    match type of Ep with (if ?c then _ else _) = _ => destruct c eqn:El end; [|discriminate].
    injection Ep as <-. apply Z.leb_le in El. apply Z.ltb_lt in Ei. split; assumption.
Qed.

Lemma digits_not_ws d : forallb is_digit d = true -> d <> [] -> stops rn_whitespace d.
Proof.
  intros H Hne. unfold stops. destruct (last_byte d) as [c|] eqn:E; [|exact I].
  assert (Hc : is_digit c = true).
  { apply last_byte_some in E. destruct E as [t ->]. rewrite forallb_app' in H.
    apply andb_true_iff in H. destruct H as [_ H]. cbn [forallb] in H. rewrite andb_true_r in H. exact H. }
  revert Hc. destruct c; vm_compute; congruence.
Qed.

Lemma ws_not_digit w : forallb rn_whitespace w = true -> stops is_digit w.
Proof.
  intros H. unfold stops. destruct (last_byte w) as [c|] eqn:E; [|exact I].
  assert (Hc : rn_whitespace c = true).
  { apply last_byte_some in E. destruct E as [t ->]. rewrite forallb_app' in H.
    apply andb_true_iff in H. destruct H as [_ H]. cbn [forallb] in H. rewrite andb_true_r in H. exact H. }
  revert Hc. destruct c; vm_compute; congruence.
Qed.

Lemma stops_app p a b : b <> [] -> stops p b -> stops p (a ++ b).
Proof. intros Hb H. unfold stops in *. rewrite last_byte_app_ne by exact Hb. exact H. Qed.

(** A complete reference text is recognised. *)
Lemma validate_ref_complete p d1 w1 d2 w2 id gen :
  stops is_digit p ->
  forallb is_digit d1 = true -> d1 <> [] -> forallb rn_whitespace w1 = true -> w1 <> [] ->
  forallb is_digit d2 = true -> d2 <> [] -> forallb rn_whitespace w2 = true -> w2 <> [] ->
  parse_i32 d1 = Some id -> parse_i32 d2 = Some gen -> (0 < id)%Z ->
  validate_ref (p ++ d1 ++ w1 ++ d2 ++ w2) = Some (length p, id, gen).
Proof.
  intros Hp D1 N1 W1 M1 D2 N2 W2 M2 P1 P2 Hid.
  unfold validate_ref, require_whitespace_rev, eat_number_rev.
  replace (p ++ d1 ++ w1 ++ d2 ++ w2) with ((p ++ d1 ++ w1 ++ d2) ++ w2) by (rewrite <- !app_assoc; reflexivity).
  rewrite eat_suffix_eq; [|exact W2|].
  2:{ replace (p ++ d1 ++ w1 ++ d2) with ((p ++ d1 ++ w1) ++ d2) by (rewrite <- !app_assoc; reflexivity).
      apply stops_app; [exact N2|]. apply digits_not_ws; assumption. }
  destruct w2 as [|? ?]; [congruence|]. cbn [negb].
  replace (p ++ d1 ++ w1 ++ d2) with ((p ++ d1 ++ w1) ++ d2) by (rewrite <- !app_assoc; reflexivity).
  rewrite eat_suffix_eq; [|exact D2|].
  2:{ rewrite app_assoc. apply stops_app; [exact M1|]. apply ws_not_digit; exact W1. }
  rewrite P2. rewrite app_assoc. rewrite eat_suffix_eq; [|exact W1|].
  2:{ apply stops_app; [exact N1|]. apply digits_not_ws; assumption. }
  destruct w1 as [|? ?]; [congruence|]. cbn [negb].
  rewrite eat_suffix_eq; [|exact D1|exact Hp].
  rewrite P1. destruct (Z.ltb_spec 0 id); [reflexivity | lia].
Qed.

(** Right after a byte that is not white space there is no reference. *)
Lemma validate_ref_none p c : rn_whitespace c = false -> validate_ref (p ++ [c]) = None.
Proof.
  intro H. unfold validate_ref, require_whitespace_rev.
  rewrite <- (app_nil_r (p ++ [c])). rewrite eat_suffix_eq; [reflexivity|reflexivity|].
  unfold stops. rewrite last_byte_app. exact H.
Qed.

Lemma validate_ref_nil : validate_ref [] = None.
Proof. reflexivity. Qed.

Lemma validate_stream_none p c : rn_whitespace c = false -> beq c x3e = false -> validate_stream (p ++ [c]) = false.
Proof.
  intros H Hc. unfold validate_stream.
  rewrite <- (app_nil_r (p ++ [c])). rewrite eat_suffix_eq; [|reflexivity|].
  2:{ unfold stops. rewrite last_byte_app. exact H. }
  cbn [fst]. unfold ends_with. rewrite rev_app_distr. cbn [rev app].
  change (lit ">>") with [x3e; x3e]. cbn [rev app starts_with].
  assert (E : beq x3e c = false) by (apply beq_neq; apply beq_neq in Hc; congruence).
  rewrite E. reflexivity.
Qed.

(** ** The eager scanner: same output, everything copied as it is passed *)

Section Mapping.
  Context {S : Type} (mapping : S -> Z -> Z * S).

  Definition push_ref (new gen : Z) (b : buf) : buf :=
    push x52 (push x20 (push_int gen (push x20 (push_int new b)))).

  Definition drop_last (n : nat) (b : buf) : buf := mkBuf (firstn (length (inner b) - n) (inner b)) (lims b).

  Fixpoint eager (fuel : nat) (pre rest : bytes) (b : buf) (s : S) : option (buf * S) :=
    match fuel with
    | O => None
    | Datatypes.S fuel =>
        match rest with
        | [] => Some (b, s)
        | c :: r =>
            if beq c x52 then
              match validate_ref pre with
              | Some (head, id, gen) =>
                  let '(new, s) := mapping s id in
                  eager fuel (pre ++ [c]) r (push_ref new gen (drop_last (length pre - head) b)) s
              | None => eager fuel (pre ++ [c]) r (extend [c] b) s
              end
            else
              let n := if beq c x25 then Datatypes.S (skip_comment rest)
                       else if beq c x28 then Datatypes.S (skip_string 0 rest)
                       else if beq c x73 && starts_with (lit "stream") rest && validate_stream pre
                            then length rest else 1 in
              eager fuel (pre ++ firstn n rest) (skipn n rest) (extend (firstn n rest) b) s
        end
    end.

  Lemma extend_nil b : extend [] b = b.
  Proof. unfold extend. rewrite app_nil_r. destruct b; reflexivity. Qed.

  Lemma extend_extend a c b : extend c (extend a b) = extend (a ++ c) b.
  Proof. unfold extend. cbn [inner lims]. rewrite app_assoc. reflexivity. Qed.

  Lemma skipn_app_le {A} n (a b : list A) : n <= length a -> skipn n (a ++ b) = skipn n a ++ b.
  Proof. intro H. rewrite skipn_app. replace (n - length a) with 0 by lia. reflexivity. Qed.

  Lemma slice_get_eq s a c : a <= c -> c <= length s -> slice_get s a c = Some (firstn (c - a) (skipn a s)).
  Proof.
    intros H1 H2. unfold slice_get. apply Nat.leb_le in H1, H2. rewrite H1, H2. reflexivity.
  Qed.

  (** The invariant relating the two: [written] is 0 or right after an [R]. *)
  Definition w_inv (pre : bytes) (w : nat) : Prop :=
    w <= length pre /\ (w = 0 \/ nth_error pre (w - 1) = Some x52).

  Lemma w_inv_app pre t w : w_inv pre w -> w_inv (pre ++ t) w.
  Proof.
    intros [H1 H2]. split; [rewrite app_length; lia|].
    destruct H2 as [H2|H2]; [left; exact H2 | right].
    rewrite nth_error_app1; [exact H2|]. apply nth_error_Some. congruence.
  Qed.

  Lemma ref_after_written pre w h id gen : w_inv pre w -> validate_ref pre = Some (h, id, gen) -> w <= h.
  Proof.
    intros [H1 H2] Hv. apply validate_ref_split in Hv. destruct Hv as [p [q [E [El [Hq _]]]]].
    destruct H2 as [->|H2]; [lia|].
    destruct (le_lt_dec w h) as [Hle|Hlt]; [exact Hle|exfalso].
    subst pre h. rewrite app_length in H1.
    rewrite nth_error_app2 in H2 by lia.
    apply nth_error_In in H2. rewrite forallb_forall in Hq. specialize (Hq _ H2). discriminate.
  Qed.

  Lemma firstn_S_all {A} (l : list A) n : length l <= n -> firstn n l = l.
  Proof. apply firstn_all2. Qed.

  Lemma eager_nil fuel pre b s : eager (Datatypes.S fuel) pre [] b s = Some (b, s).
  Proof. reflexivity. Qed.

  Lemma nth_error_mid pre (c : byte) r : nth_error (pre ++ c :: r) (length pre) = Some c.
  Proof. rewrite nth_error_app2 by lia. rewrite Nat.sub_diag. reflexivity. Qed.

  Lemma firstn_mid (pre r : bytes) : firstn (length pre) (pre ++ r) = pre.
  Proof. rewrite firstn_app, Nat.sub_diag, firstn_all, app_nil_r. reflexivity. Qed.

  Lemma skipn_mid (pre r : bytes) : skipn (length pre) (pre ++ r) = r.
  Proof. rewrite skipn_app, Nat.sub_diag, skipn_all. reflexivity. Qed.

  Lemma patch_eager : forall fuel pre rest seen w b s,
    length rest < fuel -> w_inv pre w ->
    seen = length pre \/ (rest = [] /\ length pre <= seen) ->
    patch_loop mapping fuel (pre ++ rest) seen w b s =
    eager fuel pre rest (extend (skipn w pre) b) s.
  Proof.
    induction fuel as [|fuel IH]; intros pre rest seen w b s Hf Hw Hs; [lia|].
    cbn [patch_loop eager].
    destruct rest as [|c r].
    - rewrite app_nil_r.
      replace (nth_error pre seen) with (@None byte) by (symmetry; apply nth_error_None; destruct Hs as [->|[_ H]]; lia).
      rewrite slice_get_eq by (destruct Hw; lia).
      rewrite firstn_all2 by (rewrite skipn_length; lia). reflexivity.
    - destruct Hs as [->|[Hs _]]; [|discriminate].
      rewrite nth_error_mid, firstn_mid, skipn_mid.
      pose proof Hw as [Hwl _].
      cbn [length] in Hf.
      assert (Hstep : forall n, n <= length (c :: r) \/ skipn n (c :: r) = [] ->
        patch_loop mapping fuel (pre ++ c :: r) (length pre + n) w b s =
        eager fuel (pre ++ firstn n (c :: r)) (skipn n (c :: r))
              (extend (firstn n (c :: r)) (extend (skipn w pre) b)) s \/ n = 0).
      { intros n Hn. destruct n as [|n]; [right; reflexivity|left].
        rewrite <- (firstn_skipn (Datatypes.S n) (c :: r)) at 1. rewrite app_assoc.
        rewrite (IH (pre ++ firstn (Datatypes.S n) (c :: r)) (skipn (Datatypes.S n) (c :: r))).
        - rewrite extend_extend. rewrite skipn_app_le by exact Hwl. reflexivity.
        - rewrite skipn_length. cbn [length]. lia.
        - apply w_inv_app. exact Hw.
        - rewrite app_length, firstn_length.
          destruct (le_lt_dec (Datatypes.S n) (length (c :: r))) as [Hle|Hgt].
          + left. rewrite Nat.min_l by exact Hle. reflexivity.
          + right. split; [apply skipn_all2; lia | rewrite Nat.min_r by lia; lia]. }
      destruct (beq c x52) eqn:ER.
      + apply beq_spec in ER. subst c.
        destruct (validate_ref pre) as [[[head id] gen]|] eqn:EV.
        * destruct (mapping s id) as [new s1].
          pose proof (ref_after_written _ _ _ _ _ Hw EV) as Hwh.
          apply validate_ref_split in EV. destruct EV as [p [q [E [El [Hq _]]]]].
          rewrite slice_get_eq; [|exact Hwh|subst; rewrite !app_length; lia].
          match goal with |- context [extend (firstn ?a ?l) b] => set (B := extend (firstn a l) b) end.
          assert (EE : pre ++ x52 :: r = (pre ++ [x52]) ++ r) by (rewrite <- app_assoc; reflexivity).
          rewrite EE. rewrite (IH (pre ++ [x52]) r).
          -- f_equal. subst B. rewrite skipn_all2 by (rewrite app_length; cbn [length]; lia). rewrite extend_nil.
             unfold push_ref. do 5 f_equal. unfold drop_last, extend. cbn [inner lims]. f_equal.
             rewrite app_length, skipn_length.
             replace (length (inner b) + (length pre - w) - (length pre - head))
               with (length (inner b) + (head - w)) by (subst; rewrite app_length in *; lia).
             rewrite firstn_app_2. f_equal.
             rewrite skipn_app_le by lia. rewrite firstn_app.
             replace (head - w - length (skipn w pre)) with 0 by (rewrite skipn_length; subst; rewrite app_length in *; lia).
             cbn [firstn]. rewrite app_nil_r. reflexivity.
          -- lia.
          -- split; [rewrite app_length; cbn [length]; lia|right].
             replace (length pre + 1 - 1) with (length pre) by lia. apply nth_error_mid.
          -- left. rewrite app_length. reflexivity.
        * destruct (Hstep 1) as [H|H]; [left; cbn [length]; lia|exact H|discriminate].
      + assert (Hall : forall n, patch_loop mapping fuel (pre ++ c :: r) (length pre + Datatypes.S n) w b s =
           eager fuel (pre ++ firstn (Datatypes.S n) (c :: r)) (skipn (Datatypes.S n) (c :: r))
              (extend (firstn (Datatypes.S n) (c :: r)) (extend (skipn w pre) b)) s).
        { intro n. destruct (Hstep (Datatypes.S n)) as [H|H]; [|exact H|discriminate].
          destruct (le_lt_dec (Datatypes.S n) (length (c :: r))) as [Hle|Hgt]; [left; exact Hle|right].
          apply skipn_all2. lia. }
        destruct (beq c x25) eqn:E25.
        { rewrite <- Nat.add_assoc, (Nat.add_comm _ 1). apply Hall. }
        destruct (beq c x28) eqn:E28.
        { rewrite <- Nat.add_assoc, (Nat.add_comm _ 1). apply Hall. }
        destruct (beq c x73 && starts_with (lit "stream") (c :: r) && validate_stream pre) eqn:ES.
        * rewrite slice_get_eq by (rewrite app_length; lia).
          destruct fuel as [|fuel']; [lia|].
          rewrite skipn_all, firstn_all. rewrite eager_nil.
          rewrite extend_extend, skipn_app_le by exact Hwl.
          rewrite firstn_all2; [reflexivity|]. rewrite !app_length, skipn_length. lia.
        * apply Hall.
  Qed.

  Lemma eager_some : forall fuel pre rest b s, length rest < fuel -> exists r, eager fuel pre rest b s = Some r.
  Proof.
    induction fuel as [|fuel IH]; intros pre rest b s H; [lia|]. cbn [eager].
    destruct rest as [|c r]; [eexists; reflexivity|]. cbn [length] in H.
    destruct (beq c x52).
    - destruct (validate_ref pre) as [[[? ?] ?]|]; [destruct (mapping s _)|]; apply IH; lia.
    - cbv zeta. apply IH. rewrite skipn_length. cbn [length].
      destruct (beq c x25); [lia|]. destruct (beq c x28); [lia|].
      destruct (_ && _ && _); cbn [length]; lia.
  Qed.

  Lemma eager_fuel : forall f1 f2 pre rest b s, length rest < f1 -> length rest < f2 ->
    eager f1 pre rest b s = eager f2 pre rest b s.
  Proof.
    induction f1 as [|f1 IH]; intros f2 pre rest b s H1 H2; [lia|].
    destruct f2 as [|f2]; [lia|]. cbn [eager].
    destruct rest as [|c r]; [reflexivity|]. cbn [length] in H1, H2.
    destruct (beq c x52).
    - destruct (validate_ref pre) as [[[? ?] ?]|]; [destruct (mapping s _)|]; apply IH; lia.
    - cbv zeta. apply IH; rewrite skipn_length; cbn [length];
      (destruct (beq c x25); [lia|]; destruct (beq c x28); [lia|]; destruct (_ && _ && _); cbn [length]; lia).
  Qed.

  Definition eag (pre rest : bytes) (b : buf) (s : S) : option (buf * S) :=
    eager (Datatypes.S (length rest)) pre rest b s.

  Lemma patch_object_eag slice b s : patch_object mapping slice b s = eag [] slice b s.
  Proof.
    unfold patch_object, eag. change slice with ([] ++ slice) at 2.
    rewrite patch_eager; [|lia|split; [cbn; lia|left; reflexivity]|left; reflexivity].
    cbn [skipn]. rewrite extend_nil. reflexivity.
  Qed.

  Lemma eag_nil pre b s : eag pre [] b s = Some (b, s).
  Proof. reflexivity. Qed.

  Definition jump (pre : bytes) (c : byte) (r : bytes) : nat :=
    if beq c x25 then Datatypes.S (skip_comment (c :: r))
    else if beq c x28 then Datatypes.S (skip_string 0 (c :: r))
    else if beq c x73 && starts_with (lit "stream") (c :: r) && validate_stream pre
         then length (c :: r) else 1.

  Lemma eag_jump pre c r b s : beq c x52 = false ->
    eag pre (c :: r) b s =
    eag (pre ++ firstn (jump pre c r) (c :: r)) (skipn (jump pre c r) (c :: r))
        (extend (firstn (jump pre c r) (c :: r)) b) s.
  Proof.
    intro H. unfold eag at 1. remember (length (c :: r)) as f eqn:Ef. cbn [eager]. rewrite H.
    cbv zeta. rewrite Ef. fold (jump pre c r).
    unfold eag. apply eager_fuel; [|lia]. rewrite skipn_length.
    assert (1 <= jump pre c r).
    { unfold jump. destruct (beq c x25); [lia|]. destruct (beq c x28); [lia|].
      destruct (_ && _ && _); cbn [length]; lia. }
    cbn [length]. lia.
  Qed.

  (** Stepping over a byte that is none of [R % ( s]. *)
  Definition dull (c : byte) : bool := negb (bmem c [x52; x25; x28; x73]).

  Lemma eag_dull pre c r b s : dull c = true -> eag pre (c :: r) b s = eag (pre ++ [c]) r (extend [c] b) s.
  Proof.
    intro H. unfold eag. cbn [length]. cbn [eager].
    assert (H4 : beq c x52 = false /\ beq c x25 = false /\ beq c x28 = false /\ beq c x73 = false).
    { revert H. unfold dull, bmem. cbn [existsb]. destruct (beq c x52), (beq c x25), (beq c x28), (beq c x73); cbn; intuition discriminate. }
    destruct H4 as [-> [-> [-> ->]]]. reflexivity.
  Qed.

  (** [R] and [s] directly after a byte that is neither white space nor [>]. *)
  Definition solid (c : byte) : bool := negb (rn_whitespace c) && negb (beq c x3e).

  Lemma eag_after pre p c r b s : solid p = true -> beq c x25 = false -> beq c x28 = false ->
    eag (pre ++ [p]) (c :: r) b s = eag ((pre ++ [p]) ++ [c]) r (extend [c] b) s.
  Proof.
    intros Hp H25 H28. unfold solid in Hp. apply andb_true_iff in Hp. destruct Hp as [Hw Hg].
    apply negb_true_iff in Hw, Hg.
    unfold eag. cbn [length]. cbn [eager].
    rewrite (validate_ref_none pre p) by exact Hw. rewrite (validate_stream_none pre p) by first [exact Hw | exact Hg].
    rewrite H25, H28, andb_false_r. destruct (beq c x52); reflexivity.
  Qed.

  (** Text in which every [R] and [s] directly follows a solid byte, and without [%], [(]. *)
  Fixpoint inert (prev : option byte) (t : bytes) : bool :=
    match t with
    | [] => true
    | c :: r =>
        (dull c || (match prev with Some p => solid p | None => false end && negb (beq c x25) && negb (beq c x28)))
        && inert (Some c) r
    end.

  Lemma eag_inert_from t : forall prev pre rest b s, inert prev t = true ->
    (forall p, prev = Some p -> exists q, pre = q ++ [p]) ->
    eag pre (t ++ rest) b s = eag (pre ++ t) rest (extend t b) s.
  Proof.
    induction t as [|c t IH]; intros prev pre rest b s H Hp.
    - rewrite app_nil_r, extend_nil. reflexivity.
    - cbn [inert] in H. apply andb_true_iff in H. destruct H as [H1 H2].
      cbn [app].
      assert (Hstep : eag pre (c :: t ++ rest) b s = eag (pre ++ [c]) (t ++ rest) (extend [c] b) s).
      { apply orb_true_iff in H1. destruct H1 as [H1|H1]; [apply eag_dull; exact H1|].
        apply andb_true_iff in H1. destruct H1 as [H1 H28]. apply andb_true_iff in H1. destruct H1 as [Hs H25].
        destruct prev as [p|]; [|discriminate]. destruct (Hp p eq_refl) as [q ->].
        apply eag_after; [exact Hs| |]; apply negb_true_iff; assumption. }
      rewrite Hstep. rewrite (IH (Some c)); [|exact H2|].
      + rewrite extend_extend, <- app_assoc. reflexivity.
      + intros p E. injection E as <-. exists pre. reflexivity.
  Qed.

  Lemma eag_inert t pre rest b s : inert None t = true ->
    eag pre (t ++ rest) b s = eag (pre ++ t) rest (extend t b) s.
  Proof. intro H. apply (eag_inert_from t None); [exact H|discriminate]. Qed.

  (** A reference. *)
  Lemma digits_inert d : forallb is_digit d = true -> forallb dull d = true.
  Proof. apply forallb_impl. intros a. destruct a; vm_compute; congruence. Qed.

  Lemma dull_inert t : forallb dull t = true -> forall prev, inert prev t = true.
  Proof.
    induction t as [|c t IH]; intros H prev; [reflexivity|]. cbn [forallb] in H.
    apply andb_true_iff in H. destruct H as [H1 H2]. cbn [inert]. rewrite H1, (IH H2). reflexivity.
  Qed.

  Lemma eag_ref d id pre rest b s new s1 :
    forallb is_digit d = true -> d <> [] -> parse_i32 d = Some id -> (0 < id)%Z ->
    stops is_digit pre -> mapping s id = (new, s1) ->
    eag pre (d ++ lit " 0 R" ++ rest) b s =
    eag (pre ++ d ++ lit " 0 R") rest (push_ref new 0 b) s1.
  Proof.
    intros Hd Hne Hp Hid Hs Hm.
    replace (d ++ lit " 0 R" ++ rest) with ((d ++ [x20; x30; x20]) ++ x52 :: rest)
      by (rewrite <- !app_assoc; reflexivity).
    rewrite eag_inert.
    2:{ apply dull_inert. rewrite forallb_app', (digits_inert d Hd). reflexivity. }
    unfold eag at 1. cbn [length]. cbn [eager]. change (beq x52 x52) with true. cbv iota.
    replace (pre ++ d ++ [x20; x30; x20]) with (pre ++ d ++ [x20] ++ [x30] ++ [x20]) by reflexivity.
    rewrite (validate_ref_complete pre d [x20] [x30] [x20] id 0); try reflexivity; try discriminate; try assumption.
    rewrite Hm.
    replace ((pre ++ d ++ [x20] ++ [x30] ++ [x20]) ++ [x52]) with (pre ++ d ++ lit " 0 R")
      by (rewrite <- !app_assoc; reflexivity).
    match goal with |- context [drop_last ?n ?B] => replace (drop_last n B) with b end; [reflexivity|].
    unfold drop_last, extend. cbn [inner lims].
    replace (_ - _) with (length (inner b) + 0) by (rewrite !app_length; cbn [length]; lia).
    rewrite firstn_app_2. cbn [firstn]. rewrite app_nil_r. destruct b; reflexivity.
  Qed.
End Mapping.

Print Assumptions patch_object_eag.
