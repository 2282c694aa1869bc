(** The renumbering scanner on written object trees. *)

From Coq Require Import ZArith List Lia Bool Arith ZifyBool.
From Verif Require Import Bytes ModelFloat ModelBuf ModelObject ModelRenumber SpecLex SpecMeans SpecRenum
  ProofBasic ProofText ProofFloat ProofFloat2 ProofObj ProofParse ProofTree ProofPrint ProofRenum.
Import ListNotations.

(** ** Literal strings are skipped as a whole *)

Lemma skip_string_lit : forall n s d x r, length s <= n -> lit_string d s = Some (x, r) ->
  exists t, s = t ++ r /\ S (skip_string (Z.of_nat d + 1) s) = length t.
Proof.
  induction n as [|n IH]; intros s d x r Hn H.
  { destruct s; [discriminate|cbn in Hn; lia]. }
  assert (step' : forall s' d' y, length s' <= n -> lit_string d' s' = Some (y, r) ->
    exists t, s' = t ++ r /\ S (skip_string (Z.of_nat d' + 1) s') = length t).
  { intros s' d' y Hl Hc. eapply IH; eauto. }
  assert (step : forall c s' d' y, length s' <= n -> cons_fst c (lit_string d' s') = Some (y, r) ->
    exists t, s' = t ++ r /\ S (skip_string (Z.of_nat d' + 1) s') = length t).
  { intros c s' d' y Hl Hc. apply cons_fst_some in Hc. destruct Hc as [a' Hc]. eapply IH; eauto. }
  clear IH.
  destruct s as [|c s]; [discriminate|]. cbn [length] in Hn. cbn [lit_string] in H. cbn [skip_string].
  destruct (beq c x28) eqn:E28.
  { apply step in H; [|lia]. destruct H as [t [E L]]. exists (c :: t). subst s. split; [reflexivity|].
    replace (Z.of_nat d + 1 + 1)%Z with (Z.of_nat (S d) + 1)%Z by lia. rewrite L. reflexivity. }
  destruct (beq c x29) eqn:E29.
  { destruct d as [|d].
    - injection H as _ <-. exists [c]. split; reflexivity.
    - apply step in H; [|lia]. destruct H as [t [E L]]. exists (c :: t). subst s. split; [reflexivity|].
      destruct (Z.eqb_spec (Z.of_nat (S d) + 1) 1); [lia|].
      replace (Z.of_nat (S d) + 1 - 1)%Z with (Z.of_nat d + 1)%Z by lia. rewrite L. reflexivity. }
  assert (one : (exists t, s = t ++ r /\ S (skip_string (Z.of_nat d + 1) s) = length t) ->
    exists t, c :: s = t ++ r /\ S (S (skip_string (Z.of_nat d + 1) s)) = length t).
  { intros [t [E L]]. exists (c :: t). subst s. split; [reflexivity|]. rewrite L. reflexivity. }
  destruct (beq c x0d) eqn:E0d.
  { apply beq_spec in E0d. subst c. change (beq x0d x5c) with false. cbv iota.
    destruct s as [|b s]; [discriminate|]. cbn [length] in Hn.
    destruct (beq b x0a) eqn:E0a.
    - apply step in H; [|lia]. destruct H as [t [E L]]. apply beq_spec in E0a. subst b.
      exists (x0d :: x0a :: t). subst s. split; [reflexivity|].
      cbn [skip_string length]. change (beq x0a x28) with false. change (beq x0a x29) with false.
      change (beq x0a x5c) with false. cbv iota. rewrite L. reflexivity.
    - apply one. apply step in H; [exact H|cbn [length]; lia]. }
  destruct (beq c x5c) eqn:E5c; [|apply one; apply step in H; [exact H|lia]].
  destruct s as [|a s]; [discriminate|]. cbn [length] in *.
  assert (two : (exists t, s = t ++ r /\ S (skip_string (Z.of_nat d + 1) s) = length t) ->
    exists t, c :: a :: s = t ++ r /\ S (S (S (skip_string (Z.of_nat d + 1) s))) = length t).
  { intros [t [E L]]. exists (c :: a :: t). subst s. split; [reflexivity|]. cbn [length]. rewrite L. reflexivity. }
  assert (plainskip : forall b s', beq b x28 = false -> beq b x29 = false -> beq b x5c = false ->
    (exists t, s' = t ++ r /\ S (skip_string (Z.of_nat d + 1) s') = length t) ->
    exists t, b :: s' = t ++ r /\ S (skip_string (Z.of_nat d + 1) (b :: s')) = length t).
  { intros b s' B1 B2 B3 [t [E L]]. exists (b :: t). subst s'. split; [reflexivity|].
    cbn [skip_string length]. rewrite B1, B2, B3. rewrite L. reflexivity. }
  assert (octp : forall b, is_octal b = true -> beq b x28 = false /\ beq b x29 = false /\ beq b x5c = false).
  { intro b. destruct b; vm_compute; intuition congruence. }
  destruct (beq a x6e); [apply two; apply step in H; [exact H|lia]|].
  destruct (beq a x72); [apply two; apply step in H; [exact H|lia]|].
  destruct (beq a x74); [apply two; apply step in H; [exact H|lia]|].
  destruct (beq a x62); [apply two; apply step in H; [exact H|lia]|].
  destruct (beq a x66); [apply two; apply step in H; [exact H|lia]|].
  destruct (beq a x0a); [apply two; apply step' in H; [exact H|lia]|].
  destruct (beq a x0d).
  { destruct s as [|b s]; [discriminate|]. cbn [length] in *. apply two.
    destruct (beq b x0a) eqn:E0a.
    - apply beq_spec in E0a. subst b. apply plainskip; try reflexivity. apply step' in H; [exact H|lia].
    - apply step' in H; [exact H|cbn [length]; lia]. }
  destruct (is_octal a); [|apply two; apply step in H; [exact H|lia]].
  destruct s as [|b s]; [discriminate|]. cbn [length] in *. apply two.
  destruct (is_octal b) eqn:Eb; [|apply step in H; [exact H|cbn [length]; lia]].
  destruct (octp b Eb) as [B1 [B2 B3]]. apply plainskip; try assumption.
  destruct s as [|e s]; [discriminate|]. cbn [length] in *.
  destruct (is_octal e) eqn:Ee; [|apply step in H; [exact H|cbn [length]; lia]].
  destruct (octp e Ee) as [C1 [C2 C3]]. apply plainskip; try assumption.
  apply step in H; [exact H|lia].
Qed.

  Lemma parse_dec r : (0 < r <= i32_max)%Z -> parse_i32 (dec_i r) = Some r /\ forallb is_digit (dec_i r) = true /\ dec_i r <> [].
  Proof.
    intro H. unfold dec_i. destruct (Z.ltb_spec r 0); [lia|].
    pose proof (dec_u_digits r ltac:(lia)) as Hd. pose proof (dec_u_val r ltac:(lia)) as Hv.
    pose proof (dec_u_ne r ltac:(lia)) as Hn. split; [|split; assumption].
    unfold parse_i32. destruct (dec_u r) as [|d ds] eqn:E; [congruence|].
    change (fold_left _ (d :: ds) 0%Z) with (digits_val (d :: ds)). rewrite Hv.
    destruct (Z.leb_spec r i32_max); [reflexivity|lia].
  Qed.

Section Mapping.
  Context {T : Type} (f : T -> Z -> Z * T).

  Definition passes (t : bytes) : Prop := forall pre rest b s,
    eag f pre (t ++ rest) b s = eag f (pre ++ t) rest (extend t b) s.

  Lemma passes_inert t : inert None t = true -> passes t.
  Proof. intros H pre rest b s. apply eag_inert. exact H. Qed.

  Lemma passes_dull t : forallb dull t = true -> passes t.
  Proof. intro H. apply passes_inert, dull_inert, H. Qed.

  Lemma passes_app a b : passes a -> passes b -> passes (a ++ b).
  Proof.
    intros Ha Hb pre rest bb s. rewrite <- app_assoc, Ha, Hb, extend_extend, <- app_assoc. reflexivity.
  Qed.

  Lemma passes_lit body : (forall rest, exists x, lit_string 0 (body ++ rest) = Some (x, rest)) ->
    passes (x28 :: body).
  Proof.
    intros H pre rest b s. destruct (H rest) as [x Hx].
    pose proof (skip_string_lit _ _ _ _ _ (le_n _) Hx) as [t [E L]].
    apply app_inv_tail in E. subst t.
    cbn [app]. rewrite eag_jump by reflexivity.
    assert (J : jump pre x28 (body ++ rest) = length (x28 :: body)).
    { unfold jump. change (beq x28 x25) with false. change (beq x28 x28) with true. cbv iota.
      cbn [skip_string]. change (beq x28 x28) with true. cbv iota.
      change (Z.of_nat 0 + 1)%Z with (0 + 1)%Z in L. rewrite L. reflexivity. }
    rewrite J. change (x28 :: body ++ rest) with ((x28 :: body) ++ rest).
    rewrite firstn_mid, skipn_mid. reflexivity.
  Qed.

  Lemma hex2_dull c : forallb dull (hex2 c) = true.
  Proof. destruct c; reflexivity. Qed.

  Lemma hexes_dull s : forallb dull (flat_map hex2 s) = true.
  Proof. apply flat_map_forallb. intros. apply hex2_dull. Qed.

  Lemma passes_str s : passes (str_bytes s).
  Proof.
    unfold str_bytes. destruct (forallb _ s) eqn:E.
    - change ([x28] ++ str_literal s None s ++ [x29]) with (x28 :: (str_literal s None s ++ [x29])).
      apply passes_lit. intro rest. exists s. rewrite <- app_assoc. apply lit_fresh; auto.
    - apply passes_dull. rewrite !forallb_app', hexes_dull. reflexivity.
  Qed.

  Lemma hex_utf16_dull t : forallb dull (hex_utf16 t) = true.
  Proof. rewrite hex_utf16_bytes. apply hexes_dull. Qed.

  Lemma passes_text t : passes (text_bytes t).
  Proof.
    unfold text_bytes. destruct (forallb _ _); [apply passes_str|].
    apply passes_dull. rewrite !forallb_app', hex_utf16_dull. reflexivity.
  Qed.

  Lemma passes_text_lang t : passes (text_lang_bytes t).
  Proof.
    unfold text_lang_bytes. apply passes_dull. rewrite segs_hex, !forallb_app', hex_utf16_dull. reflexivity.
  Qed.

  Lemma regular_inert t : forall p, solid p = true -> forallb is_regular t = true -> inert (Some p) t = true.
  Proof.
    induction t as [|c t IH]; intros p Hp H; [reflexivity|]. cbn [forallb] in H.
    apply andb_true_iff in H. destruct H as [H1 H2]. cbn [inert]. rewrite (IH c); [|destruct c; revert H1; vm_compute; congruence|exact H2].
    rewrite Hp. destruct c; revert H1; vm_compute; congruence.
  Qed.

  Lemma passes_name s : passes (name_bytes s).
  Proof.
    apply passes_inert. unfold name_bytes. cbn [inert]. change (dull x2f) with true. cbn [orb andb].
    apply regular_inert; [reflexivity|]. apply name_regular.
  Qed.

  Lemma dec_i_dull z : forallb dull (dec_i z) = true.
  Proof.
    destruct (dec_i_spec z) as [H _]. apply number_chars in H. destruct H as [H _]. revert H.
    apply forallb_impl. intro a. destruct a; vm_compute; congruence.
  Qed.

  Lemma float_dull v : f32_valid v = true -> forallb dull (float_bytes v) = true.
  Proof.
    intro Hv. destruct v as [|n|n m e].
    - vm_compute. reflexivity.
    - destruct n; vm_compute; reflexivity.
    - destruct (float_good (FFin n m e) eq_refl Hv) as [t [H _]].
      apply number_chars in H. destruct H as [H _]. revert H.
      apply forallb_impl. intro a. destruct a; vm_compute; congruence.
  Qed.

  Lemma passes_date d : date_ok d = true -> passes (date_bytes d).
  Proof.
    intro H. unfold date_bytes.
    change (lit "(D:" ++ date_body d ++ lit ")") with (x28 :: ((lit "D:" ++ date_body d) ++ [x29])).
    apply passes_lit. intro rest. exists (lit "D:" ++ date_body d).
    rewrite <- app_assoc, lit_plain by (rewrite forallb_app', date_body_plain by exact H; reflexivity).
    cbn [app lit_string]. apply fold_cons_fst.
  Qed.

  Lemma passes_prim q : prim_typed q = true -> (forall r, q <> PRef r) -> passes (prim_bytes q).
  Proof.
    intros Ht Hr. destruct q; cbn [prim_bytes prim_typed] in *.
    - apply passes_dull. reflexivity.
    - apply passes_inert. destruct v; reflexivity.
    - apply passes_dull, dec_i_dull.
    - apply passes_dull, float_dull, Ht.
    - apply passes_str.
    - apply passes_text.
    - apply passes_text_lang.
    - apply passes_name.
    - exfalso. exact (Hr r eq_refl).
    - apply andb_true_iff in Ht. destruct Ht as [Ht H4]. apply andb_true_iff in Ht. destruct Ht as [Ht H3].
      apply andb_true_iff in Ht. destruct Ht as [H1 H2].
      apply passes_dull. rewrite !forallb_app', !float_dull by assumption. reflexivity.
    - apply passes_date, Ht.
  Qed.

  (** ** Trees *)

  (** The limits registered for the new references and their generation 0. *)
  Definition note_refs (ns : list Z) (l : limits) : limits :=
    fold_left (fun l n => register_int 0 (register_int n l)) ns l.

  Lemma note_refs_app a b l : note_refs (a ++ b) l = note_refs b (note_refs a l).
  Proof. apply fold_left_app. Qed.

  Definition put (t : bytes) (ns : list Z) (b : buf) : buf := mkBuf (inner b ++ t) (note_refs ns (lims b)).

  Lemma put_put t1 n1 t2 n2 b : put t2 n2 (put t1 n1 b) = put (t1 ++ t2) (n1 ++ n2) b.
  Proof. unfold put. cbn [inner lims]. rewrite note_refs_app, <- app_assoc. reflexivity. Qed.

  Lemma extend_put t b : extend t b = put t [] b.
  Proof. reflexivity. Qed.

  Definition scans (o : obj) : Prop := forall p i pre rest b s,
    obj_typed o = true -> (begins_with_delimiter o = false -> stops is_digit pre) ->
    let '(o', s') := map_refs_st f o s in
    eag f pre (out p i o ++ rest) b s = eag f (pre ++ out p i o) rest (put (out p i o') (obj_refs o') b) s'.

  Lemma last_out_map p i o s : last_byte (out p i (fst (map_refs_st f o s))) = last_byte (out p i o).
  Proof.
    destruct o as [q|l|l]; cbn [map_refs_st].
    - destruct q; try reflexivity. destruct (f s r) as [n t]. cbn [fst out prim_bytes].
      rewrite !last_byte_app_ne by discriminate. reflexivity.
    - destruct (thread _ l s) as [l' t]. cbn [fst]. rewrite !out_array.
      rewrite !app_assoc, !last_byte_app. reflexivity.
    - destruct (thread _ l s) as [l' t]. cbn [fst]. rewrite !out_dict.
      rewrite !app_assoc, !last_byte_app_ne by discriminate. reflexivity.
  Qed.

  Lemma begins_map o s : begins_with_delimiter (fst (map_refs_st f o s)) = begins_with_delimiter o.
  Proof.
    destruct o as [q|l|l]; cbn [map_refs_st].
    - destruct q; try reflexivity. destruct (f s r) as [n t]. reflexivity.
    - destruct (thread _ l s) as [l' t]. reflexivity.
    - destruct (thread _ l s) as [l' t]. reflexivity.
  Qed.

  Lemma pad_map prev o s : pad prev (fst (map_refs_st f o s)) = pad prev o.
  Proof. unfold pad. rewrite begins_map. reflexivity. Qed.

  Lemma pad_dull prev o : forallb dull (pad prev o) = true.
  Proof. unfold pad. destruct (_ && _); reflexivity. Qed.

  Lemma spaces_dull n : forallb dull (spaces n) = true.
  Proof. unfold spaces. induction (Z.to_nat n) as [|k IH]; [reflexivity|]. exact IH. Qed.

  Lemma delimiter_stops pre c : last_byte pre = Some c -> is_delimiter_character c = true -> stops is_digit pre.
  Proof. intros E H. unfold stops. rewrite E. destruct c; revert H; vm_compute; congruence. Qed.

  (** After the padding before a reference-like object the digits stop. *)
  Lemma pad_stops pre prev o : last_byte pre = prev -> begins_with_delimiter o = false ->
    pre <> [] -> stops is_digit (pre ++ pad prev o).
  Proof.
    intros E Hb Hne. unfold pad. rewrite Hb. cbn [negb andb].
    destruct (ends_delim prev) eqn:Ed; cbn [negb].
    - rewrite app_nil_r. destruct prev as [c|]; [|discriminate]. apply (delimiter_stops pre c E Ed).
    - apply stops_app; [discriminate|]. vm_compute. reflexivity.
  Qed.

  Lemma items_scan l : Forall scans l -> forall p i first prev pre rest b s,
    forallb obj_typed l = true -> pre <> [] ->
    (first = true -> stops is_digit pre) -> (first = false -> last_byte pre = prev) ->
    let '(l', s') := thread (map_refs_st f) l s in
    eag f pre (out_items p i first prev l ++ rest) b s =
    eag f (pre ++ out_items p i first prev l) rest (put (out_items p i first prev l') (flat_map obj_refs l') b) s'.
  Proof.
    induction l as [|it r IH]; intros HF p i first prev pre rest b s Ht Hne Hs Hp.
    - cbn [thread out_items flat_map]. rewrite !app_nil_r. unfold put. rewrite app_nil_r. destruct b; reflexivity.
    - inversion HF as [|? ? H1 H2]; subst. cbn [forallb] in Ht. apply andb_true_iff in Ht. destruct Ht as [T1 T2].
      cbn [thread]. fold (thread (T:=T) (map_refs_st f)).
      pose proof (last_out_map p i it s) as Hl. pose proof (begins_map it s) as Hbm. pose proof (pad_map prev it s) as Hpm.
      set (P := if first then [] else if p then [x20] else pad prev it).
      assert (HPd : forallb dull P = true) by (unfold P; destruct first; [|destruct p]; try reflexivity; apply pad_dull).
      assert (HPs : begins_with_delimiter it = false -> stops is_digit (pre ++ P)).
      { intro Hb. unfold P. destruct first; [rewrite app_nil_r; auto|]. destruct p.
        - apply stops_app; [discriminate|vm_compute; reflexivity].
        - apply pad_stops; auto. }
      specialize (H1 p i (pre ++ P) (out_items p i false (last_byte (out p i it)) r ++ rest) (put P [] b) s T1 HPs).
      destruct (map_refs_st f it s) as [it' s1]. cbn [fst] in *.
      specialize (IH H2 p i false (last_byte (out p i it)) ((pre ++ P) ++ out p i it) rest
                    (put (out p i it') (obj_refs it') (put P [] b)) s1 T2).
      destruct (thread (map_refs_st f) r s1) as [r' s2].
      cbn [out_items flat_map]. fold P. rewrite Hpm. fold P. rewrite Hl.
      rewrite <- !app_assoc. rewrite (passes_dull P HPd). rewrite extend_put.
      rewrite <- !app_assoc in H1. rewrite H1.
      rewrite <- !app_assoc in IH. rewrite IH.
      + rewrite !put_put. cbn [app]. rewrite <- ?app_assoc. reflexivity.
      + intro E. apply app_eq_nil in E. destruct E as [E _]. contradiction.
      + discriminate.
      + intros _. rewrite app_assoc. apply last_out_app.
  Qed.

  Lemma entries_scan l : Forall (fun e => scans (snd e)) l -> forall p i pre rest b s,
    forallb (fun e => obj_typed (snd e)) l = true ->
    let '(l', s') := thread (fun e t => let '(v, t) := map_refs_st f (snd e) t in ((fst e, v), t)) l s in
    eag f pre (out_entries p i l ++ rest) b s =
    eag f (pre ++ out_entries p i l) rest
        (put (out_entries p i l') (flat_map (fun e => obj_refs (snd e)) l') b) s' /\
    is_nil l' = is_nil l.
  Proof.
    induction l as [|[k v] r IH]; intros HF p i pre rest b s Ht.
    - cbn [thread out_entries flat_map]. rewrite !app_nil_r. unfold put. rewrite app_nil_r. destruct b; split; reflexivity.
    - inversion HF as [|? ? H1 H2]; subst. cbn [forallb snd fst] in *. apply andb_true_iff in Ht. destruct Ht as [T1 T2].
      cbn [thread snd fst]. fold (thread (T:=T) (fun e t => let '(v, t) := map_refs_st f (@snd bytes obj e) t in ((fst e, v), t))).
      pose proof (pad_map (last_byte (name_bytes k)) v s) as Hpm.
      set (P := (if p then [x0a] ++ spaces i else []) ++ name_bytes k ++
                (if p then [x20] else pad (last_byte (name_bytes k)) v)).
      assert (HPp : passes P).
      { unfold P. apply passes_app; [apply passes_dull; destruct p; [apply spaces_dull|reflexivity]|].
        apply passes_app; [apply passes_name|]. apply passes_dull. destruct p; [reflexivity|apply pad_dull]. }
      assert (HPs : begins_with_delimiter v = false -> stops is_digit (pre ++ P)).
      { intro Hb. unfold P. rewrite !app_assoc. destruct p.
        - apply stops_app; [discriminate|vm_compute; reflexivity].
        - apply pad_stops; [apply last_byte_app_ne; discriminate|exact Hb|].
          intro E. apply app_eq_nil in E. destruct E as [_ E]. discriminate. }
      specialize (H1 p i (pre ++ P) (out_entries p i r ++ rest) (put P [] b) s T1 HPs).
      destruct (map_refs_st f v s) as [v' s1]. cbn [fst] in *.
      specialize (IH H2 p i ((pre ++ P) ++ out p i v) rest (put (out p i v') (obj_refs v') (put P [] b)) s1 T2).
      destruct (thread _ r s1) as [r' s2]. split; [|reflexivity].
      cbn [out_entries flat_map snd]. rewrite Hpm.
      assert (E : forall x y, (if p then [x0a] ++ spaces i else []) ++ name_bytes k ++
                (if p then [x20] else pad (last_byte (name_bytes k)) v) ++ x ++ y = P ++ x ++ y).
      { intros x y. unfold P. rewrite <- !app_assoc. reflexivity. }
      rewrite !E. rewrite <- !app_assoc. rewrite (HPp pre). rewrite extend_put.
      rewrite <- !app_assoc in H1. rewrite H1. destruct IH as [IH _].
      rewrite <- !app_assoc in IH. rewrite IH.
      rewrite !put_put. cbn [app]. rewrite <- ?app_assoc. reflexivity.
  Qed.

  Lemma tree_scans o : scans o.
  Proof.
    induction o as [q|l IH|l IH] using obj_ind'; intros p i pre rest b s Ht Hs.
    - destruct q as [ |v|v|v|x|t|g|x|r|r|d]; cbn [map_refs_st obj_refs out];
        try (apply (passes_prim _ Ht); discriminate).
      destruct (f s r) as [n s'] eqn:E. cbn [prim_bytes obj_refs].
      cbn [obj_typed prim_typed] in Ht. apply andb_true_iff in Ht. destruct Ht as [H1 H2].
      apply Z.ltb_lt in H1. apply Z.leb_le in H2.
      destruct (parse_dec r (conj H1 H2)) as [A [B C]].
      rewrite <- app_assoc. rewrite (eag_ref f (dec_i r) r pre rest b s n s' B C A H1 (Hs eq_refl) E).
      f_equal. unfold push_ref, put, push, push_int, extend, with_limits. cbn [inner lims note_refs fold_left].
      f_equal. rewrite <- !app_assoc. reflexivity.
    - cbn [map_refs_st]. cbn [obj_typed] in Ht.
      pose proof (items_scan l IH p i true None (pre ++ [x5b]) ([x5d] ++ rest) (put [x5b] [] b) s Ht) as H.
      destruct (thread (map_refs_st f) l s) as [l' s'].
      rewrite !out_array. cbn [obj_refs]. rewrite <- !app_assoc.
      rewrite (passes_dull [x5b] eq_refl). rewrite extend_put, H.
      + rewrite (passes_dull [x5d] eq_refl). rewrite extend_put, !put_put, <- !app_assoc, app_nil_r. reflexivity.
      + intro E. apply app_eq_nil in E. destruct E as [_ E]. discriminate.
      + intros _. apply stops_app; [discriminate|vm_compute; reflexivity].
      + discriminate.
    - cbn [map_refs_st]. cbn [obj_typed] in Ht.
      pose proof (entries_scan l IH p (ent_indent i) (pre ++ [x3c; x3c])
        (((if p && negb (is_nil l) then [x0a] ++ spaces (ent_indent i - 2) else []) ++ [x3e; x3e]) ++ rest)
        (put [x3c; x3c] [] b) s Ht) as H.
      destruct (thread _ l s) as [l' s']. destruct H as [H Hn].
      rewrite !out_dict. cbn [obj_refs]. rewrite Hn.
      set (C := (if p && negb (is_nil l) then [x0a] ++ spaces (ent_indent i - 2) else []) ++ [x3e; x3e]) in *.
      assert (HC : forallb dull C = true).
      { unfold C. rewrite forallb_app'. destruct (p && _); [rewrite forallb_app', spaces_dull|]; reflexivity. }
      rewrite <- !app_assoc. rewrite (passes_dull [x3c; x3c] eq_refl). rewrite extend_put, H.
      rewrite (passes_dull C HC). rewrite extend_put, !put_put, <- !app_assoc, app_nil_r. reflexivity.
  Qed.
End Mapping.
