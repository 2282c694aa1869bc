(** The sizes of values, objects and files. *)

From Coq Require Import ZArith List Lia Bool Arith ZifyBool.
From Verif Require Import Bytes ModelFloat ModelBuf ModelObject ModelRenumber ModelChunk SpecLex SpecObj SpecMeans
  SpecRenum SpecChunk SpecOverflow ProofBasic ProofText ProofFloat ProofFloat2 ProofObj ProofChunk SpecCost ProofCost.
Import ListNotations.
Local Open Scope Z_scope.

Lemma total_app {A} (f : A -> Z) a b : total f (a ++ b) = total f a + total f b.
Proof. induction a as [|x a IH]; [reflexivity|]. cbn [app total fold_right]. fold (total f (a ++ b)). fold (total f a). lia. Qed.

Lemma total_cons {A} (f : A -> Z) x l : total f (x :: l) = f x + total f l.
Proof. reflexivity. Qed.

Lemma total_nonneg {A} (f : A -> Z) l : (forall x, 0 <= f x) -> 0 <= total f l.
Proof. intro H. induction l as [|x l IH]; [cbn; lia|]. rewrite total_cons. specialize (H x). lia. Qed.

Lemma size_nonneg {A} (l : list A) : 0 <= size l.
Proof. unfold size. lia. Qed.
Lemma size_cons {A} x (l : list A) : size (x :: l) = 1 + size l.
Proof. unfold size. cbn [List.length]. lia. Qed.

Lemma flat_len {A} (f : A -> bytes) n l : (forall x, In x l -> blen (f x) <= n) -> blen (flat_map f l) <= n * size l.
Proof.
  induction l as [|x l IH]; intro H; [cbn; lia|]. cbn [flat_map]. rewrite blen_app, size_cons.
  pose proof (H x (or_introl eq_refl)). specialize (IH (fun y h => H y (or_intror h))). lia.
Qed.

(** ** Primitive values *)

Lemma octal3_len c : blen (octal3 c) = 3. Proof. reflexivity. Qed.
Lemma hex2_len c : blen (hex2 c) = 2. Proof. reflexivity. Qed.
Lemma hex4_len c : blen (hex4 c) = 4. Proof. reflexivity. Qed.

Lemma str_byte_len whole bal c : blen (snd (str_byte whole bal c)) <= 4.
Proof.
  unfold str_byte. destruct (beq c x28 || beq c x29).
  { cbn [snd]. destruct (match bal with Some v => v | None => _ end); cbn; lia. }
  repeat match goal with |- context [if ?x then (bal, _) else _] => destruct x; [cbn; lia|] end. cbn. lia.
Qed.

Lemma str_byte_short whole bal c : (32 <=? bz c) && (bz c <=? 126) = true -> blen (snd (str_byte whole bal c)) <= 2.
Proof.
  intro H. unfold str_byte. destruct (beq c x28 || beq c x29).
  { cbn [snd]. destruct (match bal with Some v => v | None => _ end); cbn; lia. }
  destruct (beq c x5c); [cbn; lia|]. rewrite H. cbn. lia.
Qed.

Lemma str_literal_len whole : forall s bal, blen (str_literal whole bal s) <= 4 * size s.
Proof.
  induction s as [|c s IH]; intro bal; [cbn; lia|]. cbn [str_literal]. pose proof (str_byte_len whole bal c) as L.
  destruct (str_byte whole bal c) as [bal' o]. cbn [snd] in L. rewrite blen_app, size_cons. specialize (IH bal'). lia.
Qed.

Lemma str_literal_short whole : forall s bal, forallb (fun c => (32 <=? bz c) && (bz c <=? 126)) s = true -> blen (str_literal whole bal s) <= 2 * size s.
Proof.
  induction s as [|c s IH]; intros bal H; [cbn; lia|]. cbn [str_literal forallb] in *. apply andb_true_iff in H. destruct H as [H1 H2].
  pose proof (str_byte_short whole bal c H1) as L.
  destruct (str_byte whole bal c) as [bal' o]. cbn [snd] in L. rewrite blen_app, size_cons. specialize (IH bal' H2). lia.
Qed.

Lemma str_len s : blen (str_bytes s) <= 2 + 4 * size s.
Proof.
  unfold str_bytes. destruct (forallb _ s); rewrite !blen_app; unfold blen at 1 3; cbn [List.length].
  - pose proof (str_literal_len s s None). lia.
  - pose proof (flat_len hex2 2 s (fun x _ => Z.eq_le_incl _ _ (hex2_len x))). pose proof (size_nonneg s). lia.
Qed.

Lemma str_short s : forallb (fun c => (32 <=? bz c) && (bz c <=? 126)) s = true -> blen (str_bytes s) <= 2 + 2 * size s.
Proof.
  intro H. unfold str_bytes. destruct (forallb (fun c => bz c <? 128) s) eqn:E; rewrite !blen_app; unfold blen at 1 3; cbn [List.length].
  - pose proof (str_literal_short s s None H). lia.
  - pose proof (flat_len hex2 2 s (fun x _ => Z.eq_le_incl _ _ (hex2_len x))). lia.
Qed.

Lemma name_len s : blen (name_bytes s) <= 1 + 3 * size s.
Proof.
  unfold name_bytes. change (x2f :: flat_map name_byte s) with ([x2f] ++ flat_map name_byte s). rewrite blen_app. change (blen [x2f]) with 1.
  assert (H : blen (flat_map name_byte s) <= 3 * size s); [|lia]. apply flat_len. intros c _. unfold name_byte. match goal with |- context [if ?x then _ else _] => destruct x end; cbn; lia.
Qed.

Lemma utf16_len t : blen (hex_utf16 t) <= 8 * size t.
Proof.
  unfold hex_utf16. induction t as [|c t IH]; [cbn; lia|]. cbn [flat_map]. rewrite flat_map_app, blen_app, size_cons.
  assert (blen (flat_map hex4 (utf16 c)) <= 8); [|lia]. unfold utf16. destruct (c <? 65536); cbn [flat_map]; rewrite ?app_nil_r, ?blen_app, !hex4_len; lia.
Qed.

Lemma utf8_len t : size (str_utf8 t) <= 4 * size t.
Proof. unfold str_utf8. apply (flat_len utf8 4). intros c _. unfold utf8. destruct (c <? 128), (c <? 2048), (c <? 65536); cbn; lia. Qed.

Lemma text_len t : blen (text_bytes t) <= 6 + 8 * size t.
Proof.
  unfold text_bytes. destruct (forallb _ (str_utf8 t)) eqn:E.
  - pose proof (str_short _ E). pose proof (utf8_len t). lia.
  - rewrite !blen_app. change (blen text_header) with 5. change (blen text_footer) with 1. pose proof (utf16_len t). lia.
Qed.

Lemma lang_len_le l : blen (lang_code l) <= 24.
Proof. unfold lang_code. rewrite !blen_app, !hex4_len. destruct (region l) as [[a b]|]; rewrite ?blen_app, ?hex4_len; cbn; lia. Qed.

Lemma text_lang_len segs : blen (text_lang_bytes segs) <= 6 + total (fun seg => 24 + 8 * size (snd seg)) segs.
Proof.
  unfold text_lang_bytes. rewrite !blen_app. change (blen text_header) with 5. change (blen text_footer) with 1.
  assert (H : blen (flat_map (fun seg => lang_code (fst seg) ++ hex_utf16 (snd seg)) segs) <= total (fun seg => 24 + 8 * size (snd seg)) segs); [|lia].
  induction segs as [|g segs IH]; [cbn; lia|]. cbn [flat_map]. rewrite total_cons, !blen_app.
  pose proof (lang_len_le (fst g)). pose proof (utf16_len (snd g)). lia.
Qed.

Lemma pad_len w n : 0 <= n < 10 ^ Z.of_nat w -> (0 < w)%nat -> blen (dec_pad w n) = Z.of_nat w.
Proof. intros H W. unfold blen. rewrite (proj1 (dec_pad_spec w n H W)). reflexivity. Qed.

Lemma date_len d : date_ok d = true -> blen (date_bytes d) <= 24.
Proof.
  destruct d as [y mo da h mi s oh om]. unfold date_ok, opt_in. cbn [d_year d_month d_day d_hour d_minute d_second d_off_hour d_off_minute]. intro H. repeat (apply andb_true_iff in H; destruct H as [H ?]).
  unfold date_bytes, date_body. cbn [d_year d_month d_day d_hour d_minute d_second d_off_hour d_off_minute]. rewrite !blen_app. change (blen (lit "(D:")) with 3. change (blen (lit ")")) with 1.
  rewrite (pad_len 4) by (change (10 ^ Z.of_nat 4) with 10000; lia).
  assert (P : forall v, 0 <= v < 100 -> blen (dec_pad 2 v) = 2) by (intros v Hv; rewrite (pad_len 2) by (change (10 ^ Z.of_nat 2) with 100; lia); reflexivity).
  destruct mo; [|rewrite blen_nil; lia]. rewrite blen_app, P by lia.
  destruct da; [|rewrite blen_nil; lia]. rewrite blen_app, P by lia.
  destruct h; [|rewrite blen_nil; lia]. rewrite blen_app, P by lia.
  destruct mi; [|rewrite blen_nil; lia]. rewrite blen_app, P by lia.
  destruct s; [|rewrite blen_nil; lia]. rewrite blen_app, P by lia.
  destruct oh; [|rewrite blen_nil; lia].
  match goal with |- context [if ?x then [x5a] else _] => destruct x end; [change (blen [x5a]) with 1; lia|]. unfold dec_signed2. rewrite !blen_app, !P by lia. match goal with |- context [if ?x then [x2d] else _] => destruct x end; unfold blen; cbn [List.length]; lia.
Qed.

Lemma prim_len p : prim_fits p = true -> blen (prim_bytes p) <= prim_cost p.
Proof.
  destruct p; cbn [prim_fits prim_typed prim_bytes prim_cost]; intro H.
  - cbn; lia.
  - destruct v; cbn; lia.
  - apply int_len, H.
  - apply float_len, H.
  - apply str_len.
  - apply text_len.
  - apply text_lang_len.
  - apply name_len.
  - rewrite blen_app. change (blen (lit " 0 R")) with 4. pose proof (nat_len r ltac:(lia)). lia.
  - repeat (apply andb_true_iff in H; destruct H as [H ?]). rewrite !blen_app. change (blen [x5b]) with 1. change (blen [x20]) with 1. change (blen [x5d]) with 1.
    pose proof (float_len _ H). pose proof (float_len (y1 r) ltac:(assumption)). pose proof (float_len (x2 r) ltac:(assumption)). pose proof (float_len (y2 r) ltac:(assumption)). lia.
  - apply date_len, H.
Qed.

(** ** Nested values *)

Lemma pad_le prev o : blen (pad prev o) <= 1.
Proof. unfold pad. destruct (_ && _); cbn; lia. Qed.

Lemma spaces_len i : 0 <= i -> blen (spaces i) = i.
Proof. intro H. unfold spaces. rewrite blen_repeat. lia. Qed.

Lemma indent_range i : 0 <= i -> 2 <= ent_indent i <= 255 \/ i < 0.
Proof. unfold ent_indent, sat_add_u8. lia. Qed.

Definition small (p : bool) (o : obj) : Prop := forall i, 0 <= i <= 255 -> fits o = true -> blen (out p i o) <= cost p o.

Lemma items_len p l : Forall (small p) l -> forall i first prev, 0 <= i <= 255 -> forallb fits l = true ->
  blen (out_items p i first prev l) <= total (fun it => 1 + cost p it) l.
Proof.
  induction 1 as [|it l S _ IH]; intros i first prev Hi F; [cbn; lia|]. cbn [forallb] in F. apply andb_true_iff in F. destruct F as [F1 F2].
  cbn [out_items]. rewrite total_cons, !blen_app. specialize (S i Hi F1). specialize (IH i false (last_byte (out p i it)) Hi F2).
  assert (blen (if first then [] else if p then [x20] else pad prev it) <= 1) by (destruct first; [cbn; lia|]; destruct p; [cbn; lia|apply pad_le]). lia.
Qed.

Lemma entries_len p l : Forall (fun e => small p (snd e)) l -> forall i, 0 <= i <= 255 -> forallb (fun e => fits (snd e)) l = true ->
  blen (out_entries p i l) <= total (fun e => line p + (1 + 3 * size (fst e)) + 1 + cost p (snd e)) l.
Proof.
  induction 1 as [|[k v] l S _ IH]; intros i Hi F; [cbn; lia|]. cbn [forallb snd] in F. apply andb_true_iff in F. destruct F as [F1 F2].
  cbn [out_entries]. rewrite total_cons, !blen_app. cbn [fst snd] in *. specialize (S i Hi F1). specialize (IH i Hi F2). pose proof (name_len k).
  assert (blen (if p then [x20] else pad (last_byte (name_bytes k)) v) <= 1) by (destruct p; [cbn; lia|apply pad_le]).
  assert (blen (if p then [x0a] ++ spaces i else []) <= line p).
  { unfold line. destruct p; [|cbn; lia]. rewrite blen_app, spaces_len by lia. change (blen [x0a]) with 1. lia. }
  rewrite ?blen_app in *. lia.
Qed.

Lemma value_len p o : small p o.
Proof.
  induction o as [q|l IH|l IH] using obj_ind'; intros i Hi F.
  - apply prim_len, F.
  - rewrite out_array, !blen_app. change (blen [x5b]) with 1. change (blen [x5d]) with 1. cbn [cost].
    pose proof (items_len p l IH i true None Hi F). lia.
  - rewrite out_dict, !blen_app. change (blen [x3c; x3c]) with 2. change (blen [x3e; x3e]) with 2. cbn [cost].
    assert (J : 2 <= ent_indent i <= 255) by (unfold ent_indent, sat_add_u8; lia).
    pose proof (entries_len p l IH (ent_indent i) ltac:(lia) F).
    assert (blen (if p && negb (is_nil l) then [x0a] ++ spaces (ent_indent i - 2) else []) <= line p); [|lia].
    unfold line. destruct p; cbn [andb]; [|cbn; lia]. destruct (negb (is_nil l)); [|cbn; lia]. rewrite blen_app, spaces_len by lia. change (blen [x0a]) with 1. lia.
Qed.

(** ** Objects *)

Lemma body_len p b : body_sound b = true -> body_fits b = true -> blen (body_bytes p b) <= body_cost p b.
Proof.
  destruct b as [o|es data]; cbn [body_sound body_fits body_bytes body_cost]; intros F D.
  - apply value_len; [lia|exact F].
  - assert (S : Forall (fun e => small p (snd e)) (len_entry data :: es)) by (apply Forall_forall; intros; apply value_len).
    pose proof (blen_nonneg data) as Z0. unfold i32_max in D.
    pose proof (entries_len p _ S 2 ltac:(lia)) as L. cbn [forallb snd len_entry fits prim_fits] in L. 
    rewrite F, andb_true_r in L. specialize (L ltac:(unfold in_i32, i32_min, i32_max; lia)).
    rewrite total_cons in L. cbn [fst snd len_entry cost prim_cost] in L. change (size (lit "Length")) with 6 in L. cbn [cost].
    rewrite !blen_app. fold (size data). change (blen data) with (size data).
    change (blen [x3c; x3c]) with 2. change (blen [x3e; x3e]) with 2. change (blen [x0a]) with 1. change (blen (lit "stream")) with 6. change (blen (lit "endstream")) with 9.
    unfold line in *. destruct p; [change (blen [x0a]) with 1|change (blen []) with 0]; lia.
Qed.

Lemma item_len p nl it : id_ok (fst it) = true -> body_sound (snd it) = true -> body_fits (snd it) = true ->
  blen (item_bytes p nl it) <= item_cost p it.
Proof.
  unfold id_ok. intros I F D. unfold item_bytes, item_cost. rewrite !blen_app. pose proof (nat_len (fst it) ltac:(lia)).
  pose proof (body_len p _ F D). change (blen [x0a]) with 1. change (blen (lit " 0 obj")) with 6. change (blen (lit "endobj")) with 6.
  assert (blen (if nl then [x0a] else []) <= 1) by (destruct nl; cbn; lia). lia.
Qed.

(** ** Laying out the text costs more, other numbers do not *)

Lemma total_mono {A} (f g : A -> Z) l : Forall (fun x => f x <= g x) l -> total f l <= total g l.
Proof. induction 1 as [|x l H _ IH]; [cbn; lia|]. rewrite !total_cons. lia. Qed.

Lemma cost_mono p o : cost p o <= cost true o.
Proof.
  destruct p; [lia|]. induction o as [q|l IH|l IH] using obj_ind'; cbn [cost]; [lia| |].
  - apply Zplus_le_compat_l. apply total_mono. eapply Forall_impl; [|exact IH]. cbv beta. intros; lia.
  - unfold line. apply Z.add_le_mono; [lia|]. apply total_mono. eapply Forall_impl; [|exact IH]. cbv beta. intros; lia.
Qed.

Lemma item_cost_mono p it : item_cost p it <= item_cost true it.
Proof.
  unfold item_cost. destruct (snd it) as [o|es data]; cbn [body_cost].
  - pose proof (cost_mono p o). lia.
  - pose proof (cost_mono p (ODict es)). unfold line. destruct p; lia.
Qed.

Lemma thread_cost {A T} (w : A -> Z) (g : A -> T -> A * T) l : Forall (fun a => forall t, w (fst (g a t)) = w a) l -> forall t,
  total w (fst (thread g l t)) = total w l.
Proof.
  induction 1 as [|a l H _ IH]; intro t; [reflexivity|].
  change (thread g (a :: l) t) with (let '(a', t1) := g a t in let '(r, t2) := thread g l t1 in (a' :: r, t2)).
  specialize (H t). destruct (g a t) as [a' t1]. cbn [fst] in H.
  specialize (IH t1). destruct (thread g l t1) as [l' t2]. cbn [fst] in *. rewrite !total_cons. lia.
Qed.

Lemma cost_refs {T} (f : T -> Z -> Z * T) p o : forall t, cost p (fst (map_refs_st f o t)) = cost p o.
Proof.
  induction o as [q|l IH|l IH] using obj_ind'; intro t; cbn [map_refs_st].
  - destruct q; try reflexivity. destruct (f t r) as [n t']. reflexivity.
  - pose proof (thread_cost (fun it => 1 + cost p it) (map_refs_st f) l) as Q.
    assert (A : Forall (fun a => forall t, 1 + cost p (fst (map_refs_st f a t)) = 1 + cost p a) l) by (eapply Forall_impl; [|exact IH]; cbv beta; intros a H t'; rewrite H; reflexivity).
    specialize (Q A t). destruct (thread (map_refs_st f) l t) as [l' t']. cbn [fst cost] in *. rewrite Q. reflexivity.
  - pose proof (thread_cost (fun e => line p + (1 + 3 * size (fst e)) + 1 + cost p (snd e)) (fun e t => let '(v, t) := map_refs_st f (snd e) t in ((fst e, v), t)) l) as Q.
    specialize (Q ltac:(eapply Forall_impl; [|exact IH]; cbv beta; intros [k v] H t'; cbn [fst snd] in *; specialize (H t'); destruct (map_refs_st f v t'); cbn [fst snd] in *; rewrite H; reflexivity) t).
    destruct (thread _ l t) as [l' t']. cbn [fst cost] in *. rewrite Q. reflexivity.
Qed.

Lemma cost_entries_refs {T} (f : T -> Z -> Z * T) p es : forall t,
  total (fun e => line p + (1 + 3 * size (fst e)) + 1 + cost p (snd e)) (fst (map_entries_st f es t)) =
  total (fun e => line p + (1 + 3 * size (fst e)) + 1 + cost p (snd e)) es.
Proof.
  intro t. unfold map_entries_st. apply thread_cost. apply Forall_forall. intros [k v] _ t'. cbn [fst snd].
  pose proof (cost_refs f p v t') as H. destruct (map_refs_st f v t') as [v' t2]. cbn [fst snd] in *. rewrite H. reflexivity.
Qed.
