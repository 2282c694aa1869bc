(** Chunks: layout of the bytes, offsets, and renumbering. *)

From Coq Require Import ZArith List Lia Bool Arith ZifyBool.
From Verif Require Import Bytes ModelFloat ModelBuf ModelObject ModelRenumber ModelChunk SpecLex SpecObj SpecMeans
  SpecRenum SpecChunk ProofBasic ProofText ProofFloat ProofFloat2 ProofObj ProofParse ProofTree ProofPrint ProofRenum ProofRenumTree.
Import ListNotations.
Local Open Scope Z_scope.

(** ** The bytes of an item *)

Definition len_entry (data : bytes) : bytes * obj := (lit "Length", OPrim (PInt (blen data))).

Definition body_bytes (p : bool) (b : body) : bytes :=
  match b with
  | BObj o => out p 0 o
  | BStream es data =>
      [x3c; x3c] ++ out_entries p 2 (len_entry data :: es) ++ (if p then [x0a] else []) ++ [x3e; x3e] ++
      [x0a] ++ lit "stream" ++ [x0a] ++ data ++ [x0a] ++ lit "endstream"
  end.

(** An item with the style of its interior and whether a blank line follows. *)
Record placed := mkPl { pl_style : bool; pl_nl : bool; pl_item : item }.

Definition item_bytes (p nl : bool) (it : item) : bytes :=
  dec_i (fst it) ++ lit " 0 obj" ++ [x0a] ++ body_bytes p (snd it) ++
  [x0a] ++ lit "endobj" ++ [x0a] ++ (if nl then [x0a] else []).
Definition placed_bytes (pl : placed) : bytes := item_bytes (pl_style pl) (pl_nl pl) (pl_item pl).

Fixpoint offs (base : Z) (l : list placed) : list (Z * Z) :=
  match l with
  | [] => []
  | pl :: r => (fst (pl_item pl), base) :: offs (base + blen (placed_bytes pl)) r
  end.

Definition layout (l : list placed) : bytes := flat_map placed_bytes l.

Definition holds (pfx : bytes) (l : list placed) (c : chunk) : Prop :=
  chunk_bytes c = pfx ++ layout l /\ c_offsets c = offs (blen pfx) l.

Lemma offs_app l1 l2 base : offs base (l1 ++ l2) = offs base l1 ++ offs (base + blen (layout l1)) l2.
Proof.
  revert base. induction l1 as [|a l1 IH]; intro base; [cbn [app layout flat_map]; rewrite blen_nil; cbn [offs app]; f_equal; lia|].
  cbn [app offs]. rewrite IH. cbn [layout flat_map]. rewrite blen_app. f_equal. f_equal. f_equal. unfold layout. lia.
Qed.

Lemma layout_app l1 l2 : layout (l1 ++ l2) = layout l1 ++ layout l2.
Proof. apply flat_map_app. Qed.

Lemma offs_shift l base k : map (fun e => (fst e, k + snd e)) (offs base l) = offs (k + base) l.
Proof.
  revert base. induction l as [|a l IH]; intro base; [reflexivity|]. cbn [offs map fst snd]. rewrite IH.
  f_equal. f_equal. lia.
Qed.

Lemma offs_ids base l : map fst (offs base l) = map (fun pl => fst (pl_item pl)) l.
Proof. revert base. induction l as [|a l IH]; intro base; [reflexivity|]. cbn [offs map fst]. rewrite IH. reflexivity. Qed.

(** ** Writing objects and streams *)

Lemma object_holds pfx l c id o : holds pfx l c ->
  holds pfx (l ++ [mkPl (c_pretty c) (c_pretty c) (id, BObj o)]) (chunk_object id o c) /\
  c_pretty (chunk_object id o c) = c_pretty c.
Proof.
  intros [Hb Ho]. unfold chunk_object, chunk_indirect, obj_indirect. split; [|reflexivity].
  split; unfold chunk_bytes; cbn [c_buf c_offsets]; fold (chunk_bytes c).
  - rewrite write_obj_inner. cbn [o_pad o_pretty o_indent o_indirect pad_if end_bytes].
    rewrite inner_extend. unfold push_int. rewrite inner_extend, inner_with.
    change (inner (c_buf c)) with (chunk_bytes c). rewrite Hb, layout_app. cbn [layout flat_map].
    unfold placed_bytes, item_bytes. cbn [pl_style pl_nl pl_item fst snd body_bytes].
    rewrite app_nil_r. rewrite <- !app_assoc. rewrite app_nil_l. reflexivity.
  - rewrite Ho, offs_app. cbn [offs pl_item fst]. unfold chunk_len. rewrite Hb, blen_app. reflexivity.
Qed.

Lemma stream_holds pfx l c id es data c' : holds pfx l c -> chunk_stream id es data c = Some c' ->
  holds pfx (l ++ [mkPl (c_pretty c) (c_pretty c) (id, BStream es data)]) c' /\ c_pretty c' = c_pretty c.
Proof.
  intros [Hb Ho] H. unfold chunk_stream, chunk_indirect, obj_indirect, write_stream, stream_start in H.
  unfold dict_start in H. cbn [o_indirect o_indent o_pretty] in H.
  destruct (blen data <=? i32_max); [|discriminate].
  set (b1 := extend [x3c; x3c] _) in H.
  assert (E : forall k v es d b, write_entries ((k, OPrim v) :: es) d b =
    (let '(w', d, b) := dict_insert k d b in write_entries es d (obj_primitive w' v b))) by reflexivity.
  set (d0 := mkDictw true (sat_add_u8 0 2) (c_pretty c) 0) in H.
  destruct (dict_insert (lit "Length") d0 b1) as [[w' d1] b2] eqn:Ei.
  assert (Ew : write_entries es d1 (obj_primitive w' (PInt (blen data)) b2) = write_entries (len_entry data :: es) d0 b1).
  { unfold len_entry. rewrite E, Ei. reflexivity. }
  rewrite Ew in H.
  destruct (write_entries_inner (len_entry data :: es)) with (d := d0) (b := b1) as [A B].
  { apply Forall_forall. intros e _. apply write_obj_inner. }
  destruct (write_entries (len_entry data :: es) d0 b1) as [d2 b3]. cbn [fst snd] in A, B.
  injection H as <-. split; [|reflexivity]. split; unfold chunk_bytes; cbn [c_buf c_offsets]; fold (chunk_bytes c).
  - rewrite layout_app. cbn [layout flat_map]. unfold placed_bytes, item_bytes. cbn [pl_style pl_nl pl_item fst snd body_bytes].
    unfold stream_drop. rewrite B. unfold d0 in *. cbn [d_pretty d_indent d_len d_indirect] in *.
    change (sat_add_u8 0 2) with 2 in A.
    assert (Hb1 : inner b1 = (chunk_bytes c ++ dec_i id ++ lit " 0 obj" ++ [x0a]) ++ [x3c; x3c]).
    { unfold b1, push_int, extend, with_limits. cbn [inner lims c_buf]. rewrite <- !app_assoc. reflexivity. }
    rewrite Hb1, Hb in A.
    destruct (c_pretty c); rewrite !inner_extend, ?inner_with, A, ?app_nil_r, <- !app_assoc; reflexivity.
  - rewrite Ho, offs_app. cbn [offs pl_item fst]. unfold chunk_len. rewrite Hb, blen_app. reflexivity.
Qed.

Lemma stream_some_iff id es data c : chunk_stream id es data c <> None <-> blen data <= i32_max.
Proof.
  unfold chunk_stream, chunk_indirect, obj_indirect, write_stream, stream_start, dict_start.
  cbn [c_buf c_offsets c_pretty].
  destruct (Z.leb_spec (blen data) i32_max) as [Hl|Hl].
  - destruct (dict_insert _ _ _) as [[w' d1] b2]. destruct (write_entries _ _ _). split; [auto|intros _; discriminate].
  - split; [congruence|lia].
Qed.

Lemma extend_holds pfx a b c o : holds pfx a c -> holds [] b o ->
  holds pfx (a ++ b) (chunk_extend o c).
Proof.
  intros [Hb Ho] [Hb' Ho']. unfold chunk_extend, extend_buf. split; unfold chunk_bytes; cbn [c_buf c_offsets inner]; fold (chunk_bytes c).
  - change (inner (c_buf c)) with (chunk_bytes c). change (inner (c_buf o)) with (chunk_bytes o).
    rewrite Hb, Hb', layout_app, <- app_assoc. reflexivity.
  - rewrite Ho, Ho'. rewrite blen_nil, offs_shift, offs_app. f_equal. f_equal. unfold chunk_len. rewrite Hb, blen_app. lia.
Qed.

(** ** Extracting an object *)

Lemma starts_with_app p r : starts_with p (p ++ r) = true.
Proof. induction p as [|a p IH]; [reflexivity|]. cbn [app starts_with]. rewrite beq_refl. exact IH. Qed.

Lemma find_obj a r : forallb (fun c => negb (beq c x6f)) a = true ->
  memmem_find (lit "obj") (a ++ lit "obj" ++ r) = Some (length a).
Proof.
  induction a as [|c a IH]; intro H.
  - reflexivity.
  - cbn [forallb] in H. apply andb_true_iff in H. destruct H as [H1 H2]. cbn [app memmem_find].
    assert (starts_with (lit "obj") (c :: a ++ lit "obj" ++ r) = false) as ->.
    { change (lit "obj") with [x6f; x62; x6a] at 1. cbn [starts_with].
      apply negb_true_iff in H1. assert (beq x6f c = false) as ->; [|reflexivity].
      apply beq_neq. apply beq_neq in H1. congruence. }
    rewrite (IH H2). reflexivity.
Qed.

Lemma rfind_app n a s i : memmem_rfind n s = Some i -> memmem_rfind n (a ++ s) = Some (length a + i)%nat.
Proof.
  intro H. induction a as [|c a IH]; [exact H|]. cbn [app memmem_rfind]. rewrite IH. reflexivity.
Qed.

Definition firm_first (t : bytes) : Prop := match t with c :: _ => rn_whitespace c = false | [] => False end.
Definition firm_last (t : bytes) : Prop := match last_byte t with Some c => rn_whitespace c = false | None => False end.

Lemma firm_last_app a b : firm_last b -> firm_last (a ++ b).
Proof.
  unfold firm_last. intro H. destruct b as [|c b]; [destruct H|]. rewrite last_byte_app_ne by discriminate. exact H.
Qed.

Lemma extract_item p nl id bd :
  0 < id <= i32_max -> firm_first (body_bytes p bd) -> firm_last (body_bytes p bd) ->
  extract_object (item_bytes p nl (id, bd)) = Some (0, body_bytes p bd).
Proof.
  intros Hid Hf Hl. unfold item_bytes. cbn [fst snd].
  set (B := body_bytes p bd) in *.
  set (tail := [x0a] ++ lit "endobj" ++ [x0a] ++ (if nl then [x0a] else [])).
  destruct (parse_dec id Hid) as [Pd [Dd Nd]].
  assert (E1 : dec_i id ++ lit " 0 obj" ++ [x0a] ++ B ++ tail =
               (dec_i id ++ [x20; x30; x20]) ++ lit "obj" ++ [x0a] ++ B ++ tail).
  { rewrite <- !app_assoc. reflexivity. }
  unfold extract_object. rewrite E1. rewrite find_obj.
  2:{ rewrite forallb_app'. rewrite (forallb_impl is_digit); [reflexivity| |exact Dd].
      intros a. destruct a; vm_compute; congruence. }
  rewrite firstn_mid. unfold require_whitespace_rev.
  replace (dec_i id ++ [x20; x30; x20]) with ((dec_i id ++ [x20; x30]) ++ [x20]) at 1 by (rewrite <- app_assoc; reflexivity).
  rewrite eat_suffix_eq; [|reflexivity|apply stops_app; [discriminate|vm_compute; reflexivity]].
  unfold eat_number_rev.
  replace (dec_i id ++ [x20; x30]) with ((dec_i id ++ [x20]) ++ [x30]) at 1 by (rewrite <- app_assoc; reflexivity).
  rewrite eat_suffix_eq; [|reflexivity|apply stops_app; [discriminate|vm_compute; reflexivity]].
  cbn [snd]. change (parse_i32 [x30]) with (Some 0). cbv iota.
  set (h := dec_i id ++ [x20; x30; x20]) in *.
  assert (E2 : skipn (length h + 3) (h ++ lit "obj" ++ [x0a] ++ B ++ tail) = [x0a] ++ B ++ tail).
  { replace (length h + 3)%nat with (length (h ++ lit "obj")) by (rewrite app_length; reflexivity).
    rewrite app_assoc. apply skipn_mid. }
  rewrite E2.
  assert (E3 : lead_len rn_whitespace ([x0a] ++ B ++ tail) = 1%nat).
  { unfold lead_len. rewrite eat_len_app by reflexivity. destruct B as [|c B']; [destruct Hf|].
    cbn [app eat_len]. cbn [firm_first] in Hf. rewrite Hf. reflexivity. }
  rewrite E3.
  assert (E4 : memmem_rfind (lit "endobj") (h ++ lit "obj" ++ [x0a] ++ B ++ tail) =
               Some (length (h ++ lit "obj" ++ [x0a] ++ B ++ [x0a]))).
  { replace (h ++ lit "obj" ++ [x0a] ++ B ++ tail)
      with ((h ++ lit "obj" ++ [x0a] ++ B ++ [x0a]) ++ (lit "endobj" ++ [x0a] ++ (if nl then [x0a] else [])))
      by (unfold tail; rewrite <- !app_assoc; reflexivity).
    rewrite (rfind_app _ _ _ 0%nat); [f_equal; lia|]. destruct nl; reflexivity. }
  rewrite E4.
  assert (E5 : firstn (length (h ++ lit "obj" ++ [x0a] ++ B ++ [x0a])) (h ++ lit "obj" ++ [x0a] ++ B ++ tail) =
               (h ++ lit "obj" ++ [x0a] ++ B) ++ [x0a]).
  { replace (h ++ lit "obj" ++ [x0a] ++ B ++ tail)
      with ((h ++ lit "obj" ++ [x0a] ++ B ++ [x0a]) ++ (lit "endobj" ++ [x0a] ++ (if nl then [x0a] else [])))
      by (unfold tail; rewrite <- !app_assoc; reflexivity).
    rewrite firstn_mid. rewrite <- !app_assoc. reflexivity. }
  rewrite E5.
  assert (E6 : eat_len rn_whitespace (rev ((h ++ lit "obj" ++ [x0a] ++ B) ++ [x0a])) = 1%nat).
  { rewrite rev_app_distr. rewrite eat_len_app by reflexivity. rewrite eat_len_stop; [reflexivity|].
    rewrite !app_assoc. unfold stops. assert (HB : B <> []) by (intro E; rewrite E in Hf; exact Hf).
    rewrite last_byte_app_ne by exact HB. unfold firm_last in Hl. destruct (last_byte B); [exact Hl|exact I]. }
  rewrite E6.
  assert (E7 : (length (h ++ lit "obj" ++ [x0a] ++ B ++ [x0a]) - 1)%nat = (length h + 3 + 1 + length B)%nat).
  { rewrite !app_length. cbn [length lit]. change (length (lit "obj")) with 3%nat. lia. }
  rewrite E7. rewrite slice_get_eq; [|lia|rewrite !app_length; cbn [length]; change (length (lit "obj")) with 3%nat; lia].
  f_equal. f_equal.
  replace (length h + 3 + 1)%nat with (length (h ++ lit "obj" ++ [x0a])) by (rewrite !app_length; cbn; lia).
  replace (h ++ lit "obj" ++ [x0a] ++ B ++ tail) with ((h ++ lit "obj" ++ [x0a]) ++ B ++ tail)
    by (rewrite <- !app_assoc; reflexivity).
  rewrite skipn_mid.
  replace (length (h ++ lit "obj" ++ [x0a]) + length B - length (h ++ lit "obj" ++ [x0a]))%nat with (length B) by lia.
  apply firstn_mid.
Qed.

(** ** Interiors begin and end with solid bytes *)

Lemma regular_firm_first t : t <> [] -> forallb is_regular t = true -> firm_first t.
Proof.
  destruct t as [|c t]; [congruence|]. intros _ H. cbn [forallb] in H. apply andb_true_iff in H. destruct H as [H _].
  cbn [firm_first]. destruct c; revert H; vm_compute; congruence.
Qed.

Lemma regular_firm_last t : t <> [] -> forallb is_regular t = true -> firm_last t.
Proof.
  intros Hne H. unfold firm_last. destruct (last_byte t) as [c|] eqn:E.
  - pose proof (last_byte_forall _ _ _ H E) as Hc. destruct c; revert Hc; vm_compute; congruence.
  - apply last_byte_none in E. contradiction.
Qed.

Lemma firm_first_app a b : firm_first a -> firm_first (a ++ b).
Proof. destruct a; [intros []|]. cbn [app firm_first]. auto. Qed.

Lemma float_regular v : f32_valid v = true -> forallb is_regular (float_bytes v) = true.
Proof.
  intro Hv. destruct v as [|n|n m e].
  - vm_compute. reflexivity.
  - destruct n; vm_compute; reflexivity.
  - destruct (float_good (FFin n m e) eq_refl Hv) as [t [_ [H _]]]. exact H.
Qed.

Lemma snoc_firm t c : rn_whitespace c = false -> firm_last (t ++ [c]).
Proof. intro H. unfold firm_last. rewrite last_byte_app. exact H. Qed.

Lemma str_firm s : firm_first (str_bytes s) /\ firm_last (str_bytes s).
Proof.
  unfold str_bytes. destruct (forallb _ s); (split; [reflexivity|]); rewrite app_assoc; apply snoc_firm; reflexivity.
Qed.

Lemma prim_firm q : prim_typed q = true -> firm_first (prim_bytes q) /\ firm_last (prim_bytes q).
Proof.
  intro Ht. destruct q; cbn [prim_bytes prim_typed] in *.
  - split; reflexivity.
  - destruct v; split; reflexivity.
  - destruct (dec_i_spec v) as [_ [H1 H2]]. split; [apply regular_firm_first|apply regular_firm_last]; assumption.
  - pose proof (float_regular v Ht) as H. pose proof (float_bytes_ne v).
    split; [apply regular_firm_first|apply regular_firm_last]; assumption.
  - apply str_firm.
  - unfold text_bytes. destruct (forallb _ _); [apply str_firm|].
    split; [reflexivity|]. rewrite app_assoc. apply snoc_firm. reflexivity.
  - split; [reflexivity|]. unfold text_lang_bytes. rewrite app_assoc. apply snoc_firm. reflexivity.
  - split; [reflexivity|]. unfold name_bytes. destruct s as [|c s]; [reflexivity|].
    change (x2f :: flat_map name_byte (c :: s)) with ([x2f] ++ flat_map name_byte (c :: s)). apply firm_last_app.
    apply regular_firm_last; [|apply name_regular]. cbn [flat_map]. unfold name_byte at 1.
    destruct (_ && _ && _); discriminate.
  - destruct (dec_i_spec r) as [_ [H1 H2]]. split.
    + apply firm_first_app. apply regular_firm_first; assumption.
    + apply firm_last_app. reflexivity.
  - split; [reflexivity|]. rewrite !app_assoc. apply snoc_firm. reflexivity.
  - split; [reflexivity|]. unfold date_bytes. rewrite app_assoc. apply firm_last_app. reflexivity.
Qed.

Lemma body_firm p bd : body_typed bd = true -> firm_first (body_bytes p bd) /\ firm_last (body_bytes p bd).
Proof.
  destruct bd as [o|es data]; cbn [body_typed body_bytes]; intro Ht.
  - destruct o as [q|l|l].
    + apply prim_firm. exact Ht.
    + rewrite out_array. split; [reflexivity|]. rewrite app_assoc. apply snoc_firm. reflexivity.
    + rewrite out_dict. split; [reflexivity|]. rewrite !app_assoc. apply firm_last_app. reflexivity.
  - split; [reflexivity|]. rewrite !app_assoc. apply firm_last_app. reflexivity.
Qed.

(** ** Patching an interior *)

Section Mapping.
  Context {T : Type} (f : T -> Z -> Z * T).

  Lemma patch_body p bd b s : body_typed bd = true ->
    patch_object f (body_bytes p bd) b s =
    let '(bd', s') := map_body_st f bd s in
    Some (put (body_bytes p bd') (body_refs bd') b, s').
  Proof.
    intro Ht. rewrite patch_object_eag. destruct bd as [o|es data]; cbn [body_typed map_body_st body_bytes] in *.
    - pose proof (tree_scans f o p 0 [] [] b s Ht) as H.
      destruct (map_refs_st f o s) as [o' s']. rewrite app_nil_r in H. rewrite H by (intros _; exact I).
      apply eag_nil.
    - assert (HF : Forall (fun e => scans f (snd e)) (len_entry data :: es))
        by (apply Forall_forall; intros e _; apply tree_scans).
      set (rest := (if p then [x0a] else []) ++ [x3e; x3e] ++ [x0a] ++ lit "stream" ++ [x0a] ++ data ++ [x0a] ++ lit "endstream").
      pose proof (entries_scan f (len_entry data :: es) HF p 2 [x3c; x3c] rest (put [x3c; x3c] [] b) s) as H.
      cbn [forallb] in H. specialize (H Ht).
      unfold map_entries_st.
      set (G := fun (e : bytes * obj) t => let '(v, t) := map_refs_st f (snd e) t in ((fst e, v), t)) in *.
      assert (ET : thread G (len_entry data :: es) s = let '(es', s') := thread G es s in (len_entry data :: es', s')) by reflexivity.
      rewrite ET in H. clear ET.
      destruct (thread G es s) as [es' s'] eqn:Et.
      destruct H as [H _]. unfold len_entry in H.
      rewrite (passes_dull f [x3c; x3c] eq_refl). rewrite extend_put. cbn [app] in H |- *. 
      unfold len_entry. rewrite H. unfold rest.
      assert (HP : forallb dull ((if p then [x0a] else []) ++ [x3e; x3e] ++ [x0a]) = true) by (destruct p; reflexivity).
      set (P := (if p then [x0a] else []) ++ [x3e; x3e] ++ [x0a]) in *.
      set (R := lit "stream" ++ [x0a] ++ data ++ [x0a] ++ lit "endstream").
      replace ((if p then [x0a] else []) ++ [x3e; x3e] ++ [x0a] ++ R) with (P ++ R)
        by (unfold P; rewrite <- !app_assoc; reflexivity).
      rewrite (passes_dull f P HP). rewrite extend_put.
      set (E0 := out_entries p 2 ((lit "Length", OPrim (PInt (blen data))) :: es)).
      assert (HV : validate_stream ((x3c :: x3c :: E0) ++ P) = true).
      { unfold validate_stream, P.
        replace ((x3c :: x3c :: E0) ++ (if p then [x0a] else []) ++ [x3e; x3e] ++ [x0a])
          with (((x3c :: x3c :: E0) ++ (if p then [x0a] else []) ++ [x3e; x3e]) ++ [x0a]) by (rewrite <- !app_assoc; reflexivity).
        rewrite eat_suffix_eq; [|reflexivity|].
        - cbn [fst]. unfold ends_with. rewrite !app_assoc, rev_app_distr. reflexivity.
        - rewrite app_assoc. apply stops_app; [discriminate|vm_compute; reflexivity]. }
      assert (HR : R = x73 :: (lit "tream" ++ [x0a] ++ data ++ [x0a] ++ lit "endstream")) by reflexivity.
      rewrite HR. rewrite eag_jump by reflexivity. rewrite <- HR.
      assert (HJ : jump ((x3c :: x3c :: E0) ++ P) x73 (lit "tream" ++ [x0a] ++ data ++ [x0a] ++ lit "endstream") = length R).
      { unfold jump. change (beq x73 x25) with false. change (beq x73 x28) with false. change (beq x73 x73) with true.
        rewrite HV. rewrite <- HR. unfold R. rewrite starts_with_app. reflexivity. }
      rewrite HJ. rewrite firstn_all, skipn_all, eag_nil. f_equal. f_equal.
      rewrite extend_put, !put_put. cbn [body_refs]. unfold entries_refs.
      rewrite !app_nil_r. unfold R, P. cbn [flat_map obj_refs snd app]. rewrite <- !app_assoc. reflexivity.
  Qed.
End Mapping.

(** ** Renumbering *)

Section Mapping2.
  Context {T : Type} (f : T -> Z -> Z * T).

  Definition map_placed_st (nl : bool) (pl : placed) (t : T) : placed * T :=
    let '(it, t) := map_item_st f (pl_item pl) t in (mkPl (pl_style pl) nl it, t).

  Lemma thread_cons {A} (g : A -> T -> A * T) a l t :
    thread g (a :: l) t = let '(a, t) := g a t in let '(r, t) := thread g l t in (a :: r, t).
  Proof. reflexivity. Qed.

  Lemma thread_placed nl l : forall t,
    map pl_item (fst (thread (map_placed_st nl) l t)) = fst (thread (map_item_st f) (map pl_item l) t) /\
    snd (thread (map_placed_st nl) l t) = snd (thread (map_item_st f) (map pl_item l) t).
  Proof.
    induction l as [|pl l IH]; intro t; [split; reflexivity|].
    cbn [map]. rewrite !thread_cons. unfold map_placed_st at 1 3.
    destruct (map_item_st f (pl_item pl) t) as [it t1]. destruct (IH t1) as [A B].
    destruct (thread (map_placed_st nl) l t1) as [r t2]. destruct (thread (map_item_st f) (map pl_item l) t1) as [r' t2'].
    cbn [fst snd map pl_item] in *. subst. split; reflexivity.
  Qed.

  Lemma slice_head pfx a b : slice_get (pfx ++ a ++ b) (length pfx) (length pfx + length a) = Some a.
  Proof.
    rewrite slice_get_eq; [|lia|rewrite !app_length; lia].
    rewrite skipn_mid. replace (length pfx + length a - length pfx)%nat with (length a) by lia.
    rewrite firstn_mid. reflexivity.
  Qed.

  Lemma loop_holds nl l : forall pfx b o s, forallb item_typed (map pl_item l) = true ->
    renumber_loop f (pfx ++ layout l) (offs (blen pfx) l) nl b o s =
    let '(l', s') := thread (map_placed_st nl) l s in
    Some (put (layout l') (flat_map (fun pl => item_refs (pl_item pl)) l') b, o ++ offs (blen (inner b)) l', s').
  Proof.
    induction l as [|pl l IH]; intros pfx b o s Ht.
    - cbn [offs renumber_loop thread layout flat_map]. rewrite app_nil_r. unfold put. cbn [app note_refs fold_left].
      rewrite app_nil_r. destruct b; reflexivity.
    - cbn [map forallb] in Ht. apply andb_true_iff in Ht. destruct Ht as [T1 T2].
      destruct pl as [st nl0 [id bd]]. cbn [pl_item] in T1. unfold item_typed, id_ok in T1. cbn [fst snd] in T1.
      apply andb_true_iff in T1. destruct T1 as [Ti Tb]. apply andb_true_iff in Ti. destruct Ti as [Ti1 Ti2].
      apply Z.ltb_lt in Ti1. apply Z.leb_le in Ti2.
      rewrite thread_cons. unfold map_placed_st at 1, map_item_st. cbn [pl_item fst snd pl_style].
      cbn [offs renumber_loop pl_item fst].
      destruct (f s id) as [new s1].
      set (it := mkPl st nl0 (id, bd)).
      assert (Hstop : Z.to_nat (match offs (blen pfx + blen (placed_bytes it)) l with
                [] => blen (pfx ++ layout (it :: l)) | (_, o0) :: _ => o0 end) = (length pfx + length (placed_bytes it))%nat).
      { destruct l as [|pl2 l2]; cbn [offs].
        - cbn [layout flat_map]. rewrite app_nil_r, blen_app. unfold blen. lia.
        - unfold blen. lia. }
      rewrite Hstop. replace (Z.to_nat (blen pfx)) with (length pfx) by (unfold blen; lia).
      cbn [layout flat_map]. fold (layout l). rewrite slice_head.
      unfold placed_bytes at 1, it. cbn [pl_style pl_nl pl_item].
      destruct (body_firm st bd Tb) as [F1 F2].
      rewrite (extract_item st nl0 id bd (conj Ti1 Ti2) F1 F2).
      rewrite (patch_body f st bd _ s1 Tb).
      destruct (map_body_st f bd s1) as [bd' s2].
      set (pl' := mkPl st nl (new, bd')).
      set (pfx' := pfx ++ placed_bytes it).
      fold it.
      replace (pfx ++ placed_bytes it ++ layout l) with (pfx' ++ layout l)
        by (unfold pfx'; rewrite <- app_assoc; reflexivity).
      replace (blen pfx + blen (placed_bytes it)) with (blen pfx') by (unfold pfx'; rewrite blen_app; reflexivity).
      match goal with |- renumber_loop f _ _ nl ?BB _ _ = _ => assert (HBB : BB = put (placed_bytes pl') (item_refs (pl_item pl')) b) end.
      { unfold put, push, push_int, extend, with_limits, item_refs, pl', placed_bytes, item_bytes.
        destruct nl; cbn [inner lims pl_item pl_style pl_nl fst snd note_refs fold_left]; f_equal;
          rewrite <- ?app_assoc, ?app_nil_r; reflexivity. }
      rewrite HBB. rewrite IH by exact T2.
      destruct (thread (map_placed_st nl) l s2) as [l' s3].
      f_equal. f_equal. f_equal.
      + rewrite put_put. reflexivity.
      + rewrite <- app_assoc. cbn [app offs pl_item fst]. f_equal. f_equal. f_equal.
        unfold put. cbn [inner]. rewrite blen_app. reflexivity.
  Qed.

  Lemma renumber_holds pfx pfx' l k src tgt s : holds pfx l src -> holds pfx' k tgt ->
    forallb item_typed (map pl_item l) = true ->
    exists c', chunk_renumber_into f src tgt s = Some (c', snd (thread (map_item_st f) (map pl_item l) s)) /\
      holds pfx' (k ++ fst (thread (map_placed_st (c_pretty tgt)) l s)) c' /\
      c_pretty c' = c_pretty tgt /\
      chunk_limits c' = note_refs (flat_map item_refs (fst (thread (map_item_st f) (map pl_item l) s)))
                                  (merge (chunk_limits tgt) (chunk_limits src)).
  Proof.
    intros [Hb Ho] [Hb' Ho'] Ht. unfold chunk_renumber_into. rewrite Hb, Ho, loop_holds by exact Ht.
    destruct (thread_placed (c_pretty tgt) l s) as [A B].
    destruct (thread (map_placed_st (c_pretty tgt)) l s) as [l' s']. cbn [fst snd] in A, B.
    rewrite <- A, <- B. eexists. split; [reflexivity|].
    split; [|split; [reflexivity|]].
    - unfold holds, chunk_bytes. cbn [c_buf c_offsets]. unfold put. cbn [inner]. rewrite inner_with.
      fold (chunk_bytes tgt). rewrite Hb', Ho', layout_app, offs_app, <- app_assoc. split; [reflexivity|].
      rewrite blen_app. reflexivity.
    - unfold chunk_limits. cbn [c_buf]. unfold put. cbn [lims]. unfold with_limits. cbn [lims]. f_equal.
      clear. induction l' as [|a l' IH]; [reflexivity|]. cbn [flat_map map]. rewrite IH. reflexivity.
  Qed.
End Mapping2.

(** ** Mapping keeps types and readability *)

Section Mapping3.
  Context {T : Type} (f : T -> Z -> Z * T) (Hf : forall t id, id_ok (fst (f t id)) = true).

  Lemma map_refs_typed o : forall t, obj_typed o = true -> obj_typed (fst (map_refs_st f o t)) = true.
  Proof.
    induction o as [q|l IH|l IH] using obj_ind'; intros t Ht.
    - destruct q; cbn [map_refs_st]; try exact Ht. pose proof (Hf t r) as Hf'. destruct (f t r) as [n t']. exact Hf'.
    - cbn [map_refs_st]. cbn [obj_typed] in Ht.
      assert (H : forallb obj_typed (fst (thread (map_refs_st f) l t)) = true).
      { revert t. induction IH as [|a l H1 H2 IHl]; intro t; [reflexivity|]. cbn [forallb] in Ht.
        apply andb_true_iff in Ht. destruct Ht as [T1 T2]. rewrite thread_cons. specialize (H1 t T1).
        destruct (map_refs_st f a t) as [a' t1]. specialize (IHl T2 t1). destruct (thread _ l t1) as [l' t2].
        cbn [fst forallb] in *. rewrite H1, IHl. reflexivity. }
      destruct (thread _ l t). exact H.
    - cbn [map_refs_st]. cbn [obj_typed] in Ht.
      set (G := fun (e : bytes * obj) t => let '(v, t) := map_refs_st f (snd e) t in ((fst e, v), t)).
      assert (H : forallb (fun e => obj_typed (snd e)) (fst (thread G l t)) = true).
      { revert t. induction IH as [|a l H1 H2 IHl]; intro t; [reflexivity|]. cbn [forallb] in Ht.
        apply andb_true_iff in Ht. destruct Ht as [T1 T2]. rewrite thread_cons. specialize (H1 t T1). unfold G at 1.
        destruct (map_refs_st f (snd a) t) as [a' t1]. specialize (IHl T2 t1). destruct (thread _ l t1) as [l' t2].
        cbn [fst snd forallb] in *. rewrite H1, IHl. reflexivity. }
      destruct (thread G l t). exact H.
  Qed.

  Lemma map_entries_typed es t : entries_typed es = true -> entries_typed (fst (map_entries_st f es t)) = true.
  Proof.
    intro H. pose proof (map_refs_typed (ODict es) t H) as R. cbn [map_refs_st] in R. unfold map_entries_st.
    destruct (thread _ es t). exact R.
  Qed.

  Lemma map_item_typed it t : item_typed it = true -> item_typed (fst (map_item_st f it t)) = true.
  Proof.
    destruct it as [id bd]. unfold item_typed, map_item_st. cbn [fst snd]. intro H.
    apply andb_true_iff in H. destruct H as [_ H]. pose proof (Hf t id) as Hf'. destruct (f t id) as [n t1]. cbn [fst] in Hf'.
    destruct bd as [o|es d]; cbn [map_body_st body_typed] in *.
    - pose proof (map_refs_typed o t1 H) as R. destruct (map_refs_st f o t1). cbn [fst snd body_typed] in *. rewrite Hf'. exact R.
    - pose proof (map_entries_typed es t1 H) as R. destruct (map_entries_st f es t1). cbn [fst snd body_typed] in *. rewrite Hf'. exact R.
  Qed.

  Lemma map_items_typed l : forall t, forallb item_typed l = true ->
    forallb item_typed (fst (thread (map_item_st f) l t)) = true.
  Proof.
    induction l as [|a l IH]; intros t H; [reflexivity|]. cbn [forallb] in H. apply andb_true_iff in H.
    destruct H as [H1 H2]. rewrite thread_cons. pose proof (map_item_typed a t H1) as Ha.
    destruct (map_item_st f a t) as [a' t1]. specialize (IH t1 H2). destruct (thread _ l t1) as [l' t2].
    cbn [fst forallb] in *. rewrite Ha, IH. reflexivity.
  Qed.

  Lemma map_items_fit l : forall t, items_fit (fst (thread (map_item_st f) l t)) = items_fit l.
  Proof.
    induction l as [|a l IH]; intro t; [reflexivity|]. rewrite thread_cons.
    destruct a as [id bd]. unfold map_item_st. cbn [fst snd].
    destruct (f t id) as [n t1]. destruct (map_body_st f bd t1) as [bd' t2] eqn:E.
    specialize (IH t2). fold (map_item_st f) in *. destruct (thread _ l t2) as [l' t3].
    cbn [fst] in IH |- *. unfold items_fit in *. cbn [forallb snd]. rewrite IH. f_equal.
    destruct bd; cbn [map_body_st] in E; [destruct (map_refs_st f o t1)|destruct (map_entries_st f entries t1)];
      injection E as <- _; reflexivity.
  Qed.
End Mapping3.

(** ** Histories *)

Lemma items_typed h : hist_typed h -> forallb item_typed (hist_items h) = true.
Proof.
  induction h as [p|h IH id o|h IH id es data|h1 IH1 h2 IH2|h IH l|h1 IH1 h2 IH2 T f s]; cbn [hist_typed hist_items].
  - reflexivity.
  - intros [H1 H2]. rewrite forallb_app', (IH H1). cbn [forallb]. rewrite H2. reflexivity.
  - intros [H1 H2]. rewrite forallb_app', (IH H1). cbn [forallb]. rewrite H2. reflexivity.
  - intros [H1 H2]. rewrite forallb_app', (IH1 H1), (IH2 H2). reflexivity.
  - exact IH.
  - intros [H1 [H2 H3]]. rewrite forallb_app', (IH1 H1). cbn [andb]. apply map_items_typed; auto.
Qed.

Fixpoint hist_pretty (h : hist) : bool :=
  match h with
  | HNew p => p
  | HObject h _ _ | HStream h _ _ _ | HExtend h _ | HMerge h _ => hist_pretty h
  | HRenumber t _ _ _ _ => hist_pretty t
  end.

Lemma items_fit_app a b : items_fit (a ++ b) = items_fit a && items_fit b.
Proof. apply forallb_app'. Qed.

(** The chunk of a history: it exists iff no stream is oversized, and its bytes and offsets are laid
    out item by item. *)
Lemma run_holds h : hist_typed h ->
  if items_fit (hist_items h)
  then exists c l, run h = Some c /\ holds [] l c /\ map pl_item l = hist_items h /\ c_pretty c = hist_pretty h
  else run h = None.
Proof.
  induction h as [p|h IH id o|h IH id es data|h1 IH1 h2 IH2|h IH lm|h1 IH1 h2 IH2 T f s]; cbn [hist_typed hist_items run hist_pretty].
  - intros _. exists (chunk_with_settings p), []. repeat split.
  - intros [H1 H2]. rewrite items_fit_app. specialize (IH H1). destruct (items_fit (hist_items h)).
    + destruct IH as [c [l [R [H [M P]]]]]. unfold items_fit; cbn [forallb andb snd body_fits].
      exists (chunk_object id o c). eexists. rewrite R. split; [reflexivity|].
      destruct (object_holds [] l c id o H) as [A B]. split; [exact A|]. rewrite map_app, M. split; [reflexivity|].
      rewrite B. exact P.
    + cbn [andb]. rewrite IH. reflexivity.
  - intros [H1 H2]. rewrite items_fit_app. specialize (IH H1). destruct (items_fit (hist_items h)).
    + destruct IH as [c [l [R [H [M P]]]]]. unfold items_fit; cbn [forallb andb snd body_fits]. rewrite R.
      pose proof (stream_some_iff id es data c) as Hs.
      destruct (chunk_stream id es data c) as [c'|] eqn:E.
      * assert (Hl : blen data <= i32_max) by (apply Hs; discriminate). apply Z.leb_le in Hl. rewrite Hl. cbn [andb].
        destruct (stream_holds [] l c id es data c' H E) as [A B].
        exists c'. eexists. split; [reflexivity|]. split; [exact A|]. rewrite map_app, M. split; [reflexivity|].
        rewrite B. exact P.
      * destruct (Z.leb_spec (blen data) i32_max) as [Hl|Hl]; [|reflexivity].
        apply Hs in Hl. contradiction.
    + cbn [andb]. rewrite IH. reflexivity.
  - intros [H1 H2]. rewrite items_fit_app. specialize (IH1 H1). specialize (IH2 H2).
    destruct (items_fit (hist_items h1)); [|cbn [andb]; rewrite IH1; reflexivity].
    destruct IH1 as [c [l [R [H [M P]]]]]. cbn [andb]. rewrite R.
    destruct (items_fit (hist_items h2)); [|rewrite IH2; reflexivity].
    destruct IH2 as [c2 [l2 [R2 [K [M2 P2]]]]]. rewrite R2.
    exists (chunk_extend c2 c), (l ++ l2). split; [reflexivity|]. split; [apply extend_holds; assumption|].
    rewrite map_app, M, M2. split; [reflexivity|]. exact P.
  - intro H1. specialize (IH H1). destruct (items_fit (hist_items h)).
    + destruct IH as [c [l [R [H [M P]]]]]. exists (chunk_merge_limits lm c), l. rewrite R.
      split; [reflexivity|]. split; [exact H|]. split; [exact M|exact P].
    + rewrite IH. reflexivity.
  - intros [H1 [H2 H3]]. rewrite items_fit_app. specialize (IH1 H1). specialize (IH2 H2).
    pose proof (map_items_fit f (hist_items h2) s) as Hfit.  rewrite Hfit.
    destruct (items_fit (hist_items h1)); [|cbn [andb]; rewrite IH1; reflexivity].
    destruct IH1 as [c [l [R [H [M P]]]]]. cbn [andb]. rewrite R.
    destruct (items_fit (hist_items h2)); [|rewrite IH2; reflexivity].
    destruct IH2 as [c2 [l2 [R2 [K [M2 P2]]]]]. rewrite R2.
    pose proof (items_typed h2 H2) as Ht. rewrite <- M2 in Ht.
    destruct (renumber_holds f [] [] l2 l c2 c s K H Ht) as [c' [E [Hh [Hp _]]]].
    rewrite E. exists c'. eexists. split; [reflexivity|]. split; [exact Hh|].
    destruct (thread_placed f (c_pretty c) l2 s) as [A _]. rewrite map_app, M, A, M2. split; [reflexivity|].
    rewrite Hp. exact P.
Qed.
