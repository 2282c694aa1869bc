(** Object trees: the bytes written, their tokens, and the value a reader parses. *)

From Coq Require Import ZArith List Lia Bool ZifyBool ZifyNat.
From Verif Require Import Bytes ModelFloat ModelBuf ModelObject SpecLex SpecObj SpecText SpecMeans
  ProofBasic ProofText ProofFloat ProofFloat2.
Import ListNotations.
Local Open Scope Z_scope.

(** ** Induction on object trees *)

Section ObjInd.
  Variable P : obj -> Prop.
  Hypothesis Hp : forall p, P (OPrim p).
  Hypothesis Ha : forall l, Forall P l -> P (OArray l).
  Hypothesis Hd : forall l, Forall (fun e => P (snd e)) l -> P (ODict l).

  Fixpoint obj_ind' (o : obj) : P o :=
    match o with
    | OPrim p => Hp p
    | OArray l =>
        Ha l ((fix go (l : list obj) : Forall P l :=
                 match l with [] => Forall_nil _ | x :: r => Forall_cons x (obj_ind' x) (go r) end) l)
    | ODict l =>
        Hd l ((fix go (l : list (bytes * obj)) : Forall (fun e => P (snd e)) l :=
                 match l with
                 | [] => Forall_nil _
                 | e :: r => Forall_cons e (obj_ind' (snd e)) (go r)
                 end) l)
    end.
End ObjInd.

(** ** Output as a function *)

Definition prim_bytes (p : prim) : bytes :=
  match p with
  | PNull => lit "null"
  | PBool v => if v then lit "true" else lit "false"
  | PInt v => dec_i v
  | PReal v => float_bytes v
  | PStr s => str_bytes s
  | PText t => text_bytes t
  | PTextLang s => text_lang_bytes s
  | PName s => name_bytes s
  | PRef r => dec_i r ++ lit " 0 R"
  | PRect r => [x5b] ++ float_bytes (x1 r) ++ [x20] ++ float_bytes (y1 r) ++ [x20] ++
               float_bytes (x2 r) ++ [x20] ++ float_bytes (y2 r) ++ [x5d]
  | PDate d => date_bytes d
  end.

Lemma inner_extend s b : inner (extend s b) = inner b ++ s.
Proof. reflexivity. Qed.
Lemma inner_push c b : inner (push c b) = inner b ++ [c].
Proof. reflexivity. Qed.
Lemma inner_with f b : inner (with_limits f b) = inner b.
Proof. reflexivity. Qed.

Lemma write_prim_inner p b : inner (write_prim p b) = inner b ++ prim_bytes p.
Proof.
  destruct p; cbn [write_prim prim_bytes].
  - reflexivity.
  - destruct v; reflexivity.
  - reflexivity.
  - apply push_float_inner.
  - reflexivity.
  - apply write_text_inner.
  - reflexivity.
  - reflexivity.
  - unfold write_ref. rewrite inner_extend. unfold push_int. rewrite inner_extend, inner_with, <- app_assoc. reflexivity.
  - unfold write_rect. rewrite inner_with. rewrite ?inner_push, ?push_float_inner.
    rewrite ?inner_push, ?push_float_inner, ?inner_push, ?push_float_inner, ?inner_push, ?push_float_inner, ?inner_push.
    rewrite <- !app_assoc. reflexivity.
  - reflexivity.
Qed.

Definition ends_delim (prev : option byte) : bool :=
  match prev with Some c => is_delimiter_character c | None => false end.

(** The space of [needs_padding]. *)
Definition pad (prev : option byte) (o : obj) : bytes :=
  if negb (begins_with_delimiter o) && negb (ends_delim prev) then [x20] else [].

Definition ent_indent (i : Z) : Z := sat_add_u8 i 2.

Fixpoint out (p : bool) (i : Z) (o : obj) {struct o} : bytes :=
  match o with
  | OPrim q => prim_bytes q
  | OArray l =>
      [x5b] ++
      (fix go (first : bool) (prev : option byte) (l : list obj) {struct l} : bytes :=
         match l with
         | [] => []
         | it :: r =>
             (if first then [] else if p then [x20] else pad prev it) ++
             out p i it ++ go false (last_byte (out p i it)) r
         end) true None l ++ [x5d]
  | ODict l =>
      [x3c; x3c] ++
      (fix go (l : list (bytes * obj)) {struct l} : bytes :=
         match l with
         | [] => []
         | (k, v) :: r =>
             (if p then [x0a] ++ spaces (ent_indent i) else []) ++ name_bytes k ++
             (if p then [x20] else pad (last_byte (name_bytes k)) v) ++
             out p (ent_indent i) v ++ go r
         end) l ++
      (if p && negb (is_nil l) then [x0a] ++ spaces (ent_indent i - 2) else []) ++ [x3e; x3e]
  end.

Fixpoint out_items (p : bool) (i : Z) (first : bool) (prev : option byte) (l : list obj) : bytes :=
  match l with
  | [] => []
  | it :: r =>
      (if first then [] else if p then [x20] else pad prev it) ++
      out p i it ++ out_items p i false (last_byte (out p i it)) r
  end.

(** [i] is the indentation of the entries. *)
Fixpoint out_entries (p : bool) (i : Z) (l : list (bytes * obj)) : bytes :=
  match l with
  | [] => []
  | (k, v) :: r =>
      (if p then [x0a] ++ spaces i else []) ++ name_bytes k ++
      (if p then [x20] else pad (last_byte (name_bytes k)) v) ++
      out p i v ++ out_entries p i r
  end.

Lemma out_array p i l : out p i (OArray l) = [x5b] ++ out_items p i true None l ++ [x5d].
Proof.
  cbn [out]. f_equal. f_equal. generalize true, (@None byte).
  induction l as [|it r IH]; intros first prev; [reflexivity|]. cbn [out_items]. rewrite <- IH. reflexivity.
Qed.

Lemma out_dict p i l : out p i (ODict l) =
  [x3c; x3c] ++ out_entries p (ent_indent i) l ++
  (if p && negb (is_nil l) then [x0a] ++ spaces (ent_indent i - 2) else []) ++ [x3e; x3e].
Proof.
  cbn [out]. f_equal. f_equal.
  induction l as [|[k v] r IH]; [reflexivity|]. cbn [out_entries]. rewrite <- IH. reflexivity.
Qed.

Lemma dec_aux_ne f : forall n acc, acc <> [] -> dec_aux f n acc <> [].
Proof.
  induction f as [|f IH]; intros n acc H; [exact H|]. cbn [dec_aux].
  destruct (n <? 10); [discriminate|]. apply IH. discriminate.
Qed.
Lemma dec_u_nonempty n : dec_u n <> [].
Proof.
  unfold dec_u. cbn [dec_aux]. destruct (n <? 10); [discriminate|]. apply dec_aux_ne. discriminate.
Qed.

Lemma float_bytes_ne v : float_bytes v <> [].
Proof.
  unfold float_bytes. destruct (f32_eqb _ _); [apply dec_i_spec|].
  unfold decimal_bytes. destruct v as [|n|n m e].
  - destruct (_ || _); discriminate.
  - destruct (_ || _), n; discriminate.
  - destruct (_ || _); [unfold ryu_f32, ryu_fin|unfold display_f32].
    + destruct (m =? 0); [destruct n; discriminate|]. destruct (shortest m e) as [c k]. cbv zeta.
      intro E. apply app_eq_nil in E. destruct E as [_ E].
      repeat match type of E with (if ?x then _ else _) = [] => destruct x end;
        try discriminate; apply app_eq_nil in E; destruct E as [E1 E2]; try discriminate;
        try (apply app_eq_nil in E2; destruct E2; discriminate).
    + destruct (m =? 0); [destruct n; discriminate|]. destruct (shortest m e) as [c k] eqn:Es. cbv zeta.
      intro E. apply app_eq_nil in E. destruct E as [_ E].
      repeat match type of E with (if ?x then _ else _) = [] => destruct x end;
        [discriminate| |]; apply app_eq_nil in E; destruct E as [E1 E2]; [|discriminate].
      exact (dec_u_nonempty c E1).
Qed.

Lemma prim_bytes_ne p : prim_bytes p <> [].
Proof.
  destruct p; cbn [prim_bytes]; try discriminate.
  - destruct v; discriminate.
  - destruct (dec_i_spec v) as (_ & _ & H). exact H.
  - apply float_bytes_ne.
  - unfold str_bytes. destruct (forallb _ _); discriminate.
  - unfold text_bytes, str_bytes. destruct (forallb _ _); [destruct (forallb _ _)|]; discriminate.
  - intro E. apply app_eq_nil in E. destruct E; discriminate.
Qed.

Lemma out_ne p i o : out p i o <> [].
Proof. destruct o; [apply prim_bytes_ne|discriminate|discriminate]. Qed.

(** ** The writers append [out] *)

Definition end_bytes (indirect pretty : bool) : bytes :=
  if indirect then [x0a] ++ lit "endobj" ++ [x0a] ++ (if pretty then [x0a] else []) else [].

Lemma endobj_inner ind p b : inner (endobj ind p b) = inner b ++ end_bytes ind p.
Proof.
  unfold endobj, end_bytes. destruct ind; [|rewrite app_nil_r; reflexivity].
  destruct p; rewrite ?inner_extend, <- ?app_assoc; reflexivity.
Qed.

Lemma starts_begins q : starts_with_delimiter q = begins_with_delimiter (OPrim q).
Proof. destruct q; reflexivity. Qed.

Definition pad_if (need : bool) (prev : option byte) (o : obj) : bytes := if need then pad prev o else [].

Lemma obj_primitive_inner w q b :
  inner (obj_primitive w q b) =
  inner b ++ pad_if (o_pad w) (last_byte (inner b)) (OPrim q) ++ prim_bytes q ++ end_bytes (o_indirect w) (o_pretty w).
Proof.
  unfold obj_primitive, pad_if, pad. rewrite endobj_inner, write_prim_inner, <- app_assoc, <- starts_begins.
  fold (ends_delim (last_byte (inner b))).
  destruct (o_pad w); cbn [andb]; [|rewrite app_nil_l; reflexivity].
  destruct (negb (starts_with_delimiter q) && negb (ends_delim (last_byte (inner b)))).
  - rewrite inner_extend, <- app_assoc. reflexivity.
  - rewrite app_nil_l. reflexivity.
Qed.

Lemma write_obj_array l w b :
  write_obj (OArray l) w b =
  let '(a, b) := array_start w b in let '(a, b) := write_items l a b in array_drop a b.
Proof.
  cbn [write_obj]. destruct (array_start w b) as [a b']. f_equal. revert a b'.
  assert (E : forall a b, (fix go (l : list obj) (a : arrw) (b : buf) {struct l} : arrw * buf :=
           match l with
           | [] => (a, b)
           | it :: l =>
               let '(w', a, b) := array_push a b in
               go l a (write_obj it w' b)
           end) l a b = write_items l a b).
  { induction l as [|it r IH]; intros a b0; [reflexivity|]. cbn [write_items].
    destruct (array_push a b0) as [[w' a'] b'']. apply IH. }
  intros a b'. rewrite E. reflexivity.
Qed.

Lemma write_obj_dict l w b :
  write_obj (ODict l) w b =
  let '(d, b) := dict_start w b in let '(d, b) := write_entries l d b in dict_drop d b.
Proof.
  cbn [write_obj]. destruct (dict_start w b) as [d b']. revert d b'.
  assert (E : forall d b, (fix go (l : list (bytes * obj)) (d : dictw) (b : buf) {struct l} : dictw * buf :=
           match l with
           | [] => (d, b)
           | (k, v) :: l =>
               let '(w', d, b) := dict_insert k d b in
               go l d (write_obj v w' b)
           end) l d b = write_entries l d b).
  { induction l as [|[k v] r IH]; intros d b0; [reflexivity|]. cbn [write_entries].
    destruct (dict_insert k d b0) as [[w' d'] b'']. apply IH. }
  intros d b'. rewrite E. reflexivity.
Qed.

Definition obj_appends (o : obj) : Prop := forall w b,
  inner (write_obj o w b) =
  inner b ++ pad_if (o_pad w) (last_byte (inner b)) o ++ out (o_pretty w) (o_indent w) o ++
  end_bytes (o_indirect w) (o_pretty w).

Lemma last_out_app p i o s : last_byte (s ++ out p i o) = last_byte (out p i o).
Proof. apply last_byte_app_ne, out_ne. Qed.

Lemma write_items_inner l : Forall obj_appends l -> forall a b,
  0 <= a_len a -> a_len a = 0 \/ inner b <> [] ->
  inner (snd (write_items l a b)) =
    inner b ++ out_items (a_pretty a) (a_indent a) (a_len a =? 0) (last_byte (inner b)) l /\
  fst (write_items l a b) = mkArrw (a_indirect a) (a_indent a) (a_pretty a) (a_len a + Z.of_nat (List.length l)).
Proof.
  induction l as [|it r IH]; intros HF a b Ha Hb.
  - cbn [write_items out_items fst snd List.length]. rewrite app_nil_r. split; [reflexivity|].
    destruct a. cbn. f_equal. lia.
  - inversion HF as [|? ? H1 H2]; subst. cbn [write_items].
    destruct a as [ind i p n]. cbn [a_len a_pretty a_indent a_indirect] in *.
    unfold array_push. cbn [a_len a_pretty a_indent a_indirect].
    assert (Hlast : forall x, last_byte (inner b ++ x ++ out p i it) = last_byte (out p i it)).
    { intro x. rewrite app_assoc. apply last_out_app. }
    assert (Hne : forall x, inner b ++ x ++ out p i it <> []).
    { intros x E. apply app_eq_nil in E. destruct E as [_ E]. apply app_eq_nil in E. destruct E as [_ E].
      exact (out_ne _ _ _ E). }
    assert (Hn : (n + 1 =? 0) = false) by lia.
    destruct (n =? 0) eqn:E0; cbn [negb].
    + assert (Hi : inner (write_obj it (obj_direct i p false) b) = inner b ++ [] ++ out p i it).
      { rewrite H1. cbn [obj_direct o_pad o_pretty o_indent o_indirect pad_if end_bytes].
        rewrite app_nil_r. reflexivity. }
      destruct (IH H2 (mkArrw ind i p (n + 1)) (write_obj it (obj_direct i p false) b)) as [A B];
        [cbn; lia|right; rewrite Hi; apply Hne|].
      rewrite A, B. cbn [a_len a_pretty a_indent a_indirect out_items List.length]. split; [|f_equal; lia].
      rewrite Hi, Hlast, Hn. rewrite !app_nil_l, <- app_assoc. reflexivity.
    + destruct p.
      * set (b1 := push x20 b).
        assert (Hi : inner (write_obj it (obj_direct i true false) b1) = inner b ++ [x20] ++ out true i it).
        { rewrite H1. cbn [obj_direct o_pad o_pretty o_indent o_indirect pad_if end_bytes].
          unfold b1. rewrite app_nil_r, inner_push, <- app_assoc. reflexivity. }
        destruct (IH H2 (mkArrw ind i true (n + 1)) (write_obj it (obj_direct i true false) b1)) as [A B];
          [cbn; lia|right; rewrite Hi; apply Hne|].
        rewrite A, B. cbn [a_len a_pretty a_indent a_indirect out_items List.length]. split; [|f_equal; lia].
        rewrite Hi, Hlast, Hn, <- !app_assoc. reflexivity.
      * assert (Hi : inner (write_obj it (obj_direct i false true) b) =
                     inner b ++ pad (last_byte (inner b)) it ++ out false i it).
        { rewrite H1. cbn [obj_direct o_pad o_pretty o_indent o_indirect pad_if end_bytes].
          rewrite app_nil_r. reflexivity. }
        destruct (IH H2 (mkArrw ind i false (n + 1)) (write_obj it (obj_direct i false true) b)) as [A B];
          [cbn; lia|right; rewrite Hi; apply Hne|].
        rewrite A, B. cbn [a_len a_pretty a_indent a_indirect out_items List.length]. split; [|f_equal; lia].
        rewrite Hi, Hlast, Hn, <- !app_assoc. reflexivity.
Qed.

Lemma write_entries_inner l : Forall (fun e => obj_appends (snd e)) l -> forall d b,
  inner (snd (write_entries l d b)) = inner b ++ out_entries (d_pretty d) (d_indent d) l /\
  fst (write_entries l d b) = mkDictw (d_indirect d) (d_indent d) (d_pretty d) (d_len d + Z.of_nat (List.length l)).
Proof.
  induction l as [|[k v] r IH]; intros HF d b.
  - cbn [write_entries out_entries fst snd List.length]. rewrite app_nil_r. split; [reflexivity|].
    destruct d. cbn. f_equal. lia.
  - inversion HF as [|? ? H1 H2]; subst. cbn [snd] in H1. cbn [write_entries].
    destruct d as [ind i p n]. unfold dict_insert. cbn [d_len d_pretty d_indent d_indirect].
    destruct p; cbv iota.
    + destruct (IH H2 (mkDictw ind i true (n + 1)) (write_obj v (obj_direct i true false)
         (push x20 (write_name k (extend (spaces i) (push x0a b)))))) as [A B].
      rewrite A, B. cbn [d_len d_pretty d_indent d_indirect out_entries List.length]. split; [|f_equal; lia].
      rewrite H1. cbn [obj_direct o_pad o_pretty o_indent o_indirect pad_if end_bytes].
      unfold write_name. rewrite app_nil_r, !inner_push, inner_extend, inner_with, inner_extend, inner_push.
      rewrite <- !app_assoc. reflexivity.
    + destruct (IH H2 (mkDictw ind i false (n + 1)) (write_obj v (obj_direct i false true)
         (write_name k b))) as [A B].
      rewrite A, B. cbn [d_len d_pretty d_indent d_indirect out_entries List.length]. split; [|f_equal; lia].
      rewrite H1. cbn [obj_direct o_pad o_pretty o_indent o_indirect pad_if end_bytes].
      unfold write_name. rewrite app_nil_r, !inner_extend, inner_with.
      rewrite last_byte_app_ne by discriminate. rewrite <- !app_assoc. reflexivity.
Qed.

Lemma write_obj_inner o : obj_appends o.
Proof.
  induction o as [q|l IH|l IH] using obj_ind'; intros w b.
  - cbn [write_obj out]. apply obj_primitive_inner.
  - rewrite write_obj_array, out_array. unfold array_start.
    destruct (write_items_inner l IH (mkArrw (o_indirect w) (o_indent w) (o_pretty w) 0) (push x5b b)) as [A B];
      [cbn; lia|left; reflexivity|].
    destruct (write_items l _ (push x5b b)) as [a' b'] eqn:E. cbn [fst snd] in A, B. subst a'.
    cbn [a_len a_pretty a_indent a_indirect] in *. unfold array_drop.
    rewrite endobj_inner, inner_push, inner_with, A, inner_push. cbn [a_indirect a_pretty].
    change (0 =? 0) with true.
    replace (pad_if (o_pad w) (last_byte (inner b)) (OArray l)) with (@nil byte)
      by (unfold pad_if, pad; cbn; destruct (o_pad w); reflexivity).
    replace (out_items (o_pretty w) (o_indent w) true (last_byte (inner b ++ [x5b])) l)
      with (out_items (o_pretty w) (o_indent w) true None l) by (destruct l; reflexivity).
    rewrite <- !app_assoc. reflexivity.
  - rewrite write_obj_dict, out_dict. unfold dict_start.
    destruct (write_entries_inner l IH (mkDictw (o_indirect w) (sat_add_u8 (o_indent w) 2) (o_pretty w) 0)
                (extend [x3c; x3c] b)) as [A B].
    destruct (write_entries l _ (extend [x3c; x3c] b)) as [d' b'] eqn:E. cbn [fst snd] in A, B. subst d'.
    cbn [d_len d_pretty d_indent d_indirect] in *. unfold dict_drop. cbn [d_len d_pretty d_indent d_indirect].
    rewrite endobj_inner, inner_extend.
    replace (pad_if (o_pad w) (last_byte (inner b)) (ODict l)) with (@nil byte)
      by (unfold pad_if, pad; cbn; destruct (o_pad w); reflexivity).
    rewrite app_nil_l. fold (ent_indent (o_indent w)) in *.
    assert (El : negb (0 + Z.of_nat (List.length l) =? 0) = negb (is_nil l)).
    { f_equal. destruct l; [reflexivity|]. cbn [is_nil List.length]. lia. }
    rewrite El, (andb_comm (negb (is_nil l))).
    destruct (o_pretty w && negb (is_nil l)).
    + rewrite inner_extend, inner_push, inner_with, A, inner_extend, <- !app_assoc. reflexivity.
    + rewrite inner_with, A, inner_extend, <- !app_assoc. reflexivity.
Qed.
