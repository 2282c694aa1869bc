(** Property C108: no dictionary has a key twice. *)

From Coq Require Import ZArith List Bool Permutation.
From Verif Require ModelContent ModelCmap.
From Verif Require Import Bytes ModelFloat ModelBuf ModelObject ModelColor ModelSmall ModelPdf ModelTw ModelEnums ModelRoles ModelTwArgs ModelTwFiles ModelTwGraphics ModelTwAnnot ModelTwForms ModelTwAttr ModelTwXObj ModelTwFonts ModelTwDoc SpecObj SpecTyped ProofFile3 SpecOnce.
Import ListNotations.
Local Open Scope Z_scope.

(** ** Lists of keys *)
Lemma eqb_reflect a b : reflect (a = b) (bytes_eqb a b).
Proof. apply iff_reflect. symmetry. apply bytes_eqb_spec. Qed.
Definition memb (k : bytes) (l : list bytes) : bool := existsb (bytes_eqb k) l.
Fixpoint nodupb (l : list bytes) : bool := match l with [] => true | k :: l => negb (memb k l) && nodupb l end.
Fixpoint look (t : list (bytes * bytes)) (k : bytes) : option bytes :=
  match t with [] => None | (a, n) :: t => if bytes_eqb k a then Some n else look t k end.
Fixpoint back (t : list (bytes * bytes)) (n : bytes) : option bytes :=
  match t with [] => None | (k, a) :: t => if bytes_eqb n a then Some k else back t n end.
Lemma memb_in k l : memb k l = true <-> In k l.
Proof.
  unfold memb. rewrite existsb_exists. split.
  - intros (x & I & E). destruct (eqb_reflect k x); [subst; exact I|discriminate E].
  - intro I. exists k. split; [exact I|]. destruct (eqb_reflect k k); [reflexivity|contradiction].
Qed.
Lemma nodupb_ok l : nodupb l = true -> NoDup l.
Proof.
  induction l as [|k l IH]; intro H; [constructor|]. cbn [nodupb] in H. apply andb_true_iff in H as [A B]. constructor; [|apply IH, B].
  intro I. apply memb_in in I. rewrite I in A. discriminate.
Qed.
Lemma nodup_join {A} (a b : list A) : NoDup a -> NoDup b -> (forall k, In k a -> ~ In k b) -> NoDup (a ++ b).
Proof.
  induction a as [|x a IH]; intros Ha Hb D; [exact Hb|]. inversion Ha as [|? ? Nx Ha']; subst. cbn [app]. constructor.
  - rewrite in_app_iff. intros [I|I]; [exact (Nx I)|]. exact (D x (or_introl eq_refl) I).
  - apply IH; [exact Ha'|exact Hb|]. intros k I. apply D. right. exact I.
Qed.
Lemma nodup_split {A} (a b : list A) : NoDup (a ++ b) -> NoDup a /\ NoDup b /\ (forall k, In k a -> ~ In k b).
Proof.
  induction a as [|x a IH]; intro H; [split; [constructor|split; [exact H|intros k []]]|]. cbn [app] in H. inversion H as [|? ? Nx H']; subst.
  destruct (IH H') as (A1 & A2 & A3). rewrite in_app_iff in Nx. split; [constructor; tauto|]. split; [exact A2|].
  intros k [->|I]; [tauto|apply A3, I].
Qed.

(** ** Writers *)
Definition good (h : list bytes) (t : list (bytes * bytes)) (s : list bytes) (es : list bytes) : bool :=
  nodupb es && forallb (fun k => negb (memb k h) && match look t k with Some n => memb n s | None => false end) es &&
  nodupb s && forallb (fun n => match back t n with Some k => memb k es | None => false end) s.
Definition good_writer {C} (own : C -> bool) (header : list (bytes * obj)) (f : C -> option (list (bytes * obj))) (sets : C -> list bytes)
  (t : list (bytes * bytes)) : Prop :=
  forall c, own c = true -> match f c with Some es => good (map fst header) t (sets c) (map fst es) = true | None => True end.

Section Writer.
  Context {C : Type} (own : C -> bool) (header : list (bytes * obj)) (f : C -> option (list (bytes * obj))) (sets : C -> list bytes)
    (t : list (bytes * bytes)) (G : good_writer own header f sets t) (H : nodupb (map fst header) = true).

  Lemma typed_once l : forall L, forallb own l = true -> NoDup (flat_map sets l) -> all_some f l = Some L ->
    NoDup (map fst (concat L)) /\
    forall k, In k (map fst (concat L)) -> ~ In k (map fst header) /\ exists n, look t k = Some n /\ In n (flat_map sets l).
  Proof using own header f sets t G.
    induction l as [|c l IH]; intros L O N E; cbn [all_some] in E.
    - apply some_inj in E. subst. split; [constructor|intros k []].
    - cbn [forallb] in O. apply andb_true_iff in O as [O1 O2]. cbn [flat_map] in N. apply nodup_split in N as (_ & N2 & N3).
      specialize (G c O1). destruct (f c) as [es|]; [|discriminate]. destruct (all_some f l) as [L'|]; [|discriminate]. apply some_inj in E. subst L.
      destruct (IH L' O2 N2 eq_refl) as [A B]. unfold good in G. apply andb_true_iff in G as [G _]. apply andb_true_iff in G as [G _]. apply andb_true_iff in G as [G1 G2]. rewrite forallb_forall in G2.
      assert (K : forall k, In k (map fst es) -> ~ In k (map fst header) /\ exists n, look t k = Some n /\ In n (sets c)).
      { intros k I. specialize (G2 k I). apply andb_true_iff in G2 as [X Y]. split.
        - intro J. apply memb_in in J. rewrite J in X. discriminate.
        - destruct (look t k) as [n|]; [|discriminate]. exists n. split; [reflexivity|]. apply memb_in, Y. }
      cbn [concat flat_map]. rewrite map_app. split.
      + apply nodup_join; [apply nodupb_ok, G1|exact A|]. intros k I J. destruct (K k I) as (_ & n & E1 & I1). destruct (B k J) as (_ & m & E2 & I2).
        assert (m = n) by congruence. subst m. exact (N3 n I1 I2).
      + intros k I. apply in_app_iff in I as [I|I].
        * destruct (K k I) as (X & n & E1 & I1). split; [exact X|]. exists n. rewrite in_app_iff. auto.
        * destruct (B k I) as (X & n & E1 & I1). split; [exact X|]. exists n. rewrite in_app_iff. auto.
  Qed.
  Lemma typed_shows l : forall L, forallb own l = true -> all_some f l = Some L -> NoDup (map fst (concat L)) ->
    NoDup (flat_map sets l) /\ forall n, In n (flat_map sets l) -> exists k, back t n = Some k /\ In k (map fst (concat L)).
  Proof using own header f sets t G.
    induction l as [|c l IH]; intros L O E N; cbn [all_some] in E.
    - split; [constructor|intros n []].
    - cbn [forallb] in O. apply andb_true_iff in O as [O1 O2].
      specialize (G c O1). destruct (f c) as [es|]; [|discriminate]. destruct (all_some f l) as [L'|]; [|discriminate]. apply some_inj in E. subst L.
      cbn [concat] in N |- *. rewrite map_app in N. apply nodup_split in N as (_ & N2 & N3). destruct (IH L' O2 eq_refl N2) as [A B].
      unfold good in G. apply andb_true_iff in G as [G G2]. apply andb_true_iff in G as [_ G1]. rewrite forallb_forall in G2.
      assert (K : forall n, In n (sets c) -> exists k, back t n = Some k /\ In k (map fst es)).
      { intros n I. specialize (G2 n I). destruct (back t n) as [k|]; [|discriminate]. exists k. split; [reflexivity|]. apply memb_in, G2. }
      cbn [flat_map]. rewrite map_app. split.
      + apply nodup_join; [apply nodupb_ok, G1|exact A|]. intros n I J. destruct (K n I) as (k & E1 & I1). destruct (B n J) as (m & E2 & I2).
        assert (m = k) by congruence. subst m. exact (N3 k I1 I2).
      + intros n I. apply in_app_iff in I as [I|I]; [destruct (K n I) as (k & E1 & I1)|destruct (B n I) as (k & E1 & I1)];
          exists k; rewrite in_app_iff; auto.
  Qed.
  Lemma typed_all l : all_some (raw_entries_opt f) (map Typed l) = all_some f l.
  Proof using Type. induction l as [|c l IH]; [reflexivity|]. cbn [map all_some raw_entries_opt]. rewrite IH. reflexivity. Qed.
  Lemma opt_shows cs es : forallb own cs = true -> dict_writer_opt header f (map Typed cs) = Some (ODict es) -> NoDup (map fst es) -> NoDup (flat_map sets cs).
  Proof using own header f sets t G.
    intros O E N. unfold dict_writer_opt in E. rewrite typed_all in E. destruct (all_some f cs) as [L|] eqn:X; [|discriminate].
    cbn [option_map] in E. apply some_inj in E. injection E as <-. rewrite map_app in N. apply nodup_split in N as (_ & N & _).
    exact (proj1 (typed_shows cs L O X N)).
  Qed.
  Lemma whole_once l L : forallb own l = true -> NoDup (flat_map sets l) -> all_some f l = Some L -> NoDup (map fst (header ++ concat L)).
  Proof using own header f sets t G H.
    intros O N E. destruct (typed_once l L O N E) as [A B]. rewrite map_app. apply nodup_join; [apply nodupb_ok, H|exact A|].
    intros k I J. exact (proj1 (B k J) I).
  Qed.

  Lemma raw_apart cs : forall L, all_some (raw_entries_opt f) cs = Some L ->
    exists L', all_some (raw_entries_opt f) (map Typed (typed_calls cs)) = Some L' /\ all_some f (typed_calls cs) = Some L' /\
      Permutation (map fst (concat L)) (map fst (concat L') ++ raw_keys cs).
  Proof using Type.
    induction cs as [|c cs IH]; intros L E; cbn [all_some] in E.
    - apply some_inj in E. subst. exists []. repeat split. constructor.
    - destruct (raw_entries_opt f c) as [es|] eqn:X; [|discriminate]. destruct (all_some (raw_entries_opt f) cs) as [L0|]; [|discriminate].
      apply some_inj in E. subst L. destruct (IH L0 eq_refl) as (L' & A & B & P). destruct c as [c|k o]; cbn [raw_entries_opt] in X.
      + exists (es :: L'). unfold typed_calls, raw_keys in *. cbn [flat_map app map all_some raw_entries_opt]. rewrite X, A, B. repeat split.
        cbn [concat]. rewrite !map_app, <- app_assoc. apply Permutation_app_head, P.
      + apply some_inj in X. subst es. exists L'. unfold typed_calls, raw_keys in *. cbn [flat_map app]. split; [exact A|]. split; [exact B|].
        cbn [concat app map fst]. rewrite P. apply Permutation_middle.
  Qed.

  Lemma opt_once : never_twice own sets (dict_writer_opt header f).
  Proof using own header f sets t G H.
    split; [|exact opt_shows].
    intros cs typed o O N Ty Nr D E. unfold dict_writer_opt in *. destruct (all_some (raw_entries_opt f) cs) as [L|] eqn:X; [|discriminate].
    apply some_inj in E. subst o. exists (header ++ concat L). split; [reflexivity|]. destruct (raw_apart cs L X) as (L' & A & B & P).
    rewrite A in Ty. apply some_inj in Ty. subst typed. cbn [keys] in D. pose proof (whole_once _ L' O N B) as W.
    rewrite map_app in *. eapply Permutation_NoDup; [apply Permutation_app_head, Permutation_sym, P|]. rewrite app_assoc.
    apply nodup_join; [exact W|exact Nr|]. intros k I J. exact (D k J I).
  Qed.
  Lemma opt_typed_once : own = (fun _ => true) -> never_twice_typed sets (fun cs => dict_writer_opt header f (map Typed cs)).
  Proof using own header f sets t G H.
    intro Ho. assert (All : forall l, forallb own l = true) by (intro l; rewrite Ho; apply forallb_forall; reflexivity).
    split; [|intros cs es; exact (opt_shows cs es (All cs))]. intros cs o N E. unfold dict_writer_opt in E.
    rewrite typed_all in E. destruct (all_some f cs) as [L|] eqn:Y; [|discriminate]. apply some_inj in E. subst o. eexists. split; [reflexivity|].
    apply (whole_once cs L); [apply All|exact N|exact Y].
  Qed.
End Writer.

Lemma total_as_opt {C} header (f : C -> list (bytes * obj)) cs :
  Some (dict_writer header f cs) = dict_writer_opt header (fun c => Some (f c)) cs.
Proof.
  unfold dict_writer, dict_writer_opt.
  assert (X : all_some (raw_entries_opt (fun c => Some (f c))) cs = Some (map (raw_entries f) cs)).
  { induction cs as [|c cs IH]; [reflexivity|]. cbn [all_some map]. rewrite IH. destruct c; reflexivity. }
  rewrite X. cbn [option_map]. rewrite flat_map_concat_map. reflexivity.
Qed.
Lemma total_once {C} own header (f : C -> list (bytes * obj)) sets t : good_writer own header (fun c => Some (f c)) sets t ->
  nodupb (map fst header) = true -> never_twice own sets (fun cs => Some (dict_writer header f cs)).
Proof.
  intros G H. destruct (opt_once own header _ sets t G H) as [A B]. split.
  - intros cs typed o O N Ty Nr D E. rewrite total_as_opt in Ty, E. exact (A cs typed o O N Ty Nr D E).
  - intros cs es O E. rewrite total_as_opt in E. exact (B cs es O E).
Qed.
Lemma total_typed_once {C} header (f : C -> list (bytes * obj)) sets t : good_writer (fun _ => true) header (fun c => Some (f c)) sets t ->
  nodupb (map fst header) = true -> never_twice_typed sets (fun cs => Some (dict_writer header f (map Typed cs))).
Proof.
  intros G H. destruct (opt_typed_once _ header _ sets t G H eq_refl) as [A B]. split.
  - intros cs o N E. rewrite total_as_opt in E. exact (A cs o N E).
  - intros cs es E. rewrite total_as_opt in E. exact (B cs es E).
Qed.

(** ** Streams *)
Definition stream_names : list (bytes * bytes) := [(lit "Filter", lit "filter"); (lit "DecodeParms", lit "decode_parms")].
Section InStream.
  Context {C : Type} (header : list (bytes * obj)) (f : C -> option (list (bytes * obj))) (sets : C -> list bytes)
    (t : list (bytes * bytes)) (G : good_writer (fun _ => true) header f sets t)
    (H : nodupb (lit "Length" :: lit "Filter" :: lit "DecodeParms" :: map fst header) = true)
    (T : forallb (fun e => negb (memb (fst e) [lit "Length"; lit "Filter"; lit "DecodeParms"])) t = true)
    (T2 : forallb (fun e => negb (memb (snd e) [lit "filter"; lit "decode_parms"])) t = true).
  Definition conv (c : or_stream Stream_call C) : or_raw (Stream_call + C) :=
    match c with STyped c => Typed (inr c) | SStream s => Typed (inl s) | SRaw k o => Raw k o end.
  Definition both (c : Stream_call + C) : option (list (bytes * obj)) := match c with inl s => Stream_entries s | inr c => f c end.
  Definition both_sets (c : Stream_call + C) : list bytes := match c with inl s => Stream_sets s | inr c => sets c end.
  Definition len_header : list (bytes * obj) := (lit "Length", OPrim PNull) :: header.

  Lemma not_stream_key k n : look t k = Some n -> memb k [lit "Length"; lit "Filter"; lit "DecodeParms"] = false.
  Proof using C t T.
    revert T. clear. induction t as [|[a m] r IH]; cbn [look forallb fst]; [discriminate|]. intros F E. apply andb_true_iff in F as [F1 F2].
    destruct (eqb_reflect k a); [subst a; apply negb_true_iff in F1; exact F1|apply IH; assumption].
  Qed.
  Lemma not_stream_name n k : back t n = Some k -> memb n [lit "filter"; lit "decode_parms"] = false.
  Proof using C t T2.
    revert T2. clear. induction t as [|[a m] r IH]; cbn [back forallb snd]; [discriminate|]. intros F E. apply andb_true_iff in F as [F1 F2].
    destruct (eqb_reflect n m); [subst m; apply negb_true_iff in F1; exact F1|apply IH; assumption].
  Qed.
  Lemma good_both : good_writer (fun _ => true) len_header both both_sets (stream_names ++ t).
  Proof using C header f sets t G H T T2.
    assert (NF : memb (lit "Filter") (map fst header) = false /\ memb (lit "DecodeParms") (map fst header) = false).
    { cbn [nodupb] in H. repeat (apply andb_true_iff in H as [? H]). split; apply negb_true_iff; assumption. }
    destruct NF as [NF ND]. intros [s|c] _.
    - assert (S1 : forall k n r, memb k (map fst header) = false -> memb k [lit "Length"] = false -> look (stream_names ++ t) k = Some n ->
        back (stream_names ++ t) n = Some k ->
        good (map fst len_header) (stream_names ++ t) [n] (map fst [(k, r : obj)]) = true).
      { intros k n r A B E E'. unfold good. cbn [map fst nodupb forallb]. rewrite E, E'.
        assert (X : memb k (map fst len_header) = false).
        { unfold memb in *. unfold len_header. cbn [map fst existsb] in *. rewrite orb_false_r in B. rewrite A, B. reflexivity. }
        rewrite X. unfold memb. cbn [existsb]. destruct (eqb_reflect n n); [|contradiction]. destruct (eqb_reflect k k); [reflexivity|contradiction]. }
      destruct s as [flt|calls]; cbn [both Stream_entries both_sets Stream_sets].
      + apply S1; [exact NF|reflexivity..].
      + unfold sub_entry. destruct (DecodeParms_obj calls); cbn [option_map]; [|exact Logic.I]. apply S1; [exact ND|reflexivity..].
    - cbn [both both_sets]. specialize (G c eq_refl). destruct (f c) as [es|]; [|exact Logic.I]. unfold good in *. apply andb_true_iff in G as [G G4].
      apply andb_true_iff in G as [G G3]. apply andb_true_iff in G as [G1 G2]. rewrite G1, G3. cbn [andb]. rewrite andb_true_r. rewrite forallb_forall in G2, G4.
      apply andb_true_iff. split; apply forallb_forall; cycle 1.
      { intros n I0. specialize (G4 n I0). destruct (back t n) as [k|] eqn:E; [|discriminate]. pose proof (not_stream_name n k E) as Z. unfold memb in Z.
        cbn [existsb] in Z. apply orb_false_iff in Z as [Z1 Z]. apply orb_false_iff in Z as [Z2 _]. unfold stream_names. cbn [app back].
        rewrite Z1, Z2, E. exact G4. }
      intros k I0. specialize (G2 k I0). apply andb_true_iff in G2 as [A B].
      destruct (look t k) as [n|] eqn:E; [|discriminate]. pose proof (not_stream_key k n E) as Z. unfold memb in Z. cbn [existsb] in Z.
      apply orb_false_iff in Z as [Z1 Z]. apply orb_false_iff in Z as [Z2 Z]. apply orb_false_iff in Z as [Z3 _].
      unfold stream_names. cbn [app look]. rewrite Z2, Z3, E, B, andb_true_r. unfold len_header, memb in *. cbn [map fst existsb]. rewrite Z1. exact A.
  Qed.
  Lemma conv_all cs : all_some (stream_entries Stream_entries f) cs = all_some (raw_entries_opt both) (map conv cs).
  Proof using Type. induction cs as [|c cs IH]; [reflexivity|]. cbn [map all_some]. rewrite IH. destruct c; reflexivity. Qed.
  Lemma conv_typed cs : map Typed (typed_calls (map conv cs)) = map conv (List.filter stream_call_typed cs).
  Proof using Type. induction cs as [|[c|s|k o] cs IH]; [reflexivity| | |]; unfold typed_calls in *; cbn [map flat_map conv app List.filter stream_call_typed]; rewrite ?IH; reflexivity. Qed.
  Lemma conv_raw cs : raw_keys (map conv cs) = stream_raw_keys cs.
  Proof using Type. induction cs as [|[c|s|k o] cs IH]; [reflexivity| | |]; unfold raw_keys, stream_raw_keys in *; cbn [map flat_map conv app]; rewrite IH; reflexivity. Qed.
  Lemma conv_sets cs : flat_map both_sets (typed_calls (map conv cs)) = flat_map (stream_call_sets sets) cs.
  Proof using Type.
    induction cs as [|[c|s|k o] cs IH]; [reflexivity| | |]; unfold typed_calls in *; cbn [map flat_map conv app stream_call_sets both_sets]; rewrite IH; reflexivity.
  Qed.
  Lemma stream_once : never_twice_in_stream sets (stream_writer Stream_entries header f).
  Proof using C header f sets t G H T T2.
    assert (Hl : nodupb (map fst len_header) = true).
    { unfold len_header. cbn [map fst]. cbn [nodupb] in *. apply andb_true_iff in H as [A B]. apply andb_true_iff in B as [_ B]. apply andb_true_iff in B as [_ B].
      rewrite B, andb_true_r. unfold memb in *. cbn [existsb] in A. apply negb_true_iff in A. apply orb_false_iff in A as [_ A]. apply orb_false_iff in A as [_ A].
      rewrite A. reflexivity. }
    destruct (opt_once _ _ _ _ _ good_both Hl) as [A1 A2]. split.
    - intros cs typed es N Ty Nr D E. unfold stream_writer in *.
      destruct (all_some _ (List.filter _ cs)) as [L'|] eqn:X'; [|discriminate]. destruct (all_some _ cs) as [L|] eqn:X; [|discriminate].
      apply some_inj in Ty. apply some_inj in E. subst typed es. rewrite conv_all in X, X'.
      destruct (A1 (map conv cs) (ODict (len_header ++ concat L')) (ODict (len_header ++ concat L))) as (es & E1 & E2).
      + apply forallb_forall. reflexivity.
      + rewrite conv_sets. exact N.
      + unfold dict_writer_opt. rewrite conv_typed, X'. reflexivity.
      + rewrite conv_raw. exact Nr.
      + rewrite conv_raw. exact D.
      + unfold dict_writer_opt. rewrite X. reflexivity.
      + injection E1 as <-. exact E2.
    - intros cs es F E N. unfold stream_writer in E. destruct (all_some _ cs) as [L|] eqn:X; [|discriminate]. apply some_inj in E. subst es.
      rewrite conv_all in X. rewrite <- conv_sets.
      assert (Y : map conv cs = map Typed (typed_calls (map conv cs))).
      { rewrite conv_typed. f_equal. clear - F. induction cs as [|c cs IH]; [reflexivity|]. cbn [forallb] in F. apply andb_true_iff in F as [F1 F2].
        cbn [List.filter]. rewrite F1. f_equal. apply IH, F2. }
      rewrite Y, typed_all in X. rewrite map_app in N. apply nodup_split in N as (_ & N & _).
      exact (proj1 (typed_shows _ _ _ _ _ good_both (typed_calls (map conv cs)) L ltac:(apply forallb_forall; reflexivity) X N)).
  Qed.
End InStream.

(** ** The writers one by one *)
Ltac split_matches :=
  repeat match goal with
  | |- match (match ?x with _ => _ end) with Some _ => _ | None => _ end => destruct x; cbv beta iota
  end.
Ltac good f :=
  intros c O; destruct c; try discriminate O; clear O; cbv beta iota delta [f sub_entry option_map]; split_matches;
  try exact Logic.I; repeat match goal with b : bool |- _ => destruct b end; lazy; reflexivity.

