(** Property C108: no dictionary has a key twice. *)

From Coq Require Import ZArith List Bool Permutation.
From Verif Require ModelContent ModelCmap.
From Verif Require Import Bytes ModelFloat ModelBuf ModelObject ModelColor ModelSmall ModelPdf ModelTw ModelEnums ModelRoles ModelTwArgs ModelTwFiles ModelTwGraphics ModelTwAnnot ModelTwForms ModelTwAttr ModelTwXObj ModelTwFonts ModelTwDoc SpecObj SpecTyped ProofFile3 SpecOnce.
Import ListNotations.
Local Open Scope Z_scope.

(** ** Lists of keys *)
Lemma eqb_reflect a b : reflect (a = b) (bytes_eqb a b).
Proof. apply iff_reflect. symmetry. apply bytes_eqb_spec. Qed.
Definition memb (k : bytes) (l : list bytes) : bool := existsb (bytes_eqb k) l.
Fixpoint nodupb (l : list bytes) : bool := match l with [] => true | k :: l => negb (memb k l) && nodupb l end.
Fixpoint look (t : list (bytes * bytes)) (k : bytes) : option bytes :=
  match t with [] => None | (a, n) :: t => if bytes_eqb k a then Some n else look t k end.
Fixpoint back (t : list (bytes * bytes)) (n : bytes) : option bytes :=
  match t with [] => None | (k, a) :: t => if bytes_eqb n a then Some k else back t n end.
Lemma memb_in k l : memb k l = true <-> In k l.
Proof.
  unfold memb. rewrite existsb_exists. split.
  - intros (x & I & E). destruct (eqb_reflect k x); [subst; exact I|discriminate E].
  - intro I. exists k. split; [exact I|]. destruct (eqb_reflect k k); [reflexivity|contradiction].
Qed.
Lemma nodupb_ok l : nodupb l = true -> NoDup l.
Proof.
  induction l as [|k l IH]; intro H; [constructor|]. cbn [nodupb] in H. apply andb_true_iff in H as [A B]. constructor; [|apply IH, B].
  intro I. apply memb_in in I. rewrite I in A. discriminate.
Qed.
Lemma nodup_join {A} (a b : list A) : NoDup a -> NoDup b -> (forall k, In k a -> ~ In k b) -> NoDup (a ++ b).
Proof.
  induction a as [|x a IH]; intros Ha Hb D; [exact Hb|]. inversion Ha as [|? ? Nx Ha']; subst. cbn [app]. constructor.
  - rewrite in_app_iff. intros [I|I]; [exact (Nx I)|]. exact (D x (or_introl eq_refl) I).
  - apply IH; [exact Ha'|exact Hb|]. intros k I. apply D. right. exact I.
Qed.
Lemma nodup_split {A} (a b : list A) : NoDup (a ++ b) -> NoDup a /\ NoDup b /\ (forall k, In k a -> ~ In k b).
Proof.
  induction a as [|x a IH]; intro H; [split; [constructor|split; [exact H|intros k []]]|]. cbn [app] in H. inversion H as [|? ? Nx H']; subst.
  destruct (IH H') as (A1 & A2 & A3). rewrite in_app_iff in Nx. split; [constructor; tauto|]. split; [exact A2|].
  intros k [->|I]; [tauto|apply A3, I].
Qed.

(** ** Writers *)
Definition good (h : list bytes) (t : list (bytes * bytes)) (s : list bytes) (es : list bytes) : bool :=
  nodupb es && forallb (fun k => negb (memb k h) && match look t k with Some n => memb n s | None => false end) es &&
  nodupb s && forallb (fun n => match back t n with Some k => memb k es | None => false end) s.
Definition good_writer {C} (own : C -> bool) (header : list (bytes * obj)) (f : C -> option (list (bytes * obj))) (sets : C -> list bytes)
  (t : list (bytes * bytes)) : Prop :=
  forall c, own c = true -> match f c with Some es => good (map fst header) t (sets c) (map fst es) = true | None => True end.

Section Writer.
  Context {C : Type} (own : C -> bool) (header : list (bytes * obj)) (f : C -> option (list (bytes * obj))) (sets : C -> list bytes)
    (t : list (bytes * bytes)) (G : good_writer own header f sets t) (H : nodupb (map fst header) = true).

  Lemma typed_once l : forall L, forallb own l = true -> NoDup (flat_map sets l) -> all_some f l = Some L ->
    NoDup (map fst (concat L)) /\
    forall k, In k (map fst (concat L)) -> ~ In k (map fst header) /\ exists n, look t k = Some n /\ In n (flat_map sets l).
  Proof using own header f sets t G.
    induction l as [|c l IH]; intros L O N E; cbn [all_some] in E.
    - apply some_inj in E. subst. split; [constructor|intros k []].
    - cbn [forallb] in O. apply andb_true_iff in O as [O1 O2]. cbn [flat_map] in N. apply nodup_split in N as (_ & N2 & N3).
      specialize (G c O1). destruct (f c) as [es|]; [|discriminate]. destruct (all_some f l) as [L'|]; [|discriminate]. apply some_inj in E. subst L.
      destruct (IH L' O2 N2 eq_refl) as [A B]. unfold good in G. apply andb_true_iff in G as [G _]. apply andb_true_iff in G as [G _]. apply andb_true_iff in G as [G1 G2]. rewrite forallb_forall in G2.
      assert (K : forall k, In k (map fst es) -> ~ In k (map fst header) /\ exists n, look t k = Some n /\ In n (sets c)).
      { intros k I. specialize (G2 k I). apply andb_true_iff in G2 as [X Y]. split.
        - intro J. apply memb_in in J. rewrite J in X. discriminate.
        - destruct (look t k) as [n|]; [|discriminate]. exists n. split; [reflexivity|]. apply memb_in, Y. }
      cbn [concat flat_map]. rewrite map_app. split.
      + apply nodup_join; [apply nodupb_ok, G1|exact A|]. intros k I J. destruct (K k I) as (_ & n & E1 & I1). destruct (B k J) as (_ & m & E2 & I2).
        assert (m = n) by congruence. subst m. exact (N3 n I1 I2).
      + intros k I. apply in_app_iff in I as [I|I].
        * destruct (K k I) as (X & n & E1 & I1). split; [exact X|]. exists n. rewrite in_app_iff. auto.
        * destruct (B k I) as (X & n & E1 & I1). split; [exact X|]. exists n. rewrite in_app_iff. auto.
  Qed.
  Lemma typed_shows l : forall L, forallb own l = true -> all_some f l = Some L -> NoDup (map fst (concat L)) ->
    NoDup (flat_map sets l) /\ forall n, In n (flat_map sets l) -> exists k, back t n = Some k /\ In k (map fst (concat L)).
  Proof using own header f sets t G.
    induction l as [|c l IH]; intros L O E N; cbn [all_some] in E.
    - split; [constructor|intros n []].
    - cbn [forallb] in O. apply andb_true_iff in O as [O1 O2].
      specialize (G c O1). destruct (f c) as [es|]; [|discriminate]. destruct (all_some f l) as [L'|]; [|discriminate]. apply some_inj in E. subst L.
      cbn [concat] in N |- *. rewrite map_app in N. apply nodup_split in N as (_ & N2 & N3). destruct (IH L' O2 eq_refl N2) as [A B].
      unfold good in G. apply andb_true_iff in G as [G G2]. apply andb_true_iff in G as [_ G1]. rewrite forallb_forall in G2.
      assert (K : forall n, In n (sets c) -> exists k, back t n = Some k /\ In k (map fst es)).
      { intros n I. specialize (G2 n I). destruct (back t n) as [k|]; [|discriminate]. exists k. split; [reflexivity|]. apply memb_in, G2. }
      cbn [flat_map]. rewrite map_app. split.
      + apply nodup_join; [apply nodupb_ok, G1|exact A|]. intros n I J. destruct (K n I) as (k & E1 & I1). destruct (B n J) as (m & E2 & I2).
        assert (m = k) by congruence. subst m. exact (N3 k I1 I2).
      + intros n I. apply in_app_iff in I as [I|I]; [destruct (K n I) as (k & E1 & I1)|destruct (B n I) as (k & E1 & I1)];
          exists k; rewrite in_app_iff; auto.
  Qed.
  Lemma typed_all l : all_some (raw_entries_opt f) (map Typed l) = all_some f l.
  Proof using Type. induction l as [|c l IH]; [reflexivity|]. cbn [map all_some raw_entries_opt]. rewrite IH. reflexivity. Qed.
  Lemma opt_shows cs es : forallb own cs = true -> dict_writer_opt header f (map Typed cs) = Some (ODict es) -> NoDup (map fst es) -> NoDup (flat_map sets cs).
  Proof using own header f sets t G.
    intros O E N. unfold dict_writer_opt in E. rewrite typed_all in E. destruct (all_some f cs) as [L|] eqn:X; [|discriminate].
    cbn [option_map] in E. apply some_inj in E. injection E as <-. rewrite map_app in N. apply nodup_split in N as (_ & N & _).
    exact (proj1 (typed_shows cs L O X N)).
  Qed.
  Lemma whole_once l L : forallb own l = true -> NoDup (flat_map sets l) -> all_some f l = Some L -> NoDup (map fst (header ++ concat L)).
  Proof using own header f sets t G H.
    intros O N E. destruct (typed_once l L O N E) as [A B]. rewrite map_app. apply nodup_join; [apply nodupb_ok, H|exact A|].
    intros k I J. exact (proj1 (B k J) I).
  Qed.

  Lemma raw_apart cs : forall L, all_some (raw_entries_opt f) cs = Some L ->
    exists L', all_some (raw_entries_opt f) (map Typed (typed_calls cs)) = Some L' /\ all_some f (typed_calls cs) = Some L' /\
      Permutation (map fst (concat L)) (map fst (concat L') ++ raw_keys cs).
  Proof using Type.
    induction cs as [|c cs IH]; intros L E; cbn [all_some] in E.
    - apply some_inj in E. subst. exists []. repeat split. constructor.
    - destruct (raw_entries_opt f c) as [es|] eqn:X; [|discriminate]. destruct (all_some (raw_entries_opt f) cs) as [L0|]; [|discriminate].
      apply some_inj in E. subst L. destruct (IH L0 eq_refl) as (L' & A & B & P). destruct c as [c|k o]; cbn [raw_entries_opt] in X.
      + exists (es :: L'). unfold typed_calls, raw_keys in *. cbn [flat_map app map all_some raw_entries_opt]. rewrite X, A, B. repeat split.
        cbn [concat]. rewrite !map_app, <- app_assoc. apply Permutation_app_head, P.
      + apply some_inj in X. subst es. exists L'. unfold typed_calls, raw_keys in *. cbn [flat_map app]. split; [exact A|]. split; [exact B|].
        cbn [concat app map fst]. rewrite P. apply Permutation_middle.
  Qed.

  Lemma opt_once : never_twice own sets (dict_writer_opt header f).
  Proof using own header f sets t G H.
    split; [|exact opt_shows].
    intros cs typed o O N Ty Nr D E. unfold dict_writer_opt in *. destruct (all_some (raw_entries_opt f) cs) as [L|] eqn:X; [|discriminate].
    apply some_inj in E. subst o. exists (header ++ concat L). split; [reflexivity|]. destruct (raw_apart cs L X) as (L' & A & B & P).
    rewrite A in Ty. apply some_inj in Ty. subst typed. cbn [keys] in D. pose proof (whole_once _ L' O N B) as W.
    rewrite map_app in *. eapply Permutation_NoDup; [apply Permutation_app_head, Permutation_sym, P|]. rewrite app_assoc.
    apply nodup_join; [exact W|exact Nr|]. intros k I J. exact (D k J I).
  Qed.
  Lemma opt_typed_once : own = (fun _ => true) -> never_twice_typed sets (fun cs => dict_writer_opt header f (map Typed cs)).
  Proof using own header f sets t G H.
    intro Ho. assert (All : forall l, forallb own l = true) by (intro l; rewrite Ho; apply forallb_forall; reflexivity).
    split; [|intros cs es; exact (opt_shows cs es (All cs))]. intros cs o N E. unfold dict_writer_opt in E.
    rewrite typed_all in E. destruct (all_some f cs) as [L|] eqn:Y; [|discriminate]. apply some_inj in E. subst o. eexists. split; [reflexivity|].
    apply (whole_once cs L); [apply All|exact N|exact Y].
  Qed.
End Writer.

Lemma total_as_opt {C} header (f : C -> list (bytes * obj)) cs :
  Some (dict_writer header f cs) = dict_writer_opt header (fun c => Some (f c)) cs.
Proof.
  unfold dict_writer, dict_writer_opt.
  assert (X : all_some (raw_entries_opt (fun c => Some (f c))) cs = Some (map (raw_entries f) cs)).
  { induction cs as [|c cs IH]; [reflexivity|]. cbn [all_some map]. rewrite IH. destruct c; reflexivity. }
  rewrite X. cbn [option_map]. rewrite flat_map_concat_map. reflexivity.
Qed.
Lemma total_once {C} own header (f : C -> list (bytes * obj)) sets t : good_writer own header (fun c => Some (f c)) sets t ->
  nodupb (map fst header) = true -> never_twice own sets (fun cs => Some (dict_writer header f cs)).
Proof.
  intros G H. destruct (opt_once own header _ sets t G H) as [A B]. split.
  - intros cs typed o O N Ty Nr D E. rewrite total_as_opt in Ty, E. exact (A cs typed o O N Ty Nr D E).
  - intros cs es O E. rewrite total_as_opt in E. exact (B cs es O E).
Qed.
Lemma total_typed_once {C} header (f : C -> list (bytes * obj)) sets t : good_writer (fun _ => true) header (fun c => Some (f c)) sets t ->
  nodupb (map fst header) = true -> never_twice_typed sets (fun cs => Some (dict_writer header f (map Typed cs))).
Proof.
  intros G H. destruct (opt_typed_once _ header _ sets t G H eq_refl) as [A B]. split.
  - intros cs o N E. rewrite total_as_opt in E. exact (A cs o N E).
  - intros cs es E. rewrite total_as_opt in E. exact (B cs es E).
Qed.

(** ** Streams *)
Definition stream_names : list (bytes * bytes) := [(lit "Filter", lit "filter"); (lit "DecodeParms", lit "decode_parms")].
Section InStream.
  Context {C : Type} (header : list (bytes * obj)) (f : C -> option (list (bytes * obj))) (sets : C -> list bytes)
    (t : list (bytes * bytes)) (G : good_writer (fun _ => true) header f sets t)
    (H : nodupb (lit "Length" :: lit "Filter" :: lit "DecodeParms" :: map fst header) = true)
    (T : forallb (fun e => negb (memb (fst e) [lit "Length"; lit "Filter"; lit "DecodeParms"])) t = true)
    (T2 : forallb (fun e => negb (memb (snd e) [lit "filter"; lit "decode_parms"])) t = true).
  Definition conv (c : or_stream Stream_call C) : or_raw (Stream_call + C) :=
    match c with STyped c => Typed (inr c) | SStream s => Typed (inl s) | SRaw k o => Raw k o end.
  Definition both (c : Stream_call + C) : option (list (bytes * obj)) := match c with inl s => Stream_entries s | inr c => f c end.
  Definition both_sets (c : Stream_call + C) : list bytes := match c with inl s => Stream_sets s | inr c => sets c end.
  Definition len_header : list (bytes * obj) := (lit "Length", OPrim PNull) :: header.

  Lemma not_stream_key k n : look t k = Some n -> memb k [lit "Length"; lit "Filter"; lit "DecodeParms"] = false.
  Proof using C t T.
    revert T. clear. induction t as [|[a m] r IH]; cbn [look forallb fst]; [discriminate|]. intros F E. apply andb_true_iff in F as [F1 F2].
    destruct (eqb_reflect k a); [subst a; apply negb_true_iff in F1; exact F1|apply IH; assumption].
  Qed.
  Lemma not_stream_name n k : back t n = Some k -> memb n [lit "filter"; lit "decode_parms"] = false.
  Proof using C t T2.
    revert T2. clear. induction t as [|[a m] r IH]; cbn [back forallb snd]; [discriminate|]. intros F E. apply andb_true_iff in F as [F1 F2].
    destruct (eqb_reflect n m); [subst m; apply negb_true_iff in F1; exact F1|apply IH; assumption].
  Qed.
  Lemma good_both : good_writer (fun _ => true) len_header both both_sets (stream_names ++ t).
  Proof using C header f sets t G H T T2.
    assert (NF : memb (lit "Filter") (map fst header) = false /\ memb (lit "DecodeParms") (map fst header) = false).
    { cbn [nodupb] in H. repeat (apply andb_true_iff in H as [? H]). split; apply negb_true_iff; assumption. }
    destruct NF as [NF ND]. intros [s|c] _.
    - assert (S1 : forall k n r, memb k (map fst header) = false -> memb k [lit "Length"] = false -> look (stream_names ++ t) k = Some n ->
        back (stream_names ++ t) n = Some k ->
        good (map fst len_header) (stream_names ++ t) [n] (map fst [(k, r : obj)]) = true).
      { intros k n r A B E E'. unfold good. cbn [map fst nodupb forallb]. rewrite E, E'.
        assert (X : memb k (map fst len_header) = false).
        { unfold memb in *. unfold len_header. cbn [map fst existsb] in *. rewrite orb_false_r in B. rewrite A, B. reflexivity. }
        rewrite X. unfold memb. cbn [existsb]. destruct (eqb_reflect n n); [|contradiction]. destruct (eqb_reflect k k); [reflexivity|contradiction]. }
      destruct s as [flt|calls]; cbn [both Stream_entries both_sets Stream_sets].
      + apply S1; [exact NF|reflexivity..].
      + unfold sub_entry. destruct (DecodeParms_obj calls); cbn [option_map]; [|exact Logic.I]. apply S1; [exact ND|reflexivity..].
    - cbn [both both_sets]. specialize (G c eq_refl). destruct (f c) as [es|]; [|exact Logic.I]. unfold good in *. apply andb_true_iff in G as [G G4].
      apply andb_true_iff in G as [G G3]. apply andb_true_iff in G as [G1 G2]. rewrite G1, G3. cbn [andb]. rewrite andb_true_r. rewrite forallb_forall in G2, G4.
      apply andb_true_iff. split; apply forallb_forall; cycle 1.
      { intros n I0. specialize (G4 n I0). destruct (back t n) as [k|] eqn:E; [|discriminate]. pose proof (not_stream_name n k E) as Z. unfold memb in Z.
        cbn [existsb] in Z. apply orb_false_iff in Z as [Z1 Z]. apply orb_false_iff in Z as [Z2 _]. unfold stream_names. cbn [app back].
        rewrite Z1, Z2, E. exact G4. }
      intros k I0. specialize (G2 k I0). apply andb_true_iff in G2 as [A B].
      destruct (look t k) as [n|] eqn:E; [|discriminate]. pose proof (not_stream_key k n E) as Z. unfold memb in Z. cbn [existsb] in Z.
      apply orb_false_iff in Z as [Z1 Z]. apply orb_false_iff in Z as [Z2 Z]. apply orb_false_iff in Z as [Z3 _].
      unfold stream_names. cbn [app look]. rewrite Z2, Z3, E, B, andb_true_r. unfold len_header, memb in *. cbn [map fst existsb]. rewrite Z1. exact A.
  Qed.
  Lemma conv_all cs : all_some (stream_entries Stream_entries f) cs = all_some (raw_entries_opt both) (map conv cs).
  Proof using Type. induction cs as [|c cs IH]; [reflexivity|]. cbn [map all_some]. rewrite IH. destruct c; reflexivity. Qed.
  Lemma conv_typed cs : map Typed (typed_calls (map conv cs)) = map conv (List.filter stream_call_typed cs).
  Proof using Type. induction cs as [|[c|s|k o] cs IH]; [reflexivity| | |]; unfold typed_calls in *; cbn [map flat_map conv app List.filter stream_call_typed]; rewrite ?IH; reflexivity. Qed.
  Lemma conv_raw cs : raw_keys (map conv cs) = stream_raw_keys cs.
  Proof using Type. induction cs as [|[c|s|k o] cs IH]; [reflexivity| | |]; unfold raw_keys, stream_raw_keys in *; cbn [map flat_map conv app]; rewrite IH; reflexivity. Qed.
  Lemma conv_sets cs : flat_map both_sets (typed_calls (map conv cs)) = flat_map (stream_call_sets sets) cs.
  Proof using Type.
    induction cs as [|[c|s|k o] cs IH]; [reflexivity| | |]; unfold typed_calls in *; cbn [map flat_map conv app stream_call_sets both_sets]; rewrite IH; reflexivity.
  Qed.
  Lemma stream_once : never_twice_in_stream sets (stream_writer Stream_entries header f).
  Proof using C header f sets t G H T T2.
    assert (Hl : nodupb (map fst len_header) = true).
    { unfold len_header. cbn [map fst]. cbn [nodupb] in *. apply andb_true_iff in H as [A B]. apply andb_true_iff in B as [_ B]. apply andb_true_iff in B as [_ B].
      rewrite B, andb_true_r. unfold memb in *. cbn [existsb] in A. apply negb_true_iff in A. apply orb_false_iff in A as [_ A]. apply orb_false_iff in A as [_ A].
      rewrite A. reflexivity. }
    destruct (opt_once _ _ _ _ _ good_both Hl) as [A1 A2]. split.
    - intros cs typed es N Ty Nr D E. unfold stream_writer in *.
      destruct (all_some _ (List.filter _ cs)) as [L'|] eqn:X'; [|discriminate]. destruct (all_some _ cs) as [L|] eqn:X; [|discriminate].
      apply some_inj in Ty. apply some_inj in E. subst typed es. rewrite conv_all in X, X'.
      destruct (A1 (map conv cs) (ODict (len_header ++ concat L')) (ODict (len_header ++ concat L))) as (es & E1 & E2).
      + apply forallb_forall. reflexivity.
      + rewrite conv_sets. exact N.
      + unfold dict_writer_opt. rewrite conv_typed, X'. reflexivity.
      + rewrite conv_raw. exact Nr.
      + rewrite conv_raw. exact D.
      + unfold dict_writer_opt. rewrite X. reflexivity.
      + injection E1 as <-. exact E2.
    - intros cs es F E N. unfold stream_writer in E. destruct (all_some _ cs) as [L|] eqn:X; [|discriminate]. apply some_inj in E. subst es.
      rewrite conv_all in X. rewrite <- conv_sets.
      assert (Y : map conv cs = map Typed (typed_calls (map conv cs))).
      { rewrite conv_typed. f_equal. clear - F. induction cs as [|c cs IH]; [reflexivity|]. cbn [forallb] in F. apply andb_true_iff in F as [F1 F2].
        cbn [List.filter]. rewrite F1. f_equal. apply IH, F2. }
      rewrite Y, typed_all in X. rewrite map_app in N. apply nodup_split in N as (_ & N & _).
      exact (proj1 (typed_shows _ _ _ _ _ good_both (typed_calls (map conv cs)) L ltac:(apply forallb_forall; reflexivity) X N)).
  Qed.
End InStream.

(** ** The writers one by one *)
Ltac split_matches :=
  repeat match goal with
  | |- match (match ?x with _ => _ end) with Some _ => _ | None => _ end => destruct x; cbv beta iota
  end.
Ltac good f :=
  intros c O; destruct c; try discriminate O; clear O; cbv beta iota delta [f sub_entry option_map]; split_matches;
  try exact Logic.I; repeat match goal with b : bool |- _ => destruct b end; lazy; reflexivity.

Lemma good_MediaPermissions : good_writer every MediaPermissions_header (fun c => Some (MediaPermissions_entries c)) MediaPermissions_sets [(lit "TF", lit "temp_file")].
Proof. good MediaPermissions_entries. Qed.

Theorem C108_MediaPermissions : never_twice every MediaPermissions_sets (fun cs => Some (MediaPermissions_obj cs)).
Proof. exact (total_once _ _ _ _ _ good_MediaPermissions eq_refl). Qed.

Lemma good_MediaPlayParams : good_writer every MediaPlayParams_header (fun c => Some (MediaPlayParams_entries c)) MediaPlayParams_sets [(lit "BE", lit "controls")].
Proof. good MediaPlayParams_entries. Qed.

Theorem C108_MediaPlayParams : never_twice every MediaPlayParams_sets (fun cs => Some (MediaPlayParams_obj cs)).
Proof. exact (total_once _ _ _ _ _ good_MediaPlayParams eq_refl). Qed.

Lemma good_MediaClip : good_writer every MediaClip_header (fun c => Some (MediaClip_entries c)) MediaClip_sets [(lit "S", lit "subtype"); (lit "N", lit "name"); (lit "D", lit "data"); (lit "CT", lit "data_type"); (lit "P", lit "permissions"); (lit "Alt", lit "alt_texts")].
Proof. good MediaClip_entries. Qed.

Theorem C108_MediaClip : never_twice every MediaClip_sets (fun cs => Some (MediaClip_obj cs)).
Proof. exact (total_once _ _ _ _ _ good_MediaClip eq_refl). Qed.

Lemma good_Rendition : good_writer every Rendition_header (fun c => Some (Rendition_entries c)) Rendition_sets [(lit "S", lit "subtype"); (lit "N", lit "name"); (lit "C", lit "media_clip"); (lit "P", lit "media_play_params")].
Proof. good Rendition_entries. Qed.

Theorem C108_Rendition : never_twice every Rendition_sets (fun cs => Some (Rendition_obj cs)).
Proof. exact (total_once _ _ _ _ _ good_Rendition eq_refl). Qed.

Lemma good_Action : good_writer every Action_header (fun c => Some (Action_entries c)) Action_sets [(lit "S", lit "action_type"); (lit "D", lit "destination"); (lit "F", lit "file_spec"); (lit "NewWindow", lit "new_window"); (lit "URI", lit "uri"); (lit "IsMap", lit "is_map"); (lit "JS", lit "javascript"); (lit "Fields", lit "fields"); (lit "Flags", lit "form_flags"); (lit "OP", lit "operation"); (lit "AN", lit "annotation"); (lit "R", lit "rendition")].
Proof. good Action_entries. Qed.

Theorem C108_Action : never_twice every Action_sets (fun cs => Some (Action_obj cs)).
Proof. exact (total_once _ _ _ _ _ good_Action eq_refl). Qed.

Lemma good_AdditionalActions : good_writer every AdditionalActions_header (fun c => Some (AdditionalActions_entries c)) AdditionalActions_sets [(lit "E", lit "annot_curser_enter"); (lit "X", lit "annot_cursor_exit"); (lit "D", lit "annot_mouse_press"); (lit "U", lit "annot_mouse_release"); (lit "PO", lit "annot_page_open"); (lit "PV", lit "annot_page_visible"); (lit "PI", lit "annot_page_invisible"); (lit "Fo", lit "widget_focus"); (lit "Bl", lit "widget_focus_loss"); (lit "O", lit "page_open"); (lit "C", lit "page_close / form_calculate"); (lit "K", lit "form_calculate_partial"); (lit "F", lit "form_format"); (lit "V", lit "form_validate"); (lit "WC", lit "cat_before_close"); (lit "WS", lit "cat_before_save"); (lit "DS", lit "cat_after_save"); (lit "WP", lit "cat_before_print"); (lit "DP", lit "cat_after_print")].
Proof. good AdditionalActions_entries. Qed.

Theorem C108_AdditionalActions : never_twice every AdditionalActions_sets (fun cs => Some (AdditionalActions_obj cs)).
Proof. exact (total_once _ _ _ _ _ good_AdditionalActions eq_refl). Qed.

Lemma good_Appearance : good_writer every Appearance_header (fun c => Some (Appearance_entries c)) Appearance_sets [(lit "N", lit "normal"); (lit "R", lit "rollover"); (lit "D", lit "alternate")].
Proof. good Appearance_entries. Qed.

Theorem C108_Appearance : never_twice every Appearance_sets (fun cs => Some (Appearance_obj cs)).
Proof. exact (total_once _ _ _ _ _ good_Appearance eq_refl). Qed.

Lemma good_IconFit : good_writer every IconFit_header (fun c => Some (IconFit_entries c)) IconFit_sets [(lit "SW", lit "scale"); (lit "S", lit "scale_type"); (lit "A", lit "leftover_space"); (lit "FB", lit "fit_bounds")].
Proof. good IconFit_entries. Qed.

Theorem C108_IconFit : never_twice every IconFit_sets (fun cs => Some (IconFit_obj cs)).
Proof. exact (total_once _ _ _ _ _ good_IconFit eq_refl). Qed.

Lemma good_AppearanceCharacteristics : good_writer every AppearanceCharacteristics_header (fun c => Some (AppearanceCharacteristics_entries c)) AppearanceCharacteristics_sets [(lit "R", lit "rotate"); (lit "BC", lit "border_color"); (lit "BG", lit "background_color"); (lit "CA", lit "normal_caption"); (lit "RC", lit "rollover_caption"); (lit "AC", lit "alternate_caption"); (lit "I", lit "normal_icon"); (lit "RI", lit "rollover_icon"); (lit "IX", lit "alternate_icon"); (lit "IF", lit "icon_fit"); (lit "TP", lit "text_position")].
Proof. good AppearanceCharacteristics_entries. Qed.

Theorem C108_AppearanceCharacteristics : never_twice every AppearanceCharacteristics_sets (fun cs => Some (AppearanceCharacteristics_obj cs)).
Proof. exact (total_once _ _ _ _ _ good_AppearanceCharacteristics eq_refl). Qed.

Lemma good_BorderStyle : good_writer every BorderStyle_header (fun c => Some (BorderStyle_entries c)) BorderStyle_sets [(lit "W", lit "width"); (lit "S", lit "style"); (lit "D", lit "dashes")].
Proof. good BorderStyle_entries. Qed.

Theorem C108_BorderStyle : never_twice every BorderStyle_sets (fun cs => Some (BorderStyle_obj cs)).
Proof. exact (total_once _ _ _ _ _ good_BorderStyle eq_refl). Qed.

Lemma good_Annotation : good_writer every Annotation_header (fun c => Some (Annotation_entries c)) Annotation_sets [(lit "Subtype", lit "subtype"); (lit "Rect", lit "rect"); (lit "Contents", lit "contents"); (lit "P", lit "page"); (lit "NM", lit "name"); (lit "M", lit "modified"); (lit "F", lit "flags"); (lit "AP", lit "appearance"); (lit "AS", lit "appearance_state"); (lit "Border", lit "border"); (lit "BS", lit "border_style"); (lit "C", lit "color"); (lit "StructParent", lit "struct_parent"); (lit "A", lit "action"); (lit "AA", lit "additional_actions"); (lit "H", lit "highlight"); (lit "T", lit "author"); (lit "Subj", lit "subject"); (lit "QuadPoints", lit "quad_points"); (lit "L", lit "line_to"); (lit "FS", lit "file_spec"); (lit "Name", lit "icon"); (lit "MK", lit "appearance_characteristics"); (lit "Parent", lit "parent"); (lit "AF", lit "associated_files")].
Proof. good Annotation_entries. Qed.

Theorem C108_Annotation : never_twice every Annotation_sets (fun cs => Some (Annotation_obj cs)).
Proof. exact (total_once _ _ _ _ _ good_Annotation eq_refl). Qed.

Lemma good_UserProperty : good_writer every UserProperty_header (fun c => Some (UserProperty_entries c)) UserProperty_sets [(lit "N", lit "name"); (lit "V", lit "value"); (lit "F", lit "format"); (lit "H", lit "hidden")].
Proof. good UserProperty_entries. Qed.

Theorem C108_UserProperty : never_twice every UserProperty_sets (fun cs => Some (UserProperty_obj cs)).
Proof. exact (total_once _ _ _ _ _ good_UserProperty eq_refl). Qed.

Lemma good_LayoutAttributes : good_writer every LayoutAttributes_header (fun c => Some (LayoutAttributes_entries c)) LayoutAttributes_sets [(lit "Placement", lit "placement"); (lit "WritingMode", lit "writing_mode"); (lit "BackgroundColor", lit "background_color"); (lit "BorderColor", lit "border_color"); (lit "BorderStyle", lit "border_style"); (lit "BorderThickness", lit "border_thickness"); (lit "Padding", lit "padding"); (lit "Color", lit "color"); (lit "SpaceBefore", lit "space_before"); (lit "SpaceAfter", lit "space_after"); (lit "StartIndent", lit "start_indent"); (lit "EndIndent", lit "end_indent"); (lit "TextIndent", lit "text_indent"); (lit "TextAlign", lit "text_align"); (lit "Width", lit "width"); (lit "Height", lit "height"); (lit "BBox", lit "bbox"); (lit "BlockAlign", lit "block_align"); (lit "InlineAlign", lit "inline_align"); (lit "TBorderStyle", lit "table_border_style"); (lit "TPadding", lit "table_padding"); (lit "ColumnCount", lit "column_count"); (lit "ColumnWidths", lit "column_widths"); (lit "ColumnGap", lit "column_gap"); (lit "LineHeight", lit "line_height"); (lit "BaselineShift", lit "baseline_shift"); (lit "TextPosition", lit "text_position"); (lit "TextDecorationType", lit "text_decoration_type"); (lit "TextDecorationColor", lit "text_decoration_color"); (lit "TextDecorationThickness", lit "text_decoration_thickness"); (lit "GlyphOrientationVertical", lit "glyph_orientation_vertical"); (lit "RubyAlign", lit "ruby_align"); (lit "RubyPosition", lit "ruby_position")].
Proof. good LayoutAttributes_entries. Qed.

Theorem C108_LayoutAttributes : never_twice every LayoutAttributes_sets (fun cs => Some (LayoutAttributes_obj cs)).
Proof. exact (total_once _ _ _ _ _ good_LayoutAttributes eq_refl). Qed.

Lemma good_ListAttributes : good_writer every ListAttributes_header (fun c => Some (ListAttributes_entries c)) ListAttributes_sets [(lit "ListNumbering", lit "list_numbering"); (lit "ContinuedList", lit "continued_list"); (lit "ContinuedFrom", lit "continued_from")].
Proof. good ListAttributes_entries. Qed.

Theorem C108_ListAttributes : never_twice every ListAttributes_sets (fun cs => Some (ListAttributes_obj cs)).
Proof. exact (total_once _ _ _ _ _ good_ListAttributes eq_refl). Qed.

Lemma good_FieldAttributes : good_writer every FieldAttributes_header (fun c => Some (FieldAttributes_entries c)) FieldAttributes_sets [(lit "Role", lit "role"); (lit "Checked", lit "checked (PDF 2.0)"); (lit "checked", lit "checked"); (lit "Desc", lit "description")].
Proof. good FieldAttributes_entries. Qed.

Theorem C108_FieldAttributes : never_twice every FieldAttributes_sets (fun cs => Some (FieldAttributes_obj cs)).
Proof. exact (total_once _ _ _ _ _ good_FieldAttributes eq_refl). Qed.

Lemma good_TableAttributes : good_writer every TableAttributes_header (fun c => Some (TableAttributes_entries c)) TableAttributes_sets [(lit "RowSpan", lit "row_span"); (lit "ColSpan", lit "col_span"); (lit "Headers", lit "headers"); (lit "Scope", lit "scope"); (lit "Summary", lit "summary"); (lit "Short", lit "short")].
Proof. good TableAttributes_entries. Qed.

Theorem C108_TableAttributes : never_twice every TableAttributes_sets (fun cs => Some (TableAttributes_obj cs)).
Proof. exact (total_once _ _ _ _ _ good_TableAttributes eq_refl). Qed.

Lemma good_ArtifactAttributes : good_writer every ArtifactAttributes_header (fun c => Some (ArtifactAttributes_entries c)) ArtifactAttributes_sets [(lit "Type", lit "artifact_type"); (lit "BBox", lit "bbox"); (lit "Subtype", lit "subtype")].
Proof. good ArtifactAttributes_entries. Qed.

Theorem C108_ArtifactAttributes : never_twice every ArtifactAttributes_sets (fun cs => Some (ArtifactAttributes_obj cs)).
Proof. exact (total_once _ _ _ _ _ good_ArtifactAttributes eq_refl). Qed.

Lemma good_FENoteAttributes : good_writer every FENoteAttributes_header (fun c => Some (FENoteAttributes_entries c)) FENoteAttributes_sets [(lit "NoteType", lit "note_type")].
Proof. good FENoteAttributes_entries. Qed.

Theorem C108_FENoteAttributes : never_twice every FENoteAttributes_sets (fun cs => Some (FENoteAttributes_obj cs)).
Proof. exact (total_once _ _ _ _ _ good_FENoteAttributes eq_refl). Qed.

Lemma good_MarkedRef : good_writer every MarkedRef_header (fun c => Some (MarkedRef_entries c)) MarkedRef_sets [(lit "Pg", lit "page"); (lit "Stm", lit "stream"); (lit "StmOwn", lit "stream_owner"); (lit "MCID", lit "marked_content_id")].
Proof. good MarkedRef_entries. Qed.

Theorem C108_MarkedRef : never_twice every MarkedRef_sets (fun cs => Some (MarkedRef_obj cs)).
Proof. exact (total_once _ _ _ _ _ good_MarkedRef eq_refl). Qed.

Lemma good_ObjectRef : good_writer every ObjectRef_header (fun c => Some (ObjectRef_entries c)) ObjectRef_sets [(lit "Pg", lit "page"); (lit "Obj", lit "object")].
Proof. good ObjectRef_entries. Qed.

Theorem C108_ObjectRef : never_twice every ObjectRef_sets (fun cs => Some (ObjectRef_obj cs)).
Proof. exact (total_once _ _ _ _ _ good_ObjectRef eq_refl). Qed.

Lemma good_StructElement : good_writer every StructElement_header (fun c => Some (StructElement_entries c)) StructElement_sets [(lit "S", lit "kind"); (lit "NS", lit "namespace"); (lit "P", lit "parent"); (lit "ID", lit "id"); (lit "Ref", lit "refs"); (lit "Pg", lit "page"); (lit "K", lit "children"); (lit "A", lit "attributes"); (lit "C", lit "attribute_class"); (lit "R", lit "revision"); (lit "T", lit "title"); (lit "Lang", lit "lang"); (lit "Alt", lit "alt"); (lit "E", lit "expanded"); (lit "ActualText", lit "actual_text"); (lit "AF", lit "associated_files"); (lit "PhoneticAlphabet", lit "phonetic_alphabet"); (lit "Phoneme", lit "phoneme")].
Proof. good StructElement_entries. Qed.

Theorem C108_StructElement : never_twice every StructElement_sets (fun cs => Some (StructElement_obj cs)).
Proof. exact (total_once _ _ _ _ _ good_StructElement eq_refl). Qed.

Lemma good_Namespace : good_writer every Namespace_header (fun c => Some (Namespace_entries c)) Namespace_sets [(lit "NS", lit "ns"); (lit "Schema", lit "schema"); (lit "RoleMapNS", lit "role_map_ns")].
Proof. good Namespace_entries. Qed.

Theorem C108_Namespace : never_twice every Namespace_sets (fun cs => Some (Namespace_obj cs)).
Proof. exact (total_once _ _ _ _ _ good_Namespace eq_refl). Qed.

Lemma good_StructTreeRoot : good_writer every StructTreeRoot_header (fun c => Some (StructTreeRoot_entries c)) StructTreeRoot_sets [(lit "K", lit "children"); (lit "IDTree", lit "id_tree"); (lit "ParentTree", lit "parent_tree"); (lit "ParentTreeNextKey", lit "parent_tree_next_key"); (lit "RoleMap", lit "role_map"); (lit "ClassMap", lit "class_map"); (lit "Namespaces", lit "namespaces"); (lit "PronunciationLexicon", lit "pronunciation_lexicon"); (lit "AF", lit "associated_files")].
Proof. good StructTreeRoot_entries. Qed.

Theorem C108_StructTreeRoot : never_twice every StructTreeRoot_sets (fun cs => Some (StructTreeRoot_obj cs)).
Proof. exact (total_once _ _ _ _ _ good_StructTreeRoot eq_refl). Qed.

Lemma good_MarkInfo : good_writer every MarkInfo_header (fun c => Some (MarkInfo_entries c)) MarkInfo_sets [(lit "Marked", lit "marked"); (lit "UserProperties", lit "user_properties"); (lit "Suspects", lit "suspects")].
Proof. good MarkInfo_entries. Qed.

Theorem C108_MarkInfo : never_twice every MarkInfo_sets (fun cs => Some (MarkInfo_obj cs)).
Proof. exact (total_once _ _ _ _ _ good_MarkInfo eq_refl). Qed.

Lemma good_DeveloperExtension : good_writer every DeveloperExtension_header (fun c => Some (DeveloperExtension_entries c)) DeveloperExtension_sets [(lit "BaseVersion", lit "base_version"); (lit "ExtensionLevel", lit "extension_level")].
Proof. good DeveloperExtension_entries. Qed.

Theorem C108_DeveloperExtension : never_twice every DeveloperExtension_sets (fun cs => Some (DeveloperExtension_obj cs)).
Proof. exact (total_once _ _ _ _ _ good_DeveloperExtension eq_refl). Qed.

Lemma good_ViewerPreferences : good_writer every ViewerPreferences_header ViewerPreferences_entries ViewerPreferences_sets [(lit "HideToolbar", lit "hide_toolbar"); (lit "HideMenubar", lit "hide_menubar"); (lit "FitWindow", lit "fit_window"); (lit "CenterWindow", lit "center_window"); (lit "DisplayDocTitle", lit "display_doc_title"); (lit "NonFullScreenPageMode", lit "non_full_screen_page_mode"); (lit "Direction", lit "direction")].
Proof. good ViewerPreferences_entries. Qed.

Theorem C108_ViewerPreferences : never_twice every ViewerPreferences_sets ViewerPreferences_obj.
Proof. exact (opt_once _ _ _ _ _ good_ViewerPreferences eq_refl). Qed.

Lemma good_PageLabel : good_writer every PageLabel_header (fun c => Some (PageLabel_entries c)) PageLabel_sets [(lit "S", lit "style"); (lit "P", lit "prefix"); (lit "St", lit "offset")].
Proof. good PageLabel_entries. Qed.

Theorem C108_PageLabel : never_twice every PageLabel_sets (fun cs => Some (PageLabel_obj cs)).
Proof. exact (total_once _ _ _ _ _ good_PageLabel eq_refl). Qed.

Lemma good_DocumentInfo : good_writer every DocumentInfo_header (fun c => Some (DocumentInfo_entries c)) DocumentInfo_sets [(lit "Title", lit "title"); (lit "Author", lit "author"); (lit "Subject", lit "subject"); (lit "Keywords", lit "keywords"); (lit "Creator", lit "creator"); (lit "Producer", lit "producer"); (lit "CreationDate", lit "creation_date"); (lit "ModDate", lit "modified_date"); (lit "Trapped", lit "trapped")].
Proof. good DocumentInfo_entries. Qed.

Theorem C108_DocumentInfo : never_twice every DocumentInfo_sets (fun cs => Some (DocumentInfo_obj cs)).
Proof. exact (total_once _ _ _ _ _ good_DocumentInfo eq_refl). Qed.

Lemma good_Transition : good_writer every Transition_header (fun c => Some (Transition_entries c)) Transition_sets [(lit "S", lit "style"); (lit "D", lit "duration"); (lit "Dm", lit "dimension"); (lit "M", lit "direction"); (lit "Di", lit "angle"); (lit "SS", lit "scale"); (lit "F", lit "opaque")].
Proof. good Transition_entries. Qed.

Theorem C108_Transition : never_twice every Transition_sets (fun cs => Some (Transition_obj cs)).
Proof. exact (total_once _ _ _ _ _ good_Transition eq_refl). Qed.

Lemma good_Names : good_writer every Names_header (fun c => Some (Names_entries c)) Names_sets [(lit "Dests", lit "destinations"); (lit "AP", lit "appearances"); (lit "JavaScript", lit "javascript"); (lit "Pages", lit "pages"); (lit "Templates", lit "templates"); (lit "IDS", lit "capture_ids"); (lit "URLS", lit "capture_urls"); (lit "EmbeddedFiles", lit "embedded_files"); (lit "AlternatePresentations", lit "alternate_presentations"); (lit "Renditions", lit "renditions")].
Proof. good Names_entries. Qed.

Theorem C108_Names : never_twice every Names_sets (fun cs => Some (Names_obj cs)).
Proof. exact (total_once _ _ _ _ _ good_Names eq_refl). Qed.

Lemma good_Pages : good_writer every Pages_header (fun c => Some (Pages_entries c)) Pages_sets [(lit "Parent", lit "parent"); (lit "Kids", lit "kids"); (lit "Count", lit "count"); (lit "MediaBox", lit "media_box"); (lit "Resources", lit "resources")].
Proof. good Pages_entries. Qed.

Theorem C108_Pages : never_twice every Pages_sets (fun cs => Some (Pages_obj cs)).
Proof. exact (total_once _ _ _ _ _ good_Pages eq_refl). Qed.

Lemma good_Page : good_writer every Page_header Page_entries Page_sets [(lit "Parent", lit "parent"); (lit "LastModified", lit "last_modified"); (lit "MediaBox", lit "media_box"); (lit "CropBox", lit "crop_box"); (lit "BleedBox", lit "bleed_box"); (lit "TrimBox", lit "trim_box"); (lit "ArtBox", lit "art_box"); (lit "Resources", lit "resources"); (lit "Contents", lit "contents"); (lit "Rotate", lit "rotate"); (lit "Group", lit "group"); (lit "Thumb", lit "thumbnail"); (lit "Dur", lit "duration"); (lit "Trans", lit "transition"); (lit "Annots", lit "annotations"); (lit "StructParents", lit "struct_parents"); (lit "Tabs", lit "tab_order"); (lit "UserUnit", lit "user_unit"); (lit "AA", lit "additional_actions"); (lit "Metadata", lit "metadata"); (lit "AF", lit "associated_files")].
Proof. good Page_entries. Qed.

Theorem C108_Page : never_twice every Page_sets Page_obj.
Proof. exact (opt_once _ _ _ _ _ good_Page eq_refl). Qed.

Lemma good_Outline : good_writer every Outline_header Outline_entries Outline_sets [(lit "First", lit "first"); (lit "Last", lit "last"); (lit "Count", lit "count")].
Proof. good Outline_entries. Qed.

Theorem C108_Outline : never_twice every Outline_sets Outline_obj.
Proof. exact (opt_once _ _ _ _ _ good_Outline eq_refl). Qed.

Lemma good_OutlineItem : good_writer every OutlineItem_header (fun c => Some (OutlineItem_entries c)) OutlineItem_sets [(lit "Title", lit "title"); (lit "Parent", lit "parent"); (lit "Prev", lit "prev"); (lit "Next", lit "next"); (lit "First", lit "first"); (lit "Last", lit "last"); (lit "Count", lit "count"); (lit "Dest", lit "dest"); (lit "C", lit "color_rgb"); (lit "F", lit "flags")].
Proof. good OutlineItem_entries. Qed.

Theorem C108_OutlineItem : never_twice every OutlineItem_sets (fun cs => Some (OutlineItem_obj cs)).
Proof. exact (total_once _ _ _ _ _ good_OutlineItem eq_refl). Qed.

Lemma good_Catalog : good_writer every Catalog_header Catalog_entries Catalog_sets [(lit "Pages", lit "pages"); (lit "PageLayout", lit "page_layout"); (lit "PageLabels", lit "page_labels"); (lit "PageMode", lit "page_mode"); (lit "ViewerPreferences", lit "viewer_preferences"); (lit "Names", lit "names"); (lit "Dests", lit "destinations"); (lit "Outlines", lit "outlines"); (lit "StructTreeRoot", lit "struct_tree_root"); (lit "MarkInfo", lit "mark_info"); (lit "Lang", lit "lang"); (lit "Version", lit "version"); (lit "AA", lit "additional_actions"); (lit "AcroForm", lit "form"); (lit "Metadata", lit "metadata"); (lit "Extensions", lit "extensions"); (lit "SeparationInfo", lit "separation_info"); (lit "OutputIntents", lit "output_intents"); (lit "AF", lit "associated_files")].
Proof. good Catalog_entries. Qed.

Theorem C108_Catalog : never_twice every Catalog_sets Catalog_obj.
Proof. exact (opt_once _ _ _ _ _ good_Catalog eq_refl). Qed.

Lemma good_DecodeParms : good_writer every DecodeParms_header DecodeParms_entries DecodeParms_sets [(lit "Predictor", lit "predictor"); (lit "Colors", lit "colors"); (lit "BitsPerComponent", lit "bits_per_component"); (lit "Columns", lit "columns"); (lit "EarlyChange", lit "early_change"); (lit "K", lit "k"); (lit "EndOfLine", lit "end_of_line"); (lit "EncodedByteAlign", lit "encoded_byte_align"); (lit "Rows", lit "rows"); (lit "EndOfBlock", lit "end_of_block"); (lit "BlackIs1", lit "black_is_1"); (lit "DamagedRowsBeforeError", lit "damaged_rows_before_error"); (lit "JBIG2Globals", lit "jbig2_globals"); (lit "ColorTransform", lit "color_transform"); (lit "Type", lit "crypt_type"); (lit "Name", lit "name")].
Proof. good DecodeParms_entries. Qed.

Theorem C108_DecodeParms : never_twice every DecodeParms_sets DecodeParms_obj.
Proof. exact (opt_once _ _ _ _ _ good_DecodeParms eq_refl). Qed.

Lemma good_FileSpec : good_writer every FileSpec_header (fun c => Some (FileSpec_entries c)) FileSpec_sets [(lit "FS", lit "file_system"); (lit "F", lit "path"); (lit "UF", lit "unic_file"); (lit "V", lit "volatile"); (lit "Desc", lit "description"); (lit "EF", lit "embedded_file"); (lit "AFRelationship", lit "association_kind")].
Proof. good FileSpec_entries. Qed.

Theorem C108_FileSpec : never_twice every FileSpec_sets (fun cs => Some (FileSpec_obj cs)).
Proof. exact (total_once _ _ _ _ _ good_FileSpec eq_refl). Qed.

Lemma good_EmbeddingParams : good_writer every EmbeddingParams_header (fun c => Some (EmbeddingParams_entries c)) EmbeddingParams_sets [(lit "Size", lit "size"); (lit "CreationDate", lit "creation_date"); (lit "ModDate", lit "modification_date"); (lit "CheckSum", lit "checksum")].
Proof. good EmbeddingParams_entries. Qed.

Theorem C108_EmbeddingParams : never_twice every EmbeddingParams_sets (fun cs => Some (EmbeddingParams_obj cs)).
Proof. exact (total_once _ _ _ _ _ good_EmbeddingParams eq_refl). Qed.

Lemma good_EmbeddedFile : good_writer (fun _ => true) EmbeddedFile_header EmbeddedFile_entries EmbeddedFile_sets [(lit "Subtype", lit "subtype"); (lit "Params", lit "params")].
Proof. good EmbeddedFile_entries. Qed.

Theorem C108_EmbeddedFile : never_twice_in_stream EmbeddedFile_sets EmbeddedFile_dict.
Proof. exact (stream_once _ _ _ _ good_EmbeddedFile eq_refl eq_refl eq_refl). Qed.

Lemma good_Encoding : good_writer every Encoding_header (fun c => Some (Encoding_entries c)) Encoding_sets [(lit "BaseEncoding", lit "base_encoding"); (lit "Differences", lit "differences")].
Proof. good Encoding_entries. Qed.

Theorem C108_Encoding : never_twice every Encoding_sets (fun cs => Some (Encoding_obj cs)).
Proof. exact (total_once _ _ _ _ _ good_Encoding eq_refl). Qed.

Lemma good_Type1Font : good_writer every Type1Font_header (fun c => Some (Type1Font_entries c)) Type1Font_sets [(lit "Name", lit "name"); (lit "BaseFont", lit "base_font"); (lit "FirstChar", lit "first_char"); (lit "LastChar", lit "last_char"); (lit "Widths", lit "widths"); (lit "FontDescriptor", lit "font_descriptor"); (lit "Encoding", lit "encoding"); (lit "ToUnicode", lit "to_unicode")].
Proof. good Type1Font_entries. Qed.

Theorem C108_Type1Font : never_twice every Type1Font_sets (fun cs => Some (Type1Font_obj cs)).
Proof. exact (total_once _ _ _ _ _ good_Type1Font eq_refl). Qed.

Lemma good_Type3Font : good_writer every Type3Font_header (fun c => Some (Type3Font_entries c)) Type3Font_sets [(lit "Name", lit "name"); (lit "FontBBox", lit "bbox"); (lit "FontMatrix", lit "matrix"); (lit "CharProcs", lit "char_procs"); (lit "Encoding", lit "encoding"); (lit "FirstChar", lit "first_char"); (lit "LastChar", lit "last_char"); (lit "Widths", lit "widths"); (lit "FontDescriptor", lit "font_descriptor"); (lit "Resources", lit "resources"); (lit "ToUnicode", lit "to_unicode")].
Proof. good Type3Font_entries. Qed.

Theorem C108_Type3Font : never_twice every Type3Font_sets (fun cs => Some (Type3Font_obj cs)).
Proof. exact (total_once _ _ _ _ _ good_Type3Font eq_refl). Qed.

Lemma good_Type0Font : good_writer every Type0Font_header (fun c => Some (Type0Font_entries c)) Type0Font_sets [(lit "BaseFont", lit "base_font"); (lit "Encoding", lit "encoding"); (lit "DescendantFonts", lit "descendant_font"); (lit "ToUnicode", lit "to_unicode")].
Proof. good Type0Font_entries. Qed.

Theorem C108_Type0Font : never_twice every Type0Font_sets (fun cs => Some (Type0Font_obj cs)).
Proof. exact (total_once _ _ _ _ _ good_Type0Font eq_refl). Qed.

Lemma good_CidFont : good_writer every CidFont_header (fun c => Some (CidFont_entries c)) CidFont_sets [(lit "Subtype", lit "subtype"); (lit "BaseFont", lit "base_font"); (lit "CIDSystemInfo", lit "system_info"); (lit "FontDescriptor", lit "font_descriptor"); (lit "DW", lit "default_width"); (lit "W", lit "widths"); (lit "CIDToGIDMap", lit "cid_to_gid_map")].
Proof. good CidFont_entries. Qed.

Theorem C108_CidFont : never_twice every CidFont_sets (fun cs => Some (CidFont_obj cs)).
Proof. exact (total_once _ _ _ _ _ good_CidFont eq_refl). Qed.

Lemma good_Cmap : good_writer (fun _ => true) Cmap_header Cmap_entries Cmap_sets [(lit "CMapName", lit "name"); (lit "CIDSystemInfo", lit "system_info"); (lit "WMode", lit "writing_mode"); (lit "UseCMap", lit "use_cmap")].
Proof. good Cmap_entries. Qed.

Theorem C108_Cmap : never_twice_in_stream Cmap_sets Cmap_dict.
Proof. exact (stream_once _ _ _ _ good_Cmap eq_refl eq_refl eq_refl). Qed.

Lemma good_SignatureFieldLock : good_writer every SignatureFieldLock_header (fun c => Some (SignatureFieldLock_entries c)) SignatureFieldLock_sets [(lit "Action", lit "action"); (lit "Fields", lit "fields"); (lit "P", lit "access_permissions")].
Proof. good SignatureFieldLock_entries. Qed.

Theorem C108_SignatureFieldLock : never_twice every SignatureFieldLock_sets (fun cs => Some (SignatureFieldLock_obj cs)).
Proof. exact (total_once _ _ _ _ _ good_SignatureFieldLock eq_refl). Qed.

Lemma good_SignatureModificationDetectionPrevention : good_writer every SignatureModificationDetectionPrevention_header (fun c => Some (SignatureModificationDetectionPrevention_entries c)) SignatureModificationDetectionPrevention_sets [(lit "P", lit "signature_type")].
Proof. good SignatureModificationDetectionPrevention_entries. Qed.

Theorem C108_SignatureModificationDetectionPrevention : never_twice every SignatureModificationDetectionPrevention_sets (fun cs => Some (SignatureModificationDetectionPrevention_obj cs)).
Proof. exact (total_once _ _ _ _ _ good_SignatureModificationDetectionPrevention eq_refl). Qed.

Lemma good_SignatureTimeStamp : good_writer every SignatureTimeStamp_header (fun c => Some (SignatureTimeStamp_entries c)) SignatureTimeStamp_sets [(lit "URL", lit "url"); (lit "Ff", lit "required")].
Proof. good SignatureTimeStamp_entries. Qed.

Theorem C108_SignatureTimeStamp : never_twice every SignatureTimeStamp_sets (fun cs => Some (SignatureTimeStamp_obj cs)).
Proof. exact (total_once _ _ _ _ _ good_SignatureTimeStamp eq_refl). Qed.

Lemma good_CertificateSeedValue : good_writer every CertificateSeedValue_header (fun c => Some (CertificateSeedValue_entries c)) CertificateSeedValue_sets [(lit "Ff", lit "constraint_flags"); (lit "Subject", lit "subject"); (lit "SignaturePolicyOID", lit "signature_policy_oid"); (lit "SignaturePolicyHashValue", lit "signature_policy_hash_value"); (lit "SignaturePolicyHashAlgorithm", lit "signature_policy_hash_algorithm"); (lit "SubjectDN", lit "subject_dn"); (lit "KeyUsage", lit "key_usage"); (lit "Issuer", lit "issuer"); (lit "OID", lit "oid"); (lit "URL", lit "url"); (lit "URLType", lit "url_type")].
Proof. good CertificateSeedValue_entries. Qed.

Theorem C108_CertificateSeedValue : never_twice every CertificateSeedValue_sets (fun cs => Some (CertificateSeedValue_obj cs)).
Proof. exact (total_once _ _ _ _ _ good_CertificateSeedValue eq_refl). Qed.

Lemma good_SignatureSeedValue : good_writer every SignatureSeedValue_header (fun c => Some (SignatureSeedValue_entries c)) SignatureSeedValue_sets [(lit "Ff", lit "constraint_flags"); (lit "Filter", lit "filter"); (lit "SubFilter", lit "sub_filter"); (lit "DigestMethod", lit "digest_method"); (lit "V", lit "version"); (lit "Cert", lit "certificate"); (lit "Reasons", lit "reasons"); (lit "MDP", lit "modification_detection_prevention"); (lit "TimeStamp", lit "timestamp"); (lit "LegalAttestation", lit "legal_attestation"); (lit "AddRevInfo", lit "add_rev_info"); (lit "LockDocument", lit "lock_document")].
Proof. good SignatureSeedValue_entries. Qed.

Theorem C108_SignatureSeedValue : never_twice every SignatureSeedValue_sets (fun cs => Some (SignatureSeedValue_obj cs)).
Proof. exact (total_once _ _ _ _ _ good_SignatureSeedValue eq_refl). Qed.

Lemma good_Field : good_writer Field_own Field_header (fun c => Some (Field_entries c)) Field_sets [(lit "FT", lit "field_type"); (lit "Parent", lit "parent"); (lit "Kids", lit "children"); (lit "T", lit "partial_name"); (lit "TU", lit "alternate_name"); (lit "TM", lit "mapping_name"); (lit "Ff", lit "field_flags"); (lit "AA", lit "additional_actions"); (lit "Opt", lit "options"); (lit "V", lit "value"); (lit "DV", lit "default_value"); (lit "MaxLen", lit "text_max_len"); (lit "DA", lit "vartext_default_appearance"); (lit "Q", lit "vartext_quadding"); (lit "DS", lit "vartext_default_style"); (lit "RV", lit "vartext_rich_value"); (lit "TI", lit "choice_top_index"); (lit "I", lit "choice_indices"); (lit "Lock", lit "signature_field_lock"); (lit "SV", lit "signature_seed_value")].
Proof. good Field_entries. Qed.

Theorem C108_Field : never_twice Field_own Field_sets (fun cs => Some (Field_obj cs)).
Proof. exact (total_once _ _ _ _ _ good_Field eq_refl). Qed.

Lemma good_Form : good_writer every Form_header (fun c => Some (Form_entries c)) Form_sets [(lit "Fields", lit "fields"); (lit "SigFlags", lit "sig_flags"); (lit "CO", lit "calculation_order"); (lit "DR", lit "default_resources"); (lit "DA", lit "default_appearance"); (lit "Q", lit "quadding")].
Proof. good Form_entries. Qed.

Theorem C108_Form : never_twice every Form_sets (fun cs => Some (Form_obj cs)).
Proof. exact (total_once _ _ _ _ _ good_Form eq_refl). Qed.

Lemma good_Artifact : good_writer every Artifact_header (fun c => Some (Artifact_entries c)) Artifact_sets [(lit "Type", lit "kind"); (lit "Subtype", lit "subtype"); (lit "BBox", lit "bounding_box"); (lit "Attached", lit "attached")].
Proof. good Artifact_entries. Qed.

Theorem C108_Artifact : never_twice every Artifact_sets (fun cs => Some (Artifact_obj cs)).
Proof. exact (total_once _ _ _ _ _ good_Artifact eq_refl). Qed.

Lemma good_PropertyList : good_writer PropertyList_own PropertyList_header (fun c => Some (PropertyList_entries c)) PropertyList_sets [(lit "MCID", lit "identify"); (lit "ActualText", lit "actual_text")].
Proof. good PropertyList_entries. Qed.

Theorem C108_PropertyList : never_twice PropertyList_own PropertyList_sets (fun cs => Some (PropertyList_obj cs)).
Proof. exact (total_once _ _ _ _ _ good_PropertyList eq_refl). Qed.

Lemma good_Resources : good_writer every Resources_header (fun c => Some (Resources_entries c)) Resources_sets [(lit "XObject", lit "x_objects"); (lit "Font", lit "fonts"); (lit "ColorSpace", lit "color_spaces"); (lit "Pattern", lit "patterns"); (lit "Shading", lit "shadings"); (lit "ExtGState", lit "ext_g_states"); (lit "ProcSet", lit "proc_sets"); (lit "Properties", lit "properties")].
Proof. good Resources_entries. Qed.

Theorem C108_Resources : never_twice every Resources_sets (fun cs => Some (Resources_obj cs)).
Proof. exact (total_once _ _ _ _ _ good_Resources eq_refl). Qed.

Lemma good_SoftMask : good_writer every SoftMask_header (fun c => Some (SoftMask_entries c)) SoftMask_sets [(lit "S", lit "subtype"); (lit "G", lit "group"); (lit "BC", lit "backdrop"); (lit "TR", lit "transfer_function")].
Proof. good SoftMask_entries. Qed.

Theorem C108_SoftMask : never_twice every SoftMask_sets (fun cs => Some (SoftMask_obj cs)).
Proof. exact (total_once _ _ _ _ _ good_SoftMask eq_refl). Qed.

Lemma good_ExtGraphicsState : good_writer every ExtGraphicsState_header (fun c => Some (ExtGraphicsState_entries c)) ExtGraphicsState_sets [(lit "LW", lit "line_width"); (lit "LC", lit "line_cap"); (lit "LJ", lit "line_join"); (lit "ML", lit "miter_limit"); (lit "D", lit "dash_pattern"); (lit "RI", lit "rendering_intent"); (lit "OP", lit "overprint"); (lit "op", lit "overprint_fill"); (lit "OPM", lit "overprint_mode"); (lit "Font", lit "font"); (lit "BG", lit "black_generation"); (lit "BG2", lit "black_generation_default"); (lit "UCR", lit "undercolor_removal"); (lit "UCR2", lit "undercolor_removal_default"); (lit "TR", lit "transfer"); (lit "TR2", lit "transfer_default"); (lit "HT", lit "halftone"); (lit "FL", lit "flatness"); (lit "SM", lit "smoothness"); (lit "SA", lit "stroke_adjustment"); (lit "BM", lit "blend_mode"); (lit "SMask", lit "soft_mask"); (lit "CA", lit "stroking_alpha"); (lit "ca", lit "non_stroking_alpha"); (lit "AIS", lit "alpha_source"); (lit "TK", lit "text_knockout")].
Proof. good ExtGraphicsState_entries. Qed.

Theorem C108_ExtGraphicsState : never_twice every ExtGraphicsState_sets (fun cs => Some (ExtGraphicsState_obj cs)).
Proof. exact (total_once _ _ _ _ _ good_ExtGraphicsState eq_refl). Qed.

Lemma good_TilingPattern : good_writer (fun _ => true) TilingPattern_header TilingPattern_entries TilingPattern_sets [(lit "PaintType", lit "paint_type"); (lit "TilingType", lit "tiling_type"); (lit "BBox", lit "bbox"); (lit "XStep", lit "x_step"); (lit "YStep", lit "y_step"); (lit "Resources", lit "resources"); (lit "Matrix", lit "matrix")].
Proof. good TilingPattern_entries. Qed.

Theorem C108_TilingPattern : never_twice_in_stream TilingPattern_sets TilingPattern_dict.
Proof. exact (stream_once _ _ _ _ good_TilingPattern eq_refl eq_refl eq_refl). Qed.

Lemma good_FunctionShading : good_writer every FunctionShading_header FunctionShading_entries FunctionShading_sets [(lit "ShadingType", lit "shading_type"); (lit "ColorSpace", lit "color_space"); (lit "Background", lit "background"); (lit "BBox", lit "bbox"); (lit "AntiAlias", lit "anti_alias"); (lit "Domain", lit "domain"); (lit "Matrix", lit "matrix"); (lit "Function", lit "function"); (lit "Coords", lit "coords"); (lit "Extend", lit "extend")].
Proof. good FunctionShading_entries. Qed.

Theorem C108_FunctionShading : never_twice every FunctionShading_sets FunctionShading_obj.
Proof. exact (opt_once _ _ _ _ _ good_FunctionShading eq_refl). Qed.

Lemma good_ShadingPattern : good_writer every ShadingPattern_header ShadingPattern_entries ShadingPattern_sets [(lit "Shading", lit "shading"); (lit "Matrix", lit "matrix"); (lit "ExtGState", lit "ext_graphics")].
Proof. good ShadingPattern_entries. Qed.

Theorem C108_ShadingPattern : never_twice every ShadingPattern_sets ShadingPattern_obj.
Proof. exact (opt_once _ _ _ _ _ good_ShadingPattern eq_refl). Qed.

Lemma good_StreamShading : good_writer (fun _ => true) StreamShading_header StreamShading_entries StreamShading_sets [(lit "ShadingType", lit "shading_type"); (lit "ColorSpace", lit "color_space"); (lit "Background", lit "background"); (lit "BBox", lit "bbox"); (lit "AntiAlias", lit "anti_alias"); (lit "Function", lit "function"); (lit "BitsPerCoordinate", lit "bits_per_coordinate"); (lit "BitsPerComponent", lit "bits_per_component"); (lit "BitsPerFlag", lit "bits_per_flag"); (lit "Decode", lit "decode"); (lit "VerticesPerRow", lit "vertices_per_row")].
Proof. good StreamShading_entries. Qed.

Theorem C108_StreamShading : never_twice_in_stream StreamShading_sets StreamShading_dict.
Proof. exact (stream_once _ _ _ _ good_StreamShading eq_refl eq_refl eq_refl). Qed.

Lemma good_SeparationInfo : good_writer (fun _ => true) SeparationInfo_header SeparationInfo_entries SeparationInfo_sets [(lit "Pages", lit "pages"); (lit "DeviceColorant", lit "device_colorant"); (lit "ColorSpace", lit "color_space")].
Proof. good SeparationInfo_entries. Qed.

Theorem C108_SeparationInfo : never_twice_typed SeparationInfo_sets SeparationInfo_obj.
Proof. exact (opt_typed_once _ _ _ _ _ good_SeparationInfo eq_refl eq_refl). Qed.

Lemma good_OutputIntent : good_writer (fun _ => true) OutputIntent_header (fun c => Some (OutputIntent_entries c)) OutputIntent_sets [(lit "S", lit "subtype"); (lit "OutputCondition", lit "output_condition"); (lit "OutputConditionIdentifier", lit "output_condition_identifier"); (lit "RegistryName", lit "registry_name"); (lit "Info", lit "info"); (lit "DestOutputProfile", lit "dest_output_profile")].
Proof. good OutputIntent_entries. Qed.

Theorem C108_OutputIntent : never_twice_typed OutputIntent_sets (fun cs => Some (OutputIntent_obj cs)).
Proof. exact (total_typed_once _ _ _ _ good_OutputIntent eq_refl). Qed.

Lemma good_Group : good_writer every Group_header Group_entries Group_sets [(lit "S", lit "transparency"); (lit "CS", lit "color_space"); (lit "I", lit "isolated"); (lit "K", lit "knockout")].
Proof. good Group_entries. Qed.

Theorem C108_Group : never_twice every Group_sets Group_obj.
Proof. exact (opt_once _ _ _ _ _ good_Group eq_refl). Qed.

Lemma good_Reference : good_writer every Reference_header (fun c => Some (Reference_entries c)) Reference_sets [(lit "F", lit "file_spec"); (lit "Page", lit "page"); (lit "ID", lit "id")].
Proof. good Reference_entries. Qed.

Theorem C108_Reference : never_twice every Reference_sets (fun cs => Some (Reference_obj cs)).
Proof. exact (total_once _ _ _ _ _ good_Reference eq_refl). Qed.

Lemma good_ImageXObject : good_writer (fun _ => true) ImageXObject_header ImageXObject_entries ImageXObject_sets [(lit "Width", lit "width"); (lit "Height", lit "height"); (lit "ColorSpace", lit "color_space"); (lit "BitsPerComponent", lit "bits_per_component"); (lit "Intent", lit "intent"); (lit "ImageMask", lit "image_mask"); (lit "Mask", lit "mask"); (lit "Decode", lit "decode"); (lit "Interpolate", lit "interpolate"); (lit "Alternates", lit "alternates"); (lit "SMask", lit "s_mask"); (lit "SMaskInData", lit "s_mask_in_data"); (lit "StructParent", lit "struct_parent"); (lit "Matte", lit "matte"); (lit "Metadata", lit "metadata"); (lit "AF", lit "associated_files")].
Proof. good ImageXObject_entries. Qed.

Theorem C108_ImageXObject : never_twice_in_stream ImageXObject_sets ImageXObject_dict.
Proof. exact (stream_once _ _ _ _ good_ImageXObject eq_refl eq_refl eq_refl). Qed.

Lemma good_FormXObject : good_writer (fun _ => true) FormXObject_header FormXObject_entries FormXObject_sets [(lit "BBox", lit "bbox"); (lit "Matrix", lit "matrix"); (lit "Resources", lit "resources"); (lit "Group", lit "group"); (lit "StructParent", lit "struct_parent"); (lit "StructParents", lit "struct_parents"); (lit "Ref", lit "reference"); (lit "Metadata", lit "metadata"); (lit "LastModified", lit "last_modified"); (lit "AF", lit "associated_files")].
Proof. good FormXObject_entries. Qed.

Theorem C108_FormXObject : never_twice_in_stream FormXObject_sets FormXObject_dict.
Proof. exact (stream_once _ _ _ _ good_FormXObject eq_refl eq_refl eq_refl). Qed.

Lemma good_SampledFunction : good_writer (fun _ => true) SampledFunction_header SampledFunction_entries SampledFunction_sets [(lit "Size", lit "size"); (lit "BitsPerSample", lit "bits_per_sample"); (lit "Order", lit "order"); (lit "Encode", lit "encode"); (lit "Decode", lit "decode"); (lit "Domain", lit "domain"); (lit "Range", lit "range")].
Proof. good SampledFunction_entries. Qed.

Theorem C108_SampledFunction : never_twice_in_stream SampledFunction_sets SampledFunction_dict.
Proof. exact (stream_once _ _ _ _ good_SampledFunction eq_refl eq_refl eq_refl). Qed.

Lemma good_ExponentialFunction : good_writer every ExponentialFunction_header (fun c => Some (ExponentialFunction_entries c)) ExponentialFunction_sets [(lit "C0", lit "c0"); (lit "C1", lit "c1"); (lit "N", lit "n"); (lit "Domain", lit "domain"); (lit "Range", lit "range")].
Proof. good ExponentialFunction_entries. Qed.

Theorem C108_ExponentialFunction : never_twice every ExponentialFunction_sets (fun cs => Some (ExponentialFunction_obj cs)).
Proof. exact (total_once _ _ _ _ _ good_ExponentialFunction eq_refl). Qed.

Lemma good_StitchingFunction : good_writer every StitchingFunction_header (fun c => Some (StitchingFunction_entries c)) StitchingFunction_sets [(lit "Functions", lit "functions"); (lit "Bounds", lit "bounds"); (lit "Encode", lit "encode"); (lit "Domain", lit "domain"); (lit "Range", lit "range")].
Proof. good StitchingFunction_entries. Qed.

Theorem C108_StitchingFunction : never_twice every StitchingFunction_sets (fun cs => Some (StitchingFunction_obj cs)).
Proof. exact (total_once _ _ _ _ _ good_StitchingFunction eq_refl). Qed.

Lemma good_PostScriptFunction : good_writer (fun _ => true) PostScriptFunction_header PostScriptFunction_entries PostScriptFunction_sets [(lit "Domain", lit "domain"); (lit "Range", lit "range")].
Proof. good PostScriptFunction_entries. Qed.

Theorem C108_PostScriptFunction : never_twice_in_stream PostScriptFunction_sets PostScriptFunction_dict.
Proof. exact (stream_once _ _ _ _ good_PostScriptFunction eq_refl eq_refl eq_refl). Qed.

(** ** Maps whose keys are arguments *)
Section Named.
  Context {C : Type} (f : C -> list (bytes * obj)) (sets : C -> list bytes) (N : forall c, map fst (f c) = sets c).
  Lemma named_keys l : map fst (flat_map (raw_entries f) (map Typed l)) = flat_map sets l.
  Proof using N. induction l as [|c l IH]; [reflexivity|]. cbn [map flat_map raw_entries]. rewrite map_app, N, IH. reflexivity. Qed.
  Lemma named_all cs : Permutation (map fst (flat_map (raw_entries f) cs)) (flat_map sets (typed_calls cs) ++ raw_keys cs).
  Proof using N.
    induction cs as [|[c|k o] cs IH]; [constructor| |]; unfold typed_calls, raw_keys in *; cbn [flat_map app raw_entries map fst].
    - rewrite map_app, N, <- app_assoc. apply Permutation_app_head, IH.
    - rewrite IH. apply Permutation_middle.
  Qed.
  Lemma named_once : never_twice every sets (fun cs => Some (dict_writer [] f cs)).
  Proof using N.
    split.
    - intros cs typed o _ Nd Ty Nr D E. apply some_inj in Ty. apply some_inj in E. subst typed o. unfold dict_writer in *. cbn [app keys] in *.
      rewrite named_keys in D. eexists. split; [reflexivity|]. eapply Permutation_NoDup; [apply Permutation_sym, named_all|].
      apply nodup_join; [exact Nd|exact Nr|]. intros k I J. exact (D k J I).
    - intros cs es _ E Nd. apply some_inj in E. unfold dict_writer in E. injection E as <-. cbn [app] in Nd. rewrite named_keys in Nd. exact Nd.
  Qed.
  Lemma named_typed_once : never_twice_typed sets (fun cs => Some (dict_writer [] f (map Typed cs))).
  Proof using N.
    split.
    - intros cs o Nd E. apply some_inj in E. subst o. unfold dict_writer. cbn [app]. eexists. split; [reflexivity|]. rewrite named_keys. exact Nd.
    - intros cs es E Nd. apply some_inj in E. unfold dict_writer in E. injection E as <-. cbn [app] in Nd. rewrite named_keys in Nd. exact Nd.
  Qed.
End Named.

Theorem C108_RoleMap : never_twice_typed RoleMap_sets (fun cs => Some (RoleMap_obj cs)).
Proof. refine (named_typed_once RoleMap_entries RoleMap_sets _). intros []; reflexivity. Qed.

Theorem C108_ClassMap : never_twice every ClassMap_sets (fun cs => Some (ClassMap_obj cs)).
Proof. refine (named_once ClassMap_entries ClassMap_sets _). intros []; reflexivity. Qed.

Theorem C108_NamespaceRoleMap : never_twice every NamespaceRoleMap_sets (fun cs => Some (NamespaceRoleMap_obj cs)).
Proof. refine (named_once NamespaceRoleMap_entries NamespaceRoleMap_sets _). intros []; reflexivity. Qed.

(** ** What is read

    A reader that reads the values written sees the keys of the dictionary, in their order: it meets no key twice, either. *)
Theorem C108_read : forall es v, SpecMeans.means (ODict es) v -> NoDup (map fst es) ->
  exists vs, v = SpecObj.VDict vs /\ NoDup (map fst vs).
Proof.
  intros es v M N. inversion M as [| | | | | | | | | | | |l vs F]; subst. exists vs. split; [reflexivity|].
  replace (map fst vs) with (map fst es); [exact N|]. clear M N. induction F as [|e e' l l' [E _] _ IH]; [reflexivity|]. cbn [map]. rewrite E, IH. reflexivity.
Qed.

Lemma collide l : nodupb l = false -> ~ NoDup l.
Proof.
  induction l as [|k l IH]; intros E N; [discriminate|]. apply NoDup_cons_iff in N as [X N]. cbn [nodupb] in E. apply andb_false_iff in E as [E|E]; [|exact (IH E N)].
  apply X, memb_in. destruct (memb k l); [reflexivity|discriminate].
Qed.

(** ** Where the claim fails

    With the names of the methods instead of the names of [SpecOnce], the claim is false: two methods that set different things write one key.
    (So do [annot_page_close] and [annot_page_visible], [page_close] and [form_calculate].) *)
Theorem C108_SignatureSeedValue_refuted : forall intent appearance,
  exists es, SignatureSeedValue_obj [Typed (SignatureSeedValue_lock_document intent); Typed (SignatureSeedValue_appearance_filter appearance)] = ODict es /\
  ~ NoDup (map fst es).
Proof.
  intros i a. eexists. split; [reflexivity|]. apply collide. reflexivity.
Qed.
Theorem C108_CertificateSeedValue_refuted : forall algorithm types,
  exists es, CertificateSeedValue_obj [Typed (CertificateSeedValue_signature_policy_hash_algorithm algorithm);
    Typed (CertificateSeedValue_signature_policy_commitment_type types)] = ODict es /\
  ~ NoDup (map fst es).
Proof.
  intros i a. eexists. split; [reflexivity|]. apply collide. reflexivity.
Qed.
Theorem C108_AdditionalActions_refuted : forall a b,
  (exists es, AdditionalActions_obj [Typed (AdditionalActions_annot_page_close a); Typed (AdditionalActions_annot_page_visible b)] = ODict es /\ ~ NoDup (map fst es)) /\
  (exists es, AdditionalActions_obj [Typed (AdditionalActions_page_close a); Typed (AdditionalActions_form_calculate b)] = ODict es /\ ~ NoDup (map fst es)).
Proof.
  intros a b. split; (eexists; split; [reflexivity|]; apply collide; reflexivity).
Qed.
(** The same with untyped entries: the hypothesis on their keys is needed. *)
Theorem C108_raw_refuted : forall parent o,
  exists es, Page_obj [Typed (Page_parent parent); Raw (lit "Parent") o] = Some (ODict es) /\ ~ NoDup (map fst es).
Proof.
  intros p o. eexists. split; [reflexivity|]. apply collide. reflexivity.
Qed.

(** ** A case *)
Definition page_calls : list (or_raw Page_call) :=
  [Typed (Page_parent 2); Raw (lit "Custom") (OPrim (PInt 7)); Typed (Page_contents_array [5; 6]); Typed (Page_rotate 90)].
Example C108_case :
  forallb every (typed_calls page_calls) = true /\ NoDup (flat_map Page_sets (typed_calls page_calls)) /\ NoDup (raw_keys page_calls) /\
  exists typed es, Page_obj (map Typed (typed_calls page_calls)) = Some typed /\ (forall k, In k (raw_keys page_calls) -> ~ In k (keys typed)) /\
  Page_obj page_calls = Some (ODict es) /\ map fst es = [lit "Type"; lit "Parent"; lit "Custom"; lit "Contents"; lit "Rotate"] /\ NoDup (map fst es).
Proof.
  split; [reflexivity|]. split; [apply nodupb_ok; reflexivity|]. split; [apply nodupb_ok; reflexivity|].
  eexists. eexists. split; [reflexivity|]. split.
  - intros k [<-|[]] I. apply memb_in in I. discriminate I.
  - split; [reflexivity|]. split; [reflexivity|]. apply nodupb_ok. reflexivity.
Qed.
(** ... and one with a stream: an image with a filter and an entry of the caller. *)
Example C108_stream_case : exists es,
  ImageXObject_dict [STyped (ImageXObject_width 8); SStream (Stream_filter FlateDecode); SRaw (lit "Custom") (OPrim PNull); STyped (ImageXObject_height 8)] = Some es /\
  NoDup (lit "Length" :: map fst es).
Proof. eexists. split; [reflexivity|]. apply nodupb_ok. reflexivity. Qed.

Print Assumptions C108_MediaPermissions.
Print Assumptions C108_MediaPlayParams.
Print Assumptions C108_MediaClip.
Print Assumptions C108_Rendition.
Print Assumptions C108_Action.
Print Assumptions C108_AdditionalActions.
Print Assumptions C108_Appearance.
Print Assumptions C108_IconFit.
Print Assumptions C108_AppearanceCharacteristics.
Print Assumptions C108_BorderStyle.
Print Assumptions C108_Annotation.
Print Assumptions C108_UserProperty.
Print Assumptions C108_LayoutAttributes.
Print Assumptions C108_ListAttributes.
Print Assumptions C108_FieldAttributes.
Print Assumptions C108_TableAttributes.
Print Assumptions C108_ArtifactAttributes.
Print Assumptions C108_FENoteAttributes.
Print Assumptions C108_MarkedRef.
Print Assumptions C108_ObjectRef.
Print Assumptions C108_StructElement.
Print Assumptions C108_Namespace.
Print Assumptions C108_StructTreeRoot.
Print Assumptions C108_MarkInfo.
Print Assumptions C108_DeveloperExtension.
Print Assumptions C108_ViewerPreferences.
Print Assumptions C108_PageLabel.
Print Assumptions C108_DocumentInfo.
Print Assumptions C108_Transition.
Print Assumptions C108_Names.
Print Assumptions C108_Pages.
Print Assumptions C108_Page.
Print Assumptions C108_Outline.
Print Assumptions C108_OutlineItem.
Print Assumptions C108_Catalog.
Print Assumptions C108_DecodeParms.
Print Assumptions C108_FileSpec.
Print Assumptions C108_EmbeddingParams.
Print Assumptions C108_EmbeddedFile.
Print Assumptions C108_Encoding.
Print Assumptions C108_Type1Font.
Print Assumptions C108_Type3Font.
Print Assumptions C108_Type0Font.
Print Assumptions C108_CidFont.
Print Assumptions C108_Cmap.
Print Assumptions C108_SignatureFieldLock.
Print Assumptions C108_SignatureModificationDetectionPrevention.
Print Assumptions C108_SignatureTimeStamp.
Print Assumptions C108_CertificateSeedValue.
Print Assumptions C108_SignatureSeedValue.
Print Assumptions C108_Field.
Print Assumptions C108_Form.
Print Assumptions C108_Artifact.
Print Assumptions C108_PropertyList.
Print Assumptions C108_Resources.
Print Assumptions C108_SoftMask.
Print Assumptions C108_ExtGraphicsState.
Print Assumptions C108_TilingPattern.
Print Assumptions C108_FunctionShading.
Print Assumptions C108_ShadingPattern.
Print Assumptions C108_StreamShading.
Print Assumptions C108_SeparationInfo.
Print Assumptions C108_OutputIntent.
Print Assumptions C108_Group.
Print Assumptions C108_Reference.
Print Assumptions C108_ImageXObject.
Print Assumptions C108_FormXObject.
Print Assumptions C108_SampledFunction.
Print Assumptions C108_ExponentialFunction.
Print Assumptions C108_StitchingFunction.
Print Assumptions C108_PostScriptFunction.
Print Assumptions C108_read.
Print Assumptions C108_SignatureSeedValue_refuted.
Print Assumptions C108_CertificateSeedValue_refuted.
Print Assumptions C108_AdditionalActions_refuted.
Print Assumptions C108_raw_refuted.
Print Assumptions C108_RoleMap.
Print Assumptions C108_ClassMap.
Print Assumptions C108_NamespaceRoleMap.
