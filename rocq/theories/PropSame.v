(** C98: a file depends only on what is asked for, and it determines what was asked for. *)

From Coq Require Import ZArith List Lia Bool Permutation ZifyBool.
From Verif Require Import Bytes ModelFloat ModelBuf ModelObject ModelRenumber ModelChunk ModelPdf SpecLex SpecObj SpecMeans
  SpecRenum SpecChunk SpecFile SpecPdf SpecSame ProofBasic ProofObj ProofParse ProofTree ProofRenum ProofXref ProofRenumTree ProofChunk
  ProofChunkParse ProofChunk2 ProofFile ProofFile2 ProofPdf ProofFile3 ProofFile4 PropChunk PropRenum PropPdf PropPdf2 ProofSame.
Import ListNotations.
Local Open Scope Z_scope.

(** ** Same document, same file *)

(** Two call sequences that ask for the same objects, header and trailer panic for the same reason or not at
    all, and every way of finishing gives the same bytes (or panics) for both. *)
Theorem C98_same_file : forall pretty a b,
  ops_typed a -> ops_typed b -> ops_uniform pretty a -> ops_uniform pretty b -> same_document a b ->
  match pdf_run a (pdf_with_settings pretty), pdf_run b (pdf_with_settings pretty) with
  | Some p, Some q =>
      finish p = finish q /\
      (forall id, finish_with_xref_stream p id = finish_with_xref_stream q id) /\
      (forall id flt, finish_with_xref_stream_and_filter p id flt = finish_with_xref_stream_and_filter q id flt)
  | None, None => True
  | _, _ => False
  end.
Proof.
  intros pretty a b Ta Tb Ua Ub Sd.
  pose proof (run_spec pretty a Ta) as A. pose proof (run_spec pretty b Tb) as B. rewrite <- (sd_items _ _ Sd) in B.
  destruct (items_fit (pdf_items a)); [|rewrite A, B; exact Logic.I].
  destruct A as (p & _ & Ra & _). destruct B as (q & _ & Rb & _). rewrite Ra, Rb.
  destruct (same_state pretty a b p q Ta Tb Ua Ub Sd Ra Rb) as (E1 & E2 & E3 & E4 & E5 & E6).
  destruct (finish_ext p q E1 E2 E3 E4 E5 E6) as [F G]. split; [exact F|].
  unfold finish_with_xref_stream, finish_with_xref_stream_and_filter. split; intros; apply G.
Qed.

(** Secondary chunks leave no trace: writing their objects directly, with the ids they end up with, gives the
    same file. *)
Theorem C98_without_chunks : forall pretty ops,
  ops_typed ops -> ops_uniform pretty ops ->
  match pdf_run ops (pdf_with_settings pretty), pdf_run (without_chunks ops) (pdf_with_settings pretty) with
  | Some p, Some q =>
      finish p = finish q /\
      (forall id, finish_with_xref_stream p id = finish_with_xref_stream q id) /\
      (forall id flt, finish_with_xref_stream_and_filter p id flt = finish_with_xref_stream_and_filter q id flt)
  | None, None => True
  | _, _ => False
  end.
Proof.
  intros pretty ops Ht Hu.
  exact (C98_same_file pretty _ _ Ht (without_typed _ Ht) Hu (without_uniform _ _) (without_same _)).
Qed.

(** ** Same file, same document *)

Lemma start_body ha hb ba bb sa sb (fa fb : bytes) : fa = ha ++ ba ++ sa -> fb = hb ++ bb ++ sb -> fa = fb -> blen ha = 16 -> blen hb = 16 ->
  startxref fa = Some (16 + blen ba) -> startxref fb = Some (16 + blen bb) -> ha = hb /\ ba = bb /\ sa = sb.
Proof.
  intros Ea Eb E La Lb Sa Sb. rewrite E, Sb in Sa. apply some_inj in Sa. rewrite Ea, Eb in E.
  assert (Lc : blen ba = blen bb) by lia.
  assert (Ll : length ha = length hb) by (apply Nat2Z.inj; change (blen ha = blen hb); congruence).
  assert (H : forall (x y x' y' : bytes), x ++ y = x' ++ y' -> length x = length x' -> x = x' /\ y = y').
  { induction x as [|c x IH]; intros y x' y' X L; destruct x' as [|c' x']; try discriminate L; [split; [reflexivity|exact X]|].
    cbn [app] in X. injection X as -> X. destruct (IH y x' y' X) as [-> ->]; [cbn [length] in L; lia|]. split; reflexivity. }
  destruct (H _ _ _ _ E Ll) as [-> E']. destruct (H _ _ _ _ E') as [-> ->]; [apply Nat2Z.inj; exact Lc|]. repeat split.
Qed.

Lemma trailer_calls_eq a b : (forall k, In k [lit "Root"; lit "Info"; lit "ID"] -> trailer_value a k = trailer_value b k) ->
  catalog_of a = catalog_of b /\ info_of a = info_of b /\ file_id_of a = file_id_of b.
Proof.
  intro H. pose proof (H (lit "Root") ltac:(left; reflexivity)) as C. pose proof (H (lit "Info") ltac:(right; left; reflexivity)) as I.
  pose proof (H (lit "ID") ltac:(right; right; left; reflexivity)) as F. unfold trailer_value in C, I, F.
  cbv [bytes_eqb] in C, I, F. cbn in C, I, F.
  destruct (catalog_of a), (catalog_of b), (info_of a), (info_of b), (file_id_of a) as [[? ?]|], (file_id_of b) as [[? ?]|];
    cbn [option_map fst snd] in *; try discriminate C; try discriminate I; try discriminate F;
    repeat split; try reflexivity; congruence.
Qed.

(** If two documents finish to the same bytes, they have the same header, the same object numbers and the same
    trailer, and, object by object in the order of writing, a common reading. *)
Theorem C98_file_determines_document : forall pretty pretty' a b p q file,
  ops_typed a -> ops_typed b ->
  pdf_run a (pdf_with_settings pretty) = Some p -> pdf_run b (pdf_with_settings pretty') = Some q ->
  finish p = Some file -> finish q = Some file ->
  ids_below (pdf_ids a) -> ids_below (pdf_ids b) -> blen file <= 10 ^ 10 ->
  header_of a = header_of b /\
  (catalog_of a = catalog_of b /\ info_of a = info_of b /\ file_id_of a = file_id_of b) /\
  (forall id, In id (pdf_ids a) <-> In id (pdf_ids b)) /\
  ((forall it, In it (pdf_items a ++ pdf_items b) -> body_readable (snd it) = true) ->
   Forall2 agree (pdf_items a) (pdf_items b)).
Proof.
  intros pretty pretty' a b p q file Ta Tb Ra Rb Fa Fb Ia Ib L.
  destruct (C29_finish no_filter pretty a p file Ta Ra Fa Ia L) as (ba & sa & ea & ta & Na & Xa & Sa & _ & _ & _ & Rda & Sza & Tra).
  destruct (C29_finish no_filter pretty' b q file Tb Rb Fb Ib L) as (bb & sb & eb & tb & Nb & Xb & Sb & _ & _ & _ & Rdb & Szb & Trb).
  destruct (start_body _ _ _ _ _ _ file file Xa Xb eq_refl (header_of_length a) (header_of_length b) Sa Sb) as (Eh & Ebody & _).
  split; [exact Eh|]. rewrite Rda in Rdb. injection Rdb as <- <-. split.
  { apply trailer_calls_eq. intros k Hk. rewrite <- Tra, <- Trb; [reflexivity| |]; intro X; subst k;
      destruct Hk as [Hk|[Hk|[Hk|[]]]]; discriminate Hk. }
  split.
  { destruct (C23_table_entries no_filter pretty a p file Ta Ra Fa Ia L) as (e1 & t1 & R1 & M1 & U1 & V1).
    destruct (C23_table_entries no_filter pretty' b q file Tb Rb Fb Ib L) as (e2 & t2 & R2 & M2 & U2 & V2).
    rewrite R1 in R2. injection R2 as <- <-.
    assert (Z1 : zmax (pdf_ids a) = zmax (pdf_ids b)) by (rewrite Sza in Szb; apply some_inj in Szb; assert (VI : forall m n, VInt m = VInt n -> m = n) by congruence; apply VI in Szb; lia).
    assert (In1 : forall ids id, Forall (fun i => 0 < i) ids -> In id ids -> 0 <= id <= zmax ids).
    { intros ids id P H. split; [rewrite Forall_forall in P; specialize (P _ H); lia|]. apply zmax_ge. exact H. }
    intro id. split; intro H.
    - destruct (in_dec Z.eq_dec id (pdf_ids b)) as [X|X]; [exact X|exfalso]. destruct (U1 id H) as (off & U & _).
      destruct (V2 id) as (n & g & V); [rewrite <- Z1; apply In1; [apply (reach_pos a Ta)|exact H]|exact X|congruence].
    - destruct (in_dec Z.eq_dec id (pdf_ids a)) as [X|X]; [exact X|exfalso]. destruct (U2 id H) as (off & U & _).
      destruct (V1 id) as (n & g & V); [rewrite Z1; apply In1; [apply (reach_pos b Tb)|exact H]|exact X|congruence]. }
  intro Hr. exact (same_body pretty pretty' a b p q ba bb Ta Tb Ra Rb Na Nb Ebody Hr).
Qed.

(** The same for cross-reference streams; the id of the stream is determined, too. *)
Theorem C98_stream_file_determines_document : forall decode pretty pretty' a b p q x y file,
  ops_typed a -> ops_typed b ->
  pdf_run a (pdf_with_settings pretty) = Some p -> pdf_run b (pdf_with_settings pretty') = Some q ->
  id_ok x = true -> id_ok y = true -> ids_below (x :: pdf_ids a) -> ids_below (y :: pdf_ids b) ->
  finished_with_stream decode p x file -> finished_with_stream decode q y file -> blen file < 2 ^ 64 ->
  header_of a = header_of b /\ x = y /\
  (catalog_of a = catalog_of b /\ info_of a = info_of b /\ file_id_of a = file_id_of b) /\
  (forall id, In id (x :: pdf_ids a) <-> In id (y :: pdf_ids b)) /\
  ((forall it, In it (pdf_items a ++ pdf_items b) -> body_readable (snd it) = true) ->
   Forall2 agree (pdf_items a) (pdf_items b)).
Proof.
  intros decode pretty pretty' a b p q x y file Ta Tb Ra Rb Ox Oy Ia Ib Fa Fb L.
  destruct (C29_stream decode pretty a p x file Ta Ra Ox Ia Fa L) as (ba & sa & ea & ta & Na & Xa & Sa & Oa & _ & Rda & _ & Sza & Tra).
  destruct (C29_stream decode pretty' b q y file Tb Rb Oy Ib Fb L) as (bb & sb & eb & tb & Nb & Xb & Sb & Ob & _ & Rdb & _ & Szb & Trb).
  destruct (start_body _ _ _ _ _ _ file file Xa Xb eq_refl (header_of_length a) (header_of_length b) Sa Sb) as (Eh & Ebody & _).
  split; [exact Eh|]. split.
  { destruct Oa as (_ & r1 & _ & _ & N1 & _). destruct Ob as (_ & r1' & _ & _ & N2 & _). rewrite Ebody, N2 in N1. congruence. }
  rewrite Rda in Rdb. injection Rdb as <- <-. split.
  { apply trailer_calls_eq. intros k Hk. rewrite <- Tra, <- Trb; [reflexivity| | | |];
      try (intro X; subst k; destruct Hk as [Hk|[Hk|[Hk|[]]]]; discriminate Hk);
      (intro X; destruct Hk as [Hk|[Hk|[Hk|[]]]]; subst k; destruct X as [X|[X|[X|[X|[]]]]]; discriminate X). }
  split.
  { destruct (C27_stream_entries decode pretty a p x file Ta Ra Ox Ia Fa L) as (e1 & t1 & R1 & M1 & U1 & V1).
    destruct (C27_stream_entries decode pretty' b q y file Tb Rb Oy Ib Fb L) as (e2 & t2 & R2 & M2 & U2 & V2).
    rewrite R1 in R2. injection R2 as <- <-.
    assert (Z1 : zmax (x :: pdf_ids a) = zmax (y :: pdf_ids b)) by (rewrite Sza in Szb; apply some_inj in Szb; assert (VI : forall m n, VInt m = VInt n -> m = n) by congruence; apply VI in Szb; lia).
    assert (In1 : forall ids id, Forall (fun i => 0 < i) ids -> In id ids -> 0 <= id <= zmax ids).
    { intros ids id P H. split; [rewrite Forall_forall in P; specialize (P _ H); lia|]. apply zmax_ge. exact H. }
    assert (Px : Forall (fun i => 0 < i) (x :: pdf_ids a)).
    { constructor; [unfold id_ok in Ox; lia|apply (reach_pos a Ta)]. }
    assert (Py : Forall (fun i => 0 < i) (y :: pdf_ids b)).
    { constructor; [unfold id_ok in Oy; lia|apply (reach_pos b Tb)]. }
    intro id. split; intro H.
    - destruct (in_dec Z.eq_dec id (y :: pdf_ids b)) as [X|X]; [exact X|exfalso]. destruct (U1 id H) as (off & U & _).
      destruct (V2 id) as (n & g & V); [rewrite <- Z1; apply In1; [exact Px|exact H]|exact X|congruence].
    - destruct (in_dec Z.eq_dec id (x :: pdf_ids a)) as [X|X]; [exact X|exfalso]. destruct (U2 id H) as (off & U & _).
      destruct (V1 id) as (n & g & V); [rewrite Z1; apply In1; [exact Py|exact H]|exact X|congruence]. }
  intro Hr. exact (same_body pretty pretty' a b p q ba bb Ta Tb Ra Rb Na Nb Ebody Hr).
Qed.

(** A file with a table is never one with a cross-reference stream. *)
Theorem C98_table_or_stream : forall decode pretty pretty' a b p q x file,
  ops_typed a -> ops_typed b ->
  pdf_run a (pdf_with_settings pretty) = Some p -> pdf_run b (pdf_with_settings pretty') = Some q ->
  id_ok x = true -> ids_below (pdf_ids a) -> ids_below (x :: pdf_ids b) -> blen file <= 10 ^ 10 ->
  finish p = Some file -> ~ finished_with_stream decode q x file.
Proof.
  intros decode pretty pretty' a b p q x file Ta Tb Ra Rb Ox Ia Ib L Fa Fb.
  destruct (C29_finish no_filter pretty a p file Ta Ra Fa Ia L) as (ba & sa & ea & ta & Na & Xa & Sa & _ & (r & Er) & _).
  assert (L' : blen file < 2 ^ 64) by (assert (10 ^ 10 < 2 ^ 64) by reflexivity; lia).
  destruct (C29_stream decode pretty' b q x file Tb Rb Ox Ib Fb L') as (bb & sb & eb & tb & Nb & Xb & Sb & ((d & r' & Fr & D) & _) & _).
  destruct (start_body _ _ _ _ _ _ file file Xa Xb eq_refl (header_of_length a) (header_of_length b) Sa Sb) as (Eh & Ebody & _).
  assert (Fx : from file (16 + blen bb) = sa).
  { rewrite Xa, Ebody, app_assoc. rewrite <- (header_of_length a), <- blen_app. apply from_app. }
  rewrite Fx, Er in Fr. injection Fr as <- _. discriminate D.
Qed.

(** ** Layout and cross-references *)

(** The value found under the id of an object is a function of the object. *)
Lemma value_found decode ops file own : file_of decode ops file own ->
  (forall it, In it (pdf_items ops) -> body_readable (snd it) = true -> resolve decode file (fst it) = Some (item_val it)) /\
  (forall id, ~ In id own -> ~ In id (pdf_ids ops) -> resolve decode file id = None) /\
  (exists rest, file = header_of ops ++ rest) /\
  exists entries trailer, read_file decode file = Some (entries, trailer) /\
    forall k, k <> lit "Size" -> ~ In k stream_keys -> lookup k trailer = trailer_value ops k.
Proof.
  intros [pretty p HT HR HF HB HL|pretty p xid HT HR HX HB HF HL].
  - split; [|split; [|split]].
    + pose proof (reach_small _ _ _ HT HR HB) as SM. pose proof (reach_ids _ _ _ HT HR) as RI.
      assert (HL' : blen (pdf_bytes p) <= 10 ^ 10).
      { rewrite finish_form in HF. destruct (write_offsets _); [|discriminate]. cbn [option_map] in HF. apply some_inj in HF.
        rewrite <- HF in HL. eapply Z.le_trans; [apply blen_prefix|exact HL]. }
      destruct (plain_read decode p file HF SM (reach_trailer _ _ _ HT HR) (reach_offsets _ _ _ HT HR) HL')
        as (es & tail & ND & EL & EF & EB & _ & RD & _). cbn zeta in *.
      intros it Hit Hr. destruct (reach_item _ _ _ HT HR it Hit) as (pre & st & nl & post & E & Ho).
      unfold resolve. rewrite RD. rewrite (used_entry _ _ es ND SM eq_refl EL EF conv _ _ Ho). cbn [conv].
      destruct (reach _ _ _ HT HR) as (k & _ & _ & Fit).
      match type of EB with _ = _ ++ ?t => set (tl := t) in EB end. clearbody tl. rewrite EB, E, <- !app_assoc.
      match goal with |- context [pre ++ item_bytes st nl it ++ ?t] => destruct (parse_at pre st nl it t Hr (items_fit_in _ _ Fit Hit)) as (r & ->) end.
      rewrite item_val_id. cbn [fst snd]. rewrite !Z.eqb_refl. reflexivity.
    + intros id _ Hid. exact (proj2 (C23_every_object_is_found decode pretty ops p file HT HR HF HB HL) id Hid).
    + destruct (C29_finish decode pretty ops p file HT HR HF HB HL) as (body & section & _ & _ & _ & E & _). exists (body ++ section). exact E.
    + destruct (C29_finish decode pretty ops p file HT HR HF HB HL) as (body & section & es & tr & _ & _ & _ & _ & _ & _ & E & _ & T).
      exists es, tr. split; [exact E|]. intros k Hk _. apply T. exact Hk.
  - split; [|split; [|split]].
    + destruct (st_data decode pretty ops p xid file HT HR HX HB HF HL) as (es & flt & data & ND & EN & EL & EF & EB & DL & RD & SX & W1 & W2).
      pose proof (st_small pretty ops p xid HT HR HX HB) as SM.
      intros it Hit Hr. destruct (reach_item _ _ _ HT HR it Hit) as (pre & st & nl & post & E & Ho).
      unfold resolve. rewrite RD.
      rewrite (used_entry _ _ es ND SM (eq_sym EN) EL EF _ (fst it) (blen pre)) by (unfold with_xref; apply in_or_app; left; exact Ho).
      rewrite used_narrow; [| |lia].
      2:{ split; [apply blen_nonneg|]. eapply Z.le_lt_trans; [|exact W2]. rewrite E. apply blen_prefix. }
      destruct (reach _ _ _ HT HR) as (k & _ & _ & Fit).
      match type of EB with _ = _ ++ ?t => set (tl := t) in EB end. clearbody tl. rewrite EB, E, <- !app_assoc.
      match goal with |- context [pre ++ item_bytes st nl it ++ ?t] => destruct (parse_at pre st nl it t Hr (items_fit_in _ _ Fit Hit)) as (r & ->) end.
      rewrite item_val_id. cbn [fst snd]. rewrite !Z.eqb_refl. reflexivity.
    + intros id Hx Hid. apply (proj2 (C27_every_object_is_found decode pretty ops p xid file HT HR HX HB HF HL) id); [|exact Hid].
      intro X. apply Hx. left. congruence.
    + destruct (C29_stream decode pretty ops p xid file HT HR HX HB HF HL) as (body & section & _ & _ & _ & E & _). exists (body ++ section). exact E.
    + destruct (C29_stream decode pretty ops p xid file HT HR HX HB HF HL) as (body & section & es & tr & _ & _ & _ & _ & _ & E & _ & _ & T).
      exists es, tr. split; [exact E|exact T].
Qed.

(** What a reader finds does not depend on the layout of any chunk, on how the document was put together, or on the
    kind of cross-references: the header is the same, every readable object has the same value under its id in both
    files, nothing else is found, and the trailers say the same. *)
Theorem C98_any_layout : forall decode decode' a b fa fb own own',
  file_of decode a fa own -> file_of decode' b fb own' -> same_document a b ->
  firstn 16 fa = firstn 16 fb /\
  (forall it, In it (pdf_items a) -> body_readable (snd it) = true ->
     exists i, resolve decode fa (fst it) = Some i /\ resolve decode' fb (fst it) = Some i /\ item_means it i) /\
  (forall id, ~ In id (own ++ own') -> ~ In id (pdf_ids a) -> resolve decode fa id = None /\ resolve decode' fb id = None) /\
  exists ea ta eb tb, read_file decode fa = Some (ea, ta) /\ read_file decode' fb = Some (eb, tb) /\
    forall k, k <> lit "Size" -> ~ In k stream_keys -> lookup k ta = lookup k tb.
Proof.
  intros decode decode' a b fa fb own own' Fa Fb Sd.
  destruct (value_found decode a fa own Fa) as (V1 & N1 & (r1 & H1) & ea & ta & R1 & T1).
  destruct (value_found decode' b fb own' Fb) as (V2 & N2 & (r2 & H2) & eb & tb & R2 & T2).
  split.
  { assert (Hd : forall ops r, firstn 16 (header_of ops ++ r) = header_of ops).
    { intros ops r. rewrite header_of_form. unfold header. destruct (marker_of ops) as [[[x y] z] w]. reflexivity. }
    rewrite H1, H2, !Hd. apply same_header. exact Sd. }
  split.
  { intros it Hit Hr. exists (item_val it). split; [apply V1; assumption|]. split; [|apply item_val_means; exact Hr].
    apply V2; [rewrite <- (sd_items _ _ Sd); exact Hit|exact Hr]. }
  split.
  { intros id Ho Hid. split; [apply N1; [intro X; apply Ho, in_or_app; left; exact X|exact Hid]|].
    apply N2; [intro X; apply Ho, in_or_app; right; exact X|]. unfold pdf_ids in *. rewrite <- (sd_items _ _ Sd). exact Hid. }
  exists ea, ta, eb, tb. split; [exact R1|]. split; [exact R2|]. intros k K1 K2. rewrite T1, T2 by assumption.
  unfold trailer_value. rewrite (sd_catalog _ _ Sd), (sd_info _ _ Sd), (sd_file_id _ _ Sd). reflexivity.
Qed.

(** ** Cases *)

(** A document put together with a renumbered chunk, an extension, merged limits and repeated trailer calls. *)
Definition same_a : list pdf_op :=
  [PdfVersion 1 4; PdfFileId (lit "x", lit "y");
   PdfRenumber (HObject (HObject (HNew false) 4 (OArray [OPrim (PRef 5)])) 5 (OPrim (PStr (lit "4 0 R")))) unit
     (fun t id => (1 + (id + 9) mod 1000, t)) tt;
   PdfMerge limits0;
   PdfExtend (HStream (HNew false) 2 [(lit "N", OPrim (PRef 14))] (lit "data"));
   PdfCatalog 1 []; PdfVersion 12 6; PdfFileId (lit "a", lit "b")].

Definition same_b : list pdf_op :=
  [PdfFileId (lit "a", lit "b"); PdfObject 14 (OArray [OPrim (PRef 15)]); PdfObject 15 (OPrim (PStr (lit "4 0 R")));
   PdfExtend (HStream (HNew false) 2 [(lit "N", OPrim (PRef 14))] (lit "data")); PdfVersion 1 6; PdfCatalog 1 []].

Lemma plus_ten_ok id : id_ok (1 + id mod 1000) = true.
Proof. unfold id_ok, i32_max. pose proof (Z.mod_pos_bound id 1000). lia. Qed.

Example C98_case :
  ops_typed same_a /\ ops_typed same_b /\ ops_uniform false same_a /\ ops_uniform false same_b /\ same_document same_a same_b /\
  without_chunks same_a =
    [PdfVersion 1 4; PdfFileId (lit "x", lit "y"); PdfObject 14 (OArray [OPrim (PRef 15)]);
     PdfObject 15 (OPrim (PStr (lit "4 0 R"))); PdfStream 2 [(lit "N", OPrim (PRef 14))] (lit "data");
     PdfCatalog 1 []; PdfVersion 12 6; PdfFileId (lit "a", lit "b")] /\
  option_map (fun p => option_map blen (finish p)) (pdf_run same_a (pdf_with_settings false)) =
    option_map (fun p => option_map blen (finish p)) (pdf_run same_b (pdf_with_settings false)) /\
  (exists f g, file_of no_filter same_a f [] /\ file_of no_filter same_b g [7]).
Proof.
  assert (Ta : ops_typed same_a).
  { unfold same_a, ops_typed. apply Forall_cons; [cbn; lia|]. apply Forall_cons; [exact Logic.I|].
    apply Forall_cons; [split; [repeat split; reflexivity|intros t id; apply plus_ten_ok]|].
    repeat (apply Forall_cons; [try exact Logic.I; repeat split; try reflexivity; cbn; try lia|]). apply Forall_nil. }
  assert (Tb : ops_typed same_b).
  { unfold same_b, ops_typed. repeat (apply Forall_cons; [try exact Logic.I; repeat split; try reflexivity; cbn; try lia|]). apply Forall_nil. }
  split; [exact Ta|]. split; [exact Tb|].
  split; [repeat constructor|]. split; [repeat constructor|]. split; [split; reflexivity|]. split; [reflexivity|].
  split; [vm_compute; reflexivity|].
  assert (Ba : ids_below (pdf_ids same_a)) by (repeat constructor). assert (Bb : ids_below (7 :: pdf_ids same_b)) by (repeat constructor).
  assert (Sz : match option_map finish (pdf_run same_a (pdf_with_settings true)) with Some (Some f) => blen f <= 10 ^ 10 | _ => False end)
    by (vm_compute; discriminate).
  assert (Sy : match option_map (fun q => finish_with_xref_stream q 7) (pdf_run same_b (pdf_with_settings false)) with Some (Some f) => blen f < 2 ^ 64 | _ => False end)
    by (vm_compute; reflexivity).
  destruct (pdf_run same_a (pdf_with_settings true)) as [p|] eqn:Ra; [|contradiction Sz]. cbn [option_map] in Sz.
  destruct (finish p) as [f|] eqn:Fa; [|contradiction Sz].
  destruct (pdf_run same_b (pdf_with_settings false)) as [q|] eqn:Rb; [|contradiction Sy]. cbn [option_map] in Sy.
  destruct (finish_with_xref_stream q 7) as [g|] eqn:Fb; [|contradiction Sy].
  exists f, g. split.
  - exact (FileTable no_filter same_a f true p Ta Ra Fa Ba Sz).
  - refine (FileStream no_filter same_b g false q 7 Tb Rb eq_refl Bb _ Sy). apply FinishedPlain; [exact Fb|reflexivity].
Qed.

(** The setting matters: objects of a chunk with another setting are copied as they are. *)
Example C98_mixed_settings_refuted :
  let a := [PdfExtend (HObject (HNew true) 1 (ODict [(lit "K", OPrim PNull)]))] in
  let b := [PdfExtend (HObject (HNew false) 1 (ODict [(lit "K", OPrim PNull)]))] in
  ops_typed a /\ ops_typed b /\ same_document a b /\ ~ ops_uniform false a /\
  option_map finish (pdf_run a (pdf_with_settings false)) <> option_map finish (pdf_run b (pdf_with_settings false)).
Proof.
  cbn zeta. split; [repeat constructor|]. split; [repeat constructor|]. split; [split; reflexivity|]. split.
  - intro H. apply Forall_inv in H. discriminate H.
  - vm_compute. discriminate.
Qed.
