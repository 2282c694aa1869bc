(** Proofs: opening a finished file. *)

From Coq Require Import ZArith List Lia Bool Permutation Sorted ZifyBool.
From Verif Require Import Bytes ModelFloat ModelBuf ModelObject ModelRenumber ModelChunk ModelPdf SpecLex SpecObj SpecMeans
  SpecRenum SpecChunk SpecFile SpecPdf ProofBasic ProofObj ProofParse ProofTree ProofRenum ProofXref ProofChunk ProofChunkParse ProofFile ProofFile2 ProofPdf.
Import ListNotations.
Local Open Scope Z_scope.

Lemma some_inj {A} (a b : A) : Some a = Some b -> a = b.
Proof. congruence. Qed.

(** ** Trailer entries *)

Definition trailer_ok (p : pdf) : Prop :=
  (forall i, p_catalog p = Some i -> 0 < i <= i32_max) /\ (forall i, p_info p = Some i -> 0 < i <= i32_max).

Lemma names_dict l : names_nonempty (ODict l) = forallb (fun e => negb (is_nil (fst e)) && names_nonempty (snd e)) l.
Proof. reflexivity. Qed.

Lemma trailer_readable p N : trailer_ok p -> 0 < N <= i32_max ->
  obj_ok (ODict (trailer_entries p N)) = true /\ names_nonempty (ODict (trailer_entries p N)) = true.
Proof.
  intros [H1 H2] HN. unfold trailer_entries.
  assert (I : forall z, 0 < z <= i32_max -> in_i32 z = true) by (intro z; unfold in_i32, i32_min; lia).
  destruct (p_catalog p) as [c|]; [specialize (H1 c eq_refl)|]; (destruct (p_info p) as [i|]; [specialize (H2 i eq_refl)|]);
    destruct (p_file_id p) as [[a b]|]; cbn [app forallb snd obj_ok prim_ok fst]; rewrite ?I by assumption; (split; [lia|reflexivity]).
Qed.

Definition dict_vals (d : list (bytes * obj)) : list (bytes * val) := map (fun e => (fst e, obj_val (snd e))) d.

Lemma trailer_lookup p N :
  lookup (lit "Size") (dict_vals (trailer_entries p N)) = Some (VInt N) /\
  forall k, k <> lit "Size" -> lookup k (dict_vals (trailer_entries p N)) =
    if bytes_eqb k (lit "Root") then option_map (fun id => VRef id 0) (p_catalog p)
    else if bytes_eqb k (lit "Info") then option_map (fun id => VRef id 0) (p_info p)
    else if bytes_eqb k (lit "ID") then option_map (fun ab => VArr [VStr (fst ab); VStr (snd ab)]) (p_file_id p)
    else None.
Proof.
  split; [reflexivity|]. intros k Hk. unfold trailer_entries, dict_vals. cbn [app map fst snd lookup].
  destruct (bytes_eqb k (lit "Size")) eqn:E; [apply bytes_eqb_spec in E; contradiction|].
  destruct (bytes_eqb k (lit "Root")) eqn:E1; [apply bytes_eqb_spec in E1; subst k|];
  [|destruct (bytes_eqb k (lit "Info")) eqn:E2; [apply bytes_eqb_spec in E2; subst k|];
    [|destruct (bytes_eqb k (lit "ID")) eqn:E3; [apply bytes_eqb_spec in E3; subst k|]]];
  destruct (p_catalog p) as [c|], (p_info p) as [i|], (p_file_id p) as [[a b]|];
    cbn [app map fst snd lookup option_map obj_val]; rewrite ?E1, ?E2, ?E3; try reflexivity.
Qed.

(** ** Plain files *)

Lemma from_app a b : from (a ++ b) (blen a) = b.
Proof. unfold from. apply skipn_blen. Qed.

Definition small_offsets (p : pdf) : Prop := Forall (fun e => 0 <= snd e < blen (pdf_bytes p)) (c_offsets (p_chunk p)).

Lemma plain_read decode p file : finish p = Some file ->
  ids_small (c_offsets (p_chunk p)) -> trailer_ok p -> small_offsets p -> blen (pdf_bytes p) <= 10 ^ 10 ->
  let l := c_offsets (p_chunk p) in
  exists es tail,
    NoDup (ids l) /\ Z.of_nat (length es) = 1 + zmax (ids l) /\
    Forall2 (entry_ok (sort_pairs l) (1 + zmax (ids l))) (zrange 0 (length es)) es /\
    file = pdf_bytes p ++ lit "xref" ++ [x0a] ++ lit "0 " ++ dec_u (1 + zmax (ids l)) ++ [x0a] ++ flat_map plain_entry es ++ lit "trailer" ++ tail /\
    blen (flat_map plain_entry es) = 20 * (1 + zmax (ids l)) /\
    read_file decode file = Some (combine (zrange 0 (length es)) (map conv es), dict_vals (trailer_entries p (1 + zmax (ids l)))) /\
    startxref file = Some (blen (pdf_bytes p)).
Proof.
  intros Hf Hi Ht Ho Hs. cbn zeta. rewrite finish_form in Hf.
  set (l := c_offsets (p_chunk p)) in *.
  destruct (ListDec.NoDup_dec Z.eq_dec (ids l)) as [ND|ND]; [|rewrite write_offsets_dup in Hf by exact ND; discriminate].
  destruct (xref_entries l ND Hi) as (es & E & HN & HL & HF). set (N := 1 + zmax (ids l)) in *.
  rewrite E in Hf. cbn [option_map fst snd] in Hf. apply some_inj in Hf. subst file.
  exists es. eexists. split; [exact ND|]. split; [exact HL|]. split; [exact HF|].
  rewrite dec_i_pos by lia. split; [reflexivity|].
  assert (EF : entries_fit es).
  { pose proof (values_small _ _ _ (proj1 HN) HF) as V. unfold entries_fit. revert V. apply Forall_impl.
    intros [n g|o g]; cbn [entry_value entry_gen].
    - intros [V1 V2]. assert (i32_max < 10 ^ 10) by reflexivity. split; [lia|]. change (10 ^ 5) with 100000. destruct V2; subst; lia.
    - intros [(id & V1) ->]. apply (proj1 (in_sorted _ _)) in V1. unfold small_offsets in Ho. rewrite Forall_forall in Ho. specialize (Ho _ V1). cbn [snd] in Ho.
      split; [lia|]. change (10 ^ 5) with 100000. lia. }
  split; [rewrite plain_length by exact EF; lia|].
  set (f := pdf_bytes p ++ _).
  assert (SX : startxref f = Some (blen (pdf_bytes p))).
  { unfold f. rewrite !app_assoc. apply startxref_read. apply blen_nonneg. }
  split; [|exact SX]. unfold read_file. rewrite SX. unfold f. rewrite from_app, strip_app.
  destruct (trailer_readable p N Ht HN) as (T1 & T2).
  unfold tail_bytes. apply table_reads; [lia|exact HL|exact EF|exact T1|apply names_nonempty_separable; exact T2].
Qed.

(** ** Files with cross-reference streams *)

Lemma stream_entries_readable p flt N fw : trailer_ok p -> 0 < N <= i32_max -> 0 <= fw <= 8 ->
  entries_readable (stream_entries p flt N fw) = true.
Proof.
  intros Ht HN Hf. destruct (trailer_readable p N Ht HN) as (T1 & T2). cbn [obj_ok] in T1. rewrite names_dict in T2.
  unfold entries_readable, stream_entries. apply andb_true_iff. split.
  - cbn [obj_ok]. rewrite !forallb_app, T1. cbn [forallb snd obj_ok prim_ok].
    assert (F : forallb (fun e => obj_ok (snd e)) (filter_entries flt) = true).
    { destruct flt as [[f|fs]|]; [reflexivity| |reflexivity]. cbn [filter_entries forallb snd obj_ok]. rewrite andb_true_r.
      induction fs as [|f fs IH]; [reflexivity|]. cbn [map forallb obj_ok prim_ok]. exact IH. }
    assert (I : in_i32 fw = true) by (unfold in_i32, i32_min, i32_max; lia).
    rewrite F, I. reflexivity.
  - apply names_nonempty_separable. rewrite names_dict, !forallb_app, T2.
    assert (F : forallb (fun e => negb (is_nil (fst e)) && names_nonempty (snd e)) (filter_entries flt) = true).
    { destruct flt as [[f|fs]|]; [destruct f; reflexivity| |reflexivity]. cbn [filter_entries forallb fst snd]. rewrite andb_true_r.
      change (negb (is_nil (lit "Filter"))) with true. cbn [andb names_nonempty].
      induction fs as [|f fs IH]; [reflexivity|]. cbn [map forallb]. rewrite IH. destruct f; reflexivity. }
    rewrite F. reflexivity.
Qed.

Lemma lookup_app k a b : lookup k (a ++ b) = match lookup k a with Some v => Some v | None => lookup k b end.
Proof. induction a as [|[k' v] a IH]; [reflexivity|]. cbn [app lookup]. destruct (bytes_eqb k k'); [reflexivity|exact IH]. Qed.

Definition reserved : list bytes := [lit "Length"; lit "Type"; lit "Filter"; lit "W"].

Lemma stream_lookup p flt N fw len :
  let d := (lit "Length", VInt len) :: dict_vals (stream_entries p flt N fw) in
  lookup (lit "Type") d = Some (VName (lit "XRef")) /\ lookup (lit "Size") d = Some (VInt N) /\ lookup (lit "W") d = Some (VArr [VInt 1; VInt fw; VInt 2]) /\ lookup (lit "Filter") d = filter_val flt /\ forall k, ~ In k reserved -> lookup k d = lookup k (dict_vals (trailer_entries p N)).
Proof.
  cbn zeta. unfold stream_entries, dict_vals. rewrite !map_app. cbn [lookup map app fst snd].
  destruct (trailer_lookup p N) as [L1 L2]. fold (dict_vals (trailer_entries p N)) in *.
  split; [reflexivity|].
  assert (F : forall k, k <> lit "Filter" -> lookup k (map (fun e => (fst e, obj_val (snd e))) (filter_entries flt)) = None).
  { intros k Hk. destruct flt as [[f|fs]|]; cbn [filter_entries map lookup fst]; try reflexivity;
      (destruct (bytes_eqb k (lit "Filter")) eqn:E; [apply bytes_eqb_spec in E; contradiction|reflexivity]). }
  split; [|split; [|split]].
  - change (bytes_eqb (lit "Size") (lit "Length")) with false. change (bytes_eqb (lit "Size") (lit "Type")) with false. cbv iota.
    rewrite lookup_app, F by discriminate. rewrite lookup_app. rewrite L1. reflexivity.
  - change (bytes_eqb (lit "W") (lit "Length")) with false. change (bytes_eqb (lit "W") (lit "Type")) with false. cbv iota.
    rewrite lookup_app, F by discriminate. rewrite lookup_app. specialize (L2 (lit "W") ltac:(discriminate)). rewrite L2. reflexivity.
  - change (bytes_eqb (lit "Filter") (lit "Length")) with false. change (bytes_eqb (lit "Filter") (lit "Type")) with false. cbv iota.
    rewrite lookup_app, lookup_app. specialize (L2 (lit "Filter") ltac:(discriminate)). rewrite L2.
    destruct flt as [[f|fs]|]; [reflexivity| |reflexivity]. cbn [filter_entries map lookup fst snd filter_val].
    change (bytes_eqb (lit "Filter") (lit "Filter")) with true. cbv iota. cbn [obj_val]. rewrite map_map. reflexivity.
  - intros k Hk. unfold reserved in Hk. cbn [In] in Hk.
    assert (K : forall s, lit "Length" = s \/ lit "Type" = s \/ lit "Filter" = s \/ lit "W" = s -> bytes_eqb k s = false).
    { intros s Hs. destruct (bytes_eqb k s) eqn:E; [|reflexivity]. apply bytes_eqb_spec in E. subst s. tauto. }
    rewrite !K by tauto. rewrite lookup_app, F by (intro; subst; tauto). rewrite lookup_app.
    fold (dict_vals (trailer_entries p N)). destruct (lookup k (dict_vals (trailer_entries p N))); [reflexivity|].
    cbn [map lookup fst]. rewrite K by tauto. reflexivity.
Qed.

Definition with_xref (p : pdf) (xid : Z) : list (Z * Z) := c_offsets (p_chunk p) ++ [(xid, blen (pdf_bytes p))].

Lemma stream_read decode p xid F file : finish_stream_inner p xid F = Some file ->
  (forall data, decode (filter_val (snd (F data))) (fst (F data)) = Some data) ->
  ids_small (with_xref p xid) -> trailer_ok p -> 0 < blen (pdf_bytes p) < 2 ^ 64 ->
  let l := with_xref p xid in
  let w := field_width (blen (pdf_bytes p)) in
  exists es flt data,
    NoDup (ids l) /\ Z.of_nat (length es) = 1 + zmax (ids l) /\ Forall2 (entry_ok (sort_pairs l) (1 + zmax (ids l))) (zrange 0 (length es)) es /\ file = pdf_bytes p ++ item_bytes (c_pretty (p_chunk p)) (c_pretty (p_chunk p)) (xid, BStream (stream_entries p flt (1 + zmax (ids l)) w) data)
             ++ tail_bytes (blen (pdf_bytes p)) /\ (data, flt) = F (flat_map (stream_entry w) es) /\ blen data <= i32_max /\ read_file decode file = Some (combine (zrange 0 (length es)) (map (narrow (Z.to_nat w)) es),
       (lit "Length", VInt (blen data)) :: dict_vals (stream_entries p flt (1 + zmax (ids l)) w)) /\ startxref file = Some (blen (pdf_bytes p)).
Proof.
  intros Hf HD Hi Ht Hs. cbn zeta. rewrite finish_stream_form in Hf. cbn zeta in Hf. fold (with_xref p xid) in Hf.
  set (l := with_xref p xid) in *. destruct (field_width_spec _ Hs) as [W1 W2]. set (w := field_width _) in *.
  destruct (ListDec.NoDup_dec Z.eq_dec (ids l)) as [ND|ND]; [|rewrite write_offsets_dup in Hf by exact ND; discriminate].
  destruct (xref_entries l ND Hi) as (es & E & HN & HL & HF). set (N := 1 + zmax (ids l)) in *.
  rewrite E in Hf. specialize (HD (flat_map (stream_entry w) es)).
  destruct (F (flat_map (stream_entry w) es)) as [data flt] eqn:EF. cbn [fst snd] in HD.
  destruct (Z.leb_spec (blen data) i32_max) as [LD|LD]; [|discriminate]. apply some_inj in Hf. subst file.
  exists es, flt, data. split; [exact ND|]. split; [exact HL|]. split; [exact HF|]. split; [reflexivity|].
  split; [symmetry; exact EF|]. split; [exact LD|].
  set (it := (xid, BStream (stream_entries p flt N w) data)) in *.
  set (f := pdf_bytes p ++ _).
  assert (SX : startxref f = Some (blen (pdf_bytes p))).
  { unfold f. rewrite !app_assoc. apply startxref_read. apply blen_nonneg. }
  split; [|exact SX]. unfold read_file. rewrite SX. unfold f. rewrite from_app.
  assert (Hr : body_readable (snd it) = true) by (apply stream_entries_readable; [exact Ht|exact HN|lia]).
  assert (Hfit : body_fits (snd it) = true) by (cbn [it snd body_fits]; lia).
  assert (NX : strip (lit "xref") (item_bytes (c_pretty (p_chunk p)) (c_pretty (p_chunk p)) it ++ tail_bytes (blen (pdf_bytes p))) = None).
  { unfold item_bytes. cbn [it fst]. rewrite dec_i_pos.
    - rewrite <- !app_assoc. assert (X0 : 0 <= xid).
      { unfold ids_small in Hi. rewrite Forall_forall in Hi. assert (I : In xid (ids l)) by (unfold l, with_xref, ids; rewrite map_app; apply in_or_app; right; left; reflexivity).
        specialize (Hi _ I). lia. }
      pose proof (dec_u_ne xid X0) as NE. pose proof (dec_u_digits xid X0) as D. destruct (dec_u xid) as [|c r]; [congruence|].
      cbn [forallb] in D. apply andb_true_iff in D. destruct D as [D _]. cbn [app].
      change (lit "xref") with (x78 :: lit "ref"). cbn [strip]. destruct (beq x78 c) eqn:B; [|reflexivity]. apply beq_spec in B. subst c. discriminate D.
    - unfold ids_small in Hi. rewrite Forall_forall in Hi. assert (I : In xid (ids l)) by (unfold l, with_xref, ids; rewrite map_app; apply in_or_app; right; left; reflexivity).
      specialize (Hi _ I). lia. }
  rewrite NX. unfold xref_stream.
  pose proof (item_parses [] (c_pretty (p_chunk p)) (c_pretty (p_chunk p)) it (tail_bytes (blen (pdf_bytes p))) eq_refl Hr Hfit) as P.
  rewrite app_nil_l in P. rewrite P. unfold item_val. cbn [it fst snd]. cbn [map len_entry fst snd obj_val].
  fold (dict_vals (stream_entries p flt N w)).
  destruct (stream_lookup p flt N w (blen data)) as (L1 & L2 & L3 & L4 & L5).
  rewrite L1, L2, L3, L4, HD. rewrite (L5 (lit "Index")) by (unfold reserved; cbn [In]; intros [X|[X|[X|[X|[]]]]]; discriminate).
  destruct (trailer_lookup p N) as [_ LT]. rewrite LT by discriminate.
  change (bytes_eqb (lit "Index") (lit "Root")) with false. change (bytes_eqb (lit "Index") (lit "Info")) with false.
  change (bytes_eqb (lit "Index") (lit "ID")) with false. cbv iota.
  change (bytes_eqb (lit "XRef") (lit "XRef")) with true.
  assert (C : (true && (0 <=? N) && (0 <=? 1) && (0 <=? w) && (0 <=? 2))%bool = true) by lia. rewrite C.
  rewrite <- HL at 1. rewrite Nat2Z.id. change (Z.to_nat 1) with 1%nat. change (Z.to_nat 2) with 2%nat.
  rewrite records_read by lia. reflexivity.
Qed.
