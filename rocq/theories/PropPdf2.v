(** Properties C27..C30: cross-reference streams, trailers, header edits. *)

From Coq Require Import ZArith List Lia Bool Permutation Sorted ZifyBool.
From Verif Require Import Bytes ModelFloat ModelBuf ModelObject ModelRenumber ModelChunk ModelPdf SpecLex SpecObj SpecMeans
  SpecRenum SpecChunk SpecFile SpecPdf SpecLimits ProofBasic ProofObj ProofParse ProofTree ProofRenum ProofXref ProofChunk ProofChunkParse ProofChunk2
  ProofFile ProofFile2 ProofPdf ProofFile3 ProofFile4 PropChunk PropPdf.
Import ListNotations.
Local Open Scope Z_scope.

Lemma with_xref_perm p xid : Permutation (ids (with_xref p xid)) (xid :: ids (c_offsets (p_chunk p))).
Proof. unfold with_xref, ids. rewrite map_app. apply Permutation_sym, Permutation_cons_append. Qed.

Lemma field_width_lower off : 0 < off -> 256 ^ (field_width off - 1) <= off.
Proof.
  intro H. unfold field_width. destruct (Z.eqb_spec off 0); [lia|].
  pose proof (Z.log2_spec off H) as L. pose proof (Z.log2_nonneg off) as L0.
  change 256 with (2 ^ 8). assert (0 <= (Z.log2 off + 1 + 7) / 8 - 1) by (pose proof (Z.div_le_lower_bound (Z.log2 off + 1 + 7) 8 1); lia).
  rewrite <- Z.pow_mul_r by lia. eapply Z.le_trans; [|apply L]. apply Z.pow_le_mono_r; [lia|].
  pose proof (Z.mul_div_le (Z.log2 off + 1 + 7) 8 ltac:(lia)). lia.
Qed.

(** Everything about a file with a cross-reference stream. *)
Section Streams.
  Context (decode : option val -> bytes -> option bytes) (pretty : bool) (ops : list pdf_op) (p : pdf) (xid : Z) (file : bytes).
  Hypothesis HT : ops_typed ops.
  Hypothesis HR : pdf_run ops (pdf_with_settings pretty) = Some p.
  Hypothesis HX : id_ok xid = true.
  Hypothesis HB : ids_below (xid :: pdf_ids ops).
  Hypothesis HF : finished_with_stream decode p xid file.
  Hypothesis HL : blen file < 2 ^ 64.

  Let l := with_xref p xid.
  Let N := 1 + zmax (xid :: pdf_ids ops).
  Let w := field_width (blen (pdf_bytes p)).

  Lemma st_perm : Permutation (ids l) (xid :: pdf_ids ops).
  Proof. unfold l. rewrite <- (reach_ids _ _ _ HT HR). apply with_xref_perm. Qed.

  Lemma st_small : ids_small l.
  Proof.
    unfold ids_small. apply Forall_forall. intros i Hi. apply (Permutation_in _ st_perm) in Hi.
    unfold ids_below in HB. rewrite Forall_forall in HB. specialize (HB _ Hi).
    destruct Hi as [<-|Hi]; [unfold id_ok in HX; lia|].
    pose proof (reach_pos _ HT) as P. rewrite Forall_forall in P. specialize (P _ Hi). lia.
  Qed.

  Lemma st_data :
    exists es flt data,
      NoDup (ids l) /\ 1 + zmax (ids l) = N /\ Z.of_nat (length es) = N /\
      Forall2 (entry_ok (sort_pairs l) N) (zrange 0 (length es)) es /\
      file = pdf_bytes p ++ item_bytes pretty pretty (xid, BStream (stream_entries p flt N w) data) ++ tail_bytes (blen (pdf_bytes p)) /\
      blen data <= i32_max /\
      read_file decode file = Some (combine (zrange 0 (length es)) (map (narrow (Z.to_nat w)) es),
         (lit "Length", VInt (blen data)) :: dict_vals (stream_entries p flt N w)) /\
      startxref file = Some (blen (pdf_bytes p)) /\ 1 <= w <= 8 /\ blen (pdf_bytes p) < 256 ^ w.
  Proof.
    assert (EN : 1 + zmax (ids l) = N) by (unfold N; f_equal; apply zmax_perm, st_perm).
    assert (PP : c_pretty (p_chunk p) = pretty) by (destruct (reach _ _ _ HT HR) as (k & _ & (_ & P & _) & _); exact P).
    pose proof (reach_len _ _ _ HT HR) as RL.
    assert (K : exists F, finish_stream_inner p xid F = Some file /\
      (forall data, decode (filter_val (snd (F data))) (fst (F data)) = Some data)).
    { destruct HF as [F1 F2|fl F1 F2].
      - exists (fun buf => (buf, None)). split; [exact F1|exact F2].
      - eexists. split; [exact F1|]. intro data. specialize (F2 data). cbv beta. destruct (fl data) as [a b]. exact F2. }
    destruct K as (F & KF & KD).
    assert (LE : blen (pdf_bytes p) <= blen file).
    { rewrite finish_stream_form in KF. cbn zeta in KF. destruct (write_offsets _) as [[n es]|]; [|discriminate].
      destruct (F _) as [data flt]. destruct (_ <=? _); [|discriminate]. apply some_inj in KF. rewrite <- KF. apply blen_prefix. }
    destruct (stream_read decode p xid F file KF KD st_small (reach_trailer _ _ _ HT HR) ltac:(lia))
      as (es & flt & data & ND & EL & EF & EB & ED & DL & RD & SX). cbn zeta in *. fold l in ND, EL, EF, EB, RD. rewrite PP in EB. rewrite EN in EL, EF, EB, RD. fold w in EB, RD.
    exists es, flt, data. destruct (field_width_spec (blen (pdf_bytes p)) ltac:(lia)) as [W1 W2]. fold w in W1, W2. repeat (split; [assumption|]). assumption.
  Qed.
End Streams.

Lemma used_narrow w o : 0 <= o < 256 ^ w -> 0 <= w -> narrow (Z.to_nat w) (Used o 0) = XUsed o 0.
Proof. intros H Hw. cbn [narrow]. rewrite Z2Nat.id by lia. rewrite Z.mod_small by lia. reflexivity. Qed.

(** ** C27 *)

Theorem C27_stream_entries : forall decode pretty ops p xref_id file,
  ops_typed ops -> pdf_run ops (pdf_with_settings pretty) = Some p ->
  id_ok xref_id = true -> ids_below (xref_id :: pdf_ids ops) ->
  finished_with_stream decode p xref_id file -> blen file < 2 ^ 64 ->
  exists entries trailer, read_file decode file = Some (entries, trailer) /\
    map fst entries = zrange 0 (Z.to_nat (1 + zmax (xref_id :: pdf_ids ops))) /\
    (forall id, In id (xref_id :: pdf_ids ops) ->
       exists off, find_entry id entries = Some (XUsed off 0) /\ object_at file off id) /\
    (forall id, 0 <= id <= zmax (xref_id :: pdf_ids ops) -> ~ In id (xref_id :: pdf_ids ops) ->
       exists next gen, find_entry id entries = Some (XFree next gen)).
Proof.
  intros decode pretty ops p xid file HT HR HX HB HF HL.
  destruct (st_data decode pretty ops p xid file HT HR HX HB HF HL) as (es & flt & data & ND & EN & EL & EF & EB & DL & RD & SX & W1 & W2).
  pose proof (st_small pretty ops p xid HT HR HX HB) as SM. pose proof (st_perm pretty ops p xid HT HR) as PM.
  set (l := with_xref p xid) in *. set (N := 1 + zmax (xid :: pdf_ids ops)) in *. set (w := field_width _) in *.
  eexists. eexists. split; [exact RD|]. split; [|split].
  - rewrite combine_ids by (rewrite map_length; reflexivity). f_equal. lia.
  - intros id Hid. apply (Permutation_in _ (Permutation_sym PM)) in Hid. apply in_map_iff in Hid. destruct Hid as ([i off] & <- & Hid).
    cbn [fst]. exists off. rewrite (used_entry l N es ND SM (eq_sym EN) EL EF _ i off Hid).
    unfold l, with_xref in Hid. apply in_app_or in Hid. destruct Hid as [Hid|[E|[]]].
    + destruct (reach_offset _ _ _ HT HR i off Hid) as (pre & st & nl & it & post & E & L & L16 & -> & Hit). split.
      * f_equal. apply used_narrow; [|lia]. split; [lia|]. eapply Z.le_lt_trans; [|exact W2]. rewrite E, <- L. apply blen_prefix.
      * rewrite EB, E, <- L. rewrite <- !app_assoc. apply item_object_at.
        pose proof (reach_pos _ HT) as P. rewrite Forall_forall in P. apply P. apply in_map. exact Hit.
    + assert (X1 : i = xid) by congruence. assert (X2 : off = blen (pdf_bytes p)) by congruence. subst i off. split.
      * f_equal. apply used_narrow; [|lia]. split; [apply blen_nonneg|exact W2].
      * rewrite EB at 1. apply (item_object_at (pdf_bytes p) pretty pretty (xid, BStream (stream_entries p flt N w) data)).
        cbn [fst]. unfold id_ok in HX. lia.
  - intros id H1 H2. destruct (free_entry l N es SM (eq_sym EN) EL EF (narrow (Z.to_nat w)) id) as (n & E & _); [unfold N; lia| |].
    + intro I. apply H2. apply (Permutation_in _ PM). exact I.
    + rewrite E. cbn [narrow]. eexists. eexists. reflexivity.
Qed.

(** The entry of the stream itself is the position given after [startxref], where it parses as a stream object. *)
Theorem C27_own_entry : forall decode pretty ops p xref_id file,
  ops_typed ops -> pdf_run ops (pdf_with_settings pretty) = Some p ->
  id_ok xref_id = true -> ids_below (xref_id :: pdf_ids ops) ->
  finished_with_stream decode p xref_id file -> blen file < 2 ^ 64 ->
  exists entries trailer off data rest,
    read_file decode file = Some (entries, trailer) /\
    find_entry xref_id entries = Some (XUsed off 0) /\ startxref file = Some off /\
    parse_indirect (from file off) = Some (IStream xref_id 0 trailer data, rest).
Proof.
  intros decode pretty ops p xid file HT HR HX HB HF HL.
  destruct (st_data decode pretty ops p xid file HT HR HX HB HF HL) as (es & flt & data & ND & EN & EL & EF & EB & DL & RD & SX & W1 & W2).
  pose proof (st_small pretty ops p xid HT HR HX HB) as SM.
  eexists. eexists. exists (blen (pdf_bytes p)), data. eexists. split; [exact RD|]. split; [|split; [exact SX|]].
  - rewrite (used_entry _ _ es ND SM (eq_sym EN) EL EF (narrow (Z.to_nat (field_width (blen (pdf_bytes p))))) xid (blen (pdf_bytes p))).
    + f_equal. apply used_narrow; [|lia]. split; [apply blen_nonneg|exact W2].
    + unfold with_xref. apply in_or_app. right. left. reflexivity.
  - rewrite EB, from_app. set (it := (xid, BStream _ data)).
    assert (NP : 0 < 1 + zmax (xid :: pdf_ids ops) <= i32_max).
    { pose proof (zmax_nonneg (xid :: pdf_ids ops)). destruct (xref_entries _ ND SM) as (es' & E & B & _). rewrite EN in B. exact B. }
    pose proof (item_parses [] pretty pretty it (tail_bytes (blen (pdf_bytes p))) eq_refl) as P. rewrite app_nil_l in P.
    rewrite P; [reflexivity| |].
    + apply stream_entries_readable; [exact (reach_trailer _ _ _ HT HR)|exact NP|lia].
    + cbn [it snd body_fits]. lia.
Qed.

Theorem C27_every_object_is_found : forall decode pretty ops p xref_id file,
  ops_typed ops -> pdf_run ops (pdf_with_settings pretty) = Some p ->
  id_ok xref_id = true -> ids_below (xref_id :: pdf_ids ops) ->
  finished_with_stream decode p xref_id file -> blen file < 2 ^ 64 ->
  (forall it, In it (pdf_items ops) -> body_readable (snd it) = true ->
     exists i, resolve decode file (fst it) = Some i /\ item_means it i) /\
  (forall id, id <> xref_id -> ~ In id (pdf_ids ops) -> resolve decode file id = None).
Proof.
  intros decode pretty ops p xid file HT HR HX HB HF HL.
  destruct (st_data decode pretty ops p xid file HT HR HX HB HF HL) as (es & flt & data & ND & EN & EL & EF & EB & DL & RD & SX & W1 & W2).
  pose proof (st_small pretty ops p xid HT HR HX HB) as SM. pose proof (st_perm pretty ops p xid HT HR) as PM. split.
  - intros it Hit Hr. destruct (reach_item _ _ _ HT HR it Hit) as (pre & st & nl & post & E & Ho).
    unfold resolve. rewrite RD.
    rewrite (used_entry _ _ es ND SM (eq_sym EN) EL EF _ (fst it) (blen pre)) by (unfold with_xref; apply in_or_app; left; exact Ho).
    rewrite used_narrow; [| |lia].
    2:{ split; [apply blen_nonneg|]. eapply Z.le_lt_trans; [|exact W2]. rewrite E. apply blen_prefix. }
    destruct (reach _ _ _ HT HR) as (k & _ & _ & Fit).
    match type of EB with _ = _ ++ ?t => set (tl := t) in EB end. clearbody tl. rewrite EB, E, <- !app_assoc.
    match goal with |- context [pre ++ item_bytes st nl it ++ ?t] => destruct (parse_at pre st nl it t Hr (items_fit_in _ _ Fit Hit)) as (r & ->) end.
    rewrite item_val_id. cbn [fst snd]. rewrite !Z.eqb_refl. cbn [andb]. exists (item_val it). split; [reflexivity|]. apply item_val_means. exact Hr.
  - intros id Hx Hid. unfold resolve. rewrite RD.
    destruct (Z_lt_le_dec id 0) as [L|L]; [rewrite (outside_entry _ es EL) by lia; reflexivity|].
    destruct (Z_lt_le_dec id (1 + zmax (xid :: pdf_ids ops))) as [L'|L']; [|rewrite (outside_entry _ es EL) by lia; reflexivity].
    destruct (free_entry _ _ es SM (eq_sym EN) EL EF (narrow (Z.to_nat (field_width (blen (pdf_bytes p))))) id ltac:(lia)) as (n & -> & _); [|reflexivity].
    intro I. apply (Permutation_in _ PM) in I. destruct I as [I|I]; [congruence|contradiction].
Qed.

Example C27_case :
  option_map (option_map (fun file => (read_file no_filter file, resolve no_filter file 9, resolve no_filter file 6)))
    (option_map (fun p => finish_with_xref_stream p 5) (pdf_run example_ops (pdf_with_settings false))) =
  Some (Some
    (Some ([(0, XFree 6 65535); (1, XUsed 183 0); (2, XUsed 54 0); (3, XUsed 163 0); (4, XUsed 124 0); (5, XUsed 228 0); (6, XFree 8 0); (7, XUsed 16 0); (8, XFree 0 0); (9, XUsed 142 0)],
           [(lit "Length", VInt 40); (lit "Type", VName (lit "XRef")); (lit "Size", VInt 10); (lit "Root", VRef 1 0); (lit "Info", VRef 3 0); (lit "ID", VArr [VStr (lit "ab"); VStr [x00; xff]]);
            (lit "W", VArr [VInt 1; VInt 1; VInt 2])]),
     Some (IObj 9 0 (VRef 9 0)), None)).
Proof. vm_compute. reflexivity. Qed.

(** A filter: here the stream data is written as hexadecimal digits. *)
Definition hex_filter (data : bytes) : bytes * xref_filter := (flat_map hex2 data, Multiple [AsciiHexDecode]).
Definition hex_value (c : byte) : Z := if is_digit c then bz c - 48 else bz c - 55.
Fixpoint unhex (s : bytes) : bytes :=
  match s with a :: b :: r => zb (16 * hex_value a + hex_value b) :: unhex r | _ => [] end.
Definition hex_decode (f : option val) (s : bytes) : option bytes :=
  match f with Some (VArr [VName n]) => if bytes_eqb n (lit "ASCIIHexDecode") then Some (unhex s) else None | _ => None end.

Example C27_filter_undone : undoes hex_decode hex_filter.
Proof.
  intro data. unfold hex_filter. cbn [fst snd filter_val map hex_decode]. change (bytes_eqb (iso_filter AsciiHexDecode) (lit "ASCIIHexDecode")) with true.
  cbv iota. f_equal. induction data as [|c data IH]; [reflexivity|]. cbn [flat_map].
  assert (E : exists a b, hex2 c = [a; b] /\ zb (16 * hex_value a + hex_value b) = c).
  { destruct c; eexists; eexists; (split; [reflexivity|vm_compute; reflexivity]). }
  destruct E as (a & b & -> & E). cbn [app unhex]. rewrite E, IH. reflexivity.
Qed.

(** ** C28 *)

Lemma walk_elements (Q : Z -> Prop) L : (forall i n g, find_entry i L = Some (XFree n g) -> Q n) ->
  forall fuel i l, walk fuel L i = Some l -> Forall Q l.
Proof.
  intro H. induction fuel as [|f IH]; intros i l; [discriminate|]. cbn [walk].
  destruct (find_entry i L) as [[n g|o g|a b]|] eqn:E; try discriminate.
  destruct (n =? 0); [intro X; apply some_inj in X; subst; constructor|].
  destruct (walk f L n) as [l'|] eqn:W; [|discriminate]. cbn [option_map]. intro X. apply some_inj in X. subst l.
  constructor; [eapply H; exact E|eapply IH; exact W].
Qed.

Lemma find_narrow fw : forall n a es i x, find_entry i (combine (zrange a n) (map (narrow fw) es)) = Some x ->
  exists e, x = narrow fw e.
Proof.
  induction n as [|n IH]; intros a es i x; [discriminate|]. destruct es as [|e es]; [discriminate|].
  cbn [zrange map combine find_entry]. destruct (a =? i); [|apply IH]. intro X. apply some_inj in X. exists e. auto.
Qed.

(** The free list of the stream is right if and only if every free id fits the width that the
    stream announces for offsets. *)
Theorem C28_free_list_iff : forall decode pretty ops p xref_id file,
  ops_typed ops -> pdf_run ops (pdf_with_settings pretty) = Some p ->
  id_ok xref_id = true -> ids_below (xref_id :: pdf_ids ops) ->
  finished_with_stream decode p xref_id file -> blen file < 2 ^ 64 ->
  let used := xref_id :: pdf_ids ops in
  exists entries trailer w, read_file decode file = Some (entries, trailer) /\
    lookup (lit "W") trailer = Some (VArr [VInt 1; VInt w; VInt 2]) /\
    (free_list entries = Some (free_ids used (1 + zmax used)) <->
     Forall (fun id => id < 256 ^ w) (free_ids used (1 + zmax used))) /\
    forall id next gen, find_entry id entries = Some (XFree next gen) -> gen = if id =? 0 then 65535 else 0.
Proof.
  intros decode pretty ops p xid file HT HR HX HB HF HL used.
  destruct (st_data decode pretty ops p xid file HT HR HX HB HF HL) as (es & flt & data & ND & EN & EL & EF & EB & DL & RD & SX & W1 & W2).
  pose proof (st_small pretty ops p xid HT HR HX HB) as SM. pose proof (st_perm pretty ops p xid HT HR) as PM.
  fold used in EN, EL, EF, EB, RD, PM. set (w := field_width (blen (pdf_bytes p))) in *. set (l := with_xref p xid) in *.
  set (N := 1 + zmax used) in *. pose proof (zmax_nonneg used) as Z0.
  assert (IN : forall i, In i (ids l) <-> In i used) by (intro i; split; apply Permutation_in; [exact PM|apply Permutation_sym; exact PM]).
  eexists. eexists. exists w. split; [exact RD|]. split; [|split].
  - apply (stream_lookup p flt N w (blen data)).
  - assert (FI : free_ids used N = unused (ids l) (0 + 1) (Z.to_nat (N - 1 - 0))).
    { unfold free_ids, unused. change (0 + 1) with 1. rewrite Z.sub_0_r. apply filter_ext. intro i. f_equal.
      apply eq_true_iff_eq. rewrite !zmem_spec. symmetry. apply IN. }
    split.
    + intro H. unfold free_list in H. eapply walk_elements; [|exact H]. intros i n g E.
      apply find_narrow in E. destruct E as ([v q|v q] & E); [|discriminate]. cbn [narrow] in E. injection E as E _. subst n.
      rewrite Z2Nat.id by lia. apply Z.mod_pos_bound. apply Z.pow_pos_nonneg; lia.
    + intro H. unfold free_list. rewrite combine_length, map_length, zrange_length, Nat.min_id, FI.
      apply (walk_spec (ids l) N (fun _ _ => True)); [unfold N; lia| |unfold N; lia| |lia].
      * intros i Hi Hu. destruct (free_entry l N es SM (eq_sym EN) EL EF (narrow (Z.to_nat w)) i Hi Hu) as (n & E & FN & G).
        rewrite E. cbn [narrow]. exists n. eexists. split; [|split; [exact FN|exact G]].
        f_equal. f_equal. rewrite Z2Nat.id by lia. apply Z.mod_small. split; [apply Z.rem_nonneg; destruct FN; lia|].
        destruct (Z.eq_dec n N) as [->|NE]; [rewrite Z.rem_same by lia; apply Z.pow_pos_nonneg; lia|].
        rewrite Z.rem_small by (destruct FN; lia). rewrite Forall_forall in H. apply H.
        apply (proj1 (C24_free_ids_meaning used N)). destruct FN as (F1 & F2 & F3). split; [lia|]. rewrite <- IN. assumption.
      * intro X. unfold ids_small in SM. rewrite Forall_forall in SM. specialize (SM _ X). lia.
  - intros id next gen H.
    destruct (Z_lt_le_dec id 0) as [L|L]; [rewrite (outside_entry N es EL) in H by lia; discriminate|].
    destruct (Z_lt_le_dec id N) as [L'|L']; [|rewrite (outside_entry N es EL) in H by lia; discriminate].
    destruct (in_dec Z.eq_dec id (ids l)) as [I|I].
    + apply in_map_iff in I. destruct I as ([i off] & <- & Hi). cbn [fst] in H. rewrite (used_entry l N es ND SM (eq_sym EN) EL EF _ i off Hi) in H. discriminate.
    + destruct (free_entry l N es SM (eq_sym EN) EL EF (narrow (Z.to_nat w)) id ltac:(lia) I) as (n & E & _). rewrite E in H. cbn [narrow] in H.
      apply some_inj in H. injection H as _ H. subst gen. destruct (id =? 0); reflexivity.
Qed.

(** The width depends on the position of the stream only: it is the least number of bytes for it. *)
Theorem C28_width : forall decode pretty ops p xref_id file,
  ops_typed ops -> pdf_run ops (pdf_with_settings pretty) = Some p ->
  id_ok xref_id = true -> ids_below (xref_id :: pdf_ids ops) ->
  finished_with_stream decode p xref_id file -> blen file < 2 ^ 64 ->
  exists entries trailer w off, read_file decode file = Some (entries, trailer) /\
    lookup (lit "W") trailer = Some (VArr [VInt 1; VInt w; VInt 2]) /\
    startxref file = Some off /\ 1 <= w <= 8 /\ 256 ^ (w - 1) <= off < 256 ^ w.
Proof.
  intros decode pretty ops p xid file HT HR HX HB HF HL.
  destruct (st_data decode pretty ops p xid file HT HR HX HB HF HL) as (es & flt & data & ND & EN & EL & EF & EB & DL & RD & SX & W1 & W2).
  eexists. eexists. eexists. eexists. split; [exact RD|]. split; [apply stream_lookup|]. split; [exact SX|]. split; [exact W1|].
  split; [|exact W2]. apply field_width_lower. pose proof (reach_len _ _ _ HT HR). lia.
Qed.

(** So the list is right in every file whose ids are not larger than its length (up to the stream). *)
Theorem C28_dense_ids : forall decode pretty ops p xref_id file off,
  ops_typed ops -> pdf_run ops (pdf_with_settings pretty) = Some p ->
  id_ok xref_id = true -> ids_below (xref_id :: pdf_ids ops) ->
  finished_with_stream decode p xref_id file -> blen file < 2 ^ 64 ->
  let used := xref_id :: pdf_ids ops in
  startxref file = Some off -> zmax used <= off ->
  exists entries trailer, read_file decode file = Some (entries, trailer) /\
    free_list entries = Some (free_ids used (1 + zmax used)).
Proof.
  intros decode pretty ops p xid file off HT HR HX HB HF HL used SX HM.
  destruct (C28_free_list_iff _ _ _ _ _ _ HT HR HX HB HF HL) as (es & tr & w & RD & LW & I & _).
  destruct (C28_width _ _ _ _ _ _ HT HR HX HB HF HL) as (es' & tr' & w' & off' & RD' & LW' & SX' & W1 & W2).
  assert (E1 : es' = es /\ tr' = tr) by (rewrite RD in RD'; injection RD' as -> ->; auto). destruct E1 as [-> ->].
  assert (w' = w) by congruence. assert (off' = off) by congruence. subst w' off'.
  exists es, tr. split; [exact RD|]. apply I. apply Forall_forall. intros id Hid.
  apply (proj1 (C24_free_ids_meaning _ _)) in Hid. unfold used in HM. lia.
Qed.

(** Otherwise it is cut short: one object with id 300, nothing else. *)
Theorem C28_free_list_refuted : exists file entries trailer,
  finish_with_xref_stream pdf_new 300 = Some file /\
  read_file no_filter file = Some (entries, trailer) /\
  find_entry 255 entries = Some (XFree 0 0) /\
  free_list entries = Some (zrange 1 255) /\ free_ids [300] 301 = zrange 1 299.
Proof.
  destruct (finish_with_xref_stream pdf_new 300) as [file|] eqn:E; [|vm_compute in E; discriminate].
  exists file.
  assert (K : option_map (fun f => option_map (fun x => (find_entry 255 (fst x), free_list (fst x))) (read_file no_filter f)) (finish_with_xref_stream pdf_new 300)
    = Some (Some (Some (XFree 0 0), Some (zrange 1 255)))) by (vm_compute; reflexivity).
  rewrite E in K. cbn [option_map] in K. destruct (read_file no_filter file) as [[es tr]|]; [|discriminate].
  cbn [option_map fst] in K. apply some_inj, some_inj in K. exists es, tr. split; [reflexivity|]. split; [reflexivity|].
  split; [congruence|]. split; [congruence|]. vm_compute. reflexivity.
Qed.

(** A document in which the list of free objects is complete. *)
Example C28_case :
  ops_typed example_ops /\ ids_below (5 :: pdf_ids example_ops) /\
  option_map (option_map (fun file => (startxref file, option_map (fun r => free_list (fst r)) (read_file no_filter file))))
    (option_map (fun p => finish_with_xref_stream p 5) (pdf_run example_ops (pdf_with_settings false))) =
  Some (Some (Some 228, Some (Some [6; 8]))) /\
  free_ids (5 :: pdf_ids example_ops) (1 + zmax (5 :: pdf_ids example_ops)) = [6; 8].
Proof.
  split; [exact (proj1 C23_hypotheses)|]. split; [repeat constructor|]. split; vm_compute; reflexivity.
Qed.

(** ** C29 *)

Lemma tail_ends pre off : ends_with (pre ++ tail_bytes off) ([x0a] ++ lit "%%EOF").
Proof. exists (pre ++ lit "startxref" ++ [x0a] ++ dec_u off). unfold tail_bytes. rewrite <- !app_assoc. reflexivity. Qed.

Lemma state_trailer ops pretty p : ops_typed ops -> pdf_run ops (pdf_with_settings pretty) = Some p ->
  forall N k, k <> lit "Size" -> lookup k (dict_vals (trailer_entries p N)) = trailer_value ops k.
Proof.
  intros HT HR N k Hk. destruct (reach _ _ _ HT HR) as (pl & _ & (_ & _ & C & I & F) & _).
  destruct (trailer_lookup p N) as [_ L]. rewrite L by exact Hk. unfold trailer_value. rewrite C, I, F. reflexivity.
Qed.

Theorem C29_finish : forall decode pretty ops p file,
  ops_typed ops -> pdf_run ops (pdf_with_settings pretty) = Some p -> finish p = Some file ->
  ids_below (pdf_ids ops) -> blen file <= 10 ^ 10 ->
  exists body section entries trailer,
    inner (c_buf (p_chunk p)) = header_of ops ++ body /\
    file = header_of ops ++ body ++ section /\
    startxref file = Some (16 + blen body) /\
    blen (header_of ops) = 16 /\
    (exists r, section = lit "xref" ++ r) /\
    ends_with file ([x0a] ++ lit "%%EOF") /\
    read_file decode file = Some (entries, trailer) /\
    lookup (lit "Size") trailer = Some (VInt (1 + zmax (pdf_ids ops))) /\
    (forall k, k <> lit "Size" -> lookup k trailer = trailer_value ops k).
Proof.
  intros decode pretty ops p file HT HR HF HB HL.
  pose proof (reach_small _ _ _ HT HR HB) as SM. pose proof (reach_ids _ _ _ HT HR) as RI.
  assert (HL' : blen (pdf_bytes p) <= 10 ^ 10).
  { rewrite finish_form in HF. destruct (write_offsets _); [|discriminate]. cbn [option_map] in HF. apply some_inj in HF.
    rewrite <- HF in HL. eapply Z.le_trans; [apply blen_prefix|exact HL]. }
  destruct (plain_read decode p file HF SM (reach_trailer _ _ _ HT HR) (reach_offsets _ _ _ HT HR) HL')
    as (es & tail & ND & EL & EF & EB & TL & RD & SX). cbn zeta in *. rewrite RI in *.
  destruct (reach _ _ _ HT HR) as (k & _ & ((Hb & _) & _) & _). unfold pdf_bytes in *.
  exists (layout k). eexists. eexists. eexists. split; [exact Hb|]. split; [|split; [|split; [|split; [|split; [|split; [exact RD|]]]]]].
  - rewrite EB, Hb, <- !app_assoc. reflexivity.
  - rewrite SX, Hb, blen_app, header_of_length. reflexivity.
  - apply header_of_length.
  - eexists. reflexivity.
  - rewrite finish_form in HF. destruct (write_offsets _); [|discriminate]. cbn [option_map] in HF. apply some_inj in HF.
    rewrite <- HF. rewrite !app_assoc. apply tail_ends.
  - split; [apply trailer_lookup|]. intros key Hk. apply (state_trailer ops pretty p HT HR). exact Hk.
Qed.

(** The keys that an xref stream's dictionary has beside those of the trailer. *)
Definition stream_keys : list bytes := [lit "Length"; lit "Type"; lit "Filter"; lit "W"].

Theorem C29_stream : forall decode pretty ops p xref_id file,
  ops_typed ops -> pdf_run ops (pdf_with_settings pretty) = Some p ->
  id_ok xref_id = true -> ids_below (xref_id :: pdf_ids ops) ->
  finished_with_stream decode p xref_id file -> blen file < 2 ^ 64 ->
  exists body section entries trailer,
    inner (c_buf (p_chunk p)) = header_of ops ++ body /\
    file = header_of ops ++ body ++ section /\
    startxref file = Some (16 + blen body) /\
    object_at file (16 + blen body) xref_id /\
    ends_with file ([x0a] ++ lit "%%EOF") /\
    read_file decode file = Some (entries, trailer) /\
    lookup (lit "Type") trailer = Some (VName (lit "XRef")) /\
    lookup (lit "Size") trailer = Some (VInt (1 + zmax (xref_id :: pdf_ids ops))) /\
    (forall k, k <> lit "Size" -> ~ In k stream_keys -> lookup k trailer = trailer_value ops k).
Proof.
  intros decode pretty ops p xid file HT HR HX HB HF HL.
  destruct (st_data decode pretty ops p xid file HT HR HX HB HF HL) as (es & flt & data & ND & EN & EL & EF & EB & DL & RD & SX & W1 & W2).
  destruct (reach _ _ _ HT HR) as (k & _ & ((Hb & _) & _) & _). fold (pdf_bytes p) in Hb.
  assert (BL : blen (pdf_bytes p) = 16 + blen (layout k)) by (rewrite Hb, blen_app, header_of_length; reflexivity).
  exists (layout k). eexists. eexists. eexists. split; [exact Hb|]. split; [|split; [|split; [|split; [|split; [exact RD|]]]]].
  - rewrite EB. rewrite Hb at 1. rewrite <- !app_assoc. reflexivity.
  - rewrite SX, BL. reflexivity.
  - rewrite <- BL, EB. apply (item_object_at _ _ _ (xid, _)). cbn [fst]. unfold id_ok in HX. lia.
  - rewrite EB, app_assoc. apply tail_ends.
  - destruct (stream_lookup p flt (1 + zmax (xid :: pdf_ids ops)) (field_width (blen (pdf_bytes p))) (blen data)) as (L1 & L2 & _ & _ & L5).
    split; [exact L1|]. split; [exact L2|]. intros key K1 K2. rewrite L5 by exact K2. apply (state_trailer ops pretty p HT HR). exact K1.
Qed.

(** The catalog, info and file id set twice: the last one counts.  The header bytes and the trailer. *)
Example C29_case :
  let ops := [PdfCatalog 1 []; PdfInfo 2 []; PdfFileId (lit "x", lit "y"); PdfVersion 1 4; PdfCatalog 5 []; PdfFileId (lit "p", [])] in
  header_of ops = lit "%PDF-1.4" ++ [x0a] ++ lit "%" ++ [x80; x80; x80; x80; x0a; x0a] /\
  map (trailer_value ops) [lit "Root"; lit "Info"; lit "ID"; lit "Prev"] =
    [Some (VRef 5 0); Some (VRef 2 0); Some (VArr [VStr (lit "p"); VStr []]); None] /\
  option_map (option_map (fun f => option_map snd (read_file no_filter f))) (option_map finish (pdf_run ops pdf_new)) =
  Some (Some (Some [(lit "Size", VInt 6); (lit "Root", VRef 5 0); (lit "Info", VRef 2 0); (lit "ID", VArr [VStr (lit "p"); VStr []])])).
Proof. vm_compute. repeat split. Qed.

(** An object with id [i32::MAX]: the number of entries overflows and Size is wrong (in a debug build this
    panics).  The entries themselves (2^31 of them) are still written. *)
Theorem C29_size_refuted : forall off r, write_offsets [(i32_max, off)] = Some r -> fst r = i32_min.
Proof.
  intros off r H. unfold write_offsets in H. cbn [sort_pairs insert_pair last_id map fst last] in H.
  destruct (offsets_loop 0 _ _) as [es|]; [|discriminate]. cbn [option_map] in H. apply some_inj in H. subst r. cbn [fst].
  vm_compute. reflexivity.
Qed.

(** ** C30 *)

Lemma nth_splice i new s j : (i + length new <= length s)%nat ->
  nth_error (splice i new s) j =
  if (i <=? j)%nat && (j <? i + length new)%nat then nth_error new (j - i) else nth_error s j.
Proof.
  intro H. unfold splice.
  assert (L : length (firstn i s) = i) by (rewrite firstn_length; lia).
  destruct (Nat.leb_spec i j) as [A|A]; cbn [andb].
  - rewrite nth_error_app2 by lia. rewrite L. destruct (Nat.ltb_spec j (i + length new)) as [B|B].
    + apply nth_error_app1. lia.
    + rewrite nth_error_app2 by lia. assert (E : forall n k (t : bytes), nth_error (skipn n t) k = nth_error t (n + k)).
      { induction n as [|n IH]; intros k t; [reflexivity|]. destruct t as [|x t]; [destruct k; reflexivity|]. cbn [skipn plus nth_error]. apply IH. }
      rewrite E. f_equal. lia.
  - rewrite nth_error_app1 by lia. assert (E : forall n k (t : bytes), (k < n)%nat -> nth_error (firstn n t) k = nth_error t k).
    { induction n as [|n IH]; intros k t Hk; [lia|]. destruct t as [|x t]; [destruct k; reflexivity|]. destruct k as [|k]; [reflexivity|].
      cbn [firstn nth_error]. apply IH. lia. }
    apply E. lia.
Qed.

Lemma splice_length i new s : (i + length new <= length s)%nat -> length (splice i new s) = length s.
Proof. intro H. unfold splice. rewrite !app_length, firstn_length, skipn_length. lia. Qed.

Lemma reach_length ops pretty p : ops_typed ops -> pdf_run ops (pdf_with_settings pretty) = Some p ->
  (16 <= length (inner (c_buf (p_chunk p))))%nat.
Proof. intros HT HR. pose proof (reach_len _ _ _ HT HR) as L. unfold pdf_bytes, chunk_bytes, blen in L. lia. Qed.

(** One edit, at any time: only its own bytes change; nothing else does. *)
Theorem C30_set_version_is_local : forall pretty ops p major minor,
  ops_typed ops -> pdf_run ops (pdf_with_settings pretty) = Some p -> 0 <= major < 256 -> 0 <= minor < 256 ->
  let p' := set_version major minor p in
  (forall i, i <> 5%nat -> i <> 7%nat -> nth_error (inner (c_buf (p_chunk p'))) i = nth_error (inner (c_buf (p_chunk p))) i) /\
  nth_error (inner (c_buf (p_chunk p'))) 5 =
    (if major <? 10 then Some (zb (48 + major)) else nth_error (inner (c_buf (p_chunk p))) 5) /\
  nth_error (inner (c_buf (p_chunk p'))) 7 =
    (if minor <? 10 then Some (zb (48 + minor)) else nth_error (inner (c_buf (p_chunk p))) 7) /\
  length (inner (c_buf (p_chunk p'))) = length (inner (c_buf (p_chunk p))) /\
  lims (c_buf (p_chunk p')) = lims (c_buf (p_chunk p)) /\ c_offsets (p_chunk p') = c_offsets (p_chunk p) /\
  c_pretty (p_chunk p') = c_pretty (p_chunk p) /\
  p_catalog p' = p_catalog p /\ p_info p' = p_info p /\ p_file_id p' = p_file_id p.
Proof.
  intros pretty ops p M N HT HR HM HN. pose proof (reach_length _ _ _ HT HR) as L. cbn zeta. unfold set_version.
  set (s := inner (c_buf (p_chunk p))) in *.
  destruct (M <? 10), (N <? 10); cbn [on_chunk splice_buf p_chunk c_buf inner lims c_offsets c_pretty p_catalog p_info p_file_id]; fold s.
  - assert (L1 : length (splice 5 [zb (48 + M)] s) = length s) by (apply splice_length; cbn [length]; lia).
    repeat split.
    + intros i H1 H2. rewrite nth_splice by (cbn [length]; lia). cbn [length].
      destruct (Nat.leb_spec 7 i), (Nat.ltb_spec i (7 + 1)); cbn [andb]; try lia;
        rewrite nth_splice by (cbn [length]; lia); cbn [length]; destruct (Nat.leb_spec 5 i), (Nat.ltb_spec i (5 + 1)); cbn [andb]; try lia; reflexivity.
    + rewrite nth_splice by (cbn [length]; lia). cbn [length Nat.leb Nat.ltb andb]. rewrite nth_splice by (cbn [length]; lia). reflexivity.
    + rewrite nth_splice by (cbn [length]; lia). reflexivity.
    + rewrite splice_length by (cbn [length]; lia). exact L1.
  - repeat split.
    + intros i H1 H2. rewrite nth_splice by (cbn [length]; lia). cbn [length].
      destruct (Nat.leb_spec 5 i), (Nat.ltb_spec i (5 + 1)); cbn [andb]; try lia; reflexivity.
    + rewrite nth_splice by (cbn [length]; lia). reflexivity.
    + rewrite nth_splice by (cbn [length]; lia). reflexivity.
    + apply splice_length; cbn [length]; lia.
  - repeat split.
    + intros i H1 H2. rewrite nth_splice by (cbn [length]; lia). cbn [length].
      destruct (Nat.leb_spec 7 i), (Nat.ltb_spec i (7 + 1)); cbn [andb]; try lia; reflexivity.
    + rewrite nth_splice by (cbn [length]; lia). reflexivity.
    + rewrite nth_splice by (cbn [length]; lia). reflexivity.
    + apply splice_length; cbn [length]; lia.
  - repeat split.
Qed.

Theorem C30_set_binary_marker_is_local : forall pretty ops p a b c d,
  ops_typed ops -> pdf_run ops (pdf_with_settings pretty) = Some p ->
  let p' := set_binary_marker (a, b, c, d) p in
  (forall i, ~ (10 <= i < 14)%nat -> nth_error (inner (c_buf (p_chunk p'))) i = nth_error (inner (c_buf (p_chunk p))) i) /\
  firstn 4 (skipn 10 (inner (c_buf (p_chunk p')))) = [a; b; c; d] /\
  length (inner (c_buf (p_chunk p'))) = length (inner (c_buf (p_chunk p))) /\
  lims (c_buf (p_chunk p')) = lims (c_buf (p_chunk p)) /\ c_offsets (p_chunk p') = c_offsets (p_chunk p) /\
  c_pretty (p_chunk p') = c_pretty (p_chunk p) /\
  p_catalog p' = p_catalog p /\ p_info p' = p_info p /\ p_file_id p' = p_file_id p.
Proof.
  intros pretty ops p a b c d HT HR. pose proof (reach_length _ _ _ HT HR) as L. cbn zeta. unfold set_binary_marker.
  cbn [on_chunk splice_buf p_chunk c_buf inner lims c_offsets c_pretty p_catalog p_info p_file_id].
  set (s := inner (c_buf (p_chunk p))) in *. repeat split.
  - intros i H. rewrite nth_splice by (cbn [length]; lia). cbn [length].
    destruct (Nat.leb_spec 10 i), (Nat.ltb_spec i (10 + 4)); cbn [andb]; try lia; reflexivity.
  - unfold splice. rewrite skipn_app, firstn_length, Nat.min_l by lia. rewrite skipn_all2 by (rewrite firstn_length; lia).
    rewrite Nat.sub_diag. cbn [skipn app]. reflexivity.
  - apply splice_length. cbn [length]. lia.
Qed.

Lemma finish_header p h t : pdf_bytes p = h ++ t -> blen h = 16 -> finish p =
  option_map (app h) (option_map (fun r => t ++ lit "xref" ++ [x0a] ++ lit "0 " ++ dec_i (fst r) ++ [x0a] ++
      flat_map plain_entry (snd r) ++ lit "trailer" ++ [x0a] ++
      out (c_pretty (p_chunk p)) 0 (ODict (trailer_entries p (fst r))) ++ [x0a] ++ tail_bytes (16 + blen t))
    (write_offsets (c_offsets (p_chunk p)))).
Proof.
  intros E L. rewrite finish_form. destruct (write_offsets _) as [r|]; [|reflexivity]. cbn [option_map]. f_equal.
  rewrite E, blen_app, L, <- !app_assoc. reflexivity.
Qed.

Lemma stream_header p h t xid F : pdf_bytes p = h ++ t -> blen h = 16 -> finish_stream_inner p xid F =
  option_map (app h)
  match write_offsets (c_offsets (p_chunk p) ++ [(xid, 16 + blen t)]) with
  | None => None
  | Some (n, es) =>
      let '(data, flt) := F (flat_map (stream_entry (field_width (16 + blen t))) es) in
      if blen data <=? i32_max then
        Some (t ++ item_bytes (c_pretty (p_chunk p)) (c_pretty (p_chunk p)) (xid, BStream (stream_entries p flt n (field_width (16 + blen t))) data) ++ tail_bytes (16 + blen t))
      else None
  end.
Proof.
  intros E L. rewrite finish_stream_form. cbn zeta. rewrite E, blen_app, L.
  destruct (write_offsets _) as [[n es]|]; [|reflexivity]. destruct (F _) as [data flt]. destruct (_ <=? _); [|reflexivity].
  cbn [option_map]. f_equal. rewrite <- !app_assoc. reflexivity.
Qed.

(** Whatever edits are made and whenever: the finished file is the one without the edits, with the header that the
    edits ask for in place of the default one. *)
Theorem C30_edits_only_change_the_header : forall pretty ops, ops_typed ops ->
  let others := List.filter (fun op => negb (header_edit op)) ops in
  match pdf_run ops (pdf_with_settings pretty), pdf_run others (pdf_with_settings pretty) with
  | Some p, Some q =>
      c_offsets (p_chunk p) = c_offsets (p_chunk q) /\
      (exists t, inner (c_buf (p_chunk p)) = header_of ops ++ t /\ inner (c_buf (p_chunk q)) = header_of [] ++ t) /\
      (exists T, finish p = option_map (app (header_of ops)) T /\ finish q = option_map (app (header_of [])) T) /\
      (forall xref_id, exists T, finish_with_xref_stream p xref_id = option_map (app (header_of ops)) T /\
                                 finish_with_xref_stream q xref_id = option_map (app (header_of [])) T) /\
      (forall xref_id filter, exists T,
         finish_with_xref_stream_and_filter p xref_id filter = option_map (app (header_of ops)) T /\
         finish_with_xref_stream_and_filter q xref_id filter = option_map (app (header_of [])) T)
  | None, None => True
  | _, _ => False
  end.
Proof.
  intros pretty ops HT. cbn zeta. change (fun op => negb (header_edit op)) with not_edit.
  pose proof (run_edits pretty ops HT) as R. destruct (items_fit (pdf_items ops)); [|destruct R as [-> ->]; exact I].
  destruct R as (p & q & k & -> & -> & M & Sp & Sq).
  destruct Sp as ((B1 & O1) & P1 & C1 & I1 & F1). destruct Sq as ((B2 & O2) & P2 & C2 & I2 & F2).
  assert (H0 : header_of (List.filter not_edit ops) = header_of []).
  { rewrite !header_of_form. unfold major_of, minor_of, marker_of.
    assert (K : forall A (f : pdf_op -> option A), (forall op, header_edit op = false -> f op = None) -> last_call f (List.filter not_edit ops) = None).
    { intros A f Hf. clear - Hf. induction ops as [|op ops IH] using rev_ind; [reflexivity|]. rewrite filter_app. cbn [List.filter].
      unfold not_edit at 2. destruct (header_edit op) eqn:E; cbn [negb]; [rewrite app_nil_r; exact IH|].
      rewrite last_call_snoc, Hf by exact E. exact IH. }
    rewrite !K; try reflexivity; intros [] X; try reflexivity; discriminate X. }
  assert (EO : c_offsets (p_chunk p) = c_offsets (p_chunk q)) by (rewrite O1, O2, !header_of_length; reflexivity).
  assert (EQ : forall A (f : pdf_op -> option A), (forall op, header_edit op = true -> f op = None) ->
    last_call f (List.filter not_edit ops) = last_call f ops).
  { intros A f Hf. clear - Hf. induction ops as [|op ops IH] using rev_ind; [reflexivity|]. rewrite filter_app. cbn [List.filter].
    rewrite last_call_snoc, <- IH. unfold not_edit at 2. destruct (header_edit op) eqn:E; cbn [negb].
    - rewrite app_nil_r, Hf by exact E. reflexivity.
    - apply last_call_snoc. }
  assert (EC : p_catalog p = p_catalog q) by (rewrite C1, C2; symmetry; apply EQ; intros []; cbn; congruence).
  assert (EI : p_info p = p_info q) by (rewrite I1, I2; symmetry; apply EQ; intros []; cbn; congruence).
  assert (EF : p_file_id p = p_file_id q) by (rewrite F1, F2; symmetry; apply EQ; intros []; cbn; congruence).
  assert (ET : forall n, trailer_entries p n = trailer_entries q n) by (intro n; unfold trailer_entries; rewrite EC, EI, EF; reflexivity).
  rewrite H0 in B2.
  assert (ES : forall xid F, exists T, finish_stream_inner p xid F = option_map (app (header_of ops)) T /\
                                 finish_stream_inner q xid F = option_map (app (header_of [])) T).
  { intros xid F. eexists. split; [apply stream_header; [exact B1|apply header_of_length]|].
    rewrite (stream_header q _ _ xid F B2 (header_of_length [])). rewrite EO, P1, P2. f_equal.
    destruct (write_offsets _) as [[n es]|]; [|reflexivity]. destruct (F _) as [data flt]. unfold stream_entries. rewrite ET. reflexivity. }
  split; [exact EO|]. split; [exists (layout k); split; [exact B1|exact B2]|]. split; [|split].
  - eexists. split; [apply finish_header; [exact B1|apply header_of_length]|].
    rewrite (finish_header q _ _ B2 (header_of_length [])). rewrite EO, P1, P2. f_equal.
    destruct (write_offsets _) as [r|]; [|reflexivity]. cbn [option_map]. rewrite ET. reflexivity.
  - intro xid. apply ES.
  - intros xid filter. apply ES.
Qed.

(** So an edit may be moved past any other call. *)
Theorem C30_edits_commute : forall pretty a b e op, ops_typed (a ++ e :: op :: b) ->
  header_edit e = true -> header_edit op = false ->
  option_map finish (pdf_run (a ++ e :: op :: b) (pdf_with_settings pretty)) =
  option_map finish (pdf_run (a ++ op :: e :: b) (pdf_with_settings pretty)).
Proof.
  intros pretty a b e op HT He Ho.
  assert (HT' : ops_typed (a ++ op :: e :: b)).
  { unfold ops_typed in *. apply Forall_app in HT. destruct HT as [H1 H2]. inversion H2 as [|x y H3 H4]; subst. inversion H4; subst.
    apply Forall_app. split; [exact H1|]. repeat (constructor; [assumption|]). assumption. }
  pose proof (C30_edits_only_change_the_header pretty _ HT) as R1. pose proof (C30_edits_only_change_the_header pretty _ HT') as R2.
  assert (EFI : List.filter (fun op => negb (header_edit op)) (a ++ op :: e :: b) = List.filter (fun op => negb (header_edit op)) (a ++ e :: op :: b)).
  { rewrite !filter_app. cbn [List.filter]. rewrite He, Ho. reflexivity. }
  cbn zeta in R1, R2. rewrite EFI in R2.
  assert (EH : header_of (a ++ op :: e :: b) = header_of (a ++ e :: op :: b)).
  { rewrite !header_of_form. unfold major_of, minor_of, marker_of, last_call. rewrite !fold_left_app. cbn [fold_left].
    destruct op; try discriminate Ho; reflexivity. }
  rewrite EH in R2.
  destruct (pdf_run (a ++ e :: op :: b) _) as [p|], (pdf_run (a ++ op :: e :: b) _) as [p'|], (pdf_run (List.filter _ _) _) as [q|]; try contradiction; try reflexivity.
  cbn [option_map]. f_equal. destruct R1 as (_ & _ & (T & T1 & T2) & _). destruct R2 as (_ & _ & (T' & T1' & T2') & _).
  rewrite T1, T1'. rewrite T2 in T2'. destruct T as [x|], T' as [y|]; cbn [option_map] in *; try congruence.
  apply some_inj in T2'. apply app_inv_head in T2'. subst. reflexivity.
Qed.

(** Versions with two digits are ignored, component by component; the last valid call wins. *)
Example C30_case :
  header_of [PdfVersion 2 0; PdfMarker (x01, x02, x03, x04); PdfVersion 10 3; PdfVersion 1 200] =
    lit "%PDF-1.3" ++ [x0a] ++ lit "%" ++ [x01; x02; x03; x04; x0a; x0a] /\
  option_map (fun p => firstn 16 (inner (c_buf (p_chunk p))))
    (pdf_run [PdfVersion 2 0; PdfObject 1 (OPrim PNull); PdfMarker (x01, x02, x03, x04); PdfVersion 10 3; PdfVersion 1 200] pdf_new) =
  Some (lit "%PDF-1.3" ++ [x0a] ++ lit "%" ++ [x01; x02; x03; x04; x0a; x0a]).
Proof. vm_compute. split; reflexivity. Qed.

Print Assumptions C27_stream_entries.
Print Assumptions C27_every_object_is_found.
Print Assumptions C28_free_list_iff.
Print Assumptions C28_free_list_refuted.
Print Assumptions C29_finish.
Print Assumptions C29_stream.
Print Assumptions C30_edits_only_change_the_header.
Print Assumptions C30_edits_commute.
