(** Proofs: a [Pdf] whose chunk is replaced, taken or swapped. *)

From Coq Require Import ZArith List Lia Bool Permutation ZifyBool.
From Verif Require Import Bytes ModelFloat ModelBuf ModelObject ModelRenumber ModelChunk ModelPdf ModelSwap SpecLex SpecObj SpecMeans
  SpecRenum SpecChunk SpecFile SpecPdf SpecSwap ProofBasic ProofObj ProofParse ProofTree ProofRenum ProofXref ProofRenumTree ProofChunk
  ProofChunkParse ProofChunk2 ProofFile ProofFile2 ProofPdf ProofFile3 ProofFile4 PropChunk PropRenum PropPdf PropPdf2.
Import ListNotations.
Local Open Scope Z_scope.

(** ** What follows from the layout of a document alone *)

Section Facts.
  Context (p : pdf) (l : list Z) (items : list item) (tv : bytes -> option val).
  Hypothesis Hids : ids (c_offsets (p_chunk p)) = l.
  Hypothesis Hok : Forall (fun i => id_ok i = true) l.
  Hypothesis Htr : trailer_ok p.
  Hypothesis Hso : small_offsets p.
  Hypothesis Hit : forall it, In it items -> exists pre st nl post,
    pdf_bytes p = pre ++ item_bytes st nl it ++ post /\ In (fst it, blen pre) (c_offsets (p_chunk p)) /\ body_fits (snd it) = true.
  Hypothesis Htv : forall N key, key <> lit "Size" -> lookup key (dict_vals (trailer_entries p N)) = tv key.

  Lemma fa_small : ids_below l -> ids_small (c_offsets (p_chunk p)).
  Proof using Hids Hok.
    clear Htv Hit Hso Htr. intro HB. unfold ids_small. rewrite Hids. unfold ids_below in HB. rewrite Forall_forall in *. intros i Hi. specialize (Hok i Hi). specialize (HB i Hi). unfold id_ok in Hok. lia.
  Qed.
  Lemma fa_finish : (exists file, finish p = Some file) <-> NoDup l.
  Proof using Hids Hok.
    clear Htv Hit Hso Htr. rewrite finish_form. rewrite <- Hids. split.
    - intros (file & H). destruct (ListDec.NoDup_dec Z.eq_dec (ids (c_offsets (p_chunk p)))) as [ND|ND]; [exact ND|].
      rewrite write_offsets_dup in H by exact ND. discriminate.
    - intro ND. assert (Q : Forall (fun i => 0 < i) (ids (c_offsets (p_chunk p)))).
      { rewrite Hids. eapply Forall_impl; [|exact Hok]. intros i Hi. unfold id_ok in Hi. lia. }
      destruct (write_offsets_spec _ ND Q) as (es & E & _). rewrite E. eexists. reflexivity.
  Qed.
  Lemma fa_document decode file : ids_below l -> finish p = Some file -> blen file <= 10 ^ 10 ->
    (forall it, In it items -> body_readable (snd it) = true -> exists i, resolve decode file (fst it) = Some i /\ item_means it i) /\
    (forall id, ~ In id l -> resolve decode file id = None) /\
    (exists rest, file = pdf_bytes p ++ lit "xref" ++ rest) /\
    exists entries trailer, read_file decode file = Some (entries, trailer) /\ forall key, key <> lit "Size" -> lookup key trailer = tv key.
  Proof using Hids Hok Htr Hso Hit Htv.
    intros HB HF HL. pose proof (fa_small HB) as SM.
    assert (HL' : blen (pdf_bytes p) <= 10 ^ 10).
    { rewrite finish_form in HF. destruct (write_offsets _); [|discriminate]. cbn [option_map] in HF. apply ProofFile3.some_inj in HF.
      rewrite <- HF in HL. eapply Z.le_trans; [apply blen_prefix|exact HL]. }
    destruct (plain_read decode p file HF SM Htr Hso HL') as (es & tail & ND & EL & EF & EB & _ & RD & _). cbn zeta in *.
    split; [|split; [|split]].
    - intros it Hi Hr. destruct (Hit it Hi) as (pre & st & nl & post & E & Ho & Fi).
      unfold resolve. rewrite RD. rewrite (used_entry _ _ es ND SM eq_refl EL EF conv _ _ Ho). cbn [conv].
      rewrite EB, E, <- !app_assoc. destruct (parse_at pre st nl it
        (post ++ lit "xref" ++ [x0a] ++ lit "0 " ++ dec_u (1 + zmax (ids (c_offsets (p_chunk p)))) ++ [x0a] ++ flat_map plain_entry es ++ lit "trailer" ++ tail) Hr Fi) as (r & ->).
      rewrite item_val_id. cbn [fst snd]. rewrite !Z.eqb_refl. cbn [andb]. exists (item_val it). split; [reflexivity|]. apply item_val_means. exact Hr.
    - intros id Hid. unfold resolve. rewrite RD.
      assert (Hid' : ~ In id (ids (c_offsets (p_chunk p)))) by (rewrite Hids; exact Hid).
      destruct (Z_lt_le_dec id 0) as [L1|L1]; [rewrite (outside_entry _ es EL conv) by lia; reflexivity|].
      destruct (Z_lt_le_dec id (1 + zmax (ids (c_offsets (p_chunk p))))) as [L'|L'].
      + destruct (free_entry _ _ es SM eq_refl EL EF conv id ltac:(lia) Hid') as (n & -> & _). reflexivity.
      + rewrite (outside_entry _ es EL conv) by lia. reflexivity.
    - rewrite EB, <- ?app_assoc. eexists. reflexivity.
    - eexists. eexists. split; [exact RD|]. intros key Hk. apply Htv. exact Hk.
  Qed.
  Lemma fa_document_stream decode xid file : 0 < blen (pdf_bytes p) ->
    id_ok xid = true -> ids_below (xid :: l) -> finished_with_stream decode p xid file -> blen file < 2 ^ 64 ->
    (forall it, In it items -> body_readable (snd it) = true -> exists i, resolve decode file (fst it) = Some i /\ item_means it i) /\
    (forall id, id <> xid -> ~ In id l -> resolve decode file id = None) /\
    (exists rest, file = pdf_bytes p ++ rest) /\
    exists entries trailer, read_file decode file = Some (entries, trailer) /\
      forall key, key <> lit "Size" -> ~ In key stream_keys -> lookup key trailer = tv key.
  Proof using Hids Hok Htr Hso Hit Htv.
    intros RL HX HB HF HL. unfold ids_below in HB. apply Forall_cons_iff in HB. destruct HB as [HB0 HB]. pose proof (fa_small HB) as SM0.
    assert (SM : ids_small (with_xref p xid)).
    { unfold ids_small. apply Forall_forall. intros i Hi. apply (Permutation_in _ (with_xref_perm p xid)) in Hi.
      destruct Hi as [<-|Hi]; [unfold id_ok in HX; lia|]. unfold ids_small in SM0. rewrite Forall_forall in SM0. exact (SM0 _ Hi). }
    assert (K : exists F, finish_stream_inner p xid F = Some file /\ (forall data, decode (filter_val (snd (F data))) (fst (F data)) = Some data)).
    { destruct HF as [F1 F2|fl F1 F2].
      - exists (fun buf => (buf, None)). split; [exact F1|exact F2].
      - eexists. split; [exact F1|]. intro data. specialize (F2 data). cbv beta. destruct (fl data) as [a b]. exact F2. }
    destruct K as (F & KF & KD).
    assert (LE : blen (pdf_bytes p) <= blen file).
    { rewrite finish_stream_form in KF. cbn zeta in KF. destruct (write_offsets _) as [[n es]|]; [|discriminate].
      destruct (F _) as [data flt]. destruct (_ <=? _); [|discriminate]. apply ProofFile3.some_inj in KF. rewrite <- KF. apply blen_prefix. }
    destruct (stream_read decode p xid F file KF KD SM Htr ltac:(lia)) as (es & flt & data & ND & EL & EF & EB & ED & DL & RD & SX). cbn zeta in *.
    destruct (field_width_spec (blen (pdf_bytes p)) ltac:(lia)) as [W1 W2]. set (w := field_width (blen (pdf_bytes p))) in *.
    split; [|split; [|split]].
    - intros it Hi Hr. destruct (Hit it Hi) as (pre & st & nl & post & E & Ho & Fi).
      unfold resolve. rewrite RD.
      rewrite (used_entry (with_xref p xid) _ es ND SM eq_refl EL EF (narrow (Z.to_nat w)) (fst it) (blen pre)) by (unfold with_xref; apply in_or_app; left; exact Ho).
      rewrite used_narrow; [|split; [apply blen_nonneg|eapply Z.le_lt_trans; [|exact W2]; rewrite E; apply blen_prefix]|lia].
      rewrite EB, E, <- !app_assoc.
      match goal with |- context [pre ++ item_bytes st nl it ++ ?r] => destruct (parse_at pre st nl it r Hr Fi) as (r' & ->) end.
      rewrite item_val_id. cbn [fst snd]. rewrite !Z.eqb_refl. cbn [andb]. exists (item_val it). split; [reflexivity|]. apply item_val_means. exact Hr.
    - intros id Hx Hid. unfold resolve. rewrite RD.
      assert (Hid' : ~ In id (ids (with_xref p xid))).
      { intro I. apply (Permutation_in _ (with_xref_perm p xid)) in I. destruct I as [I|I]; [apply Hx; symmetry; exact I|]. apply Hid. rewrite <- Hids. exact I. }
      destruct (Z_lt_le_dec id 0) as [L1|L1]; [rewrite (outside_entry _ es EL (narrow (Z.to_nat w))) by lia; reflexivity|].
      destruct (Z_lt_le_dec id (1 + zmax (ids (with_xref p xid)))) as [L'|L'].
      + destruct (free_entry _ _ es SM eq_refl EL EF (narrow (Z.to_nat w)) id ltac:(lia) Hid') as (n & -> & _). reflexivity.
      + rewrite (outside_entry _ es EL (narrow (Z.to_nat w))) by lia. reflexivity.
    - rewrite EB. eexists. reflexivity.
    - eexists. eexists. split; [exact RD|]. intros key K1 K2.
      destruct (stream_lookup p flt (1 + zmax (ids (with_xref p xid))) w (blen data)) as (_ & _ & _ & _ & L5).
      rewrite L5 by exact K2. apply Htv. exact K1.
  Qed.
End Facts.

(** ** Layouts with headers in between *)

(** Headers have no offset. *)
Inductive piece := Head (calls : list pdf_op) | Itm (pl : placed).
Definition piece_bytes (x : piece) : bytes := match x with Head calls => header_of calls | Itm pl => placed_bytes pl end.
Definition pieces_bytes (l : list piece) : bytes := flat_map piece_bytes l.
Fixpoint piece_offs (base : Z) (l : list piece) : list (Z * Z) :=
  match l with
  | [] => []
  | Head calls :: r => piece_offs (base + blen (header_of calls)) r
  | Itm pl :: r => (fst (pl_item pl), base) :: piece_offs (base + blen (placed_bytes pl)) r
  end.
Definition placeds (l : list piece) : list placed := flat_map (fun x => match x with Itm pl => [pl] | Head _ => [] end) l.
Definition lies (l : list piece) (c : chunk) : Prop := chunk_bytes c = pieces_bytes l /\ c_offsets c = piece_offs 0 l.

Lemma pieces_bytes_app a b : pieces_bytes (a ++ b) = pieces_bytes a ++ pieces_bytes b.
Proof. apply flat_map_app. Qed.
Lemma placeds_app a b : placeds (a ++ b) = placeds a ++ placeds b.
Proof. apply flat_map_app. Qed.
Lemma placeds_items k : placeds (map Itm k) = k.
Proof. induction k as [|x k IH]; [reflexivity|]. cbn. f_equal. exact IH. Qed.
Lemma pieces_layout k : pieces_bytes (map Itm k) = layout k.
Proof. induction k as [|x k IH]; [reflexivity|]. cbn [map pieces_bytes flat_map piece_bytes layout]. f_equal. exact IH. Qed.
Lemma piece_offs_items k : forall base, piece_offs base (map Itm k) = offs base k.
Proof. induction k as [|x k IH]; intro base; [reflexivity|]. cbn [map piece_offs offs]. f_equal. apply IH. Qed.
Lemma piece_offs_app a : forall b base, piece_offs base (a ++ b) = piece_offs base a ++ piece_offs (base + blen (pieces_bytes a)) b.
Proof.
  induction a as [|[calls|pl] a IH]; intros b base; cbn [app piece_offs pieces_bytes flat_map piece_bytes].
  - rewrite blen_nil, Z.add_0_r. reflexivity.
  - rewrite IH, blen_app. fold (pieces_bytes a). rewrite Z.add_assoc. reflexivity.
  - rewrite IH, blen_app. fold (pieces_bytes a). rewrite Z.add_assoc. reflexivity.
Qed.
Lemma piece_offs_shift l : forall base k, map (fun e => (fst e, k + snd e)) (piece_offs base l) = piece_offs (k + base) l.
Proof.
  induction l as [|[calls|pl] l IH]; intros base k; cbn [piece_offs map fst snd]; [reflexivity| |]; rewrite IH; [f_equal; lia|]. f_equal. f_equal. lia.
Qed.
Lemma piece_offs_ids l : forall base, map fst (piece_offs base l) = map (fun pl => fst (pl_item pl)) (placeds l).
Proof. induction l as [|[calls|pl] l IH]; intro base; [reflexivity| |]; cbn [piece_offs placeds flat_map app map fst]; rewrite IH; reflexivity. Qed.

Lemma lies_app l k c c' : lies l c -> chunk_bytes c' = chunk_bytes c ++ layout k -> c_offsets c' = c_offsets c ++ offs (chunk_len c) k -> lies (l ++ map Itm k) c'.
Proof.
  intros [B O] B' O'. split; [rewrite B', B, pieces_bytes_app, pieces_layout; reflexivity|].
  rewrite O', O, piece_offs_app, piece_offs_items. unfold chunk_len. rewrite B. reflexivity.
Qed.
Lemma object_lies l c id o : lies l c -> lies (l ++ map Itm [mkPl (c_pretty c) (c_pretty c) (id, BObj o)]) (chunk_object id o c).
Proof.
  intro H. assert (H0 : holds (chunk_bytes c) [] (mkChunk (c_buf c) [] (c_pretty c))) by (split; [symmetry; apply app_nil_r|reflexivity]).
  destruct (object_holds _ _ _ id o H0) as [[B _] _]. apply (lies_app _ _ c); [exact H|exact B|reflexivity].
Qed.
Lemma stream_lies l c id es data c' : lies l c -> chunk_stream id es data c = Some c' -> lies (l ++ map Itm [mkPl (c_pretty c) (c_pretty c) (id, BStream es data)]) c'.
Proof.
  intros H E. assert (H0 : holds (chunk_bytes c) [] (mkChunk (c_buf c) [] (c_pretty c))) by (split; [symmetry; apply app_nil_r|reflexivity]).
  unfold chunk_stream, chunk_indirect in E. destruct (obj_indirect id (c_pretty c) (c_buf c)) as [w b] eqn:I. cbn [c_buf c_offsets c_pretty] in E.
  destruct (write_stream w es data b) as [b'|] eqn:W; [|discriminate]. apply ProofFile3.some_inj in E. subst c'.
  assert (E' : chunk_stream id es data (mkChunk (c_buf c) [] (c_pretty c)) = Some (mkChunk b' [(id, chunk_len c)] (c_pretty c))).
  { unfold chunk_stream, chunk_indirect. cbn [c_buf c_offsets c_pretty]. rewrite I. cbn [c_buf c_offsets c_pretty]. rewrite W. reflexivity. }
  destruct (stream_holds _ _ _ _ _ _ _ H0 E') as [[B _] _]. apply (lies_app _ _ c); [exact H|exact B|reflexivity].
Qed.
Lemma extend_lies a b c o : lies a c -> lies b o -> lies (a ++ b) (chunk_extend o c).
Proof.
  intros [B O] [B' O']. split.
  - unfold chunk_bytes, chunk_extend, extend_buf in *. cbn [c_buf inner]. rewrite B, B', pieces_bytes_app. reflexivity.
  - unfold chunk_extend. cbn [c_offsets]. rewrite O, O', piece_offs_shift, piece_offs_app. f_equal. f_equal. unfold chunk_len. rewrite B. lia.
Qed.

(** ** Renumbering a source with headers in between *)

Lemma rfind_header ops t : memmem_rfind (lit "endobj") t = None -> memmem_rfind (lit "endobj") (header_of ops ++ t) = None.
Proof.
  intro H. rewrite header_of_form. unfold header. destruct (marker_of ops) as [[[a b] c] d]. cbn [app memmem_rfind]. rewrite H.
  change (lit "endobj") with [x65; x6e; x64; x6f; x62; x6a]. cbn [starts_with].
  repeat match goal with |- context [beq ?x ?y && _] => match x with x65 => idtac | x6e => idtac | x64 => idtac | x6f => idtac | x62 => idtac | x6a => idtac end;
    match y with context [zb] => fail 1 | _ => idtac end; change (beq x y) with false end.
  rewrite ?andb_false_r, ?andb_false_l. reflexivity.
Qed.
Lemma rfind_tail (nl : bool) g : memmem_rfind (lit "endobj") g = None -> memmem_rfind (lit "endobj") (lit "endobj" ++ [x0a] ++ (if nl then [x0a] else []) ++ g) = Some 0%nat.
Proof.
  intro H. destruct nl.
  - change (lit "endobj" ++ [x0a] ++ [x0a] ++ g) with (x65 :: x6e :: x64 :: x6f :: x62 :: x6a :: x0a :: x0a :: g). cbn [memmem_rfind]. rewrite H. reflexivity.
  - change (lit "endobj" ++ [x0a] ++ [] ++ g) with (x65 :: x6e :: x64 :: x6f :: x62 :: x6a :: x0a :: g). cbn [memmem_rfind]. rewrite H. reflexivity.
Qed.
Lemma extract_before_headers p nl id bd g :
  0 < id <= i32_max -> firm_first (body_bytes p bd) -> firm_last (body_bytes p bd) -> memmem_rfind (lit "endobj") g = None ->
  extract_object (item_bytes p nl (id, bd) ++ g) = Some (0, body_bytes p bd).
Proof.
  intros Hid Hf Hl Hg. unfold item_bytes. cbn [fst snd]. rewrite <- !app_assoc.
  set (B := body_bytes p bd) in *.
  set (tail := [x0a] ++ lit "endobj" ++ [x0a] ++ (if nl then [x0a] else []) ++ g).
  destruct (parse_dec id Hid) as [Pd [Dd Nd]].
  assert (E1 : dec_i id ++ lit " 0 obj" ++ [x0a] ++ B ++ tail =
               (dec_i id ++ [x20; x30; x20]) ++ lit "obj" ++ [x0a] ++ B ++ tail).
  { rewrite <- !app_assoc. reflexivity. }
  unfold extract_object. rewrite E1. rewrite find_obj.
  2:{ rewrite forallb_app'. rewrite (forallb_impl is_digit); [reflexivity| |exact Dd].
      intros a. destruct a; vm_compute; congruence. }
  rewrite firstn_mid. unfold require_whitespace_rev.
  replace (dec_i id ++ [x20; x30; x20]) with ((dec_i id ++ [x20; x30]) ++ [x20]) at 1 by (rewrite <- app_assoc; reflexivity).
  rewrite eat_suffix_eq; [|reflexivity|apply stops_app; [discriminate|vm_compute; reflexivity]].
  unfold eat_number_rev.
  replace (dec_i id ++ [x20; x30]) with ((dec_i id ++ [x20]) ++ [x30]) at 1 by (rewrite <- app_assoc; reflexivity).
  rewrite eat_suffix_eq; [|reflexivity|apply stops_app; [discriminate|vm_compute; reflexivity]].
  cbn [snd]. change (parse_i32 [x30]) with (Some 0). cbv iota.
  set (h := dec_i id ++ [x20; x30; x20]) in *.
  assert (E2 : skipn (length h + 3) (h ++ lit "obj" ++ [x0a] ++ B ++ tail) = [x0a] ++ B ++ tail).
  { replace (length h + 3)%nat with (length (h ++ lit "obj")) by (rewrite app_length; reflexivity).
    rewrite app_assoc. apply skipn_mid. }
  rewrite E2.
  assert (E3 : lead_len rn_whitespace ([x0a] ++ B ++ tail) = 1%nat).
  { unfold lead_len. rewrite eat_len_app by reflexivity. destruct B as [|c B']; [destruct Hf|].
    cbn [app eat_len]. cbn [firm_first] in Hf. rewrite Hf. reflexivity. }
  rewrite E3.
  assert (E0 : h ++ lit "obj" ++ [x0a] ++ B ++ tail =
     (h ++ lit "obj" ++ [x0a] ++ B ++ [x0a]) ++ (lit "endobj" ++ [x0a] ++ (if nl then [x0a] else []) ++ g))
    by (unfold tail; rewrite <- !app_assoc; reflexivity).
  assert (E4 : memmem_rfind (lit "endobj") (h ++ lit "obj" ++ [x0a] ++ B ++ tail) =
               Some (length (h ++ lit "obj" ++ [x0a] ++ B ++ [x0a]))).
  { rewrite E0. rewrite (rfind_app _ _ _ 0%nat); [f_equal; lia|]. apply rfind_tail. exact Hg. }
  rewrite E4.
  assert (E5 : firstn (length (h ++ lit "obj" ++ [x0a] ++ B ++ [x0a])) (h ++ lit "obj" ++ [x0a] ++ B ++ tail) =
               (h ++ lit "obj" ++ [x0a] ++ B) ++ [x0a]).
  { rewrite E0, firstn_mid. rewrite <- !app_assoc. reflexivity. }
  rewrite E5.
  assert (E6 : eat_len rn_whitespace (rev ((h ++ lit "obj" ++ [x0a] ++ B) ++ [x0a])) = 1%nat).
  { rewrite rev_app_distr. rewrite eat_len_app by reflexivity. rewrite eat_len_stop; [reflexivity|].
    rewrite !app_assoc. unfold stops. assert (HB : B <> []) by (intro E; rewrite E in Hf; exact Hf).
    rewrite last_byte_app_ne by exact HB. unfold firm_last in Hl. destruct (last_byte B); [exact Hl|exact I]. }
  rewrite E6.
  assert (E7 : (length (h ++ lit "obj" ++ [x0a] ++ B ++ [x0a]) - 1)%nat = (length h + 3 + 1 + length B)%nat).
  { rewrite !app_length. cbn [length lit]. change (length (lit "obj")) with 3%nat. lia. }
  rewrite E7. rewrite slice_get_eq; [|lia|rewrite !app_length; cbn [length]; change (length (lit "obj")) with 3%nat; lia].
  f_equal. f_equal.
  replace (length h + 3 + 1)%nat with (length (h ++ lit "obj" ++ [x0a])) by (rewrite !app_length; cbn; lia).
  replace (h ++ lit "obj" ++ [x0a] ++ B ++ tail) with ((h ++ lit "obj" ++ [x0a]) ++ B ++ tail)
    by (rewrite <- !app_assoc; reflexivity).
  rewrite skipn_mid.
  replace (length (h ++ lit "obj" ++ [x0a]) + length B - length (h ++ lit "obj" ++ [x0a]))%nat with (length B) by lia.
  apply firstn_mid.
Qed.

(** The headers before the next object. *)
Fixpoint leading (l : list piece) : bytes := match l with Head calls :: r => header_of calls ++ leading r | _ => [] end.
Fixpoint following (l : list piece) : list piece := match l with Head calls :: r => following r | _ => l end.
Lemma leading_following l : pieces_bytes l = leading l ++ pieces_bytes (following l).
Proof. induction l as [|[calls|pl] l IH]; [reflexivity| |reflexivity]. cbn [pieces_bytes flat_map piece_bytes leading following]. fold (pieces_bytes l). rewrite IH, app_assoc. reflexivity. Qed.
Lemma leading_clean l : memmem_rfind (lit "endobj") (leading l) = None.
Proof. induction l as [|[calls|pl] l IH]; [reflexivity| |reflexivity]. cbn [leading]. apply rfind_header. exact IH. Qed.
Lemma leading_stop l : forall base, match piece_offs base l with [] => base + blen (pieces_bytes l) | (_, o) :: _ => o end = base + blen (leading l).
Proof.
  induction l as [|[calls|pl] l IH]; intro base; cbn [piece_offs leading pieces_bytes flat_map piece_bytes].
  - reflexivity.
  - rewrite !blen_app. fold (pieces_bytes l). specialize (IH (base + blen (header_of calls))). rewrite !Z.add_assoc. exact IH.
  - rewrite blen_nil. lia.
Qed.

Section Mapping.
  Context {T : Type} (f : T -> Z -> Z * T).

  Lemma loop_lies nl l : forall pfx b o s, forallb item_typed (map pl_item (placeds l)) = true ->
    renumber_loop f (pfx ++ pieces_bytes l) (piece_offs (blen pfx) l) nl b o s =
    let '(l', s') := thread (map_placed_st f nl) (placeds l) s in
    Some (put (layout l') (flat_map (fun pl => item_refs (pl_item pl)) l') b, o ++ offs (blen (inner b)) l', s').
  Proof using.
    induction l as [|[calls|pl] l IH]; intros pfx b o s Ht.
    - cbn [piece_offs renumber_loop placeds flat_map thread layout]. rewrite app_nil_r. unfold put. cbn [app note_refs fold_left].
      rewrite app_nil_r. destruct b; reflexivity.
    - cbn [piece_offs placeds flat_map app pieces_bytes piece_bytes]. fold (placeds l). fold (pieces_bytes l).
      replace (pfx ++ header_of calls ++ pieces_bytes l) with ((pfx ++ header_of calls) ++ pieces_bytes l) by (rewrite <- app_assoc; reflexivity).
      rewrite <- blen_app. apply IH. exact Ht.
    - cbn [placeds flat_map app map forallb] in Ht. fold (placeds l) in Ht. apply andb_true_iff in Ht. destruct Ht as [T1 T2].
      destruct pl as [st nl0 [id bd]]. cbn [pl_item] in T1. unfold item_typed, id_ok in T1. cbn [fst snd] in T1.
      apply andb_true_iff in T1. destruct T1 as [Ti Tb]. apply andb_true_iff in Ti. destruct Ti as [Ti1 Ti2].
      apply Z.ltb_lt in Ti1. apply Z.leb_le in Ti2.
      change (placeds (Itm (mkPl st nl0 (id, bd)) :: l)) with (mkPl st nl0 (id, bd) :: placeds l).
      rewrite thread_cons. unfold map_placed_st at 1, map_item_st. cbn [pl_item fst snd pl_style].
      cbn [piece_offs renumber_loop pl_item fst].
      destruct (f s id) as [new s1].
      set (it := mkPl st nl0 (id, bd)).
      assert (Hstop : Z.to_nat (match piece_offs (blen pfx + blen (placed_bytes it)) l with
                [] => blen (pfx ++ pieces_bytes (Itm it :: l)) | (_, o0) :: _ => o0 end) = (length pfx + length (placed_bytes it ++ leading l))%nat).
      { pose proof (leading_stop l (blen pfx + blen (placed_bytes it))) as Q.
        replace (blen (pfx ++ pieces_bytes (Itm it :: l))) with (blen pfx + blen (placed_bytes it) + blen (pieces_bytes l))
          by (cbn [pieces_bytes flat_map piece_bytes]; rewrite !blen_app; unfold pieces_bytes; lia).
        rewrite Q, app_length. unfold blen. lia. }
      rewrite Hstop. replace (Z.to_nat (blen pfx)) with (length pfx) by (unfold blen; lia).
      cbn [pieces_bytes flat_map piece_bytes]. fold (pieces_bytes l).
      assert (Es : pfx ++ placed_bytes it ++ pieces_bytes l = pfx ++ (placed_bytes it ++ leading l) ++ pieces_bytes (following l))
        by (rewrite leading_following, <- !app_assoc; reflexivity).
      rewrite Es at 1. rewrite (slice_head (fun (t : unit) z => (z, t))).
      unfold placed_bytes at 1, it at 1 2 3. cbn [pl_style pl_nl pl_item].
      destruct (body_firm st bd Tb) as [F1 F2].
      rewrite (extract_before_headers st nl0 id bd (leading l) (conj Ti1 Ti2) F1 F2 (leading_clean l)).
      rewrite (patch_body f st bd _ s1 Tb).
      destruct (map_body_st f bd s1) as [bd' s2].
      set (pl' := mkPl st nl (new, bd')).
      set (pfx' := pfx ++ placed_bytes it).
      replace (pfx ++ placed_bytes it ++ pieces_bytes l) with (pfx' ++ pieces_bytes l)
        by (unfold pfx'; rewrite <- app_assoc; reflexivity).
      replace (blen pfx + blen (placed_bytes it)) with (blen pfx') by (unfold pfx'; rewrite blen_app; reflexivity).
      match goal with |- renumber_loop f _ _ nl ?BB _ _ = _ => assert (HBB : BB = put (placed_bytes pl') (item_refs (pl_item pl')) b) end.
      { unfold put, push, push_int, extend, with_limits, item_refs, pl', placed_bytes, item_bytes.
        destruct nl; cbn [inner lims pl_item pl_style pl_nl fst snd note_refs fold_left]; f_equal;
          rewrite <- ?app_assoc, ?app_nil_r; reflexivity. }
      rewrite HBB. rewrite IH by exact T2.
      destruct (thread (map_placed_st f nl) (placeds l) s2) as [l' s3].
      f_equal. f_equal. f_equal.
      + rewrite put_put. reflexivity.
      + rewrite <- app_assoc. cbn [app offs pl_item fst]. f_equal. f_equal. f_equal.
        unfold put. cbn [inner]. rewrite blen_app. reflexivity.
  Qed.
  Lemma renumber_lies a b src tgt s : lies a src -> lies b tgt -> forallb item_typed (map pl_item (placeds a)) = true ->
    exists c' s' k, chunk_renumber_into f src tgt s = Some (c', s') /\ lies (b ++ map Itm k) c' /\ map pl_item k = fst (thread (map_item_st f) (map pl_item (placeds a)) s).
  Proof using.
    intros [B O] [B' O'] Ht. unfold chunk_renumber_into. rewrite B, O.
    pose proof (loop_lies (c_pretty tgt) a [] (with_limits (fun m => merge m (chunk_limits src)) (c_buf tgt)) (c_offsets tgt) s Ht) as Q. cbn [app] in Q. rewrite blen_nil in Q. rewrite Q.
    destruct (thread_placed f (c_pretty tgt) (placeds a) s) as [P1 P2].
    destruct (thread (map_placed_st f (c_pretty tgt)) (placeds a) s) as [l' s']. cbn [fst] in P1.
    eexists. exists s', l'. split; [reflexivity|]. split; [|exact P1].
    apply (lies_app b l' tgt); [split; assumption| |].
    - unfold chunk_bytes, put. cbn [c_buf inner]. rewrite inner_with. reflexivity.
    - cbn [c_offsets]. f_equal.
  Qed.
End Mapping.

(** ** The header *)

Lemma splice_lead i new pfx pfx' r : (forall t, splice i new (pfx ++ t) = pfx' ++ t) -> splice i new (pfx ++ r) = pfx' ++ r.
Proof. intro H. apply H. Qed.
Lemma version_bytes calls M N p r : chunk_bytes (p_chunk p) = header_of calls ++ r ->
  chunk_bytes (p_chunk (set_version M N p)) = header_of (calls ++ [PdfVersion M N]) ++ r /\ c_offsets (p_chunk (set_version M N p)) = c_offsets (p_chunk p) /\
  p_catalog (set_version M N p) = p_catalog p /\ p_info (set_version M N p) = p_info p /\ p_file_id (set_version M N p) = p_file_id p.
Proof.
  intro H. rewrite <- !hdr_edits in *. unfold edits in *. rewrite fold_left_app. cbn [fold_left].
  destruct (fold_left _ calls hdr0) as [[ma mi] m]. cbn [edit hdr] in *. unfold set_version.
  destruct m as [[[a b] c] d]. unfold chunk_bytes in *.
  destruct (M <? 10), (N <? 10); cbn [on_chunk p_chunk p_catalog p_info p_file_id splice_buf c_buf inner c_offsets]; rewrite ?H; (split; [reflexivity|repeat split]).
Qed.
Lemma marker_bytes calls m p r : chunk_bytes (p_chunk p) = header_of calls ++ r ->
  chunk_bytes (p_chunk (set_binary_marker m p)) = header_of (calls ++ [PdfMarker m]) ++ r /\ c_offsets (p_chunk (set_binary_marker m p)) = c_offsets (p_chunk p) /\
  p_catalog (set_binary_marker m p) = p_catalog p /\ p_info (set_binary_marker m p) = p_info p /\ p_file_id (set_binary_marker m p) = p_file_id p.
Proof.
  intro H. rewrite <- !hdr_edits in *. unfold edits in *. rewrite fold_left_app. cbn [fold_left].
  destruct (fold_left _ calls hdr0) as [[ma mi] m0]. cbn [edit hdr] in *. unfold set_binary_marker.
  destruct m as [[[a b] c] d], m0 as [[[a0 b0] c0] d0]. unfold chunk_bytes in *.
  cbn [on_chunk p_chunk p_catalog p_info p_file_id splice_buf c_buf inner c_offsets]; rewrite ?H; (split; [reflexivity|repeat split]).
Qed.

(** ** Histories *)

Definition starts (s : option (list pdf_op)) (l : list piece) : Prop :=
  match s with
  | Some calls => exists r, l = Head calls :: r
  | None => match l with Head _ :: _ => False | _ => True end
  end.
Lemma starts_snoc s l k : starts s l -> starts s (l ++ map Itm k).
Proof.
  destruct s as [calls|]; cbn [starts].
  - intros (r & ->). exists (r ++ map Itm k). reflexivity.
  - destruct l as [|[c|pl] l]; [|intros []|intros _; exact I]. intros _. destruct k; exact I.
Qed.

Definition chunk_is (h : swap_hist) (c : chunk) : Prop :=
  exists l, lies l c /\ map pl_item (placeds l) = objects_of h /\ forallb item_typed (objects_of h) = true /\ items_fit (objects_of h) = true /\ starts (header_at h) l.
Definition pdf_is (d : swap_pdf) (p : pdf) : Prop :=
  (exists l, lies l (p_chunk p) /\ map pl_item (placeds l) = objects_in d /\ forallb item_typed (objects_in d) = true /\ items_fit (objects_in d) = true /\ starts (header_in d) l) /\
  p_catalog p = catalog_of (trailer_calls d) /\ p_info p = info_of (trailer_calls d) /\ p_file_id p = file_id_of (trailer_calls d).

Scheme swap_hist_mind := Induction for swap_hist Sort Prop with swap_pdf_mind := Induction for swap_pdf Sort Prop.
Combined Scheme swap_ind from swap_hist_mind, swap_pdf_mind.

Lemma forallb_snoc {A} (f : A -> bool) l x : forallb f l = true -> f x = true -> forallb f (l ++ [x]) = true.
Proof. intros H K. rewrite forallb_app', H. cbn [forallb]. rewrite K. reflexivity. Qed.
Lemma fit_snoc l x : items_fit l = true -> body_fits (snd x) = true -> items_fit (l ++ [x]) = true.
Proof. intros H K. rewrite items_fit_app, H, items_fit_one. exact K. Qed.

Lemma swap_spec :
  (forall h, swap_typed h -> careful h -> if items_fit (ever_written h) then exists c, swap_run h = Some c /\ chunk_is h c else swap_run h = None) /\
  (forall d, swap_pdf_typed d -> careful_pdf d -> if items_fit (ever_written_in d) then exists p, swap_pdf_run d = Some p /\ pdf_is d p else swap_pdf_run d = None).
Proof.
  apply swap_ind.
  - (* new *) intros pretty _ _. exists (chunk_with_settings pretty). split; [reflexivity|]. exists []. repeat split.
  - (* object *) intros h IH id o [T1 T2] Ca. cbn [ever_written swap_run careful] in *. specialize (IH T1 Ca). rewrite items_fit_app.
    destruct (items_fit (ever_written h)); [|cbn [andb]; rewrite IH; reflexivity]. destruct IH as (c & R & l & L & M & Ty & Fi & St). rewrite R.
    rewrite items_fit_one. cbn [andb snd body_fits option_map]. eexists. split; [reflexivity|]. eexists. split; [apply object_lies; exact L|]. cbn [objects_of header_at].
    rewrite placeds_app, placeds_items, map_app, M. split; [reflexivity|]. split; [apply forallb_snoc; assumption|]. split; [apply fit_snoc; [exact Fi|reflexivity]|apply starts_snoc; exact St].
  - (* stream *) intros h IH id es data [T1 T2] Ca. cbn [ever_written swap_run careful] in *. specialize (IH T1 Ca). rewrite items_fit_app.
    destruct (items_fit (ever_written h)); [|cbn [andb]; rewrite IH; reflexivity]. destruct IH as (c & R & l & L & M & Ty & Fi & St). rewrite R.
    rewrite items_fit_one. cbn [andb snd body_fits]. pose proof (stream_some_iff id es data c) as Q. destruct (Z.leb_spec (blen data) i32_max) as [Le|Gt].
    + destruct (chunk_stream id es data c) as [c'|] eqn:E; [|exfalso; apply (proj2 Q Le); reflexivity].
      eexists. split; [reflexivity|]. eexists. split; [eapply stream_lies; [exact L|exact E]|]. cbn [objects_of header_at].
      rewrite placeds_app, placeds_items, map_app, M. split; [reflexivity|]. split; [apply forallb_snoc; assumption|]. split; [apply fit_snoc; [exact Fi|apply Z.leb_le; exact Le]|apply starts_snoc; exact St].
    + destruct (chunk_stream id es data c) as [c'|] eqn:E; [|reflexivity]. exfalso. assert (blen data <= i32_max) by (apply Q; discriminate). lia.
  - (* extend *) intros h IH o IHo [T1 T2] [C1 C2]. cbn [ever_written swap_run] in *. specialize (IH T1 C1). specialize (IHo T2 C2). rewrite items_fit_app.
    destruct (items_fit (ever_written h)); [|cbn [andb]; rewrite IH; reflexivity]. destruct IH as (c & R & l & L & M & Ty & Fi & St). rewrite R. cbn [andb].
    destruct (items_fit (ever_written o)); [|rewrite IHo; reflexivity]. destruct IHo as (c2 & R2 & l2 & L2 & M2 & Ty2 & Fi2 & St2). rewrite R2.
    eexists. split; [reflexivity|]. exists (l ++ l2). split; [apply extend_lies; assumption|]. cbn [objects_of header_at].
    rewrite placeds_app, map_app, M, M2. split; [reflexivity|]. split; [rewrite forallb_app', Ty, Ty2; reflexivity|]. split; [rewrite items_fit_app, Fi, Fi2; reflexivity|].
    destruct (header_at h) as [calls|].
    + destruct St as (r & ->). exists (r ++ l2). reflexivity.
    + destruct l as [|[calls|pl] l]; [|destruct St|].
      * cbn in M. rewrite <- M. exact St2.
      * cbn in M. rewrite <- M. exact I.
  - (* merge *) intros h IH lm T1 Ca. cbn [ever_written swap_run swap_typed careful] in *. specialize (IH T1 Ca). destruct (items_fit (ever_written h)); [|rewrite IH; reflexivity].
    destruct IH as (c & R & l & L & X). rewrite R. eexists. split; [reflexivity|]. exists l. split; [exact L|exact X].
  - (* renumber *) intros t IH src IHs T f s (T1 & T2 & Hf) [C1 C2]. cbn [ever_written swap_run] in *. specialize (IH T1 C1). specialize (IHs T2 C2). rewrite items_fit_app.
    destruct (items_fit (ever_written t)); [|cbn [andb]; rewrite IH; reflexivity]. destruct IH as (c & R & l & L & M & Ty & Fi & St). rewrite R. cbn [andb].
    destruct (items_fit (ever_written src)); [|rewrite IHs; reflexivity]. destruct IHs as (c2 & R2 & l2 & L2 & M2 & Ty2 & Fi2 & St2). rewrite R2.
    assert (Ty3 : forallb item_typed (map pl_item (placeds l2)) = true) by (rewrite M2; exact Ty2).
    destruct (renumber_lies f l2 l c2 c s L2 L Ty3) as (c' & s' & k & E & L' & M'). rewrite E.
    eexists. split; [reflexivity|]. eexists. split; [exact L'|]. cbn [objects_of header_at].
    rewrite placeds_app, placeds_items, map_app, M, M', M2. split; [reflexivity|].
    split; [rewrite forallb_app', Ty; apply map_items_typed; assumption|]. split; [rewrite items_fit_app, Fi, map_items_fit; exact Fi2|apply starts_snoc; exact St].
  - (* taken *) intros d IH Ty Ca. cbn [ever_written swap_run swap_typed careful] in *. specialize (IH Ty Ca). destruct (items_fit (ever_written_in d)); [|rewrite IH; reflexivity].
    destruct IH as (p & R & X & _). rewrite R. eexists. split; [reflexivity|]. exact X.
  - (* new pdf *) intros pretty _ _. exists (pdf_with_settings pretty). split; [reflexivity|]. split; [|repeat split]. exists [Head []]. split; [split; reflexivity|].
    split; [reflexivity|]. split; [reflexivity|]. split; [reflexivity|]. exists []. reflexivity.
  - (* replace *) intros d IH h IHh [T1 T2] [C1 C2]. cbn [ever_written_in swap_pdf_run] in *. specialize (IH T1 C1). specialize (IHh T2 C2). rewrite items_fit_app.
    destruct (items_fit (ever_written_in d)); [|cbn [andb]; rewrite IH; reflexivity]. destruct IH as (p & R & _ & X). rewrite R. cbn [andb].
    destruct (items_fit (ever_written h)); [|rewrite IHh; reflexivity]. destruct IHh as (c & R2 & Y). rewrite R2.
    eexists. split; [reflexivity|]. split; [exact Y|exact X].
  - (* catalog *) intros d IH id es (T1 & T2) Ca. cbn [ever_written_in swap_pdf_run careful_pdf] in *. specialize (IH T1 Ca). rewrite items_fit_app.
    destruct (items_fit (ever_written_in d)); [|cbn [andb]; rewrite IH; reflexivity]. destruct IH as (p & R & (l & L & M & Ty & Fi & St) & C & I & X). rewrite R.
    rewrite items_fit_one. cbn [andb snd body_fits option_map]. eexists. split; [reflexivity|]. split.
    + eexists. split; [unfold pdf_catalog; cbn [on_chunk p_chunk]; apply object_lies; exact L|]. cbn [objects_in header_in].
      rewrite placeds_app, placeds_items, map_app, M. split; [reflexivity|]. split; [apply forallb_snoc; [exact Ty|]; unfold item_typed; cbn [fst snd body_typed]; destruct T2 as [-> Q]; exact Q|].
      split; [apply fit_snoc; [exact Fi|reflexivity]|apply starts_snoc; exact St].
    + cbn [trailer_calls pdf_catalog on_chunk p_catalog p_info p_file_id]. unfold catalog_of, info_of, file_id_of in *. rewrite !last_call_snoc. split; [reflexivity|]. split; assumption.
  - (* info *) intros d IH id es (T1 & T2) Ca. cbn [ever_written_in swap_pdf_run careful_pdf] in *. specialize (IH T1 Ca). rewrite items_fit_app.
    destruct (items_fit (ever_written_in d)); [|cbn [andb]; rewrite IH; reflexivity]. destruct IH as (p & R & (l & L & M & Ty & Fi & St) & C & I & X). rewrite R.
    rewrite items_fit_one. cbn [andb snd body_fits option_map]. eexists. split; [reflexivity|]. split.
    + eexists. split; [unfold pdf_info; cbn [on_chunk p_chunk]; apply object_lies; exact L|]. cbn [objects_in header_in].
      rewrite placeds_app, placeds_items, map_app, M. split; [reflexivity|]. split; [apply forallb_snoc; [exact Ty|]; unfold item_typed; cbn [fst snd body_typed]; destruct T2 as [-> Q]; exact Q|].
      split; [apply fit_snoc; [exact Fi|reflexivity]|apply starts_snoc; exact St].
    + cbn [trailer_calls pdf_info on_chunk p_catalog p_info p_file_id]. unfold catalog_of, info_of, file_id_of in *. rewrite !last_call_snoc. split; [exact C|]. split; [reflexivity|exact X].
  - (* file id *) intros d IH x T1 Ca. cbn [ever_written_in swap_pdf_run swap_pdf_typed careful_pdf] in *. specialize (IH T1 Ca). destruct (items_fit (ever_written_in d)); [|rewrite IH; reflexivity].
    destruct IH as (p & R & L & C & I & X). rewrite R. eexists. split; [reflexivity|]. split; [exact L|].
    cbn [trailer_calls set_file_id p_catalog p_info p_file_id]. unfold catalog_of, info_of, file_id_of in *. rewrite !last_call_snoc. split; [exact C|]. split; [exact I|reflexivity].
  - (* version *) intros d IH M N (T1 & T2) (Ca & Hh). cbn [ever_written_in swap_pdf_run] in *. specialize (IH T1 Ca). destruct (items_fit (ever_written_in d)); [|rewrite IH; reflexivity].
    destruct IH as (p & R & (l & [B O] & Mm & Ty & Fi & St) & C & I & X). rewrite R. cbn [objects_in header_in trailer_calls] in *.
    destruct (header_in d) as [calls|] eqn:Eh; [|destruct (Hh eq_refl)]. destruct St as (r & ->). cbn [pieces_bytes flat_map piece_bytes] in B. fold (pieces_bytes r) in B.
    destruct (version_bytes calls M N p _ B) as (B' & O' & C' & I' & X'). exists (set_version M N p). split.
    + unfold checked_version, reaches, chunk_len. rewrite B, blen_app, header_of_length. pose proof (blen_nonneg (pieces_bytes r)).
      destruct (Z.leb_spec 6 (16 + blen (pieces_bytes r))); [|lia]. destruct (Z.leb_spec 8 (16 + blen (pieces_bytes r))); [|lia]. rewrite !orb_true_r. reflexivity.
    + split.
      * exists (Head (calls ++ [PdfVersion M N]) :: r). cbn [objects_in header_in option_map]. rewrite Eh. split; [|split; [exact Mm|split; [exact Ty|split; [exact Fi|exists r; reflexivity]]]].
        split; [exact B'|]. rewrite O', O. cbn [piece_offs]. rewrite !header_of_length. reflexivity.
      * cbn [trailer_calls]. rewrite C', I', X'. split; [exact C|split; [exact I|exact X]].
  - (* marker *) intros d IH m T1 (Ca & Hh). cbn [ever_written_in swap_pdf_run swap_pdf_typed] in *. specialize (IH T1 Ca). destruct (items_fit (ever_written_in d)); [|rewrite IH; reflexivity].
    destruct IH as (p & R & (l & [B O] & Mm & Ty & Fi & St) & C & I & X). rewrite R. cbn [objects_in header_in trailer_calls] in *.
    destruct (header_in d) as [calls|] eqn:Eh; [|destruct (Hh eq_refl)]. destruct St as (r & ->). cbn [pieces_bytes flat_map piece_bytes] in B. fold (pieces_bytes r) in B.
    destruct (marker_bytes calls m p _ B) as (B' & O' & C' & I' & X'). exists (set_binary_marker m p). split.
    + unfold checked_marker, reaches, chunk_len. rewrite B, blen_app, header_of_length. pose proof (blen_nonneg (pieces_bytes r)).
      destruct (Z.leb_spec 14 (16 + blen (pieces_bytes r))); [|lia]. reflexivity.
    + split.
      * exists (Head (calls ++ [PdfMarker m]) :: r). cbn [objects_in header_in option_map]. rewrite Eh. split; [|split; [exact Mm|split; [exact Ty|split; [exact Fi|exists r; reflexivity]]]].
        split; [exact B'|]. rewrite O', O. cbn [piece_offs]. rewrite !header_of_length. reflexivity.
      * cbn [trailer_calls]. rewrite C', I', X'. split; [exact C|split; [exact I|exact X]].
Qed.
