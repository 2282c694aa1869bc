(** Proofs: the finished file as bytes; its entries; the free list; cross-reference streams. *)

From Coq Require Import ZArith List Lia Bool Permutation Sorted ZifyBool.
From Verif Require Import Bytes ModelFloat ModelBuf ModelObject ModelRenumber ModelChunk ModelPdf SpecLex SpecObj SpecMeans
  SpecChunk SpecFile ProofBasic ProofObj ProofParse ProofTree ProofRenum ProofXref ProofChunk ProofChunkParse ProofFile.
Import ListNotations.
Local Open Scope Z_scope.

(** ** Looking up entries *)

Definition table (es : list xref_entry) : list (Z * xentry) := combine (zrange 0 (length es)) (map conv es).

Lemma find_combine P (g : xref_entry -> xentry) : forall n a es, Forall2 P (zrange a n) es ->
  forall i, a <= i < a + Z.of_nat n ->
  exists e, find_entry i (combine (zrange a n) (map g es)) = Some (g e) /\ P i e.
Proof.
  induction n as [|n IH]; intros a es H i Hi; [lia|].
  cbn [zrange] in H. inversion H as [|x e y es' He Hes]; subst. cbn [zrange map combine find_entry].
  destruct (Z.eqb_spec a i) as [->|Ne]; [exists e; split; [reflexivity|exact He]|].
  apply IH; [exact Hes|lia].
Qed.

Lemma find_combine_none (g : xref_entry -> xentry) : forall n a es i, ~ (a <= i < a + Z.of_nat n) ->
  find_entry i (combine (zrange a n) (map g es)) = None.
Proof.
  induction n as [|n IH]; intros a es i Hi; [reflexivity|]. destruct es as [|e es]; [reflexivity|].
  cbn [zrange map combine find_entry]. destruct (Z.eqb_spec a i); [lia|]. apply IH. lia.
Qed.

Lemma combine_ids {B} : forall n a (l : list B), length l = n -> map fst (combine (zrange a n) l) = zrange a n.
Proof.
  induction n as [|n IH]; intros a l H; [reflexivity|]. destruct l as [|b l]; [discriminate|].
  cbn [zrange combine map fst]. f_equal. apply IH. cbn in H. lia.
Qed.

Lemma forall2_len {A B} (P : A -> B -> Prop) l m : Forall2 P l m -> length l = length m.
Proof. induction 1; cbn; congruence. Qed.

(** ** The free list *)

Definition unused (used : list Z) (a : Z) (n : nat) : list Z := List.filter (fun i => negb (zmem i used)) (zrange a n).

Lemma zmem_spec i l : zmem i l = true <-> In i l.
Proof.
  unfold zmem. rewrite existsb_exists. split.
  - intros (x & H & E). apply Z.eqb_eq in E. subst. exact H.
  - intro H. exists i. split; [exact H|apply Z.eqb_refl].
Qed.

Lemma unused_none used n : forall a, (forall j, a <= j < a + Z.of_nat n -> In j used) -> unused used a n = [].
Proof.
  induction n as [|n IH]; intros a H; [reflexivity|]. unfold unused. cbn [zrange List.filter].
  assert (E : zmem a used = true) by (apply zmem_spec, H; lia). rewrite E. cbn [negb]. apply IH. intros j Hj. apply H. lia.
Qed.

Lemma unused_split used a n m : ~ In n used -> (forall j, a <= j < n -> In j used) -> a <= n ->
  n < a + Z.of_nat m ->
  unused used a m = n :: unused used (n + 1) (Z.to_nat (a + Z.of_nat m - n - 1)).
Proof.
  intros Hn Hu Han Hm. unfold unused.
  replace m with (Z.to_nat (n - a) + S (Z.to_nat (a + Z.of_nat m - n - 1)))%nat at 1 by lia.
  rewrite zrange_app, filter_app. replace (a + Z.of_nat (Z.to_nat (n - a))) with n by lia.
  fold (unused used a (Z.to_nat (n - a))). rewrite unused_none by (intros j Hj; apply Hu; lia).
  cbn [zrange List.filter app]. destruct (zmem n used) eqn:E; [apply zmem_spec in E; contradiction|]. reflexivity.
Qed.

Lemma walk_spec used N (P : Z -> xentry -> Prop) L :
  0 < N ->
  (forall i, 0 <= i < N -> ~ In i used -> exists n g, find_entry i L = Some (XFree (Z.rem n N) g) /\ next_unused used i n /\ n <= N) ->
  forall fuel i, 0 <= i < N -> ~ In i used -> N - i <= Z.of_nat fuel ->
  walk fuel L i = Some (unused used (i + 1) (Z.to_nat (N - 1 - i))).
Proof.
  intros HN HL. induction fuel as [|fuel IH]; intros i Hi Hu Hf; [lia|].
  cbn [walk]. destruct (HL i Hi Hu) as (n & g & -> & (H1 & H2 & H3) & H4).
  destruct (Z.eq_dec n N) as [->|Ne].
  - rewrite Z.rem_same by lia. rewrite Z.eqb_refl. rewrite unused_none; [reflexivity|]. intros j Hj. apply H3. lia.
  - rewrite Z.rem_small by lia. destruct (Z.eqb_spec n 0); [lia|].
    rewrite IH by (assumption || lia). cbn [option_map]. f_equal.
    rewrite (unused_split used (i + 1) n) by (assumption || lia || (intros j Hj; apply H3; lia)).
    f_equal. f_equal. lia.
Qed.

(** ** [write_offsets] without overflow *)

Lemma wrap_small z : 0 <= z <= i32_max -> wrap_i32 z = z.
Proof. unfold wrap_i32, i32_max. intro H. rewrite Z.mod_small by lia. destruct (Z.ltb_spec z 2147483648); lia. Qed.

Lemma xref_entries l : NoDup (ids l) -> ids_small l ->
  let N := 1 + zmax (ids l) in
  exists es, write_offsets l = Some (N, es) /\ 0 < N <= i32_max /\ Z.of_nat (length es) = N /\
    Forall2 (entry_ok (sort_pairs l) N) (zrange 0 (length es)) es.
Proof.
  intros N S. cbn zeta. unfold ids_small in S. rewrite Forall_forall in S.
  pose proof (zmax_nonneg (ids l)) as Z0.
  assert (ZM : 1 + zmax (ids l) <= i32_max).
  { destruct (ids l) as [|a m] eqn:E; [cbn; lia|]. assert (I : In (zmax (a :: m)) (a :: m)).
    { apply zmax_in; [discriminate|]. intros i Hi. specialize (S _ Hi). lia. }
    specialize (S _ I). lia. }
  destruct (write_offsets_spec l N) as (es & H1 & H2).
  { apply Forall_forall. intros i Hi. specialize (S _ Hi). lia. }
  rewrite wrap_small in * by lia. exists es. split; [exact H1|]. split; [lia|].
  pose proof (forall2_len _ _ _ H2) as L. rewrite zrange_length in L. rewrite <- L. split; [lia|exact H2].
Qed.

(** Entries in terms of the unsorted list. *)
Lemma in_sorted l x : In x (sort_pairs l) <-> In x l.
Proof.
  split; apply Permutation_in; [apply Permutation_sym|]; apply sort_perm.
Qed.
Lemma in_sorted_ids l i : In i (ids (sort_pairs l)) <-> In i (ids l).
Proof. split; apply Permutation_in; [apply Permutation_sym|]; apply ids_perm, sort_perm. Qed.

Lemma in_nodup l i a b : NoDup (ids l) -> In (i, a) l -> In (i, b) l -> a = b.
Proof.
  induction l as [|[j c] l IH]; intros N; [intros []|]. cbn [ids map fst] in N. inversion N as [|x y N1 N2]; subst.
  assert (K : forall d, In (j, d) l -> False) by (intros d Hd; apply N1; apply (in_map fst) in Hd; exact Hd).
  intros [E1|E1] [E2|E2].
  - congruence.
  - injection E1 as -> ->. destruct (K _ E2).
  - injection E2 as -> ->. destruct (K _ E1).
  - apply IH; assumption.
Qed.

Section Entries.
  Context (l : list (Z * Z)) (N : Z) (es : list xref_entry).
  Hypothesis ND : NoDup (ids l).
  Hypothesis SM : ids_small l.
  Hypothesis EN : N = 1 + zmax (ids l).
  Hypothesis EL : Z.of_nat (length es) = N.
  Hypothesis EF : Forall2 (entry_ok (sort_pairs l) N) (zrange 0 (length es)) es.
  Context (g : xref_entry -> xentry).
  Let T := combine (zrange 0 (length es)) (map g es).

  Lemma used_entry id off : In (id, off) l -> find_entry id T = Some (g (Used off 0)).
  Proof.
    intro H. assert (I : In id (ids l)) by (apply (in_map fst) in H; exact H).
    pose proof (zmax_ge _ _ I). assert (S : 0 < id) by (unfold ids_small in SM; rewrite Forall_forall in SM; specialize (SM _ I); lia).
    destruct (find_combine _ g _ _ _ EF id) as (e & E & O); [lia|]. unfold T. rewrite E. f_equal. f_equal.
    destruct e as [n q|o q]; cbn [entry_ok] in O.
    - destruct O as [O _]. exfalso. apply O, in_sorted_ids. exact I.
    - destruct O as [O ->]. f_equal. apply (in_nodup l id); [exact ND| |exact H]. apply in_sorted. exact O.
  Qed.

  Lemma free_entry id : 0 <= id < N -> ~ In id (ids l) -> exists n,
    find_entry id T = Some (g (Free (Z.rem n N) (if id =? 0 then 65535 else 0))) /\
    next_unused (ids l) id n /\ n <= N.
  Proof.
    intros H I. destruct (find_combine _ g _ _ _ EF id) as (e & E & O); [lia|]. unfold T. rewrite E.
    destruct e as [n q|o q]; cbn [entry_ok] in O.
    - destruct O as (_ & -> & m & -> & (O1 & O2 & O3) & O4). exists m. split; [reflexivity|].
      split.
      + split; [exact O1|]. split; [intro X; apply O2, in_sorted_ids; exact X|]. intros j Hj. apply in_sorted_ids. apply O3. exact Hj.
      + rewrite last_id_max in O4; [|apply sort_sorted|].
        * rewrite (zmax_perm _ (ids l)) in O4 by (apply ids_perm, Permutation_sym, sort_perm). lia.
        * intros j Hj. apply (proj1 (in_sorted_ids _ _)) in Hj. unfold ids_small in SM. rewrite Forall_forall in SM. specialize (SM _ Hj). lia.
    - destruct O as [O _]. exfalso. apply I. apply (proj1 (in_sorted _ _)) in O. apply (in_map fst) in O. exact O.
  Qed.

  Lemma outside_entry id : ~ (0 <= id < N) -> find_entry id T = None.
  Proof. intro H. apply find_combine_none. lia. Qed.

End Entries.

Lemma values_small l N es : 0 < N -> Forall2 (entry_ok l N) (zrange 0 (length es)) es ->
  Forall (fun e => match e with Free n q => 0 <= n < N /\ (q = 0 \/ q = 65535) | Used o q => (exists id, In (id, o) l) /\ q = 0 end) es.
Proof.
  intros HN. assert (HR : Forall (fun i => 0 <= i) (zrange 0 (length es))) by (apply Forall_forall; intros i Hi; apply zrange_in in Hi; lia).
  revert HR. generalize (zrange 0 (length es)) at 1 2. intros r HR F. induction F as [|i e r' es' H F IH]; [constructor|].
  inversion HR; subst. constructor; [|apply IH; assumption]. destruct e as [n q|o q]; cbn [entry_ok] in H.
  - destruct H as (_ & -> & m & -> & (O1 & O2 & O3) & O4). split; [|destruct (i =? 0); [right|left]; reflexivity].
    apply Z.rem_bound_pos; lia.
  - destruct H as [H ->]. split; [exists i; exact H|reflexivity].
Qed.

(** ** The file as bytes *)

Definition tail_bytes (off : Z) : bytes := lit "startxref" ++ [x0a] ++ dec_u off ++ [x0a] ++ lit "%%EOF".

Lemma dec_i_pos n : 0 <= n -> dec_i n = dec_u n.
Proof. intro H. unfold dec_i. destruct (Z.ltb_spec n 0); [lia|reflexivity]. Qed.

Definition pdf_bytes (p : pdf) : bytes := chunk_bytes (p_chunk p).

Lemma finish_form p : finish p =
  option_map (fun r => pdf_bytes p ++ lit "xref" ++ [x0a] ++ lit "0 " ++ dec_i (fst r) ++ [x0a] ++
      flat_map plain_entry (snd r) ++ lit "trailer" ++ [x0a] ++
      out (c_pretty (p_chunk p)) 0 (ODict (trailer_entries p (fst r))) ++ [x0a] ++ tail_bytes (blen (pdf_bytes p)))
    (write_offsets (c_offsets (p_chunk p))).
Proof.
  unfold finish, finish_trailer. destruct (write_offsets (c_offsets (p_chunk p))) as [[N es]|]; [|reflexivity].
  cbn [option_map fst snd]. f_equal. unfold pdf_bytes, chunk_bytes, tail_bytes.
  rewrite !inner_extend, write_obj_inner. cbn [obj_direct o_pad o_pretty o_indent o_indirect pad_if end_bytes].
  unfold plain_prologue, push_int. rewrite !inner_extend. unfold push. cbn [inner]. rewrite !inner_extend, inner_with, !inner_extend.
  cbn [app]. rewrite <- !app_assoc. cbn [app]. reflexivity.
Qed.

Definition stream_entries (p : pdf) (flt : option xref_filter) (N fw : Z) : list (bytes * obj) :=
  [(lit "Type", OPrim (PName (lit "XRef")))] ++ filter_entries flt ++ trailer_entries p N ++
  [(lit "W", OArray [OPrim (PInt 1); OPrim (PInt fw); OPrim (PInt 2)])].

Lemma finish_stream_form p xref_id filter :
  let off := blen (pdf_bytes p) in
  let fw := field_width off in
  finish_stream_inner p xref_id filter =
  match write_offsets (c_offsets (p_chunk p) ++ [(xref_id, off)]) with
  | None => None
  | Some (N, es) =>
      let '(data, flt) := filter (flat_map (stream_entry fw) es) in
      if blen data <=? i32_max
      then Some (pdf_bytes p ++ item_bytes (c_pretty (p_chunk p)) (c_pretty (p_chunk p)) (xref_id, BStream (stream_entries p flt N fw) data) ++
                 tail_bytes off)
      else None
  end.
Proof.
  cbn zeta. unfold finish_stream_inner. fold (chunk_bytes (p_chunk p)). fold (pdf_bytes p).
  destruct (write_offsets _) as [[N es]|]; [|reflexivity].
  destruct (filter _) as [data flt]. fold (stream_entries p flt N (field_width (blen (pdf_bytes p)))).
  set (sd := stream_entries _ _ _ _).
  set (c0 := mkChunk (c_buf (p_chunk p)) [] (c_pretty (p_chunk p))).
  pose proof (stream_some_iff xref_id sd data c0) as SI.
  assert (Hh : holds (pdf_bytes p) [] c0) by (split; [cbn; rewrite app_nil_r; reflexivity|reflexivity]).
  assert (SH := fun c' => stream_holds _ _ _ xref_id sd data c' Hh).
  unfold chunk_stream, chunk_indirect in SI, SH. cbn [c0 c_buf c_pretty] in SI, SH.
  destruct (obj_indirect xref_id (c_pretty (p_chunk p)) (c_buf (p_chunk p))) as [w b]. cbn [c_buf c_pretty c_offsets] in SI, SH.
  destruct (write_stream w sd data b) as [b'|] eqn:E.
  - destruct (Z.leb_spec (blen data) i32_max) as [L|L].
    + destruct (SH _ eq_refl) as [[Hb _] _]. cbn [chunk_bytes c_buf app layout flat_map] in Hb. rewrite app_nil_r in Hb.
      unfold finish_trailer. rewrite !inner_extend. change (inner b') with (inner b') in *. unfold chunk_bytes in Hb. cbn [c_buf] in Hb.
      rewrite Hb. unfold placed_bytes, tail_bytes. cbn [pl_style pl_nl pl_item]. rewrite app_nil_r, <- !app_assoc. reflexivity.
    + exfalso. assert (blen data <= i32_max) by (apply SI; discriminate). lia.
  - destruct (Z.leb_spec (blen data) i32_max) as [L|L]; [|reflexivity]. apply SI in L. contradiction L. reflexivity.
Qed.

(** ** Cross-reference stream data *)

Lemma be_bytes_length w n : length (be_bytes w n) = w.
Proof. revert n. induction w as [|w IH]; intro n; [reflexivity|]. cbn [be_bytes]. rewrite app_length, IH. cbn. lia. Qed.

Lemma be_bytes_app a b n : be_bytes (a + b) n = be_bytes a (n / 256 ^ Z.of_nat b) ++ be_bytes b n.
Proof.
  revert n. induction b as [|b IH]; intro n.
  - rewrite Nat.add_0_r. cbn [be_bytes]. rewrite app_nil_r. f_equal. symmetry. apply Z.div_1_r.
  - rewrite Nat.add_succ_r. cbn [be_bytes]. rewrite IH, <- app_assoc. f_equal. f_equal.
    rewrite Zdiv.Zdiv_Zdiv by lia. f_equal.
    rewrite Nat2Z.inj_succ, Z.pow_succ_r by lia. reflexivity.
Qed.

Lemma be_low fw n : (fw <= 8)%nat -> skipn (8 - fw) (be_bytes 8 n) = be_bytes fw n.
Proof.
  intro H. replace 8%nat with ((8 - fw) + fw)%nat at 2 by lia. rewrite be_bytes_app.
  rewrite <- (be_bytes_length (8 - fw) (n / 256 ^ Z.of_nat fw)) at 1. apply skipn_mid.
Qed.

Lemma big_endian_app a b : big_endian (a ++ b) = big_endian a * 256 ^ Z.of_nat (length b) + big_endian b.
Proof.
  unfold big_endian. rewrite fold_left_app. generalize (fold_left (fun a b => 256 * a + bz b) a 0). intro x.
  revert x. induction b as [|c b IH] using rev_ind; intro x; [cbn; lia|].
  rewrite !fold_left_app. cbn [fold_left]. rewrite IH, app_length. cbn [length].
  replace (Z.of_nat (length b + 1)) with (Z.succ (Z.of_nat (length b))) by lia. rewrite Z.pow_succ_r by lia. lia.
Qed.

Lemma be_value w n : big_endian (be_bytes w n) = n mod 256 ^ Z.of_nat w.
Proof.
  revert n. induction w as [|w IH]; intro n; [cbn; symmetry; apply Z.mod_1_r|].
  cbn [be_bytes]. rewrite big_endian_app, IH. cbn [length]. change (big_endian [zb n]) with (256 * 0 + bz (zb n)).
  rewrite bz_zb. change (Z.of_nat 1) with 1. rewrite Z.pow_1_r, Nat2Z.inj_succ, Z.pow_succ_r by lia.
  rewrite (Z.rem_mul_r n 256) by (try lia; apply Z.pow_nonzero; lia). lia.
Qed.

(** What a reader gets from a record. *)
Definition narrow (fw : nat) (e : xref_entry) : xentry :=
  match e with
  | Free n g => XFree (n mod 256 ^ Z.of_nat fw) (g mod 65536)
  | Used o g => XUsed (o mod 256 ^ Z.of_nat fw) (g mod 65536)
  end.

Lemma stream_entry_length fw e : 0 <= fw <= 8 -> length (stream_entry fw e) = (1 + Z.to_nat fw + 2)%nat.
Proof.
  intro H. unfold stream_entry. destruct e as [v g|v g]; rewrite be_low by lia; rewrite !app_length, !be_bytes_length; reflexivity.
Qed.

Lemma record_reads fw e : 0 <= fw <= 8 -> record_entry 1 (Z.to_nat fw) 2 (stream_entry fw e) = Some (narrow (Z.to_nat fw) e).
Proof.
  intro H. unfold record_entry, stream_entry.
  assert (K : forall ty v g,
    firstn (Z.to_nat fw) (skipn 1 ([ty] ++ be_bytes (Z.to_nat fw) v ++ be_bytes 2 g)) = be_bytes (Z.to_nat fw) v /\
    firstn 2 (skipn (1 + Z.to_nat fw) ([ty] ++ be_bytes (Z.to_nat fw) v ++ be_bytes 2 g)) = be_bytes 2 g).
  { intros ty v g. split.
    - cbn [app skipn]. rewrite <- (be_bytes_length (Z.to_nat fw) v) at 1. apply firstn_mid.
    - cbn [Nat.add app skipn]. rewrite <- (be_bytes_length (Z.to_nat fw) v) at 1. rewrite skipn_mid. reflexivity. }
  destruct e as [v g|v g]; rewrite be_low by lia.
  - destruct (K x00 v g) as [-> ->]. cbn [app firstn]. change (big_endian [x00]) with 0. rewrite !be_value. reflexivity.
  - destruct (K x01 v g) as [-> ->]. cbn [app firstn]. change (big_endian [x01]) with 1. rewrite !be_value. reflexivity.
Qed.

Lemma records_read fw es : 0 <= fw <= 8 -> forall a,
  records (length es) 1 (Z.to_nat fw) 2 a (flat_map (stream_entry fw) es) =
  Some (combine (zrange a (length es)) (map (narrow (Z.to_nat fw)) es)).
Proof.
  intro H. induction es as [|e es IH]; intro a; [reflexivity|].
  cbn [length records flat_map zrange map combine].
  pose proof (stream_entry_length fw e H) as L. set (k := (1 + Z.to_nat fw + 2)%nat) in *.
  destruct (Nat.leb_spec k (length (stream_entry fw e ++ flat_map (stream_entry fw) es))) as [_|X]; [|rewrite app_length in X; lia].
  rewrite <- L, firstn_mid, skipn_mid, record_reads, IH by exact H. reflexivity.
Qed.

(** ** The field width *)

Lemma field_width_spec off : 0 < off < 2 ^ 64 ->
  1 <= field_width off <= 8 /\ off < 256 ^ field_width off.
Proof.
  intro H. unfold field_width. destruct (Z.eqb_spec off 0); [lia|].
  pose proof (Z.log2_spec off ltac:(lia)) as L. pose proof (Z.log2_nonneg off) as L0.
  assert (L1 : Z.log2 off < 64) by (apply Z.log2_lt_pow2; lia).
  assert (D : 8 * ((Z.log2 off + 1 + 7) / 8) >= Z.log2 off + 1) by (pose proof (Z.mod_pos_bound (Z.log2 off + 1 + 7) 8 ltac:(lia)); pose proof (Z.div_mod (Z.log2 off + 1 + 7) 8 ltac:(lia)); lia).
  split; [split; [apply Z.div_le_lower_bound; lia|apply Z.lt_succ_r, Z.div_lt_upper_bound; lia]|].
  set (f := (Z.log2 off + 1 + 7) / 8) in *.
  assert (F : 0 <= f) by (apply Z.div_pos; lia).
  change 256 with (2 ^ 8). rewrite <- Z.pow_mul_r by lia.
  apply Z.lt_le_trans with (2 ^ Z.succ (Z.log2 off)); [lia|]. apply Z.pow_le_mono_r; lia.
Qed.
