(** ToUnicode character maps: what a reader gets. *)

From Coq Require Import ZArith List Lia Bool ZifyBool ZifyNat.
From Verif Require Import Bytes ModelFloat ModelBuf ModelObject ModelCmap SpecLex SpecText SpecMeans SpecCmap
  ProofBasic ProofText ProofFloat2 ProofObj ProofParse ProofTree ProofChunkParse ProofCmap.
Import ListNotations.
Local Open Scope Z_scope.

Definition width (g : glyph_type) : nat := match g with GU8 => 1 | GU16 => 2 end.

Lemma code_val_bytes g v : 0 <= v <= glyph_max g -> code_val (code_bytes g v) = v.
Proof.
  intro H. destruct g; cbn [glyph_max code_bytes] in *; unfold code_val; cbn [fold_left].
  - rewrite bz_zb_small; lia.
  - rewrite Z.shiftr_div_pow2 by lia. change (2 ^ 8) with 256. rewrite !bz_zb.
    pose proof (Z.div_mod v 256). rewrite (Z.mod_small (v / 256)); [lia|].
    split; [apply Z.div_pos; lia|apply Z.div_lt_upper_bound; lia].
Qed.
Lemma code_len g v : List.length (code_bytes g v) = width g.
Proof. destruct g; reflexivity. Qed.

Lemma bf_header g name info mode ts :
  bf_sections (header_toks g name info mode ++ ts) None None = bf_sections ts None None.
Proof. reflexivity. Qed.

Lemma bf_strs l : forall n acc ts,
  bf_sections (map TStr l ++ TKeyword (lit "endbfchar") :: ts) None (Some (n, acc)) =
  option_map (cons (n, rev acc ++ l)) (bf_sections ts None None).
Proof.
  induction l as [|s l IH]; intros n acc ts.
  - rewrite app_nil_r. reflexivity.
  - cbn [map app bf_sections]. rewrite IH. cbn [rev]. rewrite <- app_assoc. reflexivity.
Qed.

Definition entry_strs (g : glyph_type) (l : list (Z * list Z)) : list bytes :=
  flat_map (fun p => [code_bytes g (fst p); text_units (snd p)]) l.
Lemma entry_strs_toks g l :
  flat_map (fun p => [TStr (code_bytes g (fst p)); TStr (text_units (snd p))]) l = map TStr (entry_strs g l).
Proof. induction l as [|p l IH]; [reflexivity|]. cbn [flat_map entry_strs map app]. rewrite IH. reflexivity. Qed.

Lemma bf_section g l ts p : bf_sections (section_toks g l ++ ts) p None =
  option_map (cons (Z.of_nat (List.length l), entry_strs g l)) (bf_sections ts None None).
Proof.
  unfold section_toks. rewrite entry_strs_toks, <- app_comm_cons, <- app_comm_cons, <- app_assoc.
  change ([TKeyword (lit "endbfchar")] ++ ts) with (TKeyword (lit "endbfchar") :: ts).
  etransitivity; [|apply (bf_strs (entry_strs g l) (Z.of_nat (List.length l)) [] ts)]. reflexivity.
Qed.

Lemma bf_all g secs : bf_sections (flat_map (section_toks g) secs ++ footer_toks) None None =
  Some (map (fun l => (Z.of_nat (List.length l), entry_strs g l)) secs).
Proof.
  induction secs as [|l secs IH]; [reflexivity|]. cbn [flat_map map]. rewrite <- app_assoc, bf_section, IH. reflexivity.
Qed.

Lemma bf_entries_strs g l : bf_entries (entry_strs g l) = Some (map (fun p => (code_bytes g (fst p), text_units (snd p))) l).
Proof. induction l as [|p l IH]; [reflexivity|]. cbn [entry_strs flat_map app bf_entries map]. fold (entry_strs g l). rewrite IH. reflexivity. Qed.

Definition pair_ok (g : glyph_type) (p : Z * list Z) : Prop := 0 <= fst p <= glyph_max g /\ forallb is_scalar (snd p) = true.

Lemma text_back t : forallb is_scalar t = true -> utf16be_text (text_units t) = Some t.
Proof.
  intro H. unfold utf16be_text, text_units. rewrite units16_spec by (apply utf16_units_all; assumption).
  apply utf16_decode_spec. assumption.
Qed.

Lemma read_one g l n : Forall (pair_ok g) l ->
  read_section (n, entry_strs g l) = Some (n, map (fun p => (width g, fst p, snd p)) l).
Proof.
  intro H. unfold read_section. cbn [fst snd]. rewrite bf_entries_strs.
  replace (all_some _ _) with (Some (map (fun p : Z * list Z => (width g, fst p, snd p)) l)); [reflexivity|].
  symmetry. induction H as [|p l [H1 H2] H IH]; [reflexivity|]. cbn [map all_some fst snd].
  rewrite text_back by assumption. cbn [option_map]. rewrite IH, code_val_bytes, code_len by assumption. reflexivity.
Qed.

Lemma cmap_sections_read g name info mode pairs : one_line name = true -> info_line info = true -> Forall (pair_ok g) pairs ->
  exists secs, cmap_sections (inner (cmap_build g name info mode pairs)) = Some secs /\
    Forall (fun s => fst s = Z.of_nat (List.length (snd s)) /\ 1 <= fst s <= 100) secs /\
    concat (map snd secs) = map (fun p => (width g, fst p, snd p)) pairs.
Proof.
  intros Hn Hi Hp. destruct (cmap_tokens g name info mode pairs Hn Hi) as (secs & E & C & F).
  exists (map (fun l => (Z.of_nat (List.length l), map (fun p => (width g, fst p, snd p)) l)) secs).
  split; [|split].
  - unfold cmap_sections. rewrite E, bf_header, bf_all.
    assert (Hs : Forall (Forall (pair_ok g)) secs).
    { apply Forall_forall. intros l Hl. apply Forall_forall. intros p Hp'. rewrite Forall_forall in Hp. apply Hp.
      rewrite <- C. apply in_concat. eauto. }
    clear -Hs. induction Hs as [|l secs H Hs IH]; [reflexivity|]. cbn [map all_some]. rewrite read_one by assumption. rewrite IH. reflexivity.
  - apply Forall_forall. intros s Hs. apply in_map_iff in Hs. destruct Hs as (l & <- & Hl). cbn [fst snd]. rewrite map_length.
    rewrite Forall_forall in F. specialize (F l Hl). lia.
  - rewrite <- C, map_map. cbn [snd]. rewrite concat_map. reflexivity.
Qed.

(** ** Definitions and code space *)

Lemma definition_header g name info mode ts key t :
  definition_of key (header_toks g name info mode) = Some t -> definition_of key (header_toks g name info mode ++ ts) = Some t.
Proof.
  generalize (header_toks g name info mode). intros l. revert t.
  induction l as [|a l IH]; intros t H; [discriminate|].
  destruct a; cbn [app definition_of] in *; try (apply IH; exact H).
  destruct l as [|b [|c l]]; cbn [app] in *.
  - discriminate H.
  - destruct b; discriminate H.
  - destruct c; try (apply IH; exact H). destruct (_ && _); [exact H|]. apply IH. exact H.
Qed.

Lemma cmap_defined g name info mode pairs : one_line name = true -> info_line info = true ->
  let s := inner (cmap_build g name info mode pairs) in
  cmap_definition (lit "CMapName") s = Some (TName name) /\
  cmap_definition (lit "Registry") s = Some (TStr (si_registry info)) /\
  cmap_definition (lit "Ordering") s = Some (TStr (si_ordering info)) /\
  cmap_definition (lit "Supplement") s = Some (TInt (si_supplement info)) /\
  cmap_definition (lit "WMode") s = Some (TInt (wmode_int mode)).
Proof.
  intros Hn Hi s. destruct (cmap_tokens g name info mode pairs Hn Hi) as (secs & E & _). fold s in E.
  unfold cmap_definition. rewrite E.
  refine (conj _ (conj _ (conj _ (conj _ _)))); apply definition_header; reflexivity.
Qed.

Definition no_space (t : token) : bool :=
  match t with TKeyword k => negb (bytes_eqb k (lit "begincodespacerange")) | _ => true end.
Lemma no_code_space ts : forallb no_space ts = true -> code_spaces ts = [].
Proof.
  induction ts as [|t ts IH]; intro H; [reflexivity|]. cbn [forallb] in H. apply andb_true_iff in H. destruct H as [_ H].
  specialize (IH H). destruct t; cbn [code_spaces]; try exact IH.
  destruct z as [|[]|]; try exact IH.
  destruct ts as [|t1 r1]; [reflexivity|]. destruct t1 as [| | | | | | | | | |k1]; try exact IH.
  destruct r1 as [|t2 r2]; [reflexivity|]. destruct t2; try exact IH.
  destruct r2 as [|t3 r3]; [reflexivity|]. destruct t3; try exact IH.
  destruct r3 as [|t4 r4]; [reflexivity|]. destruct t4; try exact IH.
  cbn [forallb no_space] in H. apply andb_true_iff in H. destruct H as [H _].
  apply negb_true_iff in H. rewrite H. exact IH.
Qed.

Lemma header_spaces g name info mode ts :
  code_spaces (header_toks g name info mode ++ ts) = (code_bytes g 0, code_bytes g (glyph_max g)) :: code_spaces ts.
Proof. destruct mode; unfold header_toks; destruct (si_supplement info) as [|[]|]; reflexivity. Qed.

Lemma section_no_space g l : forallb no_space (section_toks g l) = true.
Proof. unfold section_toks. rewrite entry_strs_toks. cbn [forallb]. rewrite forallb_app. cbn [forallb no_space].
  replace (forallb no_space (map TStr (entry_strs g l))) with true; [reflexivity|].
  symmetry. apply forallb_forall. intros t Ht. apply in_map_iff in Ht. destruct Ht as (s & <- & _). reflexivity.
Qed.

Lemma cmap_spaces g name info mode pairs : one_line name = true -> info_line info = true ->
  cmap_code_spaces (inner (cmap_build g name info mode pairs)) = Some [(code_bytes g 0, code_bytes g (glyph_max g))].
Proof.
  intros Hn Hi. destruct (cmap_tokens g name info mode pairs Hn Hi) as (secs & E & _).
  unfold cmap_code_spaces. rewrite E. cbn [option_map]. rewrite header_spaces, no_code_space; [reflexivity|].
  rewrite forallb_app. apply andb_true_iff. split; [|reflexivity].
  apply forallb_forall. intros t Ht. apply in_flat_map in Ht. destruct Ht as (l & _ & Ht).
  pose proof (section_no_space g l) as H. rewrite forallb_forall in H. apply H. exact Ht.
Qed.
