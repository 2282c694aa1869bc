(** Reading chunks back. *)

From Coq Require Import ZArith List Lia Bool Arith ZifyBool.
From Verif Require Import Bytes ModelFloat ModelBuf ModelObject ModelRenumber ModelChunk SpecLex SpecObj SpecMeans
  SpecRenum SpecChunk ProofBasic ProofText ProofFloat ProofFloat2 ProofObj ProofParse ProofTree ProofPrint ProofRenum
  ProofRenumTree ProofChunk.
Import ListNotations.
Local Open Scope Z_scope.

(** What a reader gets for an item. *)
Definition item_val (it : item) : indirect :=
  match snd it with
  | BObj o => IObj (fst it) 0 (obj_val o)
  | BStream es data =>
      IStream (fst it) 0 (map (fun e => (fst e, obj_val (snd e))) (len_entry data :: es)) data
  end.

Lemma item_val_means it : body_readable (snd it) = true -> item_means it (item_val it).
Proof.
  destruct it as [id [o|es data]]; unfold item_val; cbn [fst snd body_readable]; unfold entries_readable; intro H;
    apply andb_true_iff in H; destruct H as [H _].
  - constructor. apply means_val. exact H.
  - cbn [map fst snd len_entry obj_val]. constructor. apply (means_val (ODict es)). exact H.
Qed.

Lemma stream_body p es data : body_bytes p (BStream es data) =
  out p 0 (ODict (len_entry data :: es)) ++ [x0a] ++ lit "stream" ++ [x0a] ++ data ++ [x0a] ++ lit "endstream".
Proof.
  cbn [body_bytes]. rewrite out_dict. destruct p; cbn [andb is_nil negb]; rewrite <- !app_assoc; reflexivity.
Qed.

Lemma keyword w rest : w <> [] -> forallb is_regular w = true -> number w = None -> boundary rest ->
  next_token (w ++ rest) = Some (TKeyword w, rest).
Proof. intros H1 H2 H3 H4. rewrite next_token_word by assumption. rewrite H3. reflexivity. Qed.

Lemma firstn_blen (d r : bytes) : firstn (Z.to_nat (blen d)) (d ++ r) = d.
Proof. unfold blen. rewrite Nat2Z.id. apply firstn_mid. Qed.
Lemma skipn_blen (d r : bytes) : skipn (Z.to_nat (blen d)) (d ++ r) = r.
Proof. unfold blen. rewrite Nat2Z.id. apply skipn_mid. Qed.

Lemma item_parses w p nl it rest : forallb is_ws w = true ->
  body_readable (snd it) = true -> body_fits (snd it) = true ->
  parse_indirect (w ++ item_bytes p nl it ++ rest) =
  Some (item_val it, [x0a] ++ (if nl then [x0a] else []) ++ rest).
Proof.
  intros Hw Hr Hf. destruct it as [id bd]. unfold item_bytes. cbn [fst snd] in *.
  unfold parse_indirect. rewrite next_token_ws by exact Hw. rewrite <- !app_assoc.
  change (lit " 0 obj") with ([x20; x30; x20] ++ lit "obj"). rewrite <- app_assoc.
  rewrite next_token_int by reflexivity.
  cbn [app]. rewrite next_token_ws1 by reflexivity.
  match goal with |- context [next_token (x30 :: ?r)] => change (x30 :: r) with (dec_i 0 ++ r) end.
  rewrite next_token_int by reflexivity. rewrite next_token_ws1 by reflexivity.
  set (tl := [x0a] ++ lit "endobj" ++ [x0a] ++ (if nl then [x0a] else []) ++ rest).
  change (x0a :: lit "endobj" ++ x0a :: (if nl then [x0a] else []) ++ rest) with tl.
  rewrite (keyword (lit "obj")) by (reflexivity || discriminate).
  change (bytes_eqb (lit "obj") (lit "obj")) with true. cbv iota.
  rewrite objects_objs by lia.
  match goal with |- context [objs [] (x0a :: ?r)] => change (x0a :: r) with ([x0a] ++ r) end.
  rewrite (objs_ws [] [x0a]) by reflexivity. fold tl.
  assert (Hend : forall acc, objs acc tl = Some (rev acc, Some (TKeyword (lit "endobj")), [x0a] ++ (if nl then [x0a] else []) ++ rest)).
  { intro acc. unfold tl. rewrite objs_ws by reflexivity.
    rewrite (objs_step _ _ (TKeyword (lit "endobj")) ([x0a] ++ (if nl then [x0a] else []) ++ rest)); [reflexivity|].
    apply keyword; reflexivity || discriminate. }
  destruct bd as [o|es data]; cbn [body_readable body_fits] in *.
  - apply andb_true_iff in Hr. destruct Hr as [Hok Hs]. cbn [body_bytes].
    rewrite out_parses; [|exact Hok|unfold sep_ok; rewrite Hs; apply orb_true_r|right; reflexivity].
    rewrite Hend. reflexivity.
  - unfold entries_readable in Hr. apply andb_true_iff in Hr. destruct Hr as [Hok Hs].
    rewrite stream_body. rewrite <- !app_assoc.
    assert (Hok' : obj_ok (ODict (len_entry data :: es)) = true).
    { cbn [obj_ok forallb snd len_entry]. cbn [obj_ok] in Hok. rewrite Hok. cbn [prim_ok].
      unfold in_i32, i32_min. assert (0 <= blen data) by (unfold blen; lia).
      apply Z.leb_le in Hf. rewrite andb_true_r. apply andb_true_iff. split; apply Z.leb_le; unfold i32_max in *; lia. }
    rewrite out_parses; [|exact Hok'| |right; reflexivity].
    2:{ unfold sep_ok. apply orb_true_iff. right. cbn [separable forallb fst snd len_entry].
        cbn [separable] in Hs. rewrite Hs. reflexivity. }
    rewrite objs_ws by reflexivity.
    set (st := [x0a] ++ data ++ [x0a] ++ lit "endstream" ++ tl).
    rewrite (objs_step _ _ (TKeyword (lit "stream")) st); [|apply keyword; reflexivity || discriminate].
    change (bytes_eqb (lit "stream") (lit "R")) with false. change (bytes_eqb (lit "stream") (lit "null")) with false.
    change (bytes_eqb (lit "stream") (lit "true")) with false. change (bytes_eqb (lit "stream") (lit "false")) with false.
    cbn [rev app]. change (bytes_eqb (lit "stream") (lit "endobj")) with false.
    change (bytes_eqb (lit "stream") (lit "stream")) with true. cbv iota. cbn [obj_val].
    unfold stream_data, st. cbn [app map fst snd len_entry obj_val lookup].
    change (bytes_eqb (lit "Length") (lit "Length")) with true. cbv iota.
    assert (Hl : (0 <=? blen data) && (blen data <=? blen (data ++ x0a :: lit "endstream" ++ tl)) = true).
    { rewrite blen_app. unfold blen. apply andb_true_iff. split; apply Z.leb_le; lia. }
    rewrite Hl, firstn_blen, skipn_blen. rewrite next_token_ws1 by reflexivity.
    rewrite (keyword (lit "endstream")) by (reflexivity || discriminate).
    change (bytes_eqb (lit "endstream") (lit "endstream")) with true. cbv iota.
    unfold tl. cbn [app]. rewrite next_token_ws1 by reflexivity.
    rewrite (keyword (lit "endobj")) by (reflexivity || discriminate).
    reflexivity.
Qed.

(** ** The whole body *)

Lemma item_bytes_ne p nl it : exists c r, blanks (item_bytes p nl it) = c :: r.
Proof.
  unfold item_bytes.
  assert (H : next_token (dec_i (fst it) ++ lit " 0 obj" ++ [x0a] ++ body_bytes p (snd it) ++ [x0a] ++ lit "endobj" ++ [x0a] ++ (if nl then [x0a] else []))
     = Some (TInt (fst it), lit " 0 obj" ++ [x0a] ++ body_bytes p (snd it) ++ [x0a] ++ lit "endobj" ++ [x0a] ++ (if nl then [x0a] else [])))
    by (apply next_token_int; reflexivity).
  apply next_token_blanks in H. exact H.
Qed.

Lemma body_parses l : forall w fuel, forallb is_ws w = true ->
  forallb (fun pl => body_readable (snd (pl_item pl)) && body_fits (snd (pl_item pl))) l = true ->
  (length l <= fuel)%nat ->
  parse_body fuel (w ++ layout l) = Some (map (fun pl => item_val (pl_item pl)) l).
Proof.
  induction l as [|pl l IH]; intros w fuel Hw Hr Hf.
  - cbn [layout flat_map]. rewrite app_nil_r.
    assert (E : blanks w = []) by (rewrite <- (app_nil_r w), blanks_wss by exact Hw; reflexivity).
    destruct fuel; cbn [parse_body]; rewrite E; reflexivity.
  - cbn [forallb] in Hr. apply andb_true_iff in Hr. destruct Hr as [H1 H2].
    apply andb_true_iff in H1. destruct H1 as [H0 H1].
    destruct fuel as [|fuel]; [cbn [length] in Hf; lia|].
    cbn [layout flat_map parse_body]. fold (layout l).
    unfold placed_bytes at 1 2. rewrite (item_parses w _ _ _ (layout l) Hw H0 H1).
    assert (Hw' : forallb is_ws ([x0a] ++ (if pl_nl pl then [x0a] else [])) = true) by (destruct (pl_nl pl); reflexivity).
    rewrite (app_assoc [x0a] (if pl_nl pl then [x0a] else [])). rewrite (IH _ fuel Hw' H2) by (cbn [length] in Hf; lia).
    assert (E : exists c r, blanks (w ++ item_bytes (pl_style pl) (pl_nl pl) (pl_item pl) ++ layout l) = c :: r).
    { rewrite blanks_wss by exact Hw. unfold item_bytes. rewrite <- !app_assoc.
      eapply next_token_blanks. apply next_token_int. reflexivity. }
    destruct E as [c [r ->]]. reflexivity.
Qed.
