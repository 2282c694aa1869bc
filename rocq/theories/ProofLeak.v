(** Proofs: leaked writers and damaged sources. *)

From Coq Require Import ZArith List Lia Bool Permutation ZifyBool.
From Verif Require Import Bytes ModelFloat ModelBuf ModelObject ModelRenumber ModelChunk ModelApi ModelPdf ModelCrash ModelLeak SpecLex SpecObj SpecMeans
  SpecRenum SpecChunk SpecApi SpecFile SpecPdf SpecCrash SpecLeak ProofBasic ProofObj ProofParse ProofTree ProofRenum ProofXref ProofRenumTree ProofChunk
  ProofChunkParse ProofApi ProofChunk2 ProofFile ProofFile2 ProofPdf ProofFile3 ProofFile4 ProofCrash PropChunk PropRenum PropPdf PropPdf2 PropCrash.
Import ListNotations.
Local Open Scope Z_scope.

(** ** Calls *)

Lemma leak_run_calls calls : forall s, leak_run (map LCall calls) s = api_run calls s.
Proof.
  induction calls as [|c calls IH]; intro s; [reflexivity|]. cbn [map leak_run leak_step api_run]. destruct (api_step c s); [apply IH|reflexivity].
Qed.
Lemma leak_calls_cases cs : something_lost cs \/ exists calls, cs = map LCall calls /\ consumed calls.
Proof.
  induction cs as [|[c|] cs IH].
  - right. exists []. split; [reflexivity|intros []].
  - destruct IH as [[H|H]|(calls & -> & C)]; [left; left; right; exact H|left; right; right; exact H|].
    assert (D : c = CAbandon \/ c <> CAbandon) by (destruct c; try (right; discriminate); left; reflexivity).
    destruct D as [->|D]; [left; right; left; reflexivity|]. right. exists (c :: calls). split; [reflexivity|]. intros [Q|Q]; [exact (D Q)|exact (C Q)].
  - left. left. left. reflexivity.
Qed.
Lemma grows_step c st b st' b' : api_step c (st, b) = Some (st', b') -> grows b b'.
Proof.
  intro E. destruct c as [p| | | |p|l|k|k p|l| |];
    try (match type of E with api_step ?c _ = _ => exact (grows_plain c st b st' b' Logic.I E) end);
    destruct st as [|[w|a|d|data d] st]; cbn [api_step] in E; try discriminate.
  - destruct (array_item p (a, b)) as [a1 b1] eqn:A. apply some_eq in E. injection E as <- <-. apply (grows_items [p] a b a1 b1). exact A.
  - destruct (fold_left _ l (a, b)) as [a1 b1] eqn:A. apply some_eq in E. injection E as <- <-. exact (grows_items l a b a1 b1 A).
  - destruct (dict_pair k p (d, b)) as [a1 b1] eqn:A. apply some_eq in E. injection E as <- <-. apply (grows_pairs [(k, p)] d b a1 b1). exact A.
  - destruct (dict_pair k p (d, b)) as [a1 b1] eqn:A. apply some_eq in E. injection E as <- <-. apply (grows_pairs [(k, p)] d b a1 b1). exact A.
  - destruct (fold_left _ l (d, b)) as [a1 b1] eqn:A. apply some_eq in E. injection E as <- <-. exact (grows_pairs l d b a1 b1 A).
  - destruct (fold_left _ l (d, b)) as [a1 b1] eqn:A. apply some_eq in E. injection E as <- <-. exact (grows_pairs l d b a1 b1 A).
  - apply some_eq in E. injection E as <- <-. apply grows_refl.
Qed.
Lemma grows_leak cs : forall st b st' b', leak_run cs (st, b) = Some (st', b') -> grows b b'.
Proof.
  induction cs as [|c cs IH]; intros st b st' b' E; cbn [leak_run] in E.
  - apply some_eq in E. injection E as <- <-. apply grows_refl.
  - destruct (leak_step c (st, b)) as [[st1 b1]|] eqn:S; [|discriminate]. eapply grows_trans; [|exact (IH _ _ _ _ E)].
    destruct c as [c|]; cbn [leak_step] in S; [exact (grows_step _ _ _ _ _ S)|]. destruct st as [|w st]; [discriminate|].
    apply some_eq in S. injection S as <- <-. apply grows_refl.
Qed.

Definition values (c : call) : bool := values_typed (LCall c).
Lemma expanded_typed cs : forallb values cs = true -> forallb values (expanded cs) = true.
Proof.
  intro H. apply forallb_forall. intros c I. unfold expanded in I. apply in_flat_map in I as (x & X & I). rewrite forallb_forall in H. specialize (H x X).
  destruct x as [p| | | |p|l|k|k p|l| |]; cbn [expand In] in I; try (destruct I as [<-|[]]; exact H); try (destruct I as [<-|[<-|[]]]; [reflexivity|exact H]).
  - apply in_flat_map in I as (q & Q & I). cbn in H. rewrite forallb_forall in H. destruct I as [<-|[<-|[]]]; [reflexivity|exact (H q Q)].
  - apply in_flat_map in I as (q & Q & I). cbn in H. rewrite forallb_forall in H. destruct I as [<-|[<-|[]]]; [reflexivity|exact (H q Q)].
Qed.
Lemma calls_of_typed o : forallb values (calls_of o) = true -> obj_typed o = true.
Proof.
  induction o as [p|l IH|l IH] using obj_ind'; cbn [calls_of forallb obj_typed]; intro H.
  - cbn in H. rewrite andb_true_r in H. exact H.
  - apply andb_true_iff in H. destruct H as [_ H]. rewrite forallb_app in H. apply andb_true_iff in H. destruct H as [H _].
    induction IH as [|a l H1 H2 IHl]; [reflexivity|]. cbn [flat_map app] in H. cbn [forallb] in H |- *. apply andb_true_iff in H. destruct H as [_ H].
    rewrite forallb_app in H. apply andb_true_iff in H. destruct H as [Ha Hl]. rewrite (H1 Ha), (IHl Hl). reflexivity.
  - apply andb_true_iff in H. destruct H as [_ H]. rewrite forallb_app in H. apply andb_true_iff in H. destruct H as [H _].
    induction IH as [|a l H1 H2 IHl]; [reflexivity|]. cbn [flat_map app] in H. cbn [forallb] in H |- *. apply andb_true_iff in H. destruct H as [_ H].
    rewrite forallb_app in H. apply andb_true_iff in H. destruct H as [Ha Hl]. rewrite (H1 Ha), (IHl Hl). reflexivity.
Qed.
Lemma drops_typed n : forallb values (repeat CDrop n) = true.
Proof. induction n; [reflexivity|exact IHn]. Qed.
Lemma mapped_typed calls : calls_typed (map LCall calls) -> forallb values calls = true.
Proof. unfold calls_typed. induction calls as [|c calls IH]; [reflexivity|]. cbn [map forallb]. intro H. apply andb_true_iff in H. destruct H as [A B]. unfold values at 1. rewrite A, (IH B). reflexivity. Qed.
Lemma tree_typed calls o : calls_typed (map LCall calls) -> tree_so_far calls o -> obj_typed o = true.
Proof.
  intros T (n & E). apply calls_of_typed. rewrite <- E, forallb_app, drops_typed, expanded_typed; [reflexivity|]. apply mapped_typed. exact T.
Qed.
Lemma entries_are_typed calls es : calls_typed (map LCall calls) -> entries_so_far calls es -> entries_typed es = true.
Proof.
  intros T (n & E). change (obj_typed (ODict es) = true). apply calls_of_typed. cbn [calls_of forallb].
  change (flat_map (fun e => CInsert (fst e) :: calls_of (snd e)) es) with (inserts es). rewrite <- E, forallb_app, drops_typed, expanded_typed; [reflexivity|].
  apply mapped_typed. exact T.
Qed.

(** ** Segments *)

Definition seg_left (s : seg) : left := match s with SItem pl => Whole (pl_item pl) | SJunk id _ => Damaged id end.
Definition lefts (k : list seg) : list left := map seg_left k.
(** The whole items have their types and fit. *)
Definition sound (x : left) : Prop := match x with Whole it => item_typed it = true /\ body_fits (snd it) = true | Damaged id => id_ok id = true end.
Lemma seg_left_id s : left_id (seg_left s) = seg_id s.
Proof. destruct s; reflexivity. Qed.
Lemma whole_lefts k : whole (lefts k) = seg_items k.
Proof. induction k as [|[pl|id j] k IH]; [reflexivity| |exact IH]. cbn. f_equal. exact IH. Qed.

Lemma leaked_object_segs id cs c c' : id_ok id = true -> calls_typed cs -> leaked_object id cs c = Some c' ->
  exists s, chunk_bytes c' = chunk_bytes c ++ segs_bytes [s] /\ c_offsets c' = c_offsets c ++ seg_offs (chunk_len c) [s] /\ c_pretty c' = c_pretty c /\
    object_leaves id cs (seg_left s) /\ sound (seg_left s) /\ solid [s].
Proof.
  intros Hi Ty E. destruct (leak_calls_cases cs) as [Lo|(calls & -> & C)].
  - unfold leaked_object in E. destruct (chunk_indirect id c) as [w c1] eqn:I.
    destruct (leak_run cs ([WObj w], c_buf c1)) as [[st b]|] eqn:R; [|discriminate]. apply some_eq in E. subst c'.
    destruct (junk_appends c id w c1 (unwind st b) I) as (j & B & F & P & SO); [eapply grows_trans; [exact (grows_leak _ _ _ _ _ R)|apply grows_unwind]|].
    exists (SJunk id j). split; [exact B|]. split; [exact F|]. split; [exact P|]. split; [apply OV_lost; exact Lo|]. split; [exact Hi|exact SO].
  - assert (E' : caught_object id calls c = Some c').
    { unfold leaked_object in E. unfold caught_object. destruct (chunk_indirect id c) as [w c1]. rewrite leak_run_calls in E. exact E. }
    destruct (object_total _ _ _ _ C E') as (a & d & L). destruct (object_segs _ _ _ _ _ _ C E' L) as (k & B & F & P & SI & SD & Fi & So).
    destruct L as [o T|O].
    + rewrite (object_same _ _ _ _ _ E' T). destruct (object_appends c id o) as [B' F']. eexists. split; [exact B'|]. split; [exact F'|].
      split; [reflexivity|]. split; [eapply OV_tree; [reflexivity|exact T]|]. split; [|apply solid_item].
      cbn [seg_left sound pl_item fst snd body_fits]. split; [|reflexivity]. unfold item_typed. cbn [fst snd body_typed]. rewrite Hi, (tree_typed _ _ Ty T). reflexivity.
    + assert (K : exists j, k = [SJunk id j]).
      { destruct k as [|[pl|i j] k]; [discriminate|discriminate|]. cbn in SI, SD. injection SD as -> SD.
        destruct k as [|[pl|i2 j2] k]; [exists j; reflexivity|discriminate|discriminate]. }
      destruct K as (j & ->). exists (SJunk id j). split; [exact B|]. split; [exact F|]. split; [exact P|].
      split; [eapply OV_open; [reflexivity|exact C|exact O]|]. split; [exact Hi|exact So].
Qed.
Lemma leaked_stream_segs id data cs c c' : id_ok id = true -> calls_typed cs -> leaked_stream id data cs c = Some c' ->
  exists s, chunk_bytes c' = chunk_bytes c ++ segs_bytes [s] /\ c_offsets c' = c_offsets c ++ seg_offs (chunk_len c) [s] /\ c_pretty c' = c_pretty c /\
    stream_leaves id data cs (seg_left s) /\ sound (seg_left s) /\ solid [s].
Proof.
  intros Hi Ty E. destruct (Z_le_gt_dec (blen data) i32_max) as [Le|Gt].
  2:{ assert (E' : caught_stream id data [] c = Some c').
      { unfold leaked_stream in E. unfold caught_stream. destruct (chunk_indirect id c) as [w c1].
        destruct (stream_start w data (c_buf c1)) as [[d0 b0]|] eqn:S; [|exact E].
        exfalso. unfold stream_start, dict_start in S. destruct (Z.leb_spec (blen data) i32_max); [lia|discriminate]. }
      rewrite (stream_too_long _ _ _ _ _ E' ltac:(lia)). destruct (object_appends c id (ODict [])) as [B F]. eexists. split; [exact B|]. split; [exact F|].
      split; [reflexivity|]. split; [apply SV_too_long; lia|]. split; [|apply solid_item].
      cbn [seg_left sound pl_item fst snd body_fits]. split; [|reflexivity]. unfold item_typed. cbn [fst snd]. rewrite Hi. reflexivity. }
  destruct (leak_calls_cases cs) as [Lo|(calls & -> & C)].
  - unfold leaked_stream in E. destruct (chunk_indirect id c) as [w c1] eqn:I.
    destruct (stream_start w data (c_buf c1)) as [[d0 b0]|] eqn:S.
    2:{ exfalso. unfold stream_start, dict_start in S. destruct (Z.leb_spec (blen data) i32_max); [|lia].
        destruct (dict_insert _ _ _) as [[? ?] ?]. discriminate. }
    destruct (leak_run cs ([WStream data d0], b0)) as [[st b]|] eqn:R; [|discriminate]. apply some_eq in E. subst c'.
    destruct (junk_appends c id w c1 (unwind st b) I) as (j & B & F & P & SO).
    { eapply grows_trans; [|eapply grows_trans; [exact (grows_leak _ _ _ _ _ R)|apply grows_unwind]].
      unfold stream_start, dict_start in S. destruct (blen data <=? i32_max); [|discriminate].
      destruct (dict_insert _ _ _) as [[w' d1] b1] eqn:D. apply some_eq in S. injection S as <- <-.
      eapply grows_trans; [apply grows_extend|]. eapply grows_trans; [exact (grows_insert _ _ _ _ _ _ D)|]. apply grows_primitive. }
    exists (SJunk id j). split; [exact B|]. split; [exact F|]. split; [exact P|]. split; [apply SV_lost; assumption|]. split; [exact Hi|exact SO].
  - assert (E' : caught_stream id data calls c = Some c').
    { unfold leaked_stream in E. unfold caught_stream. destruct (chunk_indirect id c) as [w c1]. destruct (stream_start w data (c_buf c1)) as [[d0 b0]|]; [|exact E].
      rewrite leak_run_calls in E. exact E. }
    destruct (stream_total _ _ _ _ _ C E') as (a & d & L). destruct (stream_segs _ _ _ _ _ _ _ C E' L) as (k & B & F & P & SI & SD & Fi & So).
    destruct L as [es L T|L O|L]; [| |lia].
    + pose proof (stream_same _ _ _ _ _ _ E' L T) as Q. destruct (stream_appends _ _ _ _ _ Q) as (B' & F' & P'). eexists. split; [exact B'|]. split; [exact F'|].
      split; [exact P'|]. split; [eapply SV_stream; [exact L|reflexivity|exact T]|]. split; [|apply solid_item].
      cbn [seg_left sound pl_item fst snd body_fits]. split; [|apply Z.leb_le; exact L]. unfold item_typed. cbn [fst snd body_typed]. rewrite Hi, (entries_are_typed _ _ Ty T). reflexivity.
    + assert (K : exists j, k = [SJunk id j]).
      { destruct k as [|[pl|i j] k]; [discriminate|discriminate|]. cbn in SI, SD. injection SD as -> SD.
        destruct k as [|[pl|i2 j2] k]; [exists j; reflexivity|discriminate|discriminate]. }
      destruct K as (j & ->). exists (SJunk id j). split; [exact B|]. split; [exact F|]. split; [exact P|].
      split; [eapply SV_open; [exact L|reflexivity|exact C|exact O]|]. split; [exact Hi|exact So].
Qed.

(** ** Renumbering *)

Section Mapping.
  Context {T : Type} (f : T -> Z -> option (Z * T)) (Hf : answers f).

  Lemma answering_ok : forall t id, id_ok (fst (answering f t id)) = true.
  Proof using Hf.
    intros [t|] id; cbn [answering]; [|reflexivity]. destruct (f t id) as [[n t']|] eqn:E; [exact (Hf _ _ _ _ E)|reflexivity].
  Qed.
  Lemma patch_asked fuel slice : forall seen written b s b' r, caught_patch_loop f fuel slice seen written b s = Some (b', r) ->
    match r with Some s' => asked f s s' | None => exists s' id, asked f s s' /\ f s' id = None end.
  Proof using.
    induction fuel as [|fuel IH]; intros seen written b s b' r E; cbn [caught_patch_loop] in E; [discriminate|].
    destruct (nth_error slice seen) as [c|].
    2:{ destruct (slice_get _ _ _); [|discriminate]. apply some_eq in E. injection E as _ <-. apply As_none. }
    destruct (beq c x52).
    - destruct (validate_ref _) as [[[head id] gen]|]; [|exact (IH _ _ _ _ _ _ E)]. destruct (f s id) as [[new s1]|] eqn:F.
      + destruct (slice_get _ _ _); [|discriminate]. apply IH in E. destruct r as [s'|].
        * eapply As_once; eassumption.
        * destruct E as (s' & id' & A & N). exists s', id'. split; [eapply As_once; eassumption|exact N].
      + apply some_eq in E. injection E as _ <-. exists s, id. split; [apply As_none|exact F].
    - destruct (beq c x25); [exact (IH _ _ _ _ _ _ E)|]. destruct (beq c x28); [exact (IH _ _ _ _ _ _ E)|].
      destruct (_ && _ && _); [|exact (IH _ _ _ _ _ _ E)]. destruct (slice_get _ _ _); [|discriminate].
      apply some_eq in E. injection E as _ <-. apply As_none.
  Qed.

  Lemma copy_sound id bd t new t1 bd' t2 : item_typed (id, bd) = true -> body_fits bd = true -> f t id = Some (new, t1) ->
    map_body_st (answering f) bd (Some t1) = (bd', Some t2) -> sound (Whole (new, bd')).
  Proof using Hf.
    intros It Fi F M. pose proof (map_item_typed (answering f) answering_ok (id, bd) (Some t) It) as Q. unfold map_item_st in Q. cbn [fst snd answering] in Q. rewrite F, M in Q. cbn [fst] in Q.
    split; [exact Q|]. destruct bd as [o|es data]; cbn [map_body_st] in M.
    - destruct (map_refs_st _ o _) as [o' t3]. injection M as <- _. reflexivity.
    - destruct (map_entries_st _ es _) as [es' t3]. injection M as <- _. exact Fi.
  Qed.

  Lemma loop_segs nl l : forall pfx b o s, Forall sound (lefts l) ->
    exists k b' r, caught_renumber_loop f (pfx ++ segs_bytes l) (seg_offs (blen pfx) l) nl b o s = Some (b', o ++ seg_offs (blen (inner b)) k, r) /\
      inner b' = inner b ++ segs_bytes k /\ copies f (lefts l) s (lefts k) /\ Forall sound (lefts k) /\ solid k.
  Proof using Hf.
    induction l as [|x l IH]; intros pfx b o s Ht.
    - exists [], b, (Some s). cbn [seg_offs caught_renumber_loop segs_bytes flat_map]. rewrite !app_nil_r. split; [reflexivity|]. split; [reflexivity|]. split; [apply Cp_end|]. split; constructor.
    - apply Forall_cons_iff in Ht. destruct Ht as [T1 T2].
      cbn [seg_offs caught_renumber_loop]. change (lefts (x :: l)) with (seg_left x :: lefts l).
      destruct (f s (seg_id x)) as [[new s1]|] eqn:Fx.
      2:{ exists [], b, None. cbn [seg_offs segs_bytes flat_map]. rewrite !app_nil_r. split; [reflexivity|]. split; [reflexivity|]. split; [apply Cp_panic; rewrite seg_left_id; exact Fx|]. split; constructor. }
      assert (Hn : id_ok new = true) by exact (Hf _ _ _ _ Fx).
      assert (Hstop : Z.to_nat (match seg_offs (blen pfx + blen (seg_bytes x)) l with
                [] => blen (pfx ++ segs_bytes (x :: l)) | (_, o0) :: _ => o0 end) = (length pfx + length (seg_bytes x))%nat).
      { destruct l as [|x2 l2]; cbn [seg_offs].
        - cbn [segs_bytes flat_map]. rewrite app_nil_r, blen_app. unfold blen. lia.
        - unfold blen. lia. }
      rewrite Hstop. replace (Z.to_nat (blen pfx)) with (length pfx) by (unfold blen; lia).
      cbn [segs_bytes flat_map]. fold (segs_bytes l). rewrite (slice_head (fun (t : unit) z => (z, t))).
      set (pfx' := pfx ++ seg_bytes x).
      replace (pfx ++ seg_bytes x ++ segs_bytes l) with (pfx' ++ segs_bytes l) by (unfold pfx'; rewrite <- app_assoc; reflexivity).
      replace (blen pfx + blen (seg_bytes x)) with (blen pfx') by (unfold pfx'; rewrite blen_app; reflexivity).
      destruct x as [[st nl0 [id bd]]|id j].
      + cbn [seg_left sound pl_item snd] in T1. destruct T1 as [T1 Fi]. cbn [seg_id pl_item fst] in Fx. cbn [seg_left pl_item]. cbn [seg_bytes]. unfold placed_bytes. cbn [pl_style pl_nl pl_item].
        pose proof T1 as It. unfold item_typed, id_ok in T1. cbn [fst snd] in T1. apply andb_true_iff in T1. destruct T1 as [Ti Tb]. apply andb_true_iff in Ti. destruct Ti as [Ti1 Ti2].
        apply Z.ltb_lt in Ti1. apply Z.leb_le in Ti2.
        destruct (body_firm st bd Tb) as [F1 F2].
        rewrite (extract_item st nl0 id bd (conj Ti1 Ti2) F1 F2).
        set (b1 := extend (lit " obj" ++ [x0a]) _).
        pose proof (patch_body (answering f) st bd b1 (Some s1) Tb) as PB.
        destruct (map_body_st (answering f) bd (Some s1)) as [bd' r] eqn:MB. unfold patch_object in PB.
        destruct (patch_caught f _ _ _ _ _ _ _ _ PB) as (b2 & E2 & G & K). rewrite E2.
        destruct r as [s2|].
        * rewrite (K ltac:(discriminate)). clear E2 G K b2.
          set (pl' := mkPl st nl (new, bd')).
          match goal with |- context [caught_renumber_loop f _ _ nl ?BB _ _] => set (b3 := BB) end.
          assert (HBB : inner b3 = inner b ++ placed_bytes pl').
          { unfold b3, b1, put, push, push_int, extend, with_limits, pl', placed_bytes, item_bytes.
            destruct nl; cbn [inner lims pl_item pl_style pl_nl fst snd]; rewrite <- ?app_assoc, ?app_nil_r; reflexivity. }
          destruct (IH pfx' b3 (o ++ [(new, blen (inner b))]) s2 T2) as (k & b' & r & E & B & Cp & Sd & SO).
          exists (SItem pl' :: k), b', r. rewrite E. split; [|split; [|split; [|split]]].
          -- rewrite <- app_assoc. cbn [app seg_offs seg_id pl_item fst seg_bytes]. rewrite HBB, blen_app. reflexivity.
          -- rewrite B, HBB. cbn [segs_bytes flat_map seg_bytes]. rewrite <- app_assoc. reflexivity.
          -- exact (Cp_whole f id bd (lefts l) s new s1 bd' s2 (lefts k) Fx MB Cp).
          -- constructor; [exact (copy_sound _ _ _ _ _ _ _ It Fi Fx MB)|exact Sd].
          -- constructor; [apply placed_ne|exact SO].
        * assert (G' : grown b b2).
          { eapply grown_trans; [|exact G]. unfold b1. eapply grown_grows; [apply grows_int|]. eapply grown_trans; [apply grown_push|].
            eapply grows_trans; [apply grows_int|apply grows_extend]. }
          destruct G' as (j & G' & G2). exists [SJunk new j], b2, None. split; [reflexivity|]. cbn [segs_bytes flat_map seg_bytes]. rewrite app_nil_r.
          split; [exact G'|]. split; [exact (Cp_cut f id bd (lefts l) s new s1 bd' Fx MB)|]. split; [constructor; [exact Hn|constructor]|constructor; [exact G2|constructor]].
      + cbn [seg_id] in Fx. cbn [seg_left]. cbn [seg_bytes].
        destruct (extract_object j) as [[gen slice]|].
        2:{ destruct (IH pfx' b o s1 T2) as (k & b' & r & E & B & Cp & Sd & SO). exists k, b', r. rewrite E. split; [reflexivity|]. split; [exact B|].
            split; [exact (Cp_left_out f id _ s new s1 _ Fx Cp)|]. split; [exact Sd|exact SO]. }
        set (b1 := extend (lit " obj" ++ [x0a]) _).
        destruct (C34_scanner_total slice b1 _ (answering f) (Some s1)) as (b2 & r & rest & PB & _). unfold patch_object in PB.
        destruct (patch_caught f _ _ _ _ _ _ _ _ PB) as (b3 & E3 & G & K). rewrite E3. pose proof (patch_asked _ _ _ _ _ _ _ _ E3) as A.
        assert (G' : grown b b3).
        { eapply grown_trans; [|exact G]. unfold b1. eapply grown_grows; [apply grows_int|]. eapply grown_trans; [apply grown_push|].
          eapply grows_trans; [apply grows_int|apply grows_extend]. }
        destruct r as [s2|].
        * match goal with |- context [caught_renumber_loop f _ _ nl ?BB _ _] => set (b4 := BB) end.
          assert (G4 : grown b b4).
          { eapply grown_trans; [exact G'|]. unfold b4. destruct nl; [eapply grows_trans; [apply grows_extend|apply grows_extend]|apply grows_extend]. }
          destruct G4 as (jj & G4 & G5).
          destruct (IH pfx' b4 (o ++ [(new, blen (inner b))]) s2 T2) as (k & b' & r & E & B & Cp & Sd & SO).
          exists (SJunk new jj :: k), b', r. rewrite E. split; [|split; [|split; [|split]]].
          -- rewrite <- app_assoc. cbn [app seg_offs seg_id seg_bytes]. rewrite G4, blen_app. reflexivity.
          -- rewrite B, G4. cbn [segs_bytes flat_map seg_bytes]. rewrite <- app_assoc. reflexivity.
          -- exact (Cp_damaged f id (lefts l) s new s1 s2 (lefts k) Fx A Cp).
          -- constructor; [exact Hn|exact Sd].
          -- constructor; [exact G5|exact SO].
        * destruct G' as (jj & G' & G2). destruct A as (t2 & id2 & A & N). exists [SJunk new jj], b3, None. split; [reflexivity|]. cbn [segs_bytes flat_map seg_bytes]. rewrite app_nil_r.
          split; [exact G'|]. split; [exact (Cp_damaged_cut f id (lefts l) s new s1 t2 id2 Fx A N)|]. split; [constructor; [exact Hn|constructor]|constructor; [exact G2|constructor]].
  Qed.
  Lemma renumber_leaves k src tgt s : shows [] k src -> Forall sound (lefts k) ->
    exists c' r k', caught_renumber_into f src tgt s = Some (c', r) /\
      chunk_bytes c' = chunk_bytes tgt ++ segs_bytes k' /\ c_offsets c' = c_offsets tgt ++ seg_offs (chunk_len tgt) k' /\ c_pretty c' = c_pretty tgt /\
      copies f (lefts k) s (lefts k') /\ Forall sound (lefts k') /\ solid k'.
  Proof using Hf.
    intros [Hb Ho] Ht. unfold caught_renumber_into. rewrite Hb, Ho.
    destruct (loop_segs (c_pretty tgt) k [] (with_limits (fun m => merge m (chunk_limits src)) (c_buf tgt)) (c_offsets tgt) s Ht) as (k' & b' & r & E & B & C & S & SO).
    rewrite E. eexists. exists r, k'. split; [reflexivity|]. unfold chunk_bytes, chunk_len. cbn [c_buf c_offsets c_pretty].
    rewrite inner_with in *. split; [exact B|]. repeat split; assumption.
  Qed.
End Mapping.

(** ** Histories *)

Lemma lefts_app a b : lefts (a ++ b) = lefts a ++ lefts b.
Proof. apply map_app. Qed.
Lemma leaves_shows h : forall c, leak_hist_typed h -> leak_hist_run h = Some c ->
  exists k, shows [] k c /\ chunk_leaves h (lefts k) /\ Forall sound (lefts k) /\ solid k.
Proof.
  induction h as [p|h IH id cs|h IH id data cs|h IH o IHo|h IH l|t IH src IHs T f s]; intros c F R; cbn [leak_hist_run leak_hist_typed] in *.
  - apply some_eq in R. subst c. exists []. split; [split; reflexivity|]. split; [apply V_new|]. split; constructor.
  - destruct F as (F1 & F2 & F3). destruct (leak_hist_run h) as [c1|]; [|discriminate]. destruct (IH c1 F1 eq_refl) as (k & S & V & Sd & So).
    destruct (leaked_object_segs _ _ _ _ F2 F3 R) as (x & B & Of & _ & V' & Sd' & So'). exists (k ++ [x]). rewrite lefts_app.
    split; [exact (shows_app _ _ _ _ _ S B Of)|]. split; [apply V_object; assumption|]. split; [|apply solid_app; assumption]. apply Forall_app. split; [exact Sd|]. constructor; [exact Sd'|constructor].
  - destruct F as (F1 & F2 & F3). destruct (leak_hist_run h) as [c1|]; [|discriminate]. destruct (IH c1 F1 eq_refl) as (k & S & V & Sd & So).
    destruct (leaked_stream_segs _ _ _ _ _ F2 F3 R) as (x & B & Of & _ & V' & Sd' & So'). exists (k ++ [x]). rewrite lefts_app.
    split; [exact (shows_app _ _ _ _ _ S B Of)|]. split; [apply V_stream; assumption|]. split; [|apply solid_app; assumption]. apply Forall_app. split; [exact Sd|]. constructor; [exact Sd'|constructor].
  - destruct F as (F1 & F2). destruct (leak_hist_run h) as [c1|]; [|discriminate]. destruct (leak_hist_run o) as [c2|]; [|discriminate]. apply some_eq in R. subst c.
    destruct (IH c1 F1 eq_refl) as (k & S & V & Sd & So). destruct (IHo c2 F2 eq_refl) as (k' & S' & V' & Sd' & So'). exists (k ++ k'). rewrite lefts_app.
    split.
    + destruct S' as [B Of]. apply (shows_app _ _ _ _ _ S).
      * unfold chunk_bytes, chunk_extend, extend_buf. cbn [c_buf inner]. f_equal. exact B.
      * unfold chunk_extend. cbn [c_offsets]. f_equal. rewrite Of, blen_nil, seg_offs_shift. f_equal. lia.
    + split; [apply V_extend; assumption|]. split; [apply Forall_app; split; assumption|apply solid_app; assumption].
  - destruct (leak_hist_run h) as [c1|]; [|discriminate]. apply some_eq in R. subst c. destruct (IH c1 F eq_refl) as (k & S & V & Sd & So). exists k.
    split; [exact S|]. split; [apply V_merge; exact V|]. split; assumption.
  - destruct F as (F1 & F2 & F3). destruct (leak_hist_run t) as [c1|]; [|discriminate]. destruct (leak_hist_run src) as [c2|]; [|discriminate].
    destruct (IH c1 F1 eq_refl) as (k & S & V & Sd & So). destruct (IHs c2 F2 eq_refl) as (k2 & S2 & V2 & Sd2 & So2).
    destruct (renumber_leaves f F3 k2 c2 c1 s S2 Sd2) as (c' & r & k' & E & B & Of & P & Cp & Sd' & So'). rewrite E in R. apply some_eq in R. cbn [fst] in R. subst c'.
    exists (k ++ k'). rewrite lefts_app. split; [exact (shows_app _ _ _ _ _ S B Of)|]. split; [eapply V_renumber; eassumption|].
    split; [apply Forall_app; split; assumption|apply solid_app; assumption].
Qed.
Lemma hist_total h : leak_hist_typed h -> forall T (f : T -> Z -> option (Z * T)) s c tgt, answers f -> leak_hist_run h = Some c -> caught_renumber_into f c tgt s <> None.
Proof.
  intros F T f s c tgt Hf R. destruct (leaves_shows h c F R) as (k & S & _ & Sd & _). destruct (renumber_leaves f Hf k c tgt s S Sd) as (c' & r & k' & E & _). congruence.
Qed.

(** ** Documents *)

Lemma step_leak op : forall hc k p p', leak_op_typed op -> cstate hc k p -> leak_pdf_step op p = Some p' ->
  exists k', cstate (hc ++ leak_header_call op) (k ++ k') p' /\ op_leaves op (lefts k') /\ Forall sound (lefts k') /\ solid k'.
Proof.
  intros hc k p p' F (S & C & I & X) R.
  destruct op as [id cs|id data cs|o|l|src T f s|id cs|id cs|x|M N|m]; cbn [leak_pdf_step leak_op_typed leak_header_call] in *; rewrite ?app_nil_r.
  - unfold on_chunk_opt in R. destruct (leaked_object id cs (p_chunk p)) as [c'|] eqn:E; [|discriminate]. apply some_eq in R. subst p'.
    destruct (leaked_object_segs _ _ _ _ (proj1 F) (proj2 F) E) as (x & B & O & _ & V & Sd & So). exists [x].
    split; [|split; [apply OpV_object; exact V|split; [constructor; [exact Sd|constructor]|exact So]]]. split; [exact (shows_app _ _ _ _ _ S B O)|]. split; [exact C|]. split; [exact I|exact X].
  - unfold on_chunk_opt in R. destruct (leaked_stream id data cs (p_chunk p)) as [c'|] eqn:E; [|discriminate]. apply some_eq in R. subst p'.
    destruct (leaked_stream_segs _ _ _ _ _ (proj1 F) (proj2 F) E) as (x & B & O & _ & V & Sd & So). exists [x].
    split; [|split; [apply OpV_stream; exact V|split; [constructor; [exact Sd|constructor]|exact So]]]. split; [exact (shows_app _ _ _ _ _ S B O)|]. split; [exact C|]. split; [exact I|exact X].
  - destruct (leak_hist_run o) as [c2|] eqn:E; [|discriminate]. apply some_eq in R. subst p'.
    destruct (leaves_shows o c2 F E) as (k' & [B Of] & V & Sd & So). exists k'.
    split; [|split; [apply OpV_extend; exact V|split; assumption]]. split; [|split; [exact C|split; [exact I|exact X]]].
    apply (shows_app _ _ _ _ _ S).
    + unfold chunk_bytes, on_chunk, chunk_extend, extend_buf. cbn [c_buf inner p_chunk]. f_equal. exact B.
    + unfold on_chunk, chunk_extend. cbn [c_offsets p_chunk]. f_equal. rewrite Of, blen_nil, seg_offs_shift. f_equal. lia.
  - apply some_eq in R. subst p'. exists []. rewrite app_nil_r. split; [|split; [apply OpV_merge|split; constructor]]. split; [exact S|]. split; [exact C|]. split; [exact I|exact X].
  - destruct F as [F2 F3]. destruct (leak_hist_run src) as [c2|] eqn:RS; [|discriminate].
    destruct (leaves_shows src c2 F2 RS) as (k2 & S2 & V2 & Sd2 & So2).
    destruct (renumber_leaves f F3 k2 c2 (p_chunk p) s S2 Sd2) as (c' & r & k' & E & B & Of & P & Cp & Sd & So).
    unfold on_chunk_opt in R. rewrite E in R. apply some_eq in R. cbn [fst] in R. subst p'. exists k'.
    split; [|split; [eapply OpV_renumber; eassumption|split; assumption]].
    split; [exact (shows_app _ _ _ _ _ S B Of)|]. split; [exact C|]. split; [exact I|exact X].
  - unfold on_chunk_opt in R. cbn [p_chunk] in R.
    destruct (leaked_object _ _ (p_chunk p)) as [c'|] eqn:E; [|discriminate]. apply some_eq in R. subst p'.
    destruct (leaked_object_segs id (LCall CDict :: LCall (CPair (lit "Type") (PName (lit "Catalog"))) :: cs) _ _ (proj1 F) (proj2 F) E) as (x & B & O & _ & V & Sd & So). exists [x].
    split; [|split; [apply OpV_catalog; exact V|split; [constructor; [exact Sd|constructor]|exact So]]]. unfold cstate. rewrite header_snoc_same by reflexivity.
    unfold catalog_of, info_of, file_id_of. rewrite !last_call_snoc. split; [exact (shows_app _ _ _ _ _ S B O)|]. split; [reflexivity|]. split; [exact I|exact X].
  - unfold on_chunk_opt in R. cbn [p_chunk] in R.
    destruct (leaked_object _ _ (p_chunk p)) as [c'|] eqn:E; [|discriminate]. apply some_eq in R. subst p'.
    destruct (leaked_object_segs id (LCall CDict :: cs) _ _ (proj1 F) (proj2 F) E) as (x & B & O & _ & V & Sd & So). exists [x].
    split; [|split; [apply OpV_info; exact V|split; [constructor; [exact Sd|constructor]|exact So]]]. unfold cstate. rewrite header_snoc_same by reflexivity.
    unfold catalog_of, info_of, file_id_of. rewrite !last_call_snoc. split; [exact (shows_app _ _ _ _ _ S B O)|]. split; [exact C|]. split; [reflexivity|exact X].
  - apply some_eq in R. subst p'. exists []. rewrite app_nil_r. split; [|split; [apply OpV_file_id|split; constructor]]. unfold cstate. rewrite header_snoc_same by reflexivity.
    unfold catalog_of, info_of, file_id_of. rewrite !last_call_snoc. split; [exact S|]. split; [exact C|]. split; [exact I|reflexivity].
  - apply some_eq in R. subst p'. exists []. rewrite app_nil_r. split; [|split; [apply OpV_version|split; constructor]]. unfold cstate.
    unfold catalog_of, info_of, file_id_of. rewrite !last_call_snoc. rewrite <- hdr_edits in S |- *. unfold edits in *. rewrite fold_left_app. cbn [fold_left].
    destruct (fold_left _ hc hdr0) as [[ma mi] m]. cbn [edit hdr] in *. split; [apply version_shows; exact S|].
    unfold set_version. destruct (M <? 10), (N <? 10); (split; [exact C|split; [exact I|exact X]]).
  - apply some_eq in R. subst p'. exists []. rewrite app_nil_r. split; [|split; [apply OpV_marker|split; constructor]]. unfold cstate.
    unfold catalog_of, info_of, file_id_of. rewrite !last_call_snoc. rewrite <- hdr_edits in S |- *. unfold edits in *. rewrite fold_left_app. cbn [fold_left].
    destruct (fold_left _ hc hdr0) as [[ma mi] m0]. cbn [edit hdr] in *. split; [apply (marker_shows _ _ m0); exact S|].
    unfold set_binary_marker. destruct m as [[[x y] z] t]. split; [exact C|split; [exact I|exact X]].
Qed.
Lemma run_leak ops : forall hc k p p', Forall leak_op_typed ops -> cstate hc k p -> leak_pdf_run ops p = Some p' ->
  exists k', cstate (hc ++ leak_header_calls ops) (k ++ k') p' /\ document_leaves ops (lefts k') /\ Forall sound (lefts k') /\ solid k'.
Proof.
  induction ops as [|op ops IH]; intros hc k p p' F S R.
  - cbn [leak_pdf_run] in R. apply some_eq in R. subst p'. exists []. cbn [leak_header_calls flat_map]. rewrite !app_nil_r. split; [exact S|]. split; [apply D_none|]. split; constructor.
  - cbn [leak_pdf_run] in R. destruct (leak_pdf_step op p) as [p1|] eqn:E; [|discriminate]. apply Forall_cons_iff in F. destruct F as [F1 F2].
    destruct (step_leak _ _ _ _ _ F1 S E) as (k1 & S1 & V1 & Sd1 & So1).
    destruct (IH _ _ _ _ F2 S1 R) as (k2 & S2 & V2 & Sd2 & So2). exists (k1 ++ k2).
    unfold leak_header_calls in *. cbn [flat_map]. rewrite !app_assoc, lefts_app. split; [exact S2|]. split; [apply D_op; assumption|].
    split; [apply Forall_app; split; assumption|apply solid_app; assumption].
Qed.

Lemma leak_header_typed ops : Forall leak_op_typed ops -> ops_typed (leak_header_calls ops).
Proof.
  unfold ops_typed. induction 1 as [|op ops F FF IH]; [constructor|]. unfold leak_header_calls. cbn [flat_map]. apply Forall_app. split; [|exact IH].
  destruct op; cbn [leak_header_call leak_op_typed] in *; repeat constructor; try apply F; exact F.
Qed.
Lemma leak_header_fit ops : items_fit (pdf_items (leak_header_calls ops)) = true.
Proof.
  induction ops as [|op ops IH]; [reflexivity|]. unfold leak_header_calls, pdf_items in *. cbn [flat_map]. rewrite flat_map_app, items_fit_app, IH, andb_true_r.
  destruct op; reflexivity.
Qed.

(** What follows from the state alone. *)
Section State.
  Context (hc : list pdf_op) (k : list seg) (p : pdf).
  Hypothesis St : cstate hc k p.
  Hypothesis Sd : Forall sound (lefts k).
  Hypothesis So : solid k.
  Hypothesis Ty : ops_typed hc.
  Hypothesis Fit : items_fit (pdf_items hc) = true.

  Lemma st_ids : ids (c_offsets (p_chunk p)) = map left_id (lefts k).
  Proof using St.
    destruct St as ([_ O] & _). unfold ids, lefts. rewrite O, seg_offs_ids, map_map. apply map_ext. intro s. symmetry. apply seg_left_id.
  Qed.
  Lemma st_ok : Forall (fun i => id_ok i = true) (map left_id (lefts k)).
  Proof using Sd.
    apply Forall_forall. intros i H. apply in_map_iff in H as (x & <- & H). rewrite Forall_forall in Sd. specialize (Sd x H). destruct x as [[id bd]|id]; cbn [sound left_id fst] in *; [|exact Sd].
    destruct Sd as [Q _]. unfold item_typed in Q. apply andb_true_iff in Q. apply Q.
  Qed.
  Lemma st_small : ids_below (map left_id (lefts k)) -> ids_small (c_offsets (p_chunk p)).
  Proof using St Sd.
    intro HB. unfold ids_small. rewrite st_ids. pose proof st_ok as P. unfold ids_below in HB. rewrite Forall_forall in *. intros i Hi. specialize (P i Hi). specialize (HB i Hi). unfold id_ok in P. lia.
  Qed.
  Lemma st_trailer : trailer_ok p.
  Proof using St Ty Fit.
    destruct St as (_ & C & I & _). pose proof (run_spec true _ Ty) as Q. rewrite Fit in Q.
    destruct Q as (q & kk & Q & _ & (_ & _ & C2 & I2 & _)). pose proof (reach_trailer _ _ _ Ty Q) as [A B]. split; intros i Hi.
    - apply A. rewrite C2, <- C. exact Hi.
    - apply B. rewrite I2, <- I. exact Hi.
  Qed.
  Lemma st_small_offsets : small_offsets p.
  Proof using St So.
    destruct St as ([B O] & _). unfold small_offsets, pdf_bytes. rewrite B, O, blen_app. apply seg_offs_small; [exact So|apply blen_nonneg].
  Qed.
  Lemma st_header : exists body, pdf_bytes p = header_of hc ++ body /\ 16 <= blen (pdf_bytes p).
  Proof using St.
    destruct St as ([B _] & _). exists (segs_bytes k). unfold pdf_bytes. split; [exact B|]. rewrite B, blen_app, header_of_length. pose proof (blen_nonneg (segs_bytes k)). lia.
  Qed.
  Lemma st_item it : In (Whole it) (lefts k) -> exists pre st nl post,
    pdf_bytes p = pre ++ item_bytes st nl it ++ post /\ In (fst it, blen pre) (c_offsets (p_chunk p)) /\ body_fits (snd it) = true.
  Proof using St Sd.
    intro H. pose proof H as H0. destruct St as ([B O] & _). unfold lefts in H. apply in_map_iff in H as (s & E & H). destruct s as [pl|i j]; [|discriminate]. injection E as E.
    assert (H' : In it (seg_items k)) by (unfold seg_items; apply in_flat_map; exists (SItem pl); split; [exact H|left; exact E]).
    destruct (seg_located k (blen (header_of hc)) it H') as (a & pl' & b & Ek & Ei & Q).
    exists (header_of hc ++ segs_bytes a), (pl_style pl'), (pl_nl pl'), (segs_bytes b).
    split; [|split; [rewrite O, blen_app; exact Q|rewrite Forall_forall in Sd; specialize (Sd _ H0); cbn [sound] in Sd; apply Sd]].
    unfold pdf_bytes. rewrite B, Ek, segs_bytes_app, Ei. cbn [segs_bytes flat_map seg_bytes]. unfold placed_bytes. rewrite <- !app_assoc. reflexivity.
  Qed.
  Lemma st_trailer_value N key : key <> lit "Size" -> lookup key (dict_vals (trailer_entries p N)) = trailer_value hc key.
  Proof using St.
    intro K. destruct St as (_ & C & I & X). destruct (trailer_lookup p N) as [_ Q]. rewrite Q by exact K. unfold trailer_value. rewrite C, I, X. reflexivity.
  Qed.

  Lemma st_finish : (exists file, finish p = Some file) <-> NoDup (map left_id (lefts k)).
  Proof using St Sd.
    rewrite finish_form. rewrite <- st_ids. split.
    - intros (file & H). destruct (ListDec.NoDup_dec Z.eq_dec (ids (c_offsets (p_chunk p)))) as [ND|ND]; [exact ND|].
      rewrite write_offsets_dup in H by exact ND. discriminate.
    - intro ND. assert (Q : Forall (fun i => 0 < i) (ids (c_offsets (p_chunk p)))).
      { rewrite st_ids. eapply Forall_impl; [|exact st_ok]. intros i Hi. unfold id_ok in Hi. lia. }
      destruct (write_offsets_spec _ ND Q) as (es & E & _). rewrite E. eexists. reflexivity.
  Qed.

  Lemma st_document decode file : ids_below (map left_id (lefts k)) -> finish p = Some file -> blen file <= 10 ^ 10 ->
    (forall it, In (Whole it) (lefts k) -> body_readable (snd it) = true -> exists i, resolve decode file (fst it) = Some i /\ item_means it i) /\
    (forall id, ~ In id (map left_id (lefts k)) -> resolve decode file id = None) /\
    (exists rest, file = header_of hc ++ rest) /\
    exists entries trailer, read_file decode file = Some (entries, trailer) /\ forall key, key <> lit "Size" -> lookup key trailer = trailer_value hc key.
  Proof using St Sd So Ty Fit.
    intros HB HF HL. pose proof (st_small HB) as SM.
    assert (HL' : blen (pdf_bytes p) <= 10 ^ 10).
    { rewrite finish_form in HF. destruct (write_offsets _); [|discriminate]. cbn [option_map] in HF. apply ProofFile3.some_inj in HF.
      rewrite <- HF in HL. eapply Z.le_trans; [apply blen_prefix|exact HL]. }
    destruct (plain_read decode p file HF SM st_trailer st_small_offsets HL') as (es & tail & ND & EL & EF & EB & _ & RD & _). cbn zeta in *.
    split; [|split; [|split]].
    - intros it Hit Hr. destruct (st_item it Hit) as (pre & st & nl & post & E & Ho & Fi).
      unfold resolve. rewrite RD. rewrite (used_entry _ _ es ND SM eq_refl EL EF conv _ _ Ho). cbn [conv].
      rewrite EB, E, <- !app_assoc. destruct (parse_at pre st nl it
        (post ++ lit "xref" ++ [x0a] ++ lit "0 " ++ dec_u (1 + zmax (ids (c_offsets (p_chunk p)))) ++ [x0a] ++ flat_map plain_entry es ++ lit "trailer" ++ tail) Hr Fi) as (r & ->).
      rewrite item_val_id. cbn [fst snd]. rewrite !Z.eqb_refl. cbn [andb]. exists (item_val it). split; [reflexivity|]. apply item_val_means. exact Hr.
    - intros id Hid. unfold resolve. rewrite RD.
      assert (Hid' : ~ In id (ids (c_offsets (p_chunk p)))) by (rewrite st_ids; exact Hid).
      destruct (Z_lt_le_dec id 0) as [L1|L1]; [rewrite (outside_entry _ es EL conv) by lia; reflexivity|].
      destruct (Z_lt_le_dec id (1 + zmax (ids (c_offsets (p_chunk p))))) as [L'|L'].
      + destruct (free_entry _ _ es SM eq_refl EL EF conv id ltac:(lia) Hid') as (n & -> & _). reflexivity.
      + rewrite (outside_entry _ es EL conv) by lia. reflexivity.
    - destruct st_header as (body & E & _). rewrite EB, E, <- app_assoc. eexists. reflexivity.
    - eexists. eexists. split; [exact RD|]. intros key Hk. apply st_trailer_value. exact Hk.
  Qed.

  Lemma st_document_stream decode xid file : id_ok xid = true -> ids_below (xid :: map left_id (lefts k)) -> finished_with_stream decode p xid file -> blen file < 2 ^ 64 ->
    (forall it, In (Whole it) (lefts k) -> body_readable (snd it) = true -> exists i, resolve decode file (fst it) = Some i /\ item_means it i) /\
    (forall id, id <> xid -> ~ In id (map left_id (lefts k)) -> resolve decode file id = None) /\
    (exists rest, file = header_of hc ++ rest) /\
    exists entries trailer, read_file decode file = Some (entries, trailer) /\
      forall key, key <> lit "Size" -> ~ In key stream_keys -> lookup key trailer = trailer_value hc key.
  Proof using St Sd So Ty Fit.
    intros HX HB HF HL. unfold ids_below in HB. apply Forall_cons_iff in HB. destruct HB as [HB0 HB]. pose proof (st_small HB) as SM0.
    destruct st_header as (body & EH & RL).
    assert (SM : ids_small (with_xref p xid)).
    { unfold ids_small. apply Forall_forall. intros i Hi. apply (Permutation_in _ (with_xref_perm p xid)) in Hi.
      destruct Hi as [<-|Hi]; [unfold id_ok in HX; lia|]. unfold ids_small in SM0. rewrite Forall_forall in SM0. exact (SM0 _ Hi). }
    assert (K : exists F, finish_stream_inner p xid F = Some file /\ (forall data, decode (filter_val (snd (F data))) (fst (F data)) = Some data)).
    { destruct HF as [F1 F2|fl F1 F2].
      - exists (fun buf => (buf, None)). split; [exact F1|exact F2].
      - eexists. split; [exact F1|]. intro data. specialize (F2 data). cbv beta. destruct (fl data) as [a b]. exact F2. }
    destruct K as (F & KF & KD).
    assert (LE : blen (pdf_bytes p) <= blen file).
    { rewrite finish_stream_form in KF. cbn zeta in KF. destruct (write_offsets _) as [[n es]|]; [|discriminate].
      destruct (F _) as [data flt]. destruct (_ <=? _); [|discriminate]. apply ProofFile3.some_inj in KF. rewrite <- KF. apply blen_prefix. }
    destruct (stream_read decode p xid F file KF KD SM st_trailer ltac:(lia)) as (es & flt & data & ND & EL & EF & EB & ED & DL & RD & SX). cbn zeta in *.
    destruct (field_width_spec (blen (pdf_bytes p)) ltac:(lia)) as [W1 W2]. set (w := field_width (blen (pdf_bytes p))) in *.
    split; [|split; [|split]].
    - intros it Hit Hr. destruct (st_item it Hit) as (pre & st & nl & post & E & Ho & Fi).
      unfold resolve. rewrite RD.
      rewrite (used_entry (with_xref p xid) _ es ND SM eq_refl EL EF (narrow (Z.to_nat w)) (fst it) (blen pre)) by (unfold with_xref; apply in_or_app; left; exact Ho).
      rewrite used_narrow; [|split; [apply blen_nonneg|eapply Z.le_lt_trans; [|exact W2]; rewrite E; apply blen_prefix]|lia].
      rewrite EB, E, <- !app_assoc.
      match goal with |- context [pre ++ item_bytes st nl it ++ ?r] => destruct (parse_at pre st nl it r Hr Fi) as (r' & ->) end.
      rewrite item_val_id. cbn [fst snd]. rewrite !Z.eqb_refl. cbn [andb]. exists (item_val it). split; [reflexivity|]. apply item_val_means. exact Hr.
    - intros id Hx Hid. unfold resolve. rewrite RD.
      assert (Hid' : ~ In id (ids (with_xref p xid))).
      { intro I. apply (Permutation_in _ (with_xref_perm p xid)) in I. destruct I as [I|I]; [apply Hx; symmetry; exact I|]. apply Hid. rewrite <- st_ids. exact I. }
      destruct (Z_lt_le_dec id 0) as [L1|L1]; [rewrite (outside_entry _ es EL (narrow (Z.to_nat w))) by lia; reflexivity|].
      destruct (Z_lt_le_dec id (1 + zmax (ids (with_xref p xid)))) as [L'|L'].
      + destruct (free_entry _ _ es SM eq_refl EL EF (narrow (Z.to_nat w)) id ltac:(lia) Hid') as (n & -> & _). reflexivity.
      + rewrite (outside_entry _ es EL (narrow (Z.to_nat w))) by lia. reflexivity.
    - rewrite EB, EH, <- app_assoc. eexists. reflexivity.
    - eexists. eexists. split; [exact RD|]. intros key K1 K2.
      destruct (stream_lookup p flt (1 + zmax (ids (with_xref p xid))) w (blen data)) as (_ & _ & _ & _ & L5).
      rewrite L5 by exact K2. apply st_trailer_value. exact K1.
  Qed.
End State.
