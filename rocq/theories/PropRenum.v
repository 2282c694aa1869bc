(** Properties C31..C34: renumbering. *)

From Coq Require Import ZArith List Lia Bool ZifyBool ZifyNat.
From Verif Require Import Bytes ModelFloat ModelBuf ModelObject ModelRenumber ModelChunk SpecLex SpecObj SpecMeans
  SpecRenum SpecChunk SpecLimits ProofBasic ProofObj ProofParse ProofTree ProofRenum ProofRenumTree ProofChunk
  ProofChunkParse ProofChunk2 ProofLimits ProofLimits3 PropChunk.
Import ListNotations.
Local Open Scope Z_scope.

(** ** C31 *)

(** A chunk [c] with any history, all of whose chunks have setting [p], renumbered into a
    fresh chunk with that setting: byte for byte (and offset for offset) the chunk obtained
    by writing the renumbered objects in the first place. *)
Theorem C31_renumber_is_rewriting : forall p h c T (f : T -> Z -> Z * T) s,
  hist_typed h -> hist_uniform p h -> run h = Some c -> (forall t id, id_ok (fst (f t id)) = true) ->
  exists c' s' w,
    chunk_renumber_into f c (chunk_with_settings p) s = Some (c', s') /\
    run (written_anew p (fst (thread (map_item_st f) (hist_items h) s))) = Some w /\
    chunk_bytes c' = chunk_bytes w /\ c_offsets c' = c_offsets w.
Proof.
  intros p h c T f s Ht Hu Hc Hf.
  destruct (run_uniform p h Ht Hu c Hc) as (l & A & B & C & D).
  assert (Hnew : holds [] [] (chunk_with_settings p)) by (split; reflexivity).
  pose proof (items_typed h Ht) as Tt.
  destruct (renumber_holds f [] [] l [] c (chunk_with_settings p) s A Hnew) as (c' & E & F & G & _);
    [rewrite B; exact Tt|].
  destruct (anew_run p (fst (thread (map_item_st f) (hist_items h) s))) as (w & k & R & H & I & J & K).
  { apply map_items_typed; assumption. }
  { rewrite map_items_fit. apply (fits_of_run h c Ht Hc). }
  eexists c', _, w. split; [exact E|]. split; [exact R|].
  assert (Ek : fst (thread (map_placed_st f p) l s) = k).
  { apply (uniform_layout p).
    - apply uniform_thread. eapply Forall_impl; [|exact C]. cbn. intuition.
    - exact J.
    - destruct (thread_placed f p l s) as [P _]. rewrite P, B, I. reflexivity. }
  cbn [app chunk_with_settings c_pretty] in F. rewrite Ek in F. destruct F as [F1 F2], H as [H1 H2].
  split; congruence.
Qed.

(** The case of a plain function. *)
Theorem C31_renumber_pure : forall p h c (f : Z -> Z),
  hist_typed h -> hist_uniform p h -> run h = Some c -> (forall id, id_ok (f id) = true) ->
  exists c' w,
    chunk_renumber_into (fun (t : unit) id => (f id, t)) c (chunk_with_settings p) tt = Some (c', tt) /\
    run (written_anew p (map (map_item f) (hist_items h))) = Some w /\
    chunk_bytes c' = chunk_bytes w /\ c_offsets c' = c_offsets w.
Proof.
  intros p h c f Ht Hu Hc Hf.
  destruct (C31_renumber_is_rewriting p h c unit (fun (t : unit) id => (f id, t)) tt Ht Hu Hc (fun _ => Hf))
    as (c' & [] & w & A & B & C & D).
  exists c', w. split; [exact A|]. rewrite map_items_pure in B. split; [exact B|]. split; assumption.
Qed.

(** Source chunk and target with different settings ([Chunk::renumber] always has a pretty
    target): each object keeps the style of the source, followed by a blank line if the
    target is pretty. *)
Theorem C31_renumber_mixed_settings : forall p q h c T (f : T -> Z -> Z * T) s,
  hist_typed h -> hist_uniform p h -> run h = Some c -> (forall t id, id_ok (fst (f t id)) = true) ->
  exists c' s' texts,
    chunk_renumber_into f c (chunk_with_settings q) s = Some (c', s') /\
    Forall2 (fun it text => option_map chunk_bytes (run (written_anew p [it])) =
                            Some (text ++ if p then [x0a] else []))
            (fst (thread (map_item_st f) (hist_items h) s)) texts /\
    chunk_bytes c' = flat_map (fun text => text ++ if q then [x0a] else []) texts.
Proof.
  intros p q h c T f s Ht Hu Hc Hf.
  destruct (run_uniform p h Ht Hu c Hc) as (l & A & B & C & D).
  assert (Hnew : holds [] [] (chunk_with_settings q)) by (split; reflexivity).
  pose proof (items_typed h Ht) as Tt.
  destruct (renumber_holds f [] [] l [] c (chunk_with_settings q) s A Hnew) as (c' & E & F & G & _);
    [rewrite B; exact Tt|].
  change (c_pretty (chunk_with_settings q)) with q in F.
  set (l' := fst (thread (map_placed_st f q) l s)) in *.
  assert (Hl' : map pl_item l' = fst (thread (map_item_st f) (hist_items h) s)).
  { destruct (thread_placed f q l s) as [P _]. unfold l'. rewrite P, B. reflexivity. }
  assert (Hst : Forall (fun pl => pl_style pl = p /\ pl_nl pl = q) l').
  { apply uniform_thread. eapply Forall_impl; [|exact C]. cbn. intuition. }
  assert (Hty : forallb item_typed (map pl_item l') = true) by (rewrite Hl'; apply map_items_typed; assumption).
  assert (Hfi : items_fit (map pl_item l') = true).
  { rewrite Hl', map_items_fit. apply (fits_of_run h c Ht Hc). }
  eexists c', _, (map (fun pl => item_bytes p false (pl_item pl)) l'). split; [exact E|]. split.
  - rewrite <- Hl'. clearbody l'. clear - Hty Hfi. induction l' as [|pl l IH]; [constructor|].
    unfold items_fit in *. cbn [map forallb] in *. apply andb_true_iff in Hty, Hfi. destruct Hty as [T1 T2], Hfi as [F1 F2].
    constructor; [|apply IH; assumption].
    destruct (anew_run p [pl_item pl]) as (w & k & R & H & I & J & _).
    { cbn [forallb]. rewrite T1. reflexivity. } { unfold items_fit. cbn [forallb]. rewrite F1. reflexivity. }
    rewrite R. cbn [option_map]. f_equal. destruct H as [H _]. rewrite H. cbn [app].
    destruct k as [|k1 [|? ?]]; try discriminate. injection I as I. destruct (Forall_inv J) as [J1 J2].
    cbn [layout flat_map]. rewrite app_nil_r. unfold placed_bytes, item_bytes. rewrite J1, J2, I.
    rewrite <- !app_assoc. cbn [app]. reflexivity.
  - destruct F as [F _]. rewrite F. cbn [app]. clearbody l'. clear - Hst. induction Hst as [|pl l0 [H1 H2] H IH]; [reflexivity|].
    cbn [layout flat_map map]. fold (layout l0). rewrite IH. f_equal. unfold placed_bytes, item_bytes. rewrite H1, H2.
    rewrite <- !app_assoc. cbn [app]. reflexivity.
Qed.

(** Reference-like text in strings, keys and stream data stays; the references change. *)
Example C31_case :
  hist_typed example_src /\ hist_uniform true example_src /\
  option_map (fun c => option_map (fun r => chunk_bytes (fst r))
      (chunk_renumber_into (fun t id => (id + 6, t)) c (chunk_with_settings true) tt)) (run example_src) =
  Some (Some (lit "7 0 obj" ++ [x0a] ++ lit "<<" ++ [x0a] ++ lit "  /R 7 0 R" ++ [x0a] ++ lit "  /S (1 0 R)" ++ [x0a] ++
    lit "  /K#200#20R [8 0 R 7 0 R]" ++ [x0a] ++ lit ">>" ++ [x0a] ++ lit "endobj" ++ [x0a; x0a] ++
    lit "8 0 obj" ++ [x0a] ++ lit "<<" ++ [x0a] ++ lit "  /Length 15" ++ [x0a] ++ lit "  /P 7 0 R" ++ [x0a] ++ lit ">>" ++ [x0a] ++
    lit "stream" ++ [x0a] ++ lit "1 0 R" ++ [x0a] ++ lit "endstream" ++ [x0a] ++ lit "endstream" ++ [x0a] ++ lit "endobj" ++ [x0a; x0a])).
Proof. split; [cbn; repeat split; reflexivity|]. split; [reflexivity|]. vm_compute. reflexivity. Qed.

(** ** C32 *)

(** Whatever closure is passed, into whatever target: wrapping it so that it logs its
    arguments does not change the result, and the log is: for each object in file order its
    id and then its references in document order, each occurrence once. *)
Theorem C32_calls_in_order : forall h c g tgt T (f : T -> Z -> Z * T) s,
  hist_typed h -> run h = Some c -> hist_typed g -> run g = Some tgt ->
  exists c' s',
    chunk_renumber_into f c tgt s = Some (c', s') /\
    chunk_renumber_into (logged f) c tgt (s, []) = Some (c', (s', flat_map item_refs (hist_items h))).
Proof.
  intros h c g tgt T f s Ht Hc Hg Hr.
  pose proof (run_holds h Ht) as R. rewrite (fits_of_run h c Ht Hc) in R.
  destruct R as (c0 & l & R & A & B & _). assert (c0 = c) by congruence. subst c0.
  pose proof (run_holds g Hg) as R'. rewrite (fits_of_run g tgt Hg Hr) in R'.
  destruct R' as (c0 & k & R' & A' & B' & _). assert (c0 = tgt) by congruence. subst c0.
  pose proof (items_typed h Ht) as Tt. rewrite <- B in Tt.
  destruct (renumber_holds f [] [] l k c tgt s A A' Tt) as (c1 & E1 & F1 & G1 & L1).
  destruct (renumber_holds (logged f) [] [] l k c tgt (s, []) A A' Tt) as (c2 & E2 & F2 & G2 & L2).
  destruct (logged_items f (map pl_item l) (s, [])) as [P Q]. cbn [fst] in P, Q.
  exists c1, (snd (thread (map_item_st f) (map pl_item l) s)). split; [exact E1|].
  rewrite E2.
  assert (Ec : c2 = c1).
  { destruct F1 as [F1a F1b], F2 as [F2a F2b].
    assert (Ep : fst (thread (map_placed_st (logged f) (c_pretty tgt)) l (s, [])) = fst (thread (map_placed_st f (c_pretty tgt)) l s)).
    { apply (thread_logged (map_placed_st f (c_pretty tgt)) (map_placed_st (logged f) (c_pretty tgt)) l).
      intros a _ t. unfold map_placed_st. destruct (logged_item f (pl_item a) t) as [X Y].
      destruct (map_item_st (logged f) (pl_item a) t), (map_item_st f (pl_item a) (fst t)). cbn [fst snd] in *.
      subst. split; reflexivity. }
    rewrite Ep in F2a, F2b. rewrite P in L2.
    destruct c1 as [[i1 m1] o1 p1], c2 as [[i2 m2] o2 p2]. unfold chunk_bytes, chunk_limits in *. cbn in *. congruence. }
  subst c2. f_equal. f_equal.
  pose proof (calls_items (logged f) (map pl_item l) (s, [])) as CL. rewrite call_all_logged in CL.
  rewrite B in *.
  set (S2 := snd (thread (map_item_st (logged f)) (hist_items h) (s, []))) in *.
  assert (EL : snd S2 = [] ++ flat_map item_refs (hist_items h)).
  { destruct S2 as [x y]. injection CL as _ _ CL. symmetry. exact CL. }
  destruct S2 as [x y]. cbn [fst snd app] in *. congruence.
Qed.

(** The answers are put in the same places: the ids and references of the result, in file
    order, are the answers in the order of the calls. *)
Theorem C32_answers_in_place : forall l T (f : T -> Z -> Z * T) s,
  call_all f (flat_map item_refs l) s =
    (flat_map item_refs (fst (thread (map_item_st f) l s)), snd (thread (map_item_st f) l s)).
Proof. intros. apply calls_items. Qed.

Example C32_case : hist_typed example_src /\
  option_map (fun c => option_map (fun r => snd (snd r))
      (chunk_renumber_into (logged example_closure) c (chunk_with_settings true) (10, []))) (run example_src) =
  Some (Some [1; 1; 2; 1; 2; 1]).
Proof. split; [cbn; repeat split; reflexivity|vm_compute; reflexivity]. Qed.

(** ** C33 *)

(** Renumber with a plain function. *)
Definition renum (f : Z -> Z) (p : bool) (c : chunk) : option chunk :=
  option_map fst (chunk_renumber_into (fun (t : unit) id => (f id, t)) c (chunk_with_settings p) tt).

Theorem C33_identity : forall p h c, hist_typed h -> hist_uniform p h -> run h = Some c ->
  exists c', renum (fun id => id) p c = Some c' /\ chunk_bytes c' = chunk_bytes c /\ c_offsets c' = c_offsets c.
Proof.
  intros p h c Ht Hu Hc.
  destruct (run_uniform p h Ht Hu c Hc) as (l & A & B & C & D).
  assert (Hnew : holds [] [] (chunk_with_settings p)) by (split; reflexivity).
  pose proof (items_typed h Ht) as Tt. rewrite <- B in Tt.
  destruct (renumber_holds (fun (t : unit) id => (id, t)) [] [] l [] c (chunk_with_settings p) tt A Hnew Tt) as (c' & E & F & G & _).
  exists c'. unfold renum. rewrite E. split; [reflexivity|].
  assert (El : fst (thread (map_placed_st (fun (t : unit) id => (id, t)) p) l tt) = l).
  { apply (uniform_layout p).
    - apply uniform_thread. eapply Forall_impl; [|exact C]. cbn. intuition.
    - exact C.
    - destruct (thread_placed (fun (t : unit) id => (id, t)) p l tt) as [P _]. rewrite P.
      rewrite (map_items_pure (fun id => id)). cbn [fst]. apply map_ext_in'. intros a _. apply map_item_id. reflexivity. }
  cbn [app chunk_with_settings c_pretty] in F. rewrite El in F. destruct F as [F1 F2], A as [A1 A2]. split; congruence.
Qed.

Theorem C33_composition : forall p h c f g, hist_typed h -> hist_uniform p h -> run h = Some c ->
  (forall id, id_ok (f id) = true) -> (forall id, id_ok (g id) = true) ->
  exists c1 c2 c3, renum f p c = Some c1 /\ renum g p c1 = Some c2 /\ renum (fun id => g (f id)) p c = Some c3 /\
    chunk_bytes c2 = chunk_bytes c3 /\ c_offsets c2 = c_offsets c3.
Proof.
  intros p h c f g Ht Hu Hc Hf Hg.
  destruct (C31_renumber_pure p h c f Ht Hu Hc Hf) as (c1 & w1 & E1 & R1 & _ & _).
  set (h1 := HRenumber (HNew p) h unit (fun (t : unit) id => (f id, t)) tt).
  assert (Ht1 : hist_typed h1) by (cbn [h1 hist_typed]; repeat split; auto).
  assert (Hu1 : hist_uniform p h1) by (cbn [h1 hist_uniform]; auto).
  assert (Hr1 : run h1 = Some c1) by (cbn [h1 run]; rewrite Hc, E1; reflexivity).
  assert (Hi1 : hist_items h1 = map (map_item f) (hist_items h)).
  { cbn [h1 hist_items app]. rewrite map_items_pure. reflexivity. }
  destruct (C31_renumber_pure p h1 c1 g Ht1 Hu1 Hr1 Hg) as (c2 & w2 & E2 & R2 & B2 & O2).
  destruct (C31_renumber_pure p h c (fun id => g (f id)) Ht Hu Hc (fun id => Hg (f id))) as (c3 & w3 & E3 & R3 & B3 & O3).
  exists c1, c2, c3. unfold renum. rewrite E1, E2, E3. repeat split.
  - rewrite Hi1, map_map in R2.
    rewrite (map_ext _ (map_item (fun id => g (f id)))) in R2 by (intro; apply map_item_comp). congruence.
  - rewrite Hi1, map_map in R2.
    rewrite (map_ext _ (map_item (fun id => g (f id)))) in R2 by (intro; apply map_item_comp). congruence.
Qed.

(** A mapping that is undone by [g] on the ids that occur is undone by renumbering. *)
Theorem C33_inverse : forall p h c f g, hist_typed h -> hist_uniform p h -> run h = Some c ->
  (forall id, id_ok (f id) = true) -> (forall id, id_ok (g id) = true) ->
  (forall id, In id (flat_map item_refs (hist_items h)) -> g (f id) = id) ->
  exists c1 c2, renum f p c = Some c1 /\ renum g p c1 = Some c2 /\
    chunk_bytes c2 = chunk_bytes c /\ c_offsets c2 = c_offsets c.
Proof.
  intros p h c f g Ht Hu Hc Hf Hg Hinv.
  destruct (C33_composition p h c f g Ht Hu Hc Hf Hg) as (c1 & c2 & c3 & E1 & E2 & E3 & B & O).
  exists c1, c2. split; [exact E1|]. split; [exact E2|].
  destruct (C31_renumber_pure p h c (fun id => g (f id)) Ht Hu Hc (fun id => Hg (f id))) as (c3' & w3 & E3' & R3 & B3 & O3).
  unfold renum in E3. rewrite E3' in E3. injection E3 as <-.
  rewrite (map_ext_in' (map_item (fun id => g (f id)))) in R3.
  2:{ intros it Hit. apply map_item_id. intros r Hr. apply Hinv. apply in_flat_map. exists it. split; assumption. }
  destruct (run_uniform p h Ht Hu c Hc) as (l & A & B' & C & D).
  destruct (anew_run p (hist_items h) (items_typed h Ht) (fits_of_run h c Ht Hc)) as (w & k & R & H & I & J & _).
  assert (w3 = w) by congruence. subst w3.
  assert (l = k) by (apply (uniform_layout p); [exact C|exact J|congruence]). subst k.
  destruct A as [A1 A2], H as [H1 H2]. split; congruence.
Qed.

(** Renumbering into a target is renumbering into a fresh chunk of the target's setting and
    extending. *)
Theorem C33_into_is_extend : forall h c g tgt T (f : T -> Z -> Z * T) s,
  hist_typed h -> run h = Some c -> hist_typed g -> run g = Some tgt -> merges_ok h -> merges_ok g ->
  exists c1 s',
    chunk_renumber_into f c (chunk_with_settings (c_pretty tgt)) s = Some (c1, s') /\
    chunk_renumber_into f c tgt s = Some (chunk_extend c1 tgt, s').
Proof.
  intros h c g tgt T f s Ht Hc Hg Hr Hm Hm'.
  pose proof (run_holds h Ht) as R. rewrite (fits_of_run h c Ht Hc) in R.
  destruct R as (c0 & l & R & A & B & _). assert (c0 = c) by congruence. subst c0.
  pose proof (run_holds g Hg) as R'. rewrite (fits_of_run g tgt Hg Hr) in R'.
  destruct R' as (c0 & k & R' & A' & B' & _). assert (c0 = tgt) by congruence. subst c0.
  pose proof (items_typed h Ht) as Tt. rewrite <- B in Tt.
  set (n := chunk_with_settings (c_pretty tgt)).
  assert (Hnew : holds [] [] n) by (split; reflexivity).
  destruct (renumber_holds f [] [] l [] c n s A Hnew Tt) as (c1 & E1 & F1 & G1 & L1).
  destruct (renumber_holds f [] [] l k c tgt s A A' Tt) as (c2 & E2 & F2 & G2 & L2).
  eexists c1, _. split; [exact E1|]. rewrite E2. f_equal. f_equal.
  cbn [app] in F1. change (c_pretty n) with (c_pretty tgt) in F1.
  pose proof (extend_holds [] k (fst (thread (map_placed_st f (c_pretty tgt)) l s)) tgt c1 A' F1) as [X1 X2].
  destruct F2 as [Y1 Y2].
  assert (El : chunk_limits c2 = chunk_limits (chunk_extend c1 tgt)).
  { pose proof (run_bounds h Ht Hm c Hc) as [K1 _]. pose proof (run_bounds g Hg Hm' tgt Hr) as [K2 _].
    change (chunk_limits (chunk_extend c1 tgt)) with (merge (chunk_limits tgt) (chunk_limits c1)).
    rewrite L1, L2. change (chunk_limits n) with limits0.
    rewrite !note_refs_merge by auto using merge_ok, limits0_ok.
    assert (E0 : merge limits0 (chunk_limits c) = chunk_limits c) by (apply le_0; exact K1). rewrite E0.
    symmetry. apply merge_assoc; [exact K2|exact K1|apply refs_lim_ok]. }
  assert (Ep : c_pretty c2 = c_pretty (chunk_extend c1 tgt)) by (rewrite G2; reflexivity).
  assert (Eb : chunk_bytes c2 = chunk_bytes (chunk_extend c1 tgt)) by congruence.
  assert (Eo : c_offsets c2 = c_offsets (chunk_extend c1 tgt)) by congruence.
  clear - El Ep Eb Eo. set (x := chunk_extend c1 tgt) in *. clearbody x.
  destruct c2 as [[i1 m1] o1 p1], x as [[i2 m2] o2 p2]. unfold chunk_bytes, chunk_limits in *. cbn in *. congruence.
Qed.

Example C33_case :
  let f := fun id => if id =? 1 then 40 else if id =? 2 then 1 else 2 in
  let g := fun id => if id =? 40 then 1 else if id =? 1 then 2 else 7 in
  (forall id, id_ok (f id) = true) /\ (forall id, id_ok (g id) = true) /\
  forallb (fun id => g (f id) =? id) (flat_map item_refs (hist_items example_src)) = true.
Proof.
  cbv zeta. split; [|split].
  - intro id. destruct (id =? 1); [reflexivity|]. destruct (id =? 2); reflexivity.
  - intro id. destruct (id =? 40); [reflexivity|]. destruct (id =? 1); reflexivity.
  - vm_compute. reflexivity.
Qed.

(** ** C34 *)

(** Whatever the bytes of an object are (not only those the API writes): the scanner
    terminates without slicing out of bounds, appends to the target, and what it appends is the
    input with references replaced and every other byte unchanged. *)
Theorem C34_scanner_total : forall slice b T (f : T -> Z -> Z * T) s,
  exists b' s' r, patch_object f slice b s = Some (b', s') /\ inner b' = inner b ++ r /\ replaced f s slice r s'.
Proof. intros. apply patch_replaced. Qed.

(** The loop over the objects does not panic on any bytes, given offsets in ascending order
    within the bytes... *)
Theorem C34_loop_total : forall src offsets pretty b offs T (f : T -> Z -> Z * T) s,
  (forall i x y, nth_error (map snd offsets ++ [blen src]) i = Some x ->
                 nth_error (map snd offsets ++ [blen src]) (S i) = Some y -> 0 <= x <= y) ->
  renumber_loop f src offsets pretty b offs s <> None.
Proof. intros. apply loop_never_panics. assumption. Qed.

(** ... which is what every history produces (C17), so renumbering chunks never panics. *)
Theorem C34_renumber_never_panics : forall h c g tgt T (f : T -> Z -> Z * T) s,
  hist_typed h -> run h = Some c -> hist_typed g -> run g = Some tgt ->
  chunk_renumber_into f c tgt s <> None.
Proof.
  intros h c g tgt T f s Ht Hc Hg Hr.
  destruct (C32_calls_in_order h c g tgt T f s Ht Hc Hg Hr) as (c' & s' & E & _). congruence.
Qed.

(** Truncated references, an unterminated string after a backslash, a number too large. *)
Example C34_case :
  option_map (fun r => inner (fst r))
    (patch_object (fun t id => (id + 1, t)) (lit "0 R 7 0 R[9 0 R] 99999999999 0 R 12  3 R(1 0 R\") buf_new tt) =
  Some (lit "0 R 8 0 R[10 0 R] 99999999999 0 R 13 3 R(1 0 R\").
Proof. vm_compute. reflexivity. Qed.

Print Assumptions C31_renumber_is_rewriting.
Print Assumptions C31_renumber_pure.
Print Assumptions C31_renumber_mixed_settings.
Print Assumptions C32_calls_in_order.
Print Assumptions C32_answers_in_place.
Print Assumptions C33_identity.
Print Assumptions C33_composition.
Print Assumptions C33_inverse.
Print Assumptions C33_into_is_extend.
Print Assumptions C34_scanner_total.
Print Assumptions C34_loop_total.
Print Assumptions C34_renumber_never_panics.
