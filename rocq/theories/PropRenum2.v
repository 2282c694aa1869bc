(** Property C33: renumbering a whole is renumbering its parts. *)

From Coq Require Import ZArith List Lia Bool ZifyBool.
From Verif Require Import Bytes ModelFloat ModelBuf ModelObject ModelRenumber ModelChunk SpecLex SpecObj SpecMeans SpecRenum SpecChunk SpecLimits
  ProofBasic ProofObj ProofTree ProofRenum ProofRenumTree ProofChunk ProofLimits ProofLimits2 ProofLimits3 ProofChunk2 PropChunk PropRenum.
Import ListNotations.
Local Open Scope Z_scope.

Lemma thread_app {A T} (g : A -> T -> A * T) a b : forall t,
  thread g (a ++ b) t = (fst (thread g a t) ++ fst (thread g b (snd (thread g a t))), snd (thread g b (snd (thread g a t)))).
Proof.
  induction a as [|x a IH]; intro t; cbn [app].
  - change (thread g [] t) with (@nil A, t). cbn [fst snd app]. destruct (thread g b t); reflexivity.
  - rewrite !thread_cons. destruct (g x t) as [x' t1]. rewrite (IH t1). destruct (thread g a t1) as [a' t2]. cbn [fst snd app]. reflexivity.
Qed.

Lemma regroup t c d a b : lok t -> lok c -> lok d -> lok a -> lok b ->
  merge (merge t (merge c d)) (merge a b) = merge (merge (merge (merge t c) a) d) b.
Proof.
  intros Ht Hc Hd Ha Hb. rewrite (merge_assoc t c d), (merge_assoc (merge (merge t c) d) a b) by auto using merge_ok. f_equal.
  rewrite <- (merge_assoc (merge t c) d a), <- (merge_assoc (merge t c) a d) by auto using merge_ok. f_equal. apply merge_comm; assumption.
Qed.

(** Renumbering two chunks that were put together into a target is the same as renumbering the one and then the other into it, with the same
    closure going on where it stopped: bytes, offsets, settings, limits and the final state of the closure. *)
Theorem C33_parts : forall h c k d g tgt T (f : T -> Z -> Z * T) s,
  hist_typed h -> run h = Some c -> hist_typed k -> run k = Some d -> hist_typed g -> run g = Some tgt -> merges_ok h -> merges_ok k -> merges_ok g ->
  exists t s1 w s2,
    chunk_renumber_into f c tgt s = Some (t, s1) /\
    chunk_renumber_into f d t s1 = Some (w, s2) /\
    chunk_renumber_into f (chunk_extend d c) tgt s = Some (w, s2).
Proof.
  intros h c k d g tgt T f s Th Hc Tk Hd Tg Hg Mh Mk Mg.
  pose proof (run_holds h Th) as R. rewrite (fits_of_run h c Th Hc) in R.
  destruct R as (c0 & l & R & A & B & _). assert (c0 = c) by congruence. subst c0.
  pose proof (run_holds k Tk) as R'. rewrite (fits_of_run k d Tk Hd) in R'.
  destruct R' as (c0 & m & R' & A' & B' & _). assert (c0 = d) by congruence. subst c0.
  pose proof (run_holds g Tg) as R''. rewrite (fits_of_run g tgt Tg Hg) in R''.
  destruct R'' as (c0 & n & R'' & A'' & B'' & _). assert (c0 = tgt) by congruence. subst c0.
  pose proof (items_typed h Th) as Tt. rewrite <- B in Tt. pose proof (items_typed k Tk) as Tt'. rewrite <- B' in Tt'.
  destruct (renumber_holds f [] [] l n c tgt s A A'' Tt) as (t & E1 & F1 & G1 & L1).
  set (s1 := snd (thread (map_item_st f) (map pl_item l) s)) in *.
  destruct (renumber_holds f [] [] m _ d t s1 A' F1 Tt') as (w & E2 & F2 & G2 & L2).
  pose proof (extend_holds [] l m c d A A') as X.
  destruct (renumber_holds f [] [] (l ++ m) n (chunk_extend d c) tgt s X A'') as (v & E3 & F3 & G3 & L3).
  { rewrite map_app, forallb_app, Tt, Tt'. reflexivity. }
  rewrite map_app in E3, L3. rewrite thread_app in E3. rewrite thread_app in L3. rewrite thread_app in F3. cbn [fst snd] in E3, F3, L3. fold s1 in E3, L3.
  exists t, s1, w, (snd (thread (map_item_st f) (map pl_item m) s1)). split; [exact E1|]. split; [exact E2|]. rewrite E3. f_equal. f_equal.
  assert (S1 : snd (thread (map_placed_st f (c_pretty tgt)) l s) = s1) by apply (thread_placed f).
  rewrite S1 in F3. rewrite G1 in F2. rewrite <- app_assoc in F2.
  destruct F2 as [Y1 Y2], F3 as [Z1 Z2].
  assert (El : chunk_limits v = chunk_limits w).
  { pose proof (run_bounds h Th Mh c Hc) as [K1 _]. pose proof (run_bounds k Tk Mk d Hd) as [K2 _]. pose proof (run_bounds g Tg Mg tgt Hg) as [K3 _].
    rewrite L3, L2, L1. change (chunk_limits (chunk_extend d c)) with (merge (chunk_limits c) (chunk_limits d)). rewrite flat_map_app.
    set (a := flat_map item_refs (fst (thread (map_item_st f) (map pl_item l) s))).
    set (b := flat_map item_refs (fst (thread (map_item_st f) (map pl_item m) s1))).
    pose proof (refs_lim_ok a). pose proof (refs_lim_ok b).
    rewrite (note_refs_merge a) by auto using merge_ok. rewrite !note_refs_merge, refs_lim_app by auto 6 using merge_ok.
    apply regroup; assumption. }
  assert (Ep : c_pretty v = c_pretty w) by congruence.
  assert (Eb : chunk_bytes v = chunk_bytes w) by congruence.
  assert (Eo : c_offsets v = c_offsets w) by congruence.
  clear - El Ep Eb Eo. destruct v as [[i1 m1] o1 p1], w as [[i2 m2] o2 p2]. unfold chunk_bytes, chunk_limits in *. cbn in *. congruence.
Qed.

(** A concrete case: consecutive numbers are given out over both parts; references are numbered anew each time by this closure, as
    it has no memory, but the numbers and positions are those of the whole. *)
Example C33_parts_case :
  let h := HObject (HNew true) 3 (OArray [OPrim (PRef 3); OPrim (PRef 8)]) in
  let k := HStream (HObject (HNew true) 8 (OPrim (PName (lit "N")))) 9 [] (lit "x 3 0 R") in
  let f := fun (n i : Z) => (Z.max 1 (n mod 1000), n + 1) in
  hist_typed h /\ hist_typed k /\ merges_ok h /\ merges_ok k /\
  option_map (fun cs => (c_offsets (fst cs), snd cs)) (match run (HExtend h k) with Some c => chunk_renumber_into f c chunk_new 20 | None => None end) =
    Some ([(20, 0); (23, 33); (24, 53)], 25).
Proof. cbv zeta. do 4 (split; [repeat split|]). vm_compute. reflexivity. Qed.

Print Assumptions C33_parts.
