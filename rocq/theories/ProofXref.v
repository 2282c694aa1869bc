(** Proofs about [write_offsets]: sorting, the entries written, the free list. *)

From Coq Require Import ZArith List Lia Bool Permutation Sorted ZifyBool.
From Verif Require Import Bytes ModelFloat ModelBuf ModelObject ModelRenumber ModelChunk ModelPdf SpecLex SpecObj SpecFile.
Import ListNotations.
Local Open Scope Z_scope.

(** ** Sorting *)

Definition ple (a b : Z * Z) : Prop := pair_leb a b = true.

Lemma ple_total a b : pair_leb a b = false -> ple b a.
Proof. unfold ple, pair_leb. lia. Qed.
Lemma ple_trans a b c : ple a b -> ple b c -> ple a c.
Proof. unfold ple, pair_leb. lia. Qed.
Lemma ple_antisym a b : ple a b -> ple b a -> a = b.
Proof.
  unfold ple, pair_leb. destruct a as [a1 a2], b as [b1 b2]; cbn [fst snd]. intros H1 H2.
  assert (a1 = b1) by lia. assert (a2 = b2) by lia. congruence.
Qed.

Lemma insert_perm a l : Permutation (a :: l) (insert_pair a l).
Proof.
  induction l as [|b l IH]; [apply Permutation_refl|]. cbn [insert_pair].
  destruct (pair_leb a b); [apply Permutation_refl|].
  apply perm_trans with (b :: a :: l); [apply perm_swap|]. apply perm_skip. exact IH.
Qed.
Lemma sort_perm l : Permutation l (sort_pairs l).
Proof.
  induction l as [|a l IH]; [constructor|]. cbn [sort_pairs].
  apply perm_trans with (a :: sort_pairs l); [apply perm_skip; exact IH|apply insert_perm].
Qed.

Lemma insert_sorted a l : StronglySorted ple l -> StronglySorted ple (insert_pair a l).
Proof.
  induction l as [|b l IH]; intro H; [repeat constructor|]. cbn [insert_pair].
  destruct (pair_leb a b) eqn:E.
  - constructor; [exact H|]. inversion H as [|x y H1 H2]; subst. constructor; [exact E|].
    revert H2. apply Forall_impl. intros c Hc. apply ple_trans with b; assumption.
  - inversion H as [|x y H1 H2]; subst. constructor; [apply IH; exact H1|].
    apply Forall_forall. intros c Hc. apply (Permutation_in c (Permutation_sym (insert_perm a l))) in Hc.
    destruct Hc as [<-|Hc]; [apply ple_total; exact E|]. rewrite Forall_forall in H2. apply H2. exact Hc.
Qed.
Lemma sort_sorted l : StronglySorted ple (sort_pairs l).
Proof. induction l as [|a l IH]; [constructor|]. cbn [sort_pairs]. apply insert_sorted. exact IH. Qed.

Lemma sorted_unique l : forall m, StronglySorted ple l -> StronglySorted ple m -> Permutation l m -> l = m.
Proof.
  induction l as [|a l IH]; intros m Hl Hm P.
  - apply Permutation_nil in P. congruence.
  - destruct m as [|b m]; [apply Permutation_sym, Permutation_nil in P; discriminate|].
    inversion Hl as [|x y L1 L2]; subst. inversion Hm as [|x y M1 M2]; subst.
    rewrite Forall_forall in L2, M2.
    assert (E : a = b).
    { assert (A : In a (b :: m)) by (apply (Permutation_in a P); left; reflexivity).
      assert (B : In b (a :: l)) by (apply (Permutation_in b (Permutation_sym P)); left; reflexivity).
      destruct A as [A|A]; [congruence|]. destruct B as [B|B]; [congruence|].
      apply ple_antisym; [apply L2; exact B|apply M2; exact A]. }
    subst b. f_equal. apply IH; [assumption..|]. apply Permutation_cons_inv in P. exact P.
Qed.

Lemma sort_perm_eq l m : Permutation l m -> sort_pairs l = sort_pairs m.
Proof.
  intro P. apply sorted_unique; try apply sort_sorted.
  apply perm_trans with l; [apply Permutation_sym, sort_perm|]. apply perm_trans with m; [exact P|apply sort_perm].
Qed.

(** ** Ids in order *)

Definition ids (l : list (Z * Z)) : list Z := map fst l.

(** Either there is a duplicate or ids ascend strictly. *)
Lemma sorted_strict l : StronglySorted ple l -> NoDup (ids l) -> StronglySorted Z.lt (ids l).
Proof.
  induction l as [|a l IH]; intros H N; [constructor|]. inversion H as [|x y H1 H2]; subst.
  cbn [ids map] in *. inversion N as [|x y N1 N2]; subst. constructor; [apply IH; assumption|].
  apply Forall_forall. intros i Hi. apply in_map_iff in Hi. destruct Hi as (b & <- & Hb).
  rewrite Forall_forall in H2. specialize (H2 _ Hb). unfold ple, pair_leb in H2.
  assert (fst a <> fst b) by (intro E; apply N1; rewrite E; apply in_map; exact Hb). lia.
Qed.

Lemma ids_perm l m : Permutation l m -> Permutation (ids l) (ids m).
Proof. apply Permutation_map. Qed.

Lemma last_last {A} (l : list A) a d : last (l ++ [a]) d = a.
Proof. induction l as [|b l IH]; [reflexivity|]. cbn [app last]. destruct (l ++ [a]) eqn:E; [destruct l; discriminate|exact IH]. Qed.

Lemma last_id_max l : StronglySorted ple l -> (forall i, In i (ids l) -> 0 <= i) -> last_id l = zmax (ids l).
Proof.
  unfold last_id. fold (ids l). intros H P.
  assert (S : StronglySorted Z.le (ids l)).
  { clear P. induction H as [|a l H IH HF]; [constructor|]. cbn [ids map]. constructor; [exact IH|].
    apply Forall_forall. intros i Hi. apply in_map_iff in Hi. destruct Hi as (b & <- & Hb).
    rewrite Forall_forall in HF. specialize (HF _ Hb). unfold ple, pair_leb in HF. lia. }
  clear H. induction S as [|a m S IH HF]; [reflexivity|]. cbn [last]. unfold zmax. cbn [fold_right]. fold (zmax m).
  destruct m as [|b m].
  - cbn. specialize (P a (or_introl eq_refl)). lia.
  - rewrite IH by (intros i Hi; apply P; right; exact Hi).
    assert (X : b <= zmax (b :: m)) by (unfold zmax; cbn [fold_right]; lia).
    inversion HF; subst. lia.
Qed.

Lemma zmax_perm l m : Permutation l m -> zmax l = zmax m.
Proof. unfold zmax. induction 1; cbn [fold_right]; lia. Qed.
Lemma zmax_ge l i : In i l -> i <= zmax l.
Proof. unfold zmax. induction l as [|a l IH]; [intros []|]. intros [<-|H]; cbn [fold_right]; [lia|specialize (IH H); lia]. Qed.
Lemma zmax_nonneg l : 0 <= zmax l.
Proof. unfold zmax. induction l; cbn [fold_right]; lia. Qed.
Lemma zmax_in l : l <> [] -> (forall i, In i l -> 0 <= i) -> In (zmax l) l.
Proof.
  unfold zmax. induction l as [|a l IH]; [congruence|]. intros _ P. cbn [fold_right].
  destruct l as [|b l].
  - cbn. left. specialize (P a (or_introl eq_refl)). lia.
  - specialize (IH ltac:(discriminate) ltac:(intros i Hi; apply P; right; exact Hi)).
    destruct (Z.max_spec a (fold_right Z.max 0 (b :: l))) as [[_ ->]|[_ ->]]; [right; exact IH|left; reflexivity].
Qed.

(** ** The entries *)

(** [n] is the next id after [i] that is not in [used]. *)
Definition next_unused (used : list Z) (i n : Z) : Prop :=
  i < n /\ ~ In n used /\ forall j, i < j < n -> In j used.

Definition entry_ok (l : list (Z * Z)) (xref_len : Z) (id : Z) (e : xref_entry) : Prop :=
  match e with
  | Used off gen => In (id, off) l /\ gen = 0
  | Free next gen =>
      ~ In id (ids l) /\ gen = (if id =? 0 then 65535 else 0) /\
      exists n, next = Z.rem n xref_len /\ next_unused (ids l) id n /\ n <= 1 + last_id l
  end.

Lemma next_free_spec rest : forall next, StronglySorted Z.lt (ids rest) -> Forall (fun i => next <= i) (ids rest) ->
  let n := next_free next rest in
  next <= n /\ ~ In n (ids rest) /\ (forall j, next <= j < n -> In j (ids rest)) /\
  (rest <> [] -> n <= 1 + last_id rest).
Proof.
  induction rest as [|[u off] rest IH]; intros next HS HF; cbn [next_free].
  - split; [lia|]. split; [intros []|]. split; [intros j Hj; lia|]. congruence.
  - cbn [ids map fst] in HS, HF. fold (ids rest) in HS, HF.
    inversion HS as [|x y S1 S2]; subst. inversion HF as [|x y F1 F2]; subst.
    destruct (Z.ltb_spec next u) as [L|L].
    + cbn [ids map fst]. fold (ids rest). split; [lia|]. split.
      * intros [E|H]; [lia|]. rewrite Forall_forall in S2. specialize (S2 _ H). lia.
      * split; [intros j Hj; lia|]. intros _. unfold last_id. cbn [map fst].
        assert (X : u <= last (u :: ids rest) 0).
        { clear - S2 S1. change (last (u :: ids rest) 0) with (match ids rest with [] => u | _ :: _ => last (ids rest) 0 end).
          destruct (ids rest) as [|v m]; [lia|]. rewrite Forall_forall in S2. apply Z.lt_le_incl, S2.
          clear. revert v. induction m as [|w m IH]; intro v; [left; reflexivity|]. right. apply IH. }
        unfold ids in X. lia.
    + assert (u = next) by lia. subst u.
      assert (G : Forall (fun i => next + 1 <= i) (ids rest)) by (revert S2; apply Forall_impl; intros; lia).
      destruct (IH (next + 1) S1 G) as (A & B & C & D). cbn zeta in *. cbn [ids map fst]. fold (ids rest).
      split; [lia|]. split; [intros [E|H]; [lia|exact (B H)]|]. split.
      * intros j Hj. destruct (Z.eq_dec j next) as [->|Ne]; [left; reflexivity|]. right. apply C. lia.
      * intros _. destruct rest as [|q rest'].
        -- unfold last_id; cbn [map fst last next_free]; lia.
        -- specialize (D ltac:(discriminate)). unfold last_id in *. cbn [map fst last] in *. exact D.
Qed.

Lemma zrange_app a n m : zrange a (n + m) = zrange a n ++ zrange (a + Z.of_nat n) m.
Proof.
  revert a. induction n as [|n IH]; intro a; [cbn [Nat.add zrange app]; f_equal; lia|].
  cbn [Nat.add zrange app]. f_equal. rewrite IH. f_equal. f_equal. lia.
Qed.
Lemma zrange_length a n : length (zrange a n) = n.
Proof. revert a. induction n as [|n IH]; intro a; [reflexivity|]. cbn [zrange length]. rewrite IH. reflexivity. Qed.
Lemma zrange_in a n i : In i (zrange a n) <-> a <= i < a + Z.of_nat n.
Proof.
  revert a. induction n as [|n IH]; intro a; cbn [zrange In]; [lia|]. rewrite IH. lia.
Qed.

Lemma free_run_spec xl rest object_id : forall n start,
  (exists off tail, rest = (object_id, off) :: tail) ->
  StronglySorted Z.lt (ids rest) -> 0 <= start -> start + Z.of_nat n = object_id ->
  Forall2 (entry_ok rest xl) (zrange start n) (free_run n start object_id xl rest) /\
  length (free_run n start object_id xl rest) = n.
Proof.
  induction n as [|n IH]; intros start (off & tail & E) HS H0 Hn; cbn [free_run zrange].
  - split; [constructor|reflexivity].
  - destruct (IH (start + 1)) as [F L]; [eauto|exact HS|lia|lia|].
    split; [|cbn [length]; rewrite L; reflexivity]. constructor; [|exact F].
    cbn [entry_ok].
    assert (LB : Forall (fun i => object_id <= i) (ids rest)).
    { subst rest. cbn [ids map fst] in *. inversion HS as [|x y S1 S2]; subst. constructor; [lia|].
      revert S2. apply Forall_impl. intros; lia. }
    assert (NI : forall j, j < object_id -> ~ In j (ids rest)).
    { intros j Hj Hi. rewrite Forall_forall in LB. specialize (LB _ Hi). lia. }
    assert (LL : object_id <= last_id rest).
    { subst rest. unfold last_id. fold (ids ((object_id, off) :: tail)). rewrite Forall_forall in LB. apply LB.
      cbn [ids map fst]. clear. generalize object_id. induction (map fst tail) as [|w m IH]; intro v; [left; reflexivity|]. right. apply IH. }
    split; [apply NI; lia|]. split; [reflexivity|].
    destruct (Z.eqb_spec (start + 1) object_id) as [Eq|Ne].
    + destruct (next_free_spec rest object_id HS LB) as (A & B & C & D). cbn zeta in *. rewrite Eq.
      exists (next_free object_id rest). split; [reflexivity|]. split.
      * split; [lia|]. split; [exact B|]. intros j Hj. apply C. lia.
      * apply D. subst rest. discriminate.
    + exists (start + 1). split; [reflexivity|]. split; [|lia]. split; [lia|]. split; [apply NI; lia|]. intros j Hj. lia.
Qed.

Lemma entry_ok_tail a tail xl id e : fst a < id -> (forall i, In i (ids tail) -> fst a < i) -> tail <> [] ->
  entry_ok tail xl id e -> entry_ok (a :: tail) xl id e.
Proof.
  intros H HT NE. assert (LE : last_id (a :: tail) = last_id tail) by (unfold last_id; destruct tail; [congruence|reflexivity]).
  destruct e as [nx g|off g]; cbn [entry_ok].
  - intros (H1 & H2 & n & H3 & (H4 & H5 & H6) & H7). split; [intros [E|E]; [lia|exact (H1 E)]|].
    split; [exact H2|]. exists n. split; [exact H3|]. split; [|rewrite LE; exact H7]. split; [exact H4|].
    split; [intros [E|E]; [lia|exact (H5 E)]|]. intros j Hj. right. apply H6. exact Hj.
  - intros [H1 H2]. split; [right; exact H1|exact H2].
Qed.

Lemma offsets_loop_spec xl : forall rest written,
  StronglySorted Z.lt (ids rest) -> Forall (fun i => written <= i) (ids rest) -> 0 <= written ->
  exists es, offsets_loop written xl rest = Some es /\
    Forall2 (entry_ok rest xl) (zrange written (match rest with [] => O | _ => Z.to_nat (1 + last_id rest - written) end)) es.
Proof.
  induction rest as [|[id off] tail IH]; intros written HS HF H0; cbn [offsets_loop].
  - exists []. split; [reflexivity|constructor].
  - cbn [ids map fst] in HS, HF. fold (ids tail) in HS, HF.
    inversion HS as [|x y S1 S2]; subst. inversion HF as [|x y F1 F2]; subst.
    destruct (Z.ltb_spec id written); [lia|].
    destruct (free_run_spec xl ((id, off) :: tail) id (Z.to_nat (id - written)) written) as [A L]; [eauto|exact HS|lia|lia|].
    set (frees := free_run _ _ _ _ _) in *. rewrite L.
    replace (written + Z.of_nat (Z.to_nat (id - written)) + 1) with (id + 1) by lia.
    destruct (IH (id + 1) S1) as (es & E & F).
    { revert S2. apply Forall_impl. intros; lia. } { lia. }
    rewrite E. cbn [option_map]. eexists. split; [reflexivity|].
    assert (LL : match tail with [] => last_id ((id, off) :: tail) = id | _ => last_id ((id, off) :: tail) = last_id tail /\ id < last_id tail end).
    { destruct tail as [|q tail']; [reflexivity|]. split; [reflexivity|].
      rewrite Forall_forall in S2. apply S2. unfold last_id. fold (ids (q :: tail')). clear.
      cbn [ids map]. generalize (fst q). induction (map fst tail') as [|w m IH]; intro v; [left; reflexivity|]. right. apply IH. }
    assert (EN : Z.to_nat (1 + last_id ((id, off) :: tail) - written) =
                 (Z.to_nat (id - written) + S (match tail with [] => O | _ => Z.to_nat (1 + last_id tail - (id + 1)) end))%nat).
    { destruct tail as [|q tail']; [rewrite LL; lia|]. destruct LL as [-> LL]. lia. }
    rewrite EN, zrange_app. apply Forall2_app; [exact A|].
    replace (written + Z.of_nat (Z.to_nat (id - written))) with id by lia. cbn [zrange]. constructor.
    + cbn [entry_ok]. split; [left; reflexivity|reflexivity].
    + destruct tail as [|q tail']; [inversion F; constructor|].
      set (n := Z.to_nat _) in *.
      assert (K : forall n0 a l, id < a -> Forall2 (entry_ok (q :: tail') xl) (zrange a n0) l ->
                  Forall2 (entry_ok ((id, off) :: q :: tail') xl) (zrange a n0) l).
      { induction n0 as [|n0 IHn]; intros a l Ha HH; inversion HH; subst; constructor.
        - apply entry_ok_tail; [exact Ha| |discriminate|assumption].
          intros i Hi. rewrite Forall_forall in S2. apply S2. exact Hi.
        - apply IHn; [lia|assumption]. }
      apply K; [lia|exact F].
Qed.

(** Duplicates are detected. *)
Lemma offsets_loop_dup xl : forall rest written, StronglySorted ple rest -> ~ NoDup (ids rest) ->
  offsets_loop written xl rest = None.
Proof.
  induction rest as [|[id off] tail IH]; intros written HS HN; [contradiction HN; constructor|].
  cbn [offsets_loop]. destruct (Z.ltb_spec id written) as [L|L]; [reflexivity|].
  inversion HS as [|x y S1 S2]; subst. set (frees := free_run _ _ _ _ _).
  assert (LF : Z.of_nat (length frees) = id - written).
  { unfold frees. clear - L. assert (G : forall n a, length (free_run n a id xl ((id, off) :: tail)) = n).
    { induction n as [|n IHn]; intro a; [reflexivity|]. cbn [free_run length]. rewrite IHn. reflexivity. }
    rewrite G. lia. }
  rewrite LF. replace (written + (id - written) + 1) with (id + 1) by lia.
  cbn [ids map fst] in HN. fold (ids tail) in HN.
  destruct (in_dec Z.eq_dec id (ids tail)) as [I|I].
  - assert (X : offsets_loop (id + 1) xl tail = None).
    { destruct tail as [|[id2 off2] tail2]; [destruct I|]. cbn [offsets_loop].
      assert (id2 = id).
      { inversion S2 as [|x y T1 T2]; subst. inversion S1 as [|x y U1 U2]; subst.
        unfold ple, pair_leb in T1. cbn [fst snd] in T1. cbn [ids map fst In] in I. destruct I as [I|I]; [exact I|].
        apply in_map_iff in I. destruct I as (b & E & Hb). rewrite Forall_forall in U2. specialize (U2 _ Hb).
        unfold ple, pair_leb in U2. cbn [fst snd] in U2. lia. }
      destruct (Z.ltb_spec id2 (id + 1)); [reflexivity|lia]. }
    rewrite X. reflexivity.
  - rewrite IH; [reflexivity|exact S1|]. intro N. apply HN. constructor; assumption.
Qed.

(** ** [write_offsets] *)

Lemma nodup_perm (l m : list Z) : Permutation l m -> NoDup l -> NoDup m.
Proof. apply Permutation_NoDup. Qed.

Definition ids_small (l : list (Z * Z)) : Prop := Forall (fun i => 0 < i < i32_max) (ids l).


Lemma write_offsets_spec l : NoDup (ids l) -> Forall (fun i => 0 < i) (ids l) ->
  exists es, write_offsets l = Some (wrap_i32 (1 + zmax (ids l)), es) /\
    Forall2 (entry_ok (sort_pairs l) (wrap_i32 (1 + zmax (ids l)))) (zrange 0 (Z.to_nat (1 + zmax (ids l)))) es.
Proof.
  intros N F. unfold write_offsets.
  pose proof (sort_perm l) as P. apply ids_perm in P. pose proof (sort_sorted l) as S.
  assert (F' : Forall (fun i => 0 < i) (ids (sort_pairs l))).
  { apply Forall_forall. intros i Hi. rewrite Forall_forall in F. apply F.
    apply (Permutation_in i (Permutation_sym P)). exact Hi. }
  assert (N' : NoDup (ids (sort_pairs l))) by (eapply nodup_perm; eassumption).
  pose proof (sorted_strict _ S N') as SS.
  assert (LM : last_id (sort_pairs l) = zmax (ids l)).
  { rewrite (zmax_perm _ _ P). apply last_id_max; [exact S|]. rewrite Forall_forall in F'. intros i Hi. specialize (F' _ Hi). lia. }
  rewrite LM. set (xl := wrap_i32 _).
  destruct (offsets_loop_spec xl (sort_pairs l) 0 SS) as (es & E & FF); [revert F'; apply Forall_impl; intros; lia|lia|].
  rewrite E. cbn [option_map]. eexists. split; [reflexivity|].
  destruct (sort_pairs l) as [|q m] eqn:EQ.
  - inversion FF; subst. cbn [app].
    assert (Z0 : zmax (ids l) = 0) by (rewrite <- LM; reflexivity). rewrite Z0 in *.
    change (Z.to_nat (1 + 0)) with 1%nat. cbn [zrange]. constructor; [|constructor].
    cbn [entry_ok]. split; [intros []|]. split; [reflexivity|].
    exists 1. split; [unfold xl; rewrite Z0; reflexivity|]. split; [|cbn; lia]. split; [lia|]. split; [intros []|]. intros j Hj. lia.
  - cbn [app]. rewrite LM in FF. replace (1 + zmax (ids l) - 0) with (1 + zmax (ids l)) in FF by lia. exact FF.
Qed.

Lemma write_offsets_dup l : ~ NoDup (ids l) -> write_offsets l = None.
Proof.
  intro N. unfold write_offsets. rewrite offsets_loop_dup; [reflexivity|apply sort_sorted|].
  intro N'. apply N. eapply nodup_perm; [|exact N']. apply ids_perm, Permutation_sym, sort_perm.
Qed.
