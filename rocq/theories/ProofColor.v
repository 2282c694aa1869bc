(** Proofs about colour spaces. *)

From Coq Require Import ZArith List Lia Bool.
From Verif Require Import Bytes ModelFloat ModelBuf ModelObject ModelColor SpecLex SpecObj SpecText SpecMeans SpecTyped SpecColor
  ProofBasic ProofTyped.
Import ListNotations.
Local Open Scope Z_scope.

(** Induction over the mutually nested calls. *)
Section CsInd.
  Variables (P : cs -> Prop) (Q : part -> Prop) (R : attr_call -> Prop) (T : proc_call -> Prop).
  Hypothesis HP : forall c,
    match c with CsSeparation _ l | CsDeviceN _ l => Forall Q l | _ => True end -> P c.
  Hypothesis HQ : forall p,
    match p with AlternateSpace c => P c | Attrs l => Forall R l | _ => True end -> Q p.
  Hypothesis HR : forall a, match a with AtProcess l => Forall T l | _ => True end -> R a.
  Hypothesis HT : forall p, match p with PrColorSpaceArray c => P c | _ => True end -> T p.

  Fixpoint cs_ind' (c : cs) : P c :=
    HP c (match c with
          | CsSeparation _ l | CsDeviceN _ l =>
              (fix go (l : list part) : Forall Q l :=
                 match l with [] => Forall_nil _ | x :: r => Forall_cons x (part_ind' x) (go r) end) l
          | _ => I
          end)
  with part_ind' (p : part) : Q p :=
    HQ p (match p with
          | AlternateSpace c => cs_ind' c
          | Attrs l =>
              (fix go (l : list attr_call) : Forall R l :=
                 match l with [] => Forall_nil _ | x :: r => Forall_cons x (attr_ind' x) (go r) end) l
          | _ => I
          end)
  with attr_ind' (a : attr_call) : R a :=
    HR a (match a with
          | AtProcess l =>
              (fix go (l : list proc_call) : Forall T l :=
                 match l with [] => Forall_nil _ | x :: r => Forall_cons x (proc_ind' x) (go r) end) l
          | _ => I
          end)
  with proc_ind' (p : proc_call) : T p :=
    HT p (match p with PrColorSpaceArray c => cs_ind' c | _ => I end).

  Lemma cs_all : (forall c, P c) /\ (forall p, Q p) /\ (forall a, R a) /\ (forall p, T p).
  Proof. repeat split; intros; [apply cs_ind'|apply part_ind'|apply attr_ind'|apply proc_ind']. Qed.
End CsInd.

Lemma run_parts_forall2 {S} step item (s : S) l os :
  run_parts step item s l = Some os -> Forall2 (fun p o => item p = Some o) l os.
Proof.
  revert s os. induction l as [|p l IH]; intros s os H; cbn [run_parts] in H.
  - injection H as <-. constructor.
  - destruct (step s p) as [s'|]; [|discriminate]. destruct (item p) as [o|] eqn:E; [|discriminate].
    destruct (run_parts step item s' l) as [os'|] eqn:E'; [|discriminate].
    injection H as <-. constructor; [exact E|]. eapply IH. exact E'.
Qed.

Lemma all_some_forall2 {A B} (f : A -> option B) l os :
  all_some f l = Some os -> Forall2 (fun a o => f a = Some o) l os.
Proof.
  revert os. induction l as [|p l IH]; intros os H; cbn [all_some] in H.
  - injection H as <-. constructor.
  - destruct (f p) as [o|] eqn:E; [|discriminate].
    destruct (all_some f l) as [os'|]; [|discriminate].
    injection H as <-. constructor; [exact E|]. apply IH. reflexivity.
Qed.

Lemma some_inj {A} (x y : A) : Some x = Some y -> y = x.
Proof. congruence. Qed.

Lemma omap_some {A B} (f : A -> B) o y : option_map f o = Some y -> exists x, o = Some x /\ y = f x.
Proof. destruct o; [|discriminate]. intro H. injection H as <-. eauto. Qed.

(** Elementwise composition. *)
Lemma forall2_compose {A B C} (F : A -> B -> Prop) (M : B -> C -> Prop) (G : A -> C -> Prop) l ms :
  Forall (fun a => forall b c, F a b -> M b c -> G a c) l ->
  forall vs, Forall2 F l ms -> Forall2 M ms vs -> Forall2 G l vs.
Proof.
  intro H. revert ms. induction H as [|a l Ha H IH]; intros ms vs H1 H2.
  - inversion H1; subst. inversion H2; subst. constructor.
  - inversion H1; subst. inversion H2; subst. constructor; eauto.
Qed.

Definition entry_means (e : bytes * obj) (x : bytes * val) : Prop := fst e = fst x /\ means (snd e) (snd x).

Lemma order9 t : l9 t = in_order9 t.
Proof. destruct t as [[[[? ?] ?] [[? ?] ?]] [[? ?] ?]]. reflexivity. Qed.
Lemma cs_reads_all :
  (forall c o v, cs_obj c = Some o -> means o v -> cs_reads c v) /\
  (forall p o v, part_obj p = Some o -> means o v -> part_reads p v) /\
  (forall a e x, attr_entry a = Some e -> entry_means e x -> attr_reads a x) /\
  (forall p e x, proc_entry p = Some e -> entry_means e x -> proc_reads p x).
Proof.
  apply cs_all.
  - intros c IH o v H M. destruct c as [w b g m|w b g|w b r|r| | | |n l|ns l|base hival tab|base]; cbn [cs_obj] in H.
    + apply some_inj in H; subst. inversion M as [| | | | | | | | | | |? ? F|]; subst.
      inversion F as [|? x ? ? M1 F']; subst. inversion F' as [|? y ? ? M2 F'']; subst. inversion F''; subst.
      apply m_name in M1. rewrite M1. constructor.
      revert M2. apply means_dict.
      apply Forall2_cons; [split; [reflexivity|apply m_reals]|]; repeat apply Forall2_app; apply entry_opt; intros; try rewrite <- order9; apply m_reals; assumption.
    + apply some_inj in H; subst. inversion M as [| | | | | | | | | | |? ? F|]; subst.
      inversion F as [|? x ? ? M1 F']; subst. inversion F' as [|? y ? ? M2 F'']; subst. inversion F''; subst.
      apply m_name in M1. rewrite M1. constructor.
      revert M2. apply means_dict.
      apply Forall2_cons; [split; [reflexivity|apply m_reals]|]; apply Forall2_app; apply entry_opt; intros; [apply m_reals|apply m_real]; assumption.
    + apply some_inj in H; subst. inversion M as [| | | | | | | | | | |? ? F|]; subst.
      inversion F as [|? x ? ? M1 F']; subst. inversion F' as [|? y ? ? M2 F'']; subst. inversion F''; subst.
      apply m_name in M1. rewrite M1. constructor.
      revert M2. apply means_dict.
      apply Forall2_cons; [split; [reflexivity|apply m_reals]|]; apply Forall2_app; apply entry_opt; intros; apply m_reals; assumption.
    + apply some_inj in H; subst. inversion M as [| | | | | | | | | | |? ? F|]; subst.
      inversion F as [|? x ? ? M1 F']; subst. inversion F' as [|? y ? ? M2 F'']; subst. inversion F''; subst.
      apply m_name in M1. apply m_ref in M2. rewrite M1, M2. constructor.
    + apply some_inj in H; subst. apply m_name in M. rewrite M. constructor.
    + apply some_inj in H; subst. apply m_name in M. rewrite M. constructor.
    + apply some_inj in H; subst. apply m_name in M. rewrite M. constructor.
    + apply omap_some in H as (os & H & ->). apply run_parts_forall2 in H.
      inversion M as [| | | | | | | | | | |? ? F|]; subst.
      inversion F as [|? x ? ? M1 F']; subst. inversion F' as [|? y ? ? M2 F'']; subst.
      apply m_name in M1. apply m_name in M2. rewrite M1, M2. constructor.
      eapply forall2_compose; [|exact H|exact F''].
      eapply Forall_impl; [|exact IH]. intros p Hp. exact Hp.
    + apply omap_some in H as (os & H & ->). apply run_parts_forall2 in H.
      inversion M as [| | | | | | | | | | |? ? F|]; subst.
      inversion F as [|? x ? ? M1 F']; subst. inversion F' as [|? y ? ? M2 F'']; subst.
      apply m_name in M1. apply m_names in M2. rewrite M1. constructor; [exact M2|].
      eapply forall2_compose; [|exact H|exact F''].
      eapply Forall_impl; [|exact IH]. intros p Hp. exact Hp.
    + apply some_inj in H; subst. inversion M as [| | | | | | | | | | |? ? F|]; subst.
      inversion F as [|? x ? ? M1 F']; subst. inversion F' as [|? y ? ? M2 F'']; subst.
      inversion F'' as [|? z ? ? M3 F3]; subst. inversion F3 as [|? t ? ? M4 F4]; subst. inversion F4; subst.
      apply m_name in M1. apply m_name in M2. apply m_int in M3. apply m_str in M4. rewrite M1, M2, M3, M4. constructor.
    + apply some_inj in H; subst. inversion M as [| | | | | | | | | | |? ? F|]; subst.
      inversion F as [|? x ? ? M1 F']; subst. inversion F' as [|? y ? ? M2 F'']; subst. inversion F''; subst.
      apply m_name in M1. apply m_name in M2. rewrite M1, M2. constructor.
  - intros p IH o v H M. destruct p as [d|c|r|l|l|r|l]; cbn [part_obj] in H.
    + apply some_inj in H; subst. apply m_name in M. rewrite M. destruct d; constructor.
    + constructor. eapply IH; eassumption.
    + apply some_inj in H; subst. apply m_ref in M. rewrite M. constructor.
    + apply some_inj in H; subst. constructor. apply m_exp. exact M.
    + apply some_inj in H; subst. constructor. apply m_stitch. exact M.
    + apply some_inj in H; subst. apply m_ref in M. rewrite M. constructor.
    + apply omap_some in H as (os & H & ->). apply all_some_forall2 in H.
      inversion M as [| | | | | | | | | | | |? ? F]; subst. constructor.
      eapply forall2_compose; [|exact H|exact F].
      eapply Forall_impl; [|exact IH]. intros a Ha e x. apply Ha.
  - intros a IH e [k v] H [K M]. destruct a as [nch|l|l|l]; cbn [attr_entry] in H.
    + apply some_inj in H; subst. cbn [fst snd] in *. apply m_name in M. rewrite M, <- K. destruct nch; constructor.
    + apply some_inj in H; subst. cbn [fst snd] in *. subst k. inversion M as [| | | | | | | | | | | |? ? F]; subst. constructor.
      clear - F. revert vs F. induction l as [|e l IH]; intros vs F; inversion F; subst; constructor; auto.
      destruct H1 as [H1 H2]. cbn [fst snd] in *. split; [congruence|exact H2].
    + apply omap_some in H as (os & H & ->). apply all_some_forall2 in H. cbn [fst snd] in *. subst k.
      inversion M as [| | | | | | | | | | | |? ? F]; subst. constructor.
      eapply forall2_compose; [|exact H|exact F].
      eapply Forall_impl; [|exact IH]. intros p Hp e x. apply Hp.
    + apply some_inj in H; subst. cbn [fst snd] in *. subst k. constructor. apply m_mix. exact M.
  - intros p IH e [k v] H [K M]. destruct p as [n|c|l]; cbn [proc_entry] in H.
    + apply some_inj in H; subst. cbn [fst snd] in *. subst k. apply m_name in M. rewrite M. constructor.
    + apply omap_some in H as (o & H & ->). cbn [fst snd] in *. subst k. constructor. eapply IH; eassumption.
    + apply some_inj in H; subst. cbn [fst snd] in *. subst k. constructor. apply m_names. exact M.
Qed.

(** Fine arguments give fine objects. *)
Lemma fine_forall2 {A} (f : A -> option obj) ok l os :
  Forall (fun a => forall o, ok a = true -> f a = Some o -> fine o = true) l ->
  forallb ok l = true -> Forall2 (fun a o => f a = Some o) l os -> forallb fine os = true.
Proof.
  intros H F G. revert H F. induction G as [|a o l os E G IH]; intros H F; [reflexivity|].
  cbn [forallb] in *. apply andb_true_iff in F as [F1 F2]. inversion H; subst.
  apply andb_true_iff. split; [eauto|]. apply IH; assumption.
Qed.

Definition fine_e (e : bytes * obj) : bool := name_ok (fst e) && fine (snd e).

Lemma fine_e_forall2 {A} (f : A -> option (bytes * obj)) ok l os :
  Forall (fun a => forall o, ok a = true -> f a = Some o -> fine_e o = true) l ->
  forallb ok l = true -> Forall2 (fun a o => f a = Some o) l os -> forallb fine_e os = true.
Proof.
  intros H F G. revert H F. induction G as [|a o l os E G IH]; intros H F; [reflexivity|].
  cbn [forallb] in *. apply andb_true_iff in F as [F1 F2]. inversion H; subst.
  apply andb_true_iff. split; [eauto|]. apply IH; assumption.
Qed.

Lemma fine_opt {A} key (f : A -> obj) ok o :
  name_ok key = true -> (forall a, ok a = true -> fine (f a) = true) -> opt_ok ok o = true ->
  forallb fine_e (opt_pair key f o) = true.
Proof.
  intros K H F. destruct o as [a|]; [|reflexivity]. cbn in *. unfold fine_e. cbn [fst snd].
  rewrite K, H by exact F. reflexivity.
Qed.

Lemma fine_3 t : ok3 t = true -> fine (reals (l3 t)) = true.
Proof. rewrite fine_reals. auto. Qed.
Lemma fine_4 t : ok4 t = true -> fine (reals (l4 t)) = true.
Proof. rewrite fine_reals. auto. Qed.
Lemma fine_9 t : ok9 t = true -> fine (reals (l9 t)) = true.
Proof. rewrite fine_reals, order9. auto. Qed.

Lemma fine_pair k d : name_ok k = true -> forallb fine_e d = true -> fine (OArray [OPrim (PName k); ODict d]) = true.
Proof. intros K D. rewrite fine_array. cbn [forallb]. rewrite fine_name, K, fine_dict. fold fine_e. rewrite D. reflexivity. Qed.

Lemma cs_fine_all :
  (forall c o, cs_ok c = true -> cs_obj c = Some o -> fine o = true) /\
  (forall p o, part_ok p = true -> part_obj p = Some o -> fine o = true) /\
  (forall a o, attr_ok a = true -> attr_entry a = Some o -> fine_e o = true) /\
  (forall p o, proc_ok p = true -> proc_entry p = Some o -> fine_e o = true).
Proof.
  apply cs_all.
  - intros c IH o K H. destruct c as [w b g m|w b g|w b r|r| | | |n l|ns l|base hival tab|base]; cbn [cs_obj cs_ok] in *.
    + apply some_inj in H; subst. repeat (apply andb_true_iff in K as [K ?]). apply fine_pair; [reflexivity|].
      rewrite !forallb_app, !andb_true_iff. repeat split; [cbn [forallb]; unfold fine_e; cbn [fst snd]; rewrite fine_3 by exact K; reflexivity| | |].
      * eapply fine_opt; [reflexivity|exact fine_3|assumption].
      * eapply fine_opt; [reflexivity|exact fine_3|assumption].
      * eapply fine_opt; [reflexivity|exact fine_9|assumption].
    + apply some_inj in H; subst. repeat (apply andb_true_iff in K as [K ?]). apply fine_pair; [reflexivity|].
      rewrite !forallb_app, !andb_true_iff. repeat split; [cbn [forallb]; unfold fine_e; cbn [fst snd]; rewrite fine_3 by exact K; reflexivity| |].
      * eapply fine_opt; [reflexivity|exact fine_3|assumption].
      * eapply fine_opt; [reflexivity| |eassumption]. intros a Ha. rewrite fine_real. exact Ha.
    + apply some_inj in H; subst. repeat (apply andb_true_iff in K as [K ?]). apply fine_pair; [reflexivity|].
      rewrite !forallb_app, !andb_true_iff. repeat split; [cbn [forallb]; unfold fine_e; cbn [fst snd]; rewrite fine_3 by exact K; reflexivity| |].
      * eapply fine_opt; [reflexivity|exact fine_3|assumption].
      * eapply fine_opt; [reflexivity|exact fine_4|assumption].
    + apply some_inj in H; subst. rewrite fine_array. cbn [forallb]. rewrite fine_name, fine_ref, K. reflexivity.
    + apply some_inj in H; subst. reflexivity.
    + apply some_inj in H; subst. reflexivity.
    + apply some_inj in H; subst. reflexivity.
    + apply omap_some in H as (os & H & ->). apply run_parts_forall2 in H. apply andb_true_iff in K as [K1 K2].
      rewrite fine_array. cbn [forallb]. rewrite !fine_name, K1. cbn [andb].
      rewrite (fine_forall2 part_obj part_ok l os IH K2 H). reflexivity.
    + apply omap_some in H as (os & H & ->). apply run_parts_forall2 in H. apply andb_true_iff in K as [K1 K2].
      rewrite fine_array. cbn [forallb]. rewrite !fine_name, fine_names, K1. cbn [andb].
      rewrite (fine_forall2 part_obj part_ok l os IH K2 H). reflexivity.
    + apply some_inj in H; subst. apply andb_true_iff in K as [K1 K2]. rewrite fine_array. cbn [forallb].
      rewrite !fine_name, fine_int, K1, K2. reflexivity.
    + apply some_inj in H; subst. rewrite fine_array. cbn [forallb]. rewrite !fine_name, K. reflexivity.
  - intros p IH o K H. destruct p as [d|c|r|l|l|r|l]; cbn [part_obj part_ok] in *.
    + apply some_inj in H; subst. destruct d; reflexivity.
    + eapply IH; eassumption.
    + apply some_inj in H; subst. rewrite fine_ref. exact K.
    + apply some_inj in H; subst. apply fine_exp. exact K.
    + apply some_inj in H; subst. apply fine_stitch. exact K.
    + apply some_inj in H; subst. rewrite fine_ref. exact K.
    + apply omap_some in H as (os & H & ->). apply all_some_forall2 in H. rewrite fine_dict. fold fine_e.
      eapply fine_e_forall2; eassumption.
  - intros a IH o K H. destruct a as [nch|l|l|l]; cbn [attr_entry attr_ok] in *.
    + apply some_inj in H; subst. destruct nch; reflexivity.
    + apply some_inj in H; subst. unfold fine_e. cbn [fst snd]. rewrite fine_dict, forallb_map. exact K.
    + apply omap_some in H as (os & H & ->). apply all_some_forall2 in H. unfold fine_e. cbn [fst snd].
      rewrite fine_dict. fold fine_e. rewrite (fine_e_forall2 proc_entry proc_ok l os IH K H). reflexivity.
    + apply some_inj in H; subst. unfold fine_e. cbn [fst snd]. rewrite fine_mix by exact K. reflexivity.
  - intros p IH o K H. destruct p as [n|c|l]; cbn [proc_entry proc_ok] in *.
    + apply some_inj in H; subst. unfold fine_e. cbn [fst snd]. rewrite fine_name, K. reflexivity.
    + apply omap_some in H as (o' & H & ->). unfold fine_e. cbn [fst snd]. rewrite (IH o' K H). reflexivity.
    + apply some_inj in H; subst. unfold fine_e. cbn [fst snd]. rewrite fine_names, K. reflexivity.
Qed.

(** ** Order of calls *)

Definition sep_accepts (l : list part) : Prop := run_parts sep_step part_obj sep_start l <> None.

Lemma sep_tints item s l : has_alternate s = true ->
  (run_parts sep_step item s l <> None <-> Forall is_tint l /\ Forall (fun p => item p <> None) l).
Proof.
  intro Hs. revert s Hs. induction l as [|p l IH]; intros s Hs; cbn [run_parts].
  - split; [intros _; split; constructor|discriminate].
  - assert (E : sep_step s p = None /\ ~ is_tint p \/ sep_step s p = Some s /\ is_tint p).
    { destruct p; cbn; rewrite ?Hs; cbn; auto. }
    destruct E as [[E N]|[E N]]; rewrite E.
    + split; [intro H; contradiction H; reflexivity|]. intros [H _]. inversion H; subst. contradiction.
    + destruct (item p) as [o|] eqn:Ei.
      * specialize (IH s Hs). split.
        -- intro H. destruct (run_parts sep_step item s l); [|contradiction H; reflexivity].
           destruct IH as [IH _]. destruct IH as [I1 I2]; [discriminate|].
           split; constructor; auto. congruence.
        -- intros [H1 H2]. inversion H1; subst. inversion H2; subst.
           destruct (run_parts sep_step item s l) eqn:X; [discriminate|].
           exfalso. apply IH; [split; assumption|reflexivity].
      * split; [intro H; contradiction H; reflexivity|]. intros [_ H]. inversion H; subst. contradiction.
Qed.

Lemma sep_order item l :
  (run_parts sep_step item sep_start l <> None <->
   (l = [] \/ exists a ts, l = a :: ts /\ is_alternate a /\ Forall is_tint ts) /\
   Forall (fun p => item p <> None) l).
Proof.
  destruct l as [|p l]; cbn [run_parts].
  - split; [intros _; split; [left; reflexivity|constructor]|discriminate].
  - assert (E : sep_step sep_start p = None /\ ~ is_alternate p \/ sep_step sep_start p = Some (mkSep true) /\ is_alternate p).
    { destruct p; cbn; auto. }
    destruct E as [[E N]|[E N]]; rewrite E.
    + split; [intro H; contradiction H; reflexivity|].
      intros [[H|(a & ts & H & Ha & _)] _]; [discriminate|]. injection H as -> ->. contradiction.
    + destruct (item p) as [o|] eqn:Ei.
      * pose proof (sep_tints item (mkSep true) l eq_refl) as X. split.
        -- intro H. destruct (run_parts sep_step item (mkSep true) l); [|contradiction H; reflexivity].
           destruct X as [X _]. destruct X as [X1 X2]; [discriminate|].
           split; [right; exists p, l; auto|]. constructor; [congruence|exact X2].
        -- intros [[H|(a & ts & H & Ha & Ht)] F]; [discriminate|]. injection H as -> ->. inversion F; subst.
           destruct (run_parts sep_step item (mkSep true) ts) eqn:Y; [discriminate|].
           exfalso. apply X; [split; assumption|reflexivity].
      * split; [intro H; contradiction H; reflexivity|]. intros [_ H]. inversion H; subst. contradiction.
Qed.

Lemma devn_attrs item l :
  (run_parts devn_step item (mkDevn true true) l <> None <->
   Forall is_attrs l /\ Forall (fun p => item p <> None) l).
Proof.
  induction l as [|p l IH]; cbn [run_parts].
  - split; [intros _; split; constructor|discriminate].
  - assert (E : devn_step (mkDevn true true) p = None /\ ~ is_attrs p \/ devn_step (mkDevn true true) p = Some (mkDevn true true) /\ is_attrs p).
    { destruct p; cbn; auto. }
    destruct E as [[E N]|[E N]]; rewrite E.
    + split; [intro H; contradiction H; reflexivity|]. intros [H _]. inversion H; subst. contradiction.
    + destruct (item p) as [o|] eqn:Ei.
      * split.
        -- intro H. destruct (run_parts devn_step item (mkDevn true true) l); [|contradiction H; reflexivity].
           destruct IH as [IH _]. destruct IH as [I1 I2]; [discriminate|]. split; constructor; auto. congruence.
        -- intros [H1 H2]. inversion H1; subst. inversion H2; subst.
           destruct (run_parts devn_step item (mkDevn true true) l) eqn:X; [discriminate|].
           exfalso. apply IH; [split; assumption|reflexivity].
      * split; [intro H; contradiction H; reflexivity|]. intros [_ H]. inversion H; subst. contradiction.
Qed.

Lemma devn_tint item l :
  (run_parts devn_step item (mkDevn true false) l <> None <->
   (l = [] \/ exists t at_, l = t :: at_ /\ is_tint t /\ Forall is_attrs at_) /\
   Forall (fun p => item p <> None) l).
Proof.
  destruct l as [|p l]; cbn [run_parts].
  - split; [intros _; split; [left; reflexivity|constructor]|discriminate].
  - assert (E : devn_step (mkDevn true false) p = None /\ ~ is_tint p \/ devn_step (mkDevn true false) p = Some (mkDevn true true) /\ is_tint p).
    { destruct p; cbn; auto. }
    destruct E as [[E N]|[E N]]; rewrite E.
    + split; [intro H; contradiction H; reflexivity|].
      intros [[H|(a & ts & H & Ha & _)] _]; [discriminate|]. injection H as -> ->. contradiction.
    + destruct (item p) as [o|] eqn:Ei.
      * pose proof (devn_attrs item l) as X. split.
        -- intro H. destruct (run_parts devn_step item (mkDevn true true) l); [|contradiction H; reflexivity].
           destruct X as [X _]. destruct X as [X1 X2]; [discriminate|].
           split; [right; exists p, l; auto|]. constructor; [congruence|exact X2].
        -- intros [[H|(a & ts & H & Ha & Ht)] F]; [discriminate|]. injection H as -> ->. inversion F; subst.
           destruct (run_parts devn_step item (mkDevn true true) ts) eqn:Y; [discriminate|].
           exfalso. apply X; [split; assumption|reflexivity].
      * split; [intro H; contradiction H; reflexivity|]. intros [_ H]. inversion H; subst. contradiction.
Qed.

Lemma devn_order item l :
  (run_parts devn_step item devn_start l <> None <->
   (l = [] \/ (exists a, l = [a] /\ is_alternate a) \/
    exists a t at_, l = a :: t :: at_ /\ is_alternate a /\ is_tint t /\ Forall is_attrs at_) /\
   Forall (fun p => item p <> None) l).
Proof.
  destruct l as [|p l]; cbn [run_parts].
  - split; [intros _; split; [left; reflexivity|constructor]|discriminate].
  - assert (E : devn_step devn_start p = None /\ ~ is_alternate p \/ devn_step devn_start p = Some (mkDevn true false) /\ is_alternate p).
    { destruct p; cbn; auto. }
    destruct E as [[E N]|[E N]]; rewrite E.
    + split; [intro H; contradiction H; reflexivity|].
      intros [[H|[(a & H & Ha)|(a & t & at_ & H & Ha & _)]] _]; [discriminate| |]; injection H as -> ->; contradiction.
    + destruct (item p) as [o|] eqn:Ei.
      * pose proof (devn_tint item l) as X. split.
        -- intro H. destruct (run_parts devn_step item (mkDevn true false) l); [|contradiction H; reflexivity].
           destruct X as [X _]. destruct X as [X1 X2]; [discriminate|].
           split; [|constructor; [congruence|exact X2]]. right.
           destruct X1 as [->|(t & at_ & -> & Ht & Hat)]; [left; exists p; auto|right; exists p, t, at_; auto].
        -- intros [[H|[(a & H & Ha)|(a & t & at_ & H & Ha & Ht & Hat)]] F]; [discriminate| |]; injection H as -> ->; inversion F; subst.
           ++ cbn. discriminate.
           ++ destruct (run_parts devn_step item (mkDevn true false) (t :: at_)) eqn:Y; [discriminate|].
              exfalso. apply X; [split; [right; exists t, at_; auto|assumption]|reflexivity].
      * split; [intro H; contradiction H; reflexivity|]. intros [_ H]. inversion H; subst. contradiction.
Qed.

(** ICC profiles. *)
Lemma icc_reads_entry c e x : icc_entry c = Some e -> entry_means e x -> icc_reads c x.
Proof.
  intros H [K M]. destruct x as [k v]. destruct c as [n|c|n|l|r]; cbn [icc_entry] in H.
  - destruct (_ || _); [|discriminate]. apply some_inj in H; subst. cbn [fst snd] in *. subst k. apply m_int in M. rewrite M. constructor.
  - apply omap_some in H as (o & H & ->). cbn [fst snd] in *. subst k. constructor.
    destruct cs_reads_all as [X _]. eapply X; eassumption.
  - apply some_inj in H; subst. cbn [fst snd] in *. subst k. apply m_name in M. rewrite M. constructor.
  - apply some_inj in H; subst. cbn [fst snd] in *. subst k. constructor. apply m_reals. exact M.
  - apply some_inj in H; subst. cbn [fst snd] in *. subst k. apply m_ref in M. rewrite M. constructor.
Qed.

Lemma icc_fine c o : icc_ok c = true -> icc_entry c = Some o -> fine_e o = true.
Proof.
  intros K H. destruct c as [n|c|n|l|r]; cbn [icc_entry icc_ok] in *; unfold fine_e.
  - destruct (_ || _); [|discriminate]. apply some_inj in H; subst. cbn [fst snd]. rewrite fine_int, K. reflexivity.
  - apply omap_some in H as (o' & H & ->). cbn [fst snd]. destruct cs_fine_all as [X _]. rewrite (X c o' K H). reflexivity.
  - apply some_inj in H; subst. cbn [fst snd]. rewrite fine_name, K. reflexivity.
  - apply some_inj in H; subst. cbn [fst snd]. rewrite fine_reals, K. reflexivity.
  - apply some_inj in H; subst. cbn [fst snd]. rewrite fine_ref, K. reflexivity.
Qed.

(** ** Which calls panic *)

Lemma all_of_forall {A} (P : A -> Prop) l : all_of P l <-> Forall P l.
Proof.
  induction l as [|a l IH]; cbn [all_of]; [split; constructor|]. rewrite IH. split; [intros []; constructor; assumption|].
  intro H. inversion H; subst. split; assumption.
Qed.
Lemma omap_nn {A B} (f : A -> B) o : option_map f o <> None <-> o <> None.
Proof. destruct o; cbn [option_map]; split; congruence. Qed.
Lemma all_some_iff {A B} (f : A -> option B) (P : A -> Prop) l :
  Forall (fun a => f a <> None <-> P a) l -> (all_some f l <> None <-> all_of P l).
Proof.
  induction 1 as [|a l H F IH]; cbn [all_some all_of]; [split; [intros _; exact I|discriminate]|].
  destruct (f a) as [b|]; [rewrite omap_nn, IH; split; [intro; split; [apply H; discriminate|assumption]|tauto]|].
  split; [intro X; contradiction X; reflexivity|]. intros [X _]. apply H in X. contradiction X; reflexivity.
Qed.
Lemma forall_iff {A} (P Q : A -> Prop) l : Forall (fun a => P a <-> Q a) l -> (Forall P l <-> all_of Q l).
Proof.
  rewrite all_of_forall. induction 1 as [|a l H F IH]; [split; constructor|].
  split; intro X; inversion X; subst; constructor; try apply H; try apply IH; assumption.
Qed.
Lemma cs_none_all :
  (forall c, cs_obj c <> None <-> cs_allowed c) /\ (forall p, part_obj p <> None <-> part_allowed p) /\
  (forall a, attr_entry a <> None <-> attr_allowed a) /\ (forall p, proc_entry p <> None <-> proc_allowed p).
Proof.
  apply cs_all.
  - intros c H. destruct c; cbn [cs_obj cs_allowed]; try (split; [intros _; exact I|discriminate]); rewrite omap_nn.
    + rewrite sep_order. rewrite (forall_iff _ _ _ H). reflexivity.
    + rewrite devn_order. rewrite (forall_iff _ _ _ H). reflexivity.
  - intros p H. destruct p; cbn [part_obj part_allowed]; try (split; [intros _; exact I|discriminate]); [exact H|].
    rewrite omap_nn. apply all_some_iff. exact H.
  - intros a H. destruct a; cbn [attr_entry attr_allowed]; try (split; [intros _; exact I|discriminate]).
    rewrite omap_nn. apply all_some_iff. exact H.
  - intros p H. destruct p; cbn [proc_entry proc_allowed]; try (split; [intros _; exact I|discriminate]).
    rewrite omap_nn. exact H.
Qed.
Lemma cs_none c : cs_obj c <> None <-> cs_allowed c.
Proof. apply cs_none_all. Qed.
Lemma icc_none c : icc_entry c <> None <-> icc_allowed c.
Proof.
  destruct c as [n|c|n|r|r]; cbn [icc_entry icc_allowed]; try (split; [intros _; exact I|discriminate]).
  - destruct (Z.eqb_spec n 1) as [->|]; [split; [auto|discriminate]|]. destruct (Z.eqb_spec n 3) as [->|]; [split; [auto|discriminate]|].
    destruct (Z.eqb_spec n 4) as [->|]; [split; [auto|discriminate]|]. cbn [orb].
    split; [intro H; contradiction H; reflexivity|]. intros [H|[H|H]]; contradiction.
  - rewrite omap_nn. apply cs_none.
Qed.
