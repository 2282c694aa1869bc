(** Renamings, consistent closures, assembled documents. *)

From Coq Require Import ZArith List Lia Bool.
From Verif Require ModelContent ModelCmap.
From Verif Require Import Bytes ModelFloat ModelBuf ModelObject ModelRenumber ModelChunk ModelColor ModelSmall ModelPdf ModelTw ModelEnums ModelRoles ModelTwArgs
  ModelTwFiles ModelTwGraphics ModelTwAnnot ModelTwForms ModelTwAttr ModelTwXObj ModelTwFonts ModelTwDoc ModelFontDesc ModelDoc ModelPart
  SpecLex SpecObj SpecText SpecMeans SpecRenum SpecChunk SpecFile SpecPdf SpecTyped SpecColor SpecSmall SpecTw SpecEnums SpecRoles SpecTwArgs
  SpecTwFiles SpecTwGraphics SpecTwAnnot SpecTwForms SpecTwAttr SpecTwXObj SpecTwFonts SpecTwDoc SpecFontDesc SpecDoc SpecPart
  ProofBasic ProofObj ProofParse ProofTree ProofRenum ProofRenumTree ProofChunk ProofChunk2 ProofPdf ProofSmall ProofTyped ProofColor ProofTw ProofDoc PropPdf PropPdf2 PropDoc.
Import ListNotations.
Local Open Scope Z_scope.

(** ** Renamed objects mean renamed values *)

Lemma real_map g r v : real_means r v -> map_val g v = v.
Proof. intros []; reflexivity. Qed.

Lemma means_map g o : forall v', means (map_refs g o) v' -> exists v, means o v /\ v' = map_val g v.
Proof.
  induction o as [q|l IH|l IH] using obj_ind'; intros v' H.
  - destruct q; cbn [map_refs] in H; inversion H; subst.
    + exists VNull. split; [constructor|reflexivity].
    + exists (VBool v). split; [constructor|reflexivity].
    + exists (VInt v). split; [constructor|reflexivity].
    + exists v'. split; [constructor; assumption|]. symmetry. eapply real_map. eassumption.
    + exists (VStr s). split; [constructor|reflexivity].
    + eexists. split; [constructor; eassumption|reflexivity].
    + eexists. split; [constructor; eassumption|reflexivity].
    + eexists. split; [constructor|reflexivity].
    + exists (VRef r 0). split; [constructor|reflexivity].
    + eexists. split; [constructor; eassumption|]. cbn [map_val map].
      repeat erewrite real_map by eassumption. reflexivity.
    + eexists. split; [constructor; eassumption|reflexivity].
  - cbn [map_refs] in H. inversion H as [| | | | | | | | | | |l0 vs F E1 E2|]; subst. clear H.
    assert (X : exists ws, Forall2 means l ws /\ vs = map (map_val g) ws).
    { revert vs F. induction IH as [|a l A IHF IHl]; intros vs F; cbn [map] in F.
      - inversion F; subst. exists []. split; [constructor|reflexivity].
      - inversion F as [|? v ? vs' F1 F2]; subst. destruct (A _ F1) as (w & W1 & ->). destruct (IHl _ F2) as (ws & W2 & ->).
        exists (w :: ws). split; [constructor; assumption|reflexivity]. }
    destruct X as (ws & X & ->). exists (VArr ws). split; [constructor; exact X|reflexivity].
  - cbn [map_refs] in H. inversion H as [| | | | | | | | | | | |l0 vs F E1 E2]; subst. clear H.
    assert (X : exists ws, Forall2 (fun e e' => fst e = fst e' /\ means (snd e) (snd e')) l ws /\
                           vs = map (fun e => (fst e, map_val g (snd e))) ws).
    { revert vs F. induction IH as [|a l A IHF IHl]; intros vs F; cbn [map] in F.
      - inversion F; subst. exists []. split; [constructor|reflexivity].
      - inversion F as [|? v ? vs' F1 F2]; subst. destruct F1 as [F0 F1]. cbn [fst snd] in F0, F1.
        destruct (A _ F1) as (w & W1 & E). destruct (IHl _ F2) as (ws & W2 & ->).
        exists ((fst a, w) :: ws). split; [constructor; [split; [reflexivity|exact W1]|exact W2]|].
        cbn [map fst snd]. f_equal. destruct v as [k v]. cbn [fst snd] in *. subst. reflexivity. }
    destruct X as (ws & X & ->). exists (VDict ws). split; [constructor; exact X|reflexivity].
Qed.

Lemma item_means_map g id b i' : item_means (map_item g (id, b)) i' -> exists i, item_means (id, b) i /\ i' = map_indirect g i.
Proof.
  unfold map_item. cbn [fst snd]. destruct b as [o|es data]; cbn [map_body]; intro H; inversion H as [? ? v M|? ? ? vs M]; subst; clear H.
  - destruct (means_map _ _ _ M) as (w & W & ->). exists (IObj id 0 w). split; [constructor; exact W|reflexivity].
  - change (ODict (map_entries g es)) with (map_refs g (ODict es)) in M. destruct (means_map _ _ _ M) as (w & W & E).
    assert (D : exists ws, w = VDict ws) by (inversion W; eexists; reflexivity). destruct D as [ws ->].
    cbn [map_val] in E. injection E as ->. eexists. split; [constructor; exact W|reflexivity].
Qed.

(** ** Consistent closures *)

Lemma map_refs_ext f g o : (forall r, In r (obj_refs o) -> f r = g r) -> map_refs f o = map_refs g o.
Proof.
  induction o as [q|l IH|l IH] using obj_ind'; intro H.
  - destruct q; try reflexivity. cbn [map_refs]. rewrite H by (left; reflexivity). reflexivity.
  - cbn [map_refs]. f_equal. apply map_ext_in. intros a Ha. rewrite Forall_forall in IH. apply IH; [exact Ha|].
    intros r Hr. apply H. cbn [obj_refs]. apply in_flat_map. exists a. split; assumption.
  - cbn [map_refs]. f_equal. apply map_ext_in. intros [k v] Ha. rewrite Forall_forall in IH. cbn [fst snd]. f_equal.
    apply (IH _ Ha). intros r Hr. apply H. cbn [obj_refs]. apply in_flat_map. exists (k, v). split; assumption.
Qed.
Lemma map_item_ext f g it : (forall r, In r (item_refs it) -> f r = g r) -> map_item f it = map_item g it.
Proof.
  destruct it as [id bd]. unfold map_item, item_refs. cbn [fst snd]. intro H.
  rewrite H by (left; reflexivity). f_equal. destruct bd as [o|es d]; cbn [map_body body_refs] in *.
  - rewrite (map_refs_ext f g); [reflexivity|]. intros r Hr. apply H. right. exact Hr.
  - f_equal. pose proof (map_refs_ext f g (ODict es)) as P. cbn [map_refs obj_refs] in P.
    assert (E : ODict (map_entries f es) = ODict (map_entries g es)) by (apply P; intros r Hr; apply H; right; exact Hr).
    injection E as E. exact E.
Qed.

Lemma call_all_length {T} (f : T -> Z -> Z * T) ids : forall t, length (fst (call_all f ids t)) = length ids.
Proof.
  induction ids as [|i ids IH]; intro t; [reflexivity|]. cbn [call_all]. destruct (f t i) as [n t1]. specialize (IH t1).
  destruct (call_all f ids t1). cbn [fst length] in *. lia.
Qed.

Section Agree.
  Context {T : Type} (f : T -> Z -> Z * T) (g : Z -> Z).
  Definition agrees (ids : list Z) (t : T) : Prop := fst (call_all f ids t) = map g ids.

  Lemma agrees_app a b t : agrees (a ++ b) t -> agrees a t /\ agrees b (snd (call_all f a t)).
  Proof.
    unfold agrees. rewrite call_all_app, map_app. pose proof (call_all_length f a t) as L.
    destruct (call_all f a t) as [na t1]. cbn [fst snd] in *. destruct (call_all f b t1) as [nb t2]. cbn [fst].
    intro H. apply app_inv_head_iff || idtac.
    assert (E : na = map g a /\ nb = map g b).
    { apply (f_equal (firstn (length a))) in H as H1. apply (f_equal (skipn (length a))) in H as H2.
      rewrite <- L in H1 at 1. rewrite firstn_app, firstn_all, Nat.sub_diag, app_nil_r in H1.
      rewrite <- L in H2 at 1. rewrite skipn_app, skipn_all, Nat.sub_diag in H2. cbn [app skipn] in H2.
      rewrite firstn_app, skipn_app, map_length, Nat.sub_diag in *. cbn [firstn skipn app] in *.
      rewrite <- (map_length g a) in H1. rewrite firstn_all in H1. cbn [firstn] in H1. rewrite app_nil_r in H1.
      rewrite <- (map_length g a) in H2. rewrite skipn_all in H2. split; assumption. }
    exact E.
  Qed.

  Lemma agree_list {A} (h : A -> T -> A * T) (k : A -> A) (rf : A -> list Z) l :
    (forall a, In a l -> forall t, call_all f (rf a) t = (rf (fst (h a t)), snd (h a t))) ->
    (forall a, In a l -> forall t, agrees (rf a) t -> fst (h a t) = k a) ->
    forall t, agrees (flat_map rf l) t -> fst (thread h l t) = map k l.
  Proof.
    induction l as [|a l IH]; intros C H t G; [reflexivity|].
    cbn [flat_map] in G. apply agrees_app in G. destruct G as [G1 G2].
    rewrite (C a (or_introl eq_refl) t) in G2. cbn [snd] in G2. rewrite thread_cons.
    pose proof (H a (or_introl eq_refl) t G1) as E. destruct (h a t) as [a' t1]. cbn [fst snd] in *. subst a'.
    specialize (IH (fun b Hb => C b (or_intror Hb)) (fun b Hb => H b (or_intror Hb)) t1 G2).
    destruct (thread h l t1). cbn [fst map] in *. subst. reflexivity.
  Qed.

  Lemma agree_obj o : forall t, agrees (obj_refs o) t -> fst (map_refs_st f o t) = map_refs g o.
  Proof.
    induction o as [q|l IH|l IH] using obj_ind'; intros t H.
    - destruct q; try reflexivity. unfold agrees in H. cbn [obj_refs call_all map] in H. cbn [map_refs_st map_refs].
      destruct (f t r) as [n t1]. cbn [fst] in *. injection H as ->. reflexivity.
    - cbn [obj_refs map_refs_st map_refs] in *. rewrite Forall_forall in IH.
      pose proof (agree_list (map_refs_st f) (map_refs g) obj_refs l (fun a _ => calls_obj f a) IH t H) as E.
      destruct (thread _ l t). cbn [fst] in *. subst. reflexivity.
    - cbn [obj_refs map_refs_st map_refs] in *. rewrite Forall_forall in IH.
      pose proof (agree_list (fun e t => let '(v, t) := map_refs_st f (snd e) t in ((fst e, v), t))
                    (fun e => (fst e, map_refs g (snd e))) (fun e => obj_refs (snd e)) l) as E.
      match type of E with ?A -> ?B -> _ => assert (PA : A); [|assert (PB : B); [|specialize (E PA PB t H)]] end.
      + intros [k v] _ t'. cbn [snd fst]. rewrite calls_obj. destruct (map_refs_st f v t'). reflexivity.
      + intros [k v] Ha t' G. specialize (IH _ Ha t' G). cbn [fst snd] in *. destruct (map_refs_st f v t'). cbn [fst] in *. subst. reflexivity.
      + destruct (thread _ l t). cbn [fst] in *. subst. reflexivity.
  Qed.

  Lemma agree_item it t : agrees (item_refs it) t -> fst (map_item_st f it t) = map_item g it.
  Proof.
    destruct it as [id bd]. unfold item_refs, map_item_st, map_item. cbn [fst snd]. intro H.
    change (id :: body_refs bd) with ([id] ++ body_refs bd) in H. apply agrees_app in H. destruct H as [H1 H2].
    unfold agrees in H1. cbn [call_all map fst snd] in *. destruct (f t id) as [n t1]. cbn [fst snd] in *. injection H1 as ->.
    assert (E : fst (map_body_st f bd t1) = map_body g bd).
    { destruct bd as [o|es d]; cbn [body_refs map_body_st map_body] in *.
      - pose proof (agree_obj o t1 H2) as E. destruct (map_refs_st f o t1). cbn [fst] in *. subst. reflexivity.
      - pose proof (agree_obj (ODict es) t1 H2) as E. cbn [map_refs_st map_refs] in E. unfold map_entries_st, map_entries.
        destruct (thread _ es t1). cbn [fst] in *. injection E as ->. reflexivity. }
    destruct (map_body_st f bd t1). cbn [fst] in *. subst. reflexivity.
  Qed.
  Lemma agree_items l t : agrees (flat_map item_refs l) t -> fst (thread (map_item_st f) l t) = map (map_item g) l.
  Proof. apply agree_list; [intros a _ t'; apply calls_item|intros a _ t'; apply agree_item]. Qed.

  Lemma thread_placed_eq nl l : forall t,
    fst (thread (map_placed_st f nl) l t) =
    map (fun x => mkPl (pl_style (fst x)) nl (snd x)) (combine l (fst (thread (map_item_st f) (map pl_item l) t))).
  Proof.
    induction l as [|pl l IH]; intro t; [reflexivity|]. cbn [map]. rewrite !thread_cons. unfold map_placed_st at 1.
    destruct (map_item_st f (pl_item pl) t) as [it t1]. specialize (IH t1).
    destruct (thread (map_placed_st f nl) l t1). destruct (thread (map_item_st f) (map pl_item l) t1).
    cbn [fst combine map snd] in *. subst. reflexivity.
  Qed.
End Agree.

Lemma agree_pure {U} (g : Z -> Z) ids (u : U) : call_all (fun t id => (g id, t)) ids u = (map g ids, u).
Proof. induction ids as [|i ids IH]; [reflexivity|]. cbn [call_all]. rewrite IH. reflexivity. Qed.

(** A closure that answers like a function does the same as this function. *)
Lemma renumber_agrees {T} (f : T -> Z -> Z * T) g pfx pfx' l k src tgt s :
  holds pfx l src -> holds pfx' k tgt -> forallb item_typed (map pl_item l) = true ->
  agrees f g (flat_map item_refs (map pl_item l)) s ->
  exists c', chunk_renumber_into f src tgt s = Some (c', snd (call_all f (flat_map item_refs (map pl_item l)) s)) /\
             chunk_renumber_into (fun (t : unit) id => (g id, t)) src tgt tt = Some (c', tt).
Proof.
  intros [Hb Ho] [Hb' Ho'] Ht G. unfold chunk_renumber_into. rewrite Hb, Ho, !loop_holds by exact Ht.
  pose proof (thread_placed_eq f (c_pretty tgt) l s) as E1.
  pose proof (thread_placed_eq (fun (t : unit) id => (g id, t)) (c_pretty tgt) l tt) as E2.
  rewrite (agree_items f g _ _ G) in E1. rewrite map_items_pure in E2. cbn [fst] in E2. rewrite <- E1 in E2.
  destruct (thread_placed f (c_pretty tgt) l s) as [_ S]. rewrite calls_items. cbn [snd]. rewrite <- S.
  destruct (thread (map_placed_st f (c_pretty tgt)) l s) as [l1 s1].
  destruct (thread (map_placed_st (fun (t : unit) id => (g id, t)) (c_pretty tgt)) l tt) as [l2 []].
  cbn [fst snd] in *. subst l2. eexists. split; reflexivity.
Qed.

Lemma find_combine (ids ns : list Z) i id n : nth_error ids i = Some id -> nth_error ns i = Some n ->
  exists j m, nth_error ids j = Some id /\ nth_error ns j = Some m /\ find (fun e => fst e =? id) (combine ids ns) = Some (id, m).
Proof.
  revert i ns. induction ids as [|x ids IH]; intros i ns H1 H2; [destruct i; discriminate|].
  destruct ns as [|m ns]; [destruct i; discriminate|]. cbn [combine find fst]. destruct (Z.eqb_spec x id) as [->|N].
  - exists 0%nat, m. repeat split; reflexivity.
  - destruct i as [|i]; [cbn in H1; congruence|]. destruct (IH i ns H1 H2) as (j & m' & A & B & C).
    exists (S j), m'. repeat split; assumption.
Qed.
Lemma nth_eq_list (a b : list Z) : length a = length b ->
  (forall i x y, nth_error a i = Some x -> nth_error b i = Some y -> x = y) -> a = b.
Proof.
  revert b. induction a as [|x a IH]; intros [|y b] L H; try discriminate; [reflexivity|]. f_equal.
  - apply (H 0%nat); reflexivity.
  - apply IH; [injection L as L; exact L|]. intros i u v A B. apply (H (S i)); assumption.
Qed.
Lemma consistent_agrees {T} (f : T -> Z -> Z * T) s ids : consistent f s ids -> agrees f (renaming f s ids) ids s.
Proof.
  intro C. unfold agrees. apply nth_eq_list; [rewrite call_all_length, map_length; reflexivity|].
  intros i x y A B. rewrite nth_error_map in B. destruct (nth_error ids i) as [id|] eqn:I; [|discriminate].
  cbn [option_map] in B. apply some_inj in B. subst y. unfold renaming.
  destruct (find_combine ids (fst (call_all f ids s)) i id x I A) as (j & m & J1 & J2 & ->). cbn [snd].
  exact (C i j id x m I J1 A J2).
Qed.
Lemma consistent_pure {U} (g : Z -> Z) (u : U) ids : consistent (fun t id => (g id, t)) u ids.
Proof.
  intros i j id a b I J. rewrite agree_pure. cbn [fst]. rewrite !nth_error_map, I, J. cbn [option_map]. congruence.
Qed.
Lemma renaming_agrees {T} (f : T -> Z -> Z * T) g s ids id : agrees f g ids s -> In id ids -> renaming f s ids id = g id.
Proof.
  unfold agrees, renaming. intros -> I. apply In_nth_error in I as [i I].
  destruct (find_combine ids (map g ids) i id (g id) I) as (j & m & J1 & J2 & ->); [rewrite nth_error_map, I; reflexivity|].
  cbn [snd]. rewrite nth_error_map, J1 in J2. cbn [option_map] in J2. congruence.
Qed.

(** ** Parts *)

Lemma part_call_good c b : part_call_ok c = true -> part_call_body c = Some b -> good_body b (fun id => part_call_reads id c).
Proof.
  destruct c as [c|o]; cbn [part_call_ok part_call_body part_call_reads]; [apply chunk_call_good|].
  intros K E. apply some_inj in E. subst b. apply andb_true_iff in K. destruct K as [K1 K2].
  split; [exact K1|]. split; [exact K2|]. intros id i M. inversion M; subst. eexists. split; [reflexivity|assumption].
Qed.

(** A renaming made total. *)
Definition totally (g : Z -> Z) (id : Z) : Z := if id_ok (g id) then g id else 1.
Lemma totally_ok g id : id_ok (totally g id) = true.
Proof. unfold totally. destruct (id_ok (g id)) eqn:E; [exact E|reflexivity]. Qed.

Definition found_item (x : Z * (Z -> Z) * part_call) (it : item) : Prop :=
  let '(id, g, c) := x in part_call_ok c = true /\
  exists b, part_call_body c = Some b /\ it = map_item g (id, b) /\ forall r, In r (item_refs (id, b)) -> id_ok (g r) = true.

Lemma typed_refs o : obj_typed o = true -> forall r, In r (obj_refs o) -> id_ok r = true.
Proof.
  induction o as [q|l IH|l IH] using obj_ind'; intros H r I.
  - destruct q; cbn [obj_refs] in I; try contradiction. destruct I as [->|[]]. exact H.
  - cbn [obj_refs obj_typed] in *. apply in_flat_map in I as (a & A & I). rewrite Forall_forall in IH. rewrite forallb_forall in H.
    exact (IH a A (H a A) r I).
  - cbn [obj_refs obj_typed] in *. apply in_flat_map in I as (a & A & I). rewrite Forall_forall in IH. rewrite forallb_forall in H.
    exact (IH a A (H a A) r I).
Qed.
Lemma item_typed_refs id b : item_typed (id, b) = true -> forall r, In r (item_refs (id, b)) -> id_ok r = true.
Proof.
  unfold item_typed, item_refs. cbn [fst snd]. intros H r. apply andb_true_iff in H as [H1 H2]. intros [->|I]; [exact H1|].
  destruct b as [o|es d]; cbn [body_refs body_typed] in *; [exact (typed_refs o H2 r I)|exact (typed_refs (ODict es) H2 r I)].
Qed.
Lemma map_item_refs g it : item_refs (map_item g it) = map g (item_refs it).
Proof.
  pose proof (calls_item (fun (t : unit) id => (g id, t)) it tt) as E. rewrite agree_pure, map_item_pure in E. cbn [fst snd] in E.
  apply (f_equal fst) in E. symmetry. exact E.
Qed.

Lemma found_renamed g x it it' : found_item x it -> it' = map_item g it -> (forall r, In r (item_refs it) -> id_ok (g r) = true) ->
  found_item (fst (fst x), fun n => g (snd (fst x) n), snd x) it'.
Proof.
  destruct x as [[id h] c]. cbn [fst snd found_item]. intros (K & b & B & -> & R) -> G. split; [exact K|].
  exists b. split; [exact B|]. rewrite map_item_comp. split; [reflexivity|].
  intros r I. apply G. rewrite map_item_refs. apply in_map. exact I.
Qed.
Lemma founds_renamed g fs its : Forall2 found_item fs its -> (forall r, In r (flat_map item_refs its) -> id_ok (g r) = true) ->
  Forall2 found_item (map (fun x => (fst (fst x), fun n => g (snd (fst x) n), snd x)) fs) (map (map_item g) its).
Proof.
  induction 1 as [|x it fs its F FS IH]; intro G; [constructor|]. cbn [map flat_map] in *. constructor.
  - eapply found_renamed; [exact F|reflexivity|]. intros r I. apply G. apply in_or_app. left. exact I.
  - apply IH. intros r I. apply G. apply in_or_app. right. exact I.
Qed.

Lemma closure_total {T} (f : T -> Z -> Z * T) s ids : closure_ok f s ids ->
  agrees f (totally (renaming f s ids)) ids s /\ (forall id, In id ids -> totally (renaming f s ids) id = renaming f s ids id) /\
  (forall id, In id ids -> id_ok (renaming f s ids id) = true).
Proof.
  intros [C F]. apply consistent_agrees in C. assert (O : forall id, In id ids -> id_ok (renaming f s ids id) = true).
  { intros id I. unfold agrees in C. rewrite C in F. rewrite Forall_forall in F. apply F. apply in_map. exact I. }
  assert (X : forall id, In id ids -> totally (renaming f s ids) id = renaming f s ids id).
  { intros id I. unfold totally. rewrite (O id I). reflexivity. }
  split; [|split; [exact X|exact O]]. unfold agrees in *. rewrite C at 1. apply map_ext_in. intros id I. symmetry. apply X. exact I.
Qed.

(** Every part is a typed history as far as its result is concerned. *)
Lemma part_spec p : forall h, part_ok p -> part_hist p = Some h ->
  exists h', hist_typed h' /\ run h' = run h /\ hist_items h' = hist_items h /\ Forall2 found_item (part_found p) (hist_items h) /\
    forall b, hist_uniform b h -> hist_uniform b h'.
Proof.
  induction p as [pretty|p IH id c|p IH l|p1 IH1 p2 IH2|p1 IH1 p2 IH2 T f s]; intros h K E; cbn [part_hist part_ok part_found] in *.
  - apply some_inj in E. subst h. exists (HNew pretty). repeat split; [constructor|]. exact (fun _ H => H).
  - destruct (part_hist p) as [h0|]; [|discriminate]. destruct (part_call_body c) as [b|] eqn:B; [|discriminate].
    destruct K as (K1 & K2 & K3). destruct (IH h0 K1 eq_refl) as (h' & H1 & H2 & H3 & H4 & H5).
    destruct (part_call_good c b K3 B) as (G1 & _ & _).
    assert (IT : item_typed (id, b) = true) by (unfold item_typed; cbn [fst snd]; rewrite K2; exact G1).
    assert (F : found_item (id, fun n => n, c) (id, b)).
    { split; [exact K3|]. exists b. split; [exact B|]. rewrite map_item_id by reflexivity. split; [reflexivity|].
      apply item_typed_refs. exact IT. }
    destruct b as [o|es data]; apply some_inj in E; subst h.
    + exists (HObject h' id o). cbn [hist_typed run hist_items]. rewrite H2, H3. repeat split; [exact H1|exact IT| |exact H5].
      apply Forall2_app; [exact H4|]. constructor; [exact F|constructor].
    + exists (HStream h' id es data). cbn [hist_typed run hist_items]. rewrite H2, H3. repeat split; [exact H1|exact IT| |exact H5].
      apply Forall2_app; [exact H4|]. constructor; [exact F|constructor].
  - destruct (part_hist p) as [h0|]; [|discriminate]. cbn [option_map] in E. apply some_inj in E. subst h.
    destruct (IH h0 K eq_refl) as (h' & H1 & H2 & H3 & H4 & H5). exists (HMerge h' l). cbn [hist_typed run hist_items].
    rewrite H2. repeat split; assumption.
  - destruct (part_hist p1) as [h1|]; [|discriminate]. destruct (part_hist p2) as [h2|]; [|discriminate]. apply some_inj in E. subst h.
    destruct K as [K1 K2]. destruct (IH1 h1 K1 eq_refl) as (a & A1 & A2 & A3 & A4 & A5). destruct (IH2 h2 K2 eq_refl) as (b & B1 & B2 & B3 & B4 & B5).
    exists (HExtend a b). cbn [hist_typed run hist_items]. rewrite A2, B2, A3, B3. repeat split; try assumption; [apply Forall2_app; assumption| |]; cbn [hist_uniform] in *; [apply A5|apply B5]; apply H.
  - destruct (part_hist p1) as [h1|]; [|discriminate]. unfold part_ids in *. destruct (part_hist p2) as [h2|]; [|discriminate]. apply some_inj in E. subst h.
    destruct K as (K1 & K2 & K3). destruct (IH1 h1 K1 eq_refl) as (a & A1 & A2 & A3 & A4 & A5). destruct (IH2 h2 K2 eq_refl) as (b & B1 & B2 & B3 & B4 & B5).
    set (ids := flat_map item_refs (hist_items h2)) in *.
    destruct (closure_total f s ids K3) as (G1 & G2 & G3).
    exists (HRenumber a b unit (fun t id => (totally (renaming f s ids) id, t)) tt). cbn [hist_typed run hist_items].
    rewrite A2, B2, A3, B3. rewrite map_items_pure. cbn [fst]. rewrite (agree_items f _ _ _ G1).
    assert (EX : map (map_item (totally (renaming f s ids))) (hist_items h2) = map (map_item (renaming f s ids)) (hist_items h2)).
    { apply map_ext_in. intros it I. apply map_item_ext. intros r R. apply G2. unfold ids. apply in_flat_map. exists it. split; assumption. }
    repeat split; try assumption.
    + intros t id. apply totally_ok.
    + pose proof (run_holds b B1) as RB. pose proof (run_holds a A1) as RA.
      destruct (items_fit (hist_items b)); [|rewrite RB in B2; rewrite <- B2; destruct (run h1); reflexivity].
      destruct (items_fit (hist_items a)); [|rewrite RA in A2; rewrite <- A2; reflexivity].
      destruct RB as (cb & lb & R1 & R2 & R3 & _). destruct RA as (ca & la & Q1 & Q2 & Q3 & _).
      rewrite <- A2, <- B2, Q1, R1.
      destruct (renumber_agrees f (totally (renaming f s ids)) [] [] lb la cb ca s R2 Q2) as (c' & X1 & X2).
      * rewrite R3. apply items_typed. exact B1.
      * rewrite R3, B3. exact G1.
      * rewrite X1, X2. reflexivity.
    + apply Forall2_app; [exact A4|]. rewrite EX. apply founds_renamed; [exact B4|exact G3].
    + cbn [hist_uniform] in *. apply A5. apply H.
    + cbn [hist_uniform] in *. apply B5. apply H.
Qed.

Lemma found_reads_item resolved x it : found_item x it ->
  (body_readable (snd it) = true -> exists i, resolved (fst it) = Some i /\ item_means it i) -> found_reads resolved x.
Proof.
  destruct x as [[id g] c]. intros (K & b & B & -> & O) R. cbn [found_reads].
  destruct (part_call_good c b K B) as (G1 & G2 & G3).
  destruct R as (i' & R1 & R2).
  { assert (E : map_item g (id, b) = map_item (totally g) (id, b)).
    { apply map_item_ext. intros r I. unfold totally. rewrite (O r I). reflexivity. }
    rewrite E. pose proof (map_body_readable (fun (t : unit) id => (totally g id, t)) (fun t r => totally_ok g r) b tt G2) as X.
    pose proof (map_item_pure (totally g) (id, b) tt) as Y. unfold map_item_st in Y. cbn [fst snd] in Y.
    destruct (map_body_st (fun (t : unit) id => (totally g id, t)) b tt) as [b' u]. cbn [fst] in X. unfold map_item in *. cbn [fst snd] in *.
    congruence. }
  destruct (item_means_map _ _ _ _ R2) as (i & M & ->). exists i. split; [apply G3; exact M|]. exact R1.
Qed.
Lemma found_id x it : found_item x it -> fst it = snd (fst x) (fst (fst x)).
Proof. destruct x as [[id g] c]. intros (_ & b & _ & -> & _). reflexivity. Qed.

(** ** The documented closure *)

Fixpoint grow (seen ids : list Z) : list Z :=
  match ids with [] => seen | id :: r => grow (if zmem id seen then seen else seen ++ [id]) r end.
Lemma zmem_in i l : zmem i l = true <-> In i l.
Proof.
  unfold zmem. rewrite existsb_exists. split.
  - intros (x & I & E). apply Z.eqb_eq in E. subst. exact I.
  - intro I. exists i. split; [exact I|apply Z.eqb_refl].
Qed.
Lemma zmem_app i a b : zmem i (a ++ b) = zmem i a || zmem i b.
Proof. unfold zmem. apply existsb_app. Qed.
Lemma filter_filter' {A} (p q : A -> bool) l : List.filter p (List.filter q l) = List.filter (fun x => q x && p x) l.
Proof. induction l as [|a l IH]; [reflexivity|]. cbn [List.filter]. destruct (q a); cbn [List.filter andb]; [destruct (p a)|]; rewrite IH; reflexivity. Qed.
Lemma grow_seen ids : forall seen, grow seen ids = seen ++ List.filter (fun i => negb (zmem i seen)) (first_seen ids).
Proof.
  induction ids as [|id ids IH]; intro seen; cbn [grow first_seen]; [cbn [List.filter]; rewrite app_nil_r; reflexivity|].
  rewrite IH. cbn [List.filter]. destruct (zmem id seen) eqn:M; cbn [negb].
  - f_equal. rewrite filter_filter'. apply filter_ext. intro i. destruct (Z.eqb_spec i id) as [->|N]; [rewrite M; reflexivity|reflexivity].
  - rewrite <- app_assoc. cbn [app]. f_equal. f_equal. rewrite filter_filter'. apply filter_ext. intro i. rewrite zmem_app.
    unfold zmem at 2. cbn [existsb]. destruct (Z.eqb_spec i id), (zmem i seen); reflexivity.
Qed.
Lemma grow_nil ids : grow [] ids = first_seen ids.
Proof.
  rewrite grow_seen. cbn [app]. rewrite (filter_ext _ (fun _ => true)) by reflexivity. 
  induction (first_seen ids) as [|a l IH]; [reflexivity|]. cbn [List.filter]. f_equal. exact IH.
Qed.
Lemma grow_length ids seen : (length seen <= length (grow seen ids))%nat.
Proof. rewrite grow_seen, app_length. lia. Qed.

Lemma position_in id l x : In id l -> position id (l ++ x) = position id l.
Proof.
  induction l as [|a l IH]; intro I; [destruct I|]. cbn [app position]. destruct (Z.eqb_spec a id); [reflexivity|].
  destruct I as [->|I]; [congruence|]. rewrite IH by exact I. reflexivity.
Qed.
Lemma position_new id l : ~ In id l -> position id (l ++ [id]) = Z.of_nat (length l).
Proof.
  induction l as [|a l IH]; intro N; cbn [app position length]; [rewrite Z.eqb_refl; reflexivity|].
  destruct (Z.eqb_spec a id) as [->|_]; [exfalso; apply N; left; reflexivity|].
  rewrite IH by (intro I; apply N; right; exact I). lia.
Qed.
Lemma position_range id l : In id l -> 0 <= position id l < Z.of_nat (length l).
Proof.
  induction l as [|a l IH]; intro I; [destruct I|]. cbn [position length]. destruct (Z.eqb_spec a id); [lia|].
  destruct I as [->|I]; [congruence|]. specialize (IH I). lia.
Qed.
Lemma position_nth id l : In id l -> nth_error l (Z.to_nat (position id l)) = Some id.
Proof.
  induction l as [|a l IH]; intro I; [destruct I|]. cbn [position]. destruct (Z.eqb_spec a id) as [->|N]; [reflexivity|].
  destruct I as [->|I]; [congruence|]. pose proof (position_range id l I).
  replace (Z.to_nat (1 + position id l)) with (S (Z.to_nat (position id l))) by lia. exact (IH I).
Qed.
Lemma nth_position id l i : NoDup l -> nth_error l i = Some id -> position id l = Z.of_nat i.
Proof.
  revert i. induction l as [|a l IH]; intros i D N; [destruct i; discriminate|]. inversion D as [|? ? D1 D2]; subst. cbn [position].
  destruct i as [|i]; cbn [nth_error] in N.
  - injection N as ->. rewrite Z.eqb_refl. reflexivity.
  - destruct (Z.eqb_spec a id) as [->|_]; [exfalso; apply D1; eapply nth_error_In; exact N|]. rewrite (IH i D2 N). lia.
Qed.
Lemma first_seen_in id ids : In id (first_seen ids) <-> In id ids.
Proof.
  induction ids as [|a ids IH]; [reflexivity|]. cbn [first_seen In]. rewrite filter_In, IH. destruct (Z.eqb_spec id a) as [->|N]; cbn [negb].
  - split; [intros [H|[H _]]; [left; reflexivity|right; exact H]|intros _; left; reflexivity].
  - split; [intros [H|[H _]]; [left; exact H|right; exact H]|intros [H|H]; [left; exact H|right; split; [exact H|reflexivity]]].
Qed.
Lemma first_seen_nodup ids : NoDup (first_seen ids).
Proof.
  induction ids as [|a ids IH]; [constructor|]. cbn [first_seen]. constructor; [|apply NoDup_filter; exact IH].
  rewrite filter_In. intros [_ H]. rewrite Z.eqb_refl in H. discriminate.
Qed.

Lemma bump_ok r : 0 < r -> r + 1 <= i32_max -> ref_bump r = Some (r, r + 1).
Proof. intros H1 H2. rewrite bump_step by lia. destruct (Z.ltb_spec r i32_max); [reflexivity|lia]. Qed.

Definition table_ok (alloc : Z) (seen : list Z) (m : list (Z * Z)) : Prop :=
  forall id, find (fun e => fst e =? id) m = if zmem id seen then Some (id, alloc + position id seen) else None.

Lemma memo_run alloc ids : 0 < alloc -> forall seen m,
  table_ok alloc seen m -> alloc + Z.of_nat (length (grow seen ids)) <= i32_max ->
  exists m', table_ok alloc (grow seen ids) m' /\
    call_all memo ids (m, alloc + Z.of_nat (length seen)) =
      (map (fun id => alloc + position id (grow seen ids)) ids, (m', alloc + Z.of_nat (length (grow seen ids)))).
Proof.
  intro A. induction ids as [|id ids IH]; intros seen m T L.
  - exists m. split; [exact T|reflexivity].
  - cbn [grow] in *. cbn [call_all map]. unfold memo at 1. rewrite T. destruct (zmem id seen) eqn:M.
    + destruct (IH seen m T L) as (m' & T' & ->). exists m'. split; [exact T'|]. cbn [snd]. f_equal. f_equal.
      rewrite grow_seen, position_in; [reflexivity|]. apply zmem_in. exact M.
    + pose proof (grow_length ids (seen ++ [id])) as GL. rewrite app_length in GL. cbn [length] in GL.
      rewrite bump_ok by lia.
      assert (N : ~ In id seen) by (intro I; apply zmem_in in I; congruence).
      assert (T2 : table_ok alloc (seen ++ [id]) ((id, alloc + Z.of_nat (length seen)) :: m)).
      { intro i. cbn [find fst]. rewrite zmem_app. unfold zmem at 2. cbn [existsb]. rewrite orb_false_r.
        destruct (Z.eqb_spec id i) as [->|Ne].
        - rewrite Z.eqb_refl, orb_true_r, position_new by exact N. reflexivity.
        - rewrite T. destruct (Z.eqb_spec i id); [congruence|]. rewrite orb_false_r. destruct (zmem i seen) eqn:Mi; [|reflexivity].
          rewrite position_in; [reflexivity|]. apply zmem_in. exact Mi. }
      destruct (IH (seen ++ [id]) _ T2 L) as (m' & T' & E). exists m'. split; [exact T'|].
      rewrite app_length in E. cbn [length] in E.
      replace (alloc + Z.of_nat (length seen) + 1) with (alloc + Z.of_nat (length seen + 1)) by lia. rewrite E.
      f_equal. f_equal. rewrite grow_seen, position_in by (apply in_or_app; right; left; reflexivity).
      rewrite position_new by exact N. reflexivity.
Qed.
