(** Call by call. *)

From Coq Require Import ZArith List Lia Bool.
From Verif Require Import Bytes ModelFloat ModelBuf ModelObject ModelRenumber ModelChunk ModelApi SpecApi ProofBasic ProofObj ProofLimits.
Import ListNotations.
Local Open Scope Z_scope.

Lemma api_run_app a b s : api_run (a ++ b) s = match api_run a s with Some s => api_run b s | None => None end.
Proof. revert s. induction a as [|c a IH]; intro s; [reflexivity|]. cbn [app api_run]. destruct (api_step c s); [apply IH|reflexivity]. Qed.

(** ** Shorthands *)

Lemma items_expand l st : forall a b,
  api_run (flat_map (fun p => [CPush; CPrimitive p]) l) (WArray a :: st, b) =
  let '(a, b) := fold_left (fun ab p => array_item p ab) l (a, b) in Some (WArray a :: st, b).
Proof.
  induction l as [|p l IH]; intros a b; [reflexivity|]. cbn [flat_map app fold_left api_run api_step].
  unfold array_item at 2. cbn [fst snd]. destruct (array_push a b) as [[w a'] b'] eqn:E. cbn [api_run api_step]. apply IH.
Qed.
Lemma pairs_expand_dict l st : forall d b,
  api_run (flat_map (fun e => [CInsert (fst e); CPrimitive (snd e)]) l) (WDict d :: st, b) =
  let '(d, b) := fold_left (fun db e => dict_pair (fst e) (snd e) db) l (d, b) in Some (WDict d :: st, b).
Proof.
  induction l as [|[k p] l IH]; intros d b; [reflexivity|]. cbn [flat_map app fold_left api_run api_step fst snd].
  unfold dict_pair at 2. cbn [fst snd]. destruct (dict_insert k d b) as [[w d'] b'] eqn:E. cbn [api_run api_step]. apply IH.
Qed.
Lemma pairs_expand_stream l data st : forall d b,
  api_run (flat_map (fun e => [CInsert (fst e); CPrimitive (snd e)]) l) (WStream data d :: st, b) =
  let '(d, b) := fold_left (fun db e => dict_pair (fst e) (snd e) db) l (d, b) in Some (WStream data d :: st, b).
Proof.
  induction l as [|[k p] l IH]; intros d b; [reflexivity|]. cbn [flat_map app fold_left api_run api_step fst snd].
  unfold dict_pair at 2. cbn [fst snd]. destruct (dict_insert k d b) as [[w d'] b'] eqn:E. cbn [api_run api_step]. apply IH.
Qed.
Lemma step_expand c s s' : api_step c s = Some s' -> api_run (expand c) s = Some s'.
Proof.
  destruct s as [st b]. destruct c as [p| | | |p|l|k|k p|l| |]; cbn [expand];
    try (intro E; cbn [api_run]; rewrite E; reflexivity);
    destruct st as [|[w|a|d|data d] st]; cbn [api_step]; try discriminate; intro E.
  - rewrite <- (items_expand [p] st a b) in E || idtac. pose proof (items_expand [p] st a b) as X. cbn [flat_map app fold_left] in X. rewrite X. exact E.
  - rewrite items_expand. exact E.
  - pose proof (pairs_expand_dict [(k, p)] st d b) as X. cbn [flat_map app fold_left fst snd] in X. rewrite X. exact E.
  - pose proof (pairs_expand_stream [(k, p)] data st d b) as X. cbn [flat_map app fold_left fst snd] in X. rewrite X. exact E.
  - rewrite pairs_expand_dict. exact E.
  - rewrite pairs_expand_stream. exact E.
Qed.
Lemma run_expanded cs : forall s s', api_run cs s = Some s' -> api_run (expanded cs) s = Some s'.
Proof.
  induction cs as [|c cs IH]; intros s s' E; [exact E|]. cbn [api_run] in E. unfold expanded in *. cbn [flat_map]. rewrite api_run_app.
  destruct (api_step c s) as [s1|] eqn:S; [|discriminate]. rewrite (step_expand c s s1 S). apply IH. exact E.
Qed.

Definition plain (c : call) : Prop :=
  match c with CItem _ | CItems _ | CPair _ _ | CPairs _ | CAbandon => False | _ => True end.
Lemma expanded_plain cs : consumed cs -> Forall plain (expanded cs).
Proof.
  intro C. apply Forall_forall. intros c I. unfold expanded in I. apply in_flat_map in I as (x & X & I).
  destruct x as [p| | | |p|l|k|k p|l| |]; cbn [expand In] in I;
    try (destruct I as [<-|[]]; exact Logic.I); try (destruct I as [<-|[<-|[]]]; exact Logic.I).
  - apply in_flat_map in I as (q & _ & I). destruct I as [<-|[<-|[]]]; exact Logic.I.
  - apply in_flat_map in I as (q & _ & I). destruct I as [<-|[<-|[]]]; exact Logic.I.
  - exfalso. apply C. exact X.
Qed.

(** ** Trees *)

Lemma write_array l w b : write_obj (OArray l) w b = let '(a, b) := array_start w b in let '(a, b) := write_items l a b in array_drop a b.
Proof.
  cbn [write_obj]. destruct (array_start w b) as [a b1].
  match goal with |- (let '(a, b) := ?g l a b1 in _) = _ => enough (H : forall a b, g l a b = write_items l a b) by (rewrite H; reflexivity) end.
  clear. induction l as [|o l IH]; intros a b; [reflexivity|]. cbn [write_items].
  destruct (array_push a b) as [[w' a'] b']. apply IH.
Qed.
Lemma write_dict l w b : write_obj (ODict l) w b = let '(d, b) := dict_start w b in let '(d, b) := write_entries l d b in dict_drop d b.
Proof.
  cbn [write_obj]. destruct (dict_start w b) as [d b1].
  match goal with |- (let '(d, b) := ?g l d b1 in _) = _ => enough (H : forall d b, g l d b = write_entries l d b) by (rewrite H; reflexivity) end.
  clear. induction l as [|[k v] l IH]; intros d b; [reflexivity|]. cbn [write_entries].
  destruct (dict_insert k d b) as [[w' d'] b']. apply IH.
Qed.
Lemma write_items_snoc l o : forall a b, write_items (l ++ [o]) a b =
  let '(a, b) := write_items l a b in let '(w, a, b) := array_push a b in (a, write_obj o w b).
Proof.
  induction l as [|x l IH]; intros a b; cbn [app write_items].
  - destruct (array_push a b) as [[w a'] b']. reflexivity.
  - destruct (array_push a b) as [[w a'] b']. apply IH.
Qed.
Lemma write_entries_snoc l k o : forall d b, write_entries (l ++ [(k, o)]) d b =
  let '(d, b) := write_entries l d b in let '(w, d, b) := dict_insert k d b in (d, write_obj o w b).
Proof.
  induction l as [|[k' x] l IH]; intros d b; cbn [app write_entries].
  - destruct (dict_insert k d b) as [[w d'] b']. reflexivity.
  - destruct (dict_insert k' d b) as [[w d'] b']. apply IH.
Qed.
Lemma write_items_len l : forall a b, a_len (fst (write_items l a b)) = a_len a + Z.of_nat (length l).
Proof.
  induction l as [|o l IH]; intros a b; cbn [write_items length fst]; [lia|]. unfold array_push.
  destruct (if negb (a_len a =? 0) then _ else _) as [n b']. rewrite IH. cbn [a_len]. lia.
Qed.
Lemma write_entries_len l : forall d b, d_len (fst (write_entries l d b)) = d_len d + Z.of_nat (length l).
Proof.
  induction l as [|[k o] l IH]; intros d b; cbn [write_entries length fst]; [lia|]. unfold dict_insert. cbn [d_pretty d_len d_indent d_indirect].
  destruct (if d_pretty d then (false, _) else _) as [n b']. rewrite IH. cbn [d_len]. lia.
Qed.
Lemma pushes_snoc l o : pushes (l ++ [o]) = pushes l ++ CPush :: calls_of o.
Proof. unfold pushes. rewrite flat_map_app. cbn [flat_map]. rewrite app_nil_r. reflexivity. Qed.
Lemma inserts_snoc l k o : inserts (l ++ [(k, o)]) = inserts l ++ CInsert k :: calls_of o.
Proof. unfold inserts. rewrite flat_map_app. cbn [flat_map]. rewrite app_nil_r. reflexivity. Qed.

(** ** The invariant *)

Section Root.
  Variable root : writer.
  Variable b0 : buf.

  Inductive opened : list writer -> list call -> buf -> Prop :=
  | Op_obj w : root = WObj w -> opened [root] [] b0
  | Op_stream data d es d' b : root = WStream data d -> write_entries es d b0 = (d', b) -> opened [WStream data d'] (inserts es) b
  | Op_array w st cs b l a a' b1 b2 : opened (WObj w :: st) cs b -> array_start w b = (a, b1) -> write_items l a b1 = (a', b2) ->
      opened (WArray a' :: st) (cs ++ CArray :: pushes l) b2
  | Op_dict w st cs b l d d' b1 b2 : opened (WObj w :: st) cs b -> dict_start w b = (d, b1) -> write_entries l d b1 = (d', b2) ->
      opened (WDict d' :: st) (cs ++ CDict :: inserts l) b2
  | Op_push a st cs b w a' b' : opened (WArray a :: st) cs b -> array_push a b = (w, a', b') ->
      opened (WObj w :: WArray a' :: st) (cs ++ [CPush]) b'
  | Op_insert d st cs b k w d' b' : opened (WDict d :: st) cs b -> dict_insert k d b = (w, d', b') ->
      opened (WObj w :: WDict d' :: st) (cs ++ [CInsert k]) b'
  | Op_insert_stream data d st cs b k w d' b' : opened (WStream data d :: st) cs b -> dict_insert k d b = (w, d', b') ->
      opened (WObj w :: WStream data d' :: st) (cs ++ [CInsert k]) b'.

  Definition done (cs : list call) (b : buf) : Prop :=
    match root with
    | WObj w => exists o, cs = calls_of o /\ b = write_obj o w b0
    | WStream data d => exists es d' b', write_entries es d b0 = (d', b') /\ cs = inserts es ++ [CDrop] /\ b = stream_drop data d' b'
    | _ => False
    end.
  Definition reached (st : list writer) (cs : list call) (b : buf) : Prop :=
    match st with [] => done cs b | _ => opened st cs b end.

  Lemma complete w st cs b o : opened (WObj w :: st) cs b -> reached st (cs ++ calls_of o) (write_obj o w b).
  Proof.
    intro H. inversion H as [w' R E1|data d es d' b' R W E1|w' st' cs' b' l a a' b1 b2 H1 A W E1|w' st' cs' b' l d d' b1 b2 H1 A W E1|a st' cs' b' w' a' b'' H1 P E1|d st' cs' b' k w' d' b'' H1 P E1|data d st' cs' b' k w' d' b'' H1 P E1]; subst.
    - cbn [reached]. unfold done. rewrite E1. exists o. split; reflexivity.
    - cbn [reached]. inversion H1 as [|data d es d' b3 R W E1|w1 st1 cs1 b3 l a1 a2 b4 b5 H2 A W E1| | | |]; subst.
      + congruence.
      + replace ((cs1 ++ CArray :: pushes l) ++ [CPush] ++ calls_of o) with (cs1 ++ CArray :: pushes (l ++ [o])) 
          by (rewrite pushes_snoc, <- app_assoc; reflexivity).
        rewrite <- app_assoc. replace ((cs1 ++ CArray :: pushes l) ++ [CPush] ++ calls_of o) with (cs1 ++ CArray :: pushes (l ++ [o])) 
          by (rewrite pushes_snoc, <- app_assoc; reflexivity).
        eapply Op_array; [exact H2|exact A|]. rewrite write_items_snoc, W, P. reflexivity.
    - cbn [reached]. inversion H1 as [|data d1 es d2 b3 R W E1| |w1 st1 cs1 b3 l d1 d2 b4 b5 H2 A W E1| | |]; subst.
      + congruence.
      + rewrite <- app_assoc. replace ((cs1 ++ CDict :: inserts l) ++ [CInsert k] ++ calls_of o) with (cs1 ++ CDict :: inserts (l ++ [(k, o)])) 
          by (rewrite inserts_snoc, <- app_assoc; reflexivity).
        eapply Op_dict; [exact H2|exact A|]. rewrite write_entries_snoc, W, P. reflexivity.
    - cbn [reached]. inversion H1 as [|data1 d1 es d2 b3 R W E1| |w1 st1 cs1 b3 l d1 d2 b4 b5 H2 A W E1| | |]; subst.
      + congruence.
      + rewrite <- app_assoc. replace (inserts es ++ [CInsert k] ++ calls_of o) with (inserts (es ++ [(k, o)])) by (rewrite inserts_snoc; reflexivity).
        eapply Op_stream; [exact R|]. rewrite write_entries_snoc, W, P. reflexivity.
  Qed.

  Lemma step_opened st cs b c st' b' : opened st cs b -> plain c -> api_step c (st, b) = Some (st', b') -> reached st' (cs ++ [c]) b'.
  Proof.
    intros H P E. destruct c as [p| | | |p|l|k|k p|l| |]; cbn [plain] in P; try contradiction;
      destruct st as [|[w|a|d|data d] st]; cbn [api_step] in E; try discriminate.
    - injection E as <- <-. exact (complete w st cs b (OPrim p) H).
    - destruct (array_start w b) as [a b1] eqn:A. injection E as <- <-. cbn [reached]. eapply (Op_array w st cs b []); [exact H|exact A|reflexivity].
    - destruct (dict_start w b) as [d b1] eqn:A. injection E as <- <-. cbn [reached]. eapply (Op_dict w st cs b []); [exact H|exact A|reflexivity].
    - destruct (array_push a b) as [[w a'] b1] eqn:A. injection E as <- <-. cbn [reached]. eapply Op_push; eassumption.
    - destruct (dict_insert k d b) as [[w d'] b1] eqn:A. injection E as <- <-. cbn [reached]. eapply Op_insert; eassumption.
    - destruct (dict_insert k d b) as [[w d'] b1] eqn:A. injection E as <- <-. cbn [reached]. eapply Op_insert_stream; eassumption.
    - injection E as <- <-. inversion H as [|data d1 es d2 b3 R W E1|w1 st1 cs1 b3 l a1 a2 b4 b5 H2 A W E1| | | |]; subst; [congruence|].
      pose proof (complete _ _ _ _ (OArray l) H2) as X. rewrite write_array, A, W in X. cbn [calls_of] in X. fold (pushes l) in X.
      rewrite <- app_assoc. exact X.
    - injection E as <- <-. inversion H as [|data d1 es d2 b3 R W E1| |w1 st1 cs1 b3 l d1 d2 b4 b5 H2 A W E1| | |]; subst; [congruence|].
      pose proof (complete _ _ _ _ (ODict l) H2) as X. rewrite write_dict, A, W in X. cbn [calls_of] in X. fold (inserts l) in X.
      rewrite <- app_assoc. exact X.
    - injection E as <- <-. inversion H as [|data1 d1 es d2 b3 R W E1| | | | |]; subst; [congruence|].
      cbn [reached]. unfold done. rewrite R. exists es, d, b. split; [exact W|]. split; reflexivity.
  Qed.

  Lemma run_reached cs : Forall plain cs -> forall st cs0 b st' b', opened st cs0 b -> api_run cs (st, b) = Some (st', b') -> reached st' (cs0 ++ cs) b'.
  Proof.
    induction 1 as [|c cs P F IH]; intros st cs0 b st' b' O E.
    - cbn [api_run] in E. injection E as <- <-. rewrite app_nil_r. destruct st; [inversion O|exact O].
    - cbn [api_run] in E. destruct (api_step c (st, b)) as [[st1 b1]|] eqn:S; [|discriminate].
      pose proof (step_opened _ _ _ _ _ _ O P S) as R. destruct st1 as [|x st1].
      + destruct cs as [|c2 cs]; [cbn [api_run] in E; injection E as <- <-; exact R|].
        cbn [api_run] in E. destruct c2; discriminate.
      + cbn [reached] in R. specialize (IH _ _ _ _ _ R E). rewrite <- app_assoc in IH. exact IH.
  Qed.
End Root.

(** ** Trees are calls *)

Lemma run_calls o : forall w st b, api_run (calls_of o) (WObj w :: st, b) = Some (st, write_obj o w b).
Proof.
  induction o as [p|l IH|l IH] using obj_ind'; intros w st b.
  - reflexivity.
  - cbn [calls_of api_run api_step]. rewrite write_array. destruct (array_start w b) as [a b1]. fold (pushes l). rewrite api_run_app.
    assert (X : forall a b, api_run (pushes l) (WArray a :: st, b) = let '(a, b) := write_items l a b in Some (WArray a :: st, b)).
    { clear - IH. induction IH as [|o l H F IH]; intros a b; [reflexivity|]. unfold pushes in *. cbn [flat_map app api_run api_step write_items].
      destruct (array_push a b) as [[w a'] b']. rewrite api_run_app, H. apply IH. }
    rewrite X. destruct (write_items l a b1) as [a' b2]. reflexivity.
  - cbn [calls_of api_run api_step]. rewrite write_dict. destruct (dict_start w b) as [d b1]. fold (inserts l). rewrite api_run_app.
    assert (X : forall d b, api_run (inserts l) (WDict d :: st, b) = let '(d, b) := write_entries l d b in Some (WDict d :: st, b)).
    { clear - IH. induction IH as [|[k o] l H F IH]; intros d b; [reflexivity|]. unfold inserts in *. cbn [flat_map app api_run api_step write_entries fst snd] in *.
      destruct (dict_insert k d b) as [[w d'] b']. rewrite api_run_app, H. apply IH. }
    rewrite X. destruct (write_entries l d b1) as [d' b2]. reflexivity.
Qed.
Lemma run_inserts l data st : forall d b, api_run (inserts l) (WStream data d :: st, b) = let '(d, b) := write_entries l d b in Some (WStream data d :: st, b).
Proof.
  induction l as [|[k o] l IH]; intros d b; [reflexivity|]. unfold inserts in *. cbn [flat_map app api_run api_step write_entries fst snd] in *.
  destruct (dict_insert k d b) as [[w d'] b']. rewrite api_run_app, run_calls. apply IH.
Qed.

(** ** The calls determine the tree *)

Lemma calls_inj o : forall o' r r', calls_of o ++ r = calls_of o' ++ r' -> o = o' /\ r = r'.
Proof.
  induction o as [p|l IH|l IH] using obj_ind'; intros o' r r' E.
  - destruct o' as [q|l'|l']; cbn [calls_of app] in E; try discriminate. injection E as -> ->. split; reflexivity.
  - destruct o' as [q|l'|l']; cbn [calls_of app] in E; try discriminate. injection E as E. rewrite <- !app_assoc in E. cbn [app] in E.
    enough (X : l = l' /\ r = r') by (destruct X as [-> ->]; split; reflexivity).
    revert l' E. induction IH as [|o l H F IHl]; intros [|o' l'] E; cbn [flat_map app] in E; try discriminate.
    + injection E as E. split; [reflexivity|exact E].
    + injection E as E. rewrite <- !app_assoc in E. apply H in E as [-> E]. apply IHl in E as [-> ->]. split; reflexivity.
  - destruct o' as [q|l'|l']; cbn [calls_of app] in E; try discriminate. injection E as E. rewrite <- !app_assoc in E. cbn [app] in E.
    enough (X : l = l' /\ r = r') by (destruct X as [-> ->]; split; reflexivity).
    revert l' E. induction IH as [|[k o] l H F IHl]; intros [|[k' o'] l'] E; cbn [flat_map app fst snd] in E; try discriminate.
    + injection E as E. split; [reflexivity|exact E].
    + injection E as -> E. rewrite <- !app_assoc in E. cbn [snd] in H. apply H in E as [-> E]. apply IHl in E as [-> ->]. split; reflexivity.
Qed.
