(** Which bytes are written: printable ASCII only; canonical integers. *)

From Coq Require Import ZArith List Lia Bool ZifyBool ZifyNat.
From Verif Require Import Bytes ModelFloat ModelBuf ModelObject SpecLex SpecObj SpecText SpecMeans
  ProofBasic ProofText ProofFloat ProofFloat2 ProofObj.
Import ListNotations.
Local Open Scope Z_scope.

Definition printable (c : byte) : bool := (32 <=? bz c) && (bz c <=? 126).

Lemma hex2_printable c : forallb printable (hex2 c) = true.
Proof. destruct c; reflexivity. Qed.

Lemma flat_map_forallb {A B} (f : A -> list B) (P : B -> bool) l :
  (forall x, In x l -> forallb P (f x) = true) -> forallb P (flat_map f l) = true.
Proof.
  induction l as [|a l IH]; intro H; [reflexivity|]. cbn [flat_map]. rewrite forallb_app, H by (left; reflexivity).
  apply IH. intros x Hx. apply H. right. assumption.
Qed.

Lemma str_byte_printable whole bal c : bz c <? 128 = true -> forallb printable (snd (str_byte whole bal c)) = true.
Proof.
  intro H. unfold str_byte. destruct (beq c x28 || beq c x29) eqn:E.
  - apply orb_true_iff in E. destruct E as [E|E]; apply beq_spec in E; subst c; cbn [snd];
      destruct bal as [[|]|]; cbn; try reflexivity; destruct (is_balanced whole); reflexivity.
  - clear E. destruct c; first [discriminate H|reflexivity].
Qed.

Lemma str_literal_printable whole : forall s bal, forallb (fun c => bz c <? 128) s = true ->
  forallb printable (str_literal whole bal s) = true.
Proof.
  induction s as [|c s IH]; intros bal H; [reflexivity|]. cbn [forallb str_literal] in *.
  apply andb_true_iff in H. destruct H as [Hc Hs]. pose proof (str_byte_printable whole bal c Hc) as Hp.
  destruct (str_byte whole bal c) as [b o]. cbn [snd] in Hp. rewrite forallb_app, Hp, IH by assumption. reflexivity.
Qed.

Lemma str_bytes_printable s : forallb printable (str_bytes s) = true.
Proof.
  unfold str_bytes. destruct (forallb (fun c => bz c <? 128) s) eqn:E.
  - rewrite !forallb_app, str_literal_printable by assumption. reflexivity.
  - rewrite !forallb_app, flat_map_forallb by (intros; apply hex2_printable). reflexivity.
Qed.

Lemma hex_utf16_printable t : forallb printable (hex_utf16 t) = true.
Proof. rewrite hex_utf16_bytes. apply flat_map_forallb. intros; apply hex2_printable. Qed.

Lemma text_bytes_printable t : forallb printable (text_bytes t) = true.
Proof.
  unfold text_bytes. destruct (forallb _ (str_utf8 t)); [apply str_bytes_printable|].
  rewrite !forallb_app, hex_utf16_printable. reflexivity.
Qed.

Lemma text_lang_bytes_printable s : forallb printable (text_lang_bytes s) = true.
Proof. unfold text_lang_bytes. rewrite segs_hex, !forallb_app, hex_utf16_printable. reflexivity. Qed.

Definition printable_regular (c : byte) : bool := (33 <=? bz c) && (bz c <=? 126) && is_regular c.

Lemma name_byte_printable c : forallb printable_regular (name_byte c) = true.
Proof. destruct c; reflexivity. Qed.

Lemma name_tail_printable s : forallb printable_regular (flat_map name_byte s) = true.
Proof. apply flat_map_forallb. intros; apply name_byte_printable. Qed.

Lemma printable_regular_printable s : forallb printable_regular s = true -> forallb printable s = true.
Proof.
  rewrite !forallb_forall. intros H x Hx. specialize (H x Hx). unfold printable_regular, printable in *. lia.
Qed.

Lemma name_bytes_printable s : forallb printable (name_bytes s) = true.
Proof.
  unfold name_bytes. cbn [forallb]. rewrite printable_regular_printable by apply name_tail_printable. reflexivity.
Qed.

Lemma plain_printable s : forallb plain s = true -> forallb printable s = true.
Proof. rewrite !forallb_forall. intros H x Hx. specialize (H x Hx). unfold plain, printable in *. lia. Qed.

Lemma date_bytes_printable d : date_ok d = true -> forallb printable (date_bytes d) = true.
Proof.
  intro H. unfold date_bytes. rewrite !forallb_app, (plain_printable (date_body d)) by (apply date_body_plain; assumption). reflexivity.
Qed.

Lemma digit_printable c : is_digit c = true -> printable c = true.
Proof. unfold is_digit, printable. lia. Qed.

Lemma digits_printable s : forallb is_digit s = true -> forallb printable s = true.
Proof. rewrite !forallb_forall. auto using digit_printable. Qed.

Lemma dec_i_printable z : forallb printable (dec_i z) = true.
Proof.
  unfold dec_i. destruct (z <? 0) eqn:E; cbn [forallb]; rewrite digits_printable by (apply dec_u_digits; lia); reflexivity.
Qed.

(** A word that the lexer reads as a number is printable. *)
Lemma number_unsigned_chars w t : number_unsigned w = Some t ->
  forallb (fun c => is_digit c || beq c x2e) w = true /\ w <> [].
Proof.
  unfold number_unsigned. pose proof (span_app is_digit w) as Hs. destruct (span is_digit w) as [ip r].
  destruct Hs as [-> Hip]. assert (Hip' : forallb (fun c => is_digit c || beq c x2e) ip = true).
  { rewrite forallb_forall in *. intros x Hx. rewrite (Hip x Hx). reflexivity. }
  rewrite forallb_app, Hip'. destruct r as [|c fp].
  - destruct ip; [discriminate|]. split; [reflexivity|discriminate].
  - destruct (beq c x2e && forallb is_digit fp) eqn:E; [|discriminate]. intros _.
    apply andb_true_iff in E. destruct E as [E1 E2]. cbn [forallb]. rewrite E1, orb_true_r. cbn [andb].
    split; [|destruct ip; discriminate].
    rewrite forallb_forall in *. intros x Hx. rewrite (E2 x Hx). reflexivity.
Qed.

Lemma number_chars w t : number w = Some t ->
  forallb (fun c => is_digit c || bmem c [x2e; x2d; x2b]) w = true /\ w <> [].
Proof.
  assert (K : forall u x, number_unsigned u = Some x ->
    forallb (fun c => is_digit c || bmem c [x2e; x2d; x2b]) u = true).
  { intros u x Hu. apply number_unsigned_chars in Hu. destruct Hu as [Hu _].
    rewrite forallb_forall in *. intros y Hy. specialize (Hu y Hy). unfold bmem. cbn [existsb].
    apply orb_true_iff in Hu. destruct Hu as [->| ->]; [reflexivity|apply orb_true_r]. }
  destruct w as [|c w]; [discriminate|]. intro H. split; [|discriminate].
  destruct (beq c x2d) eqn:E1; [|destruct (beq c x2b) eqn:E2].
  - apply beq_spec in E1. subst c. rewrite number_neg in H. destruct (number_unsigned w) eqn:E; [|discriminate].
    cbn [forallb]. rewrite (K _ _ E). reflexivity.
  - apply beq_spec in E2. subst c. change (number (x2b :: w)) with (number_unsigned w) in H.
    cbn [forallb]. rewrite (K _ _ H). reflexivity.
  - assert (Hu : number_unsigned (c :: w) = Some t).
    { destruct c; try discriminate E1; try discriminate E2; exact H. }
    apply (K _ _ Hu).
Qed.

Lemma number_printable w t : number w = Some t -> forallb printable w = true.
Proof.
  intro H. apply number_chars in H. destruct H as [H _]. rewrite forallb_forall in *. intros x Hx.
  specialize (H x Hx). apply orb_true_iff in H. destruct H as [H|H]; [apply digit_printable; assumption|].
  destruct x; first [discriminate H|reflexivity].
Qed.

Lemma float_bytes_printable v : real_ok v = true -> forallb printable (float_bytes v) = true.
Proof.
  unfold real_ok. intro H. apply andb_true_iff in H. destruct (float_good v) as (t & H1 & _); [tauto|tauto|].
  eapply number_printable; eauto.
Qed.

Lemma prim_bytes_printable p : prim_ok p = true -> forallb printable (prim_bytes p) = true.
Proof.
  destruct p; cbn [prim_ok prim_bytes]; intro H; try reflexivity.
  - destruct v; reflexivity.
  - apply dec_i_printable.
  - apply float_bytes_printable; assumption.
  - apply str_bytes_printable.
  - apply text_bytes_printable.
  - apply text_lang_bytes_printable.
  - apply name_bytes_printable.
  - rewrite forallb_app, dec_i_printable. reflexivity.
  - rewrite !andb_true_iff in H. rewrite !forallb_app, !float_bytes_printable by tauto. reflexivity.
  - apply date_bytes_printable; assumption.
Qed.

(** ** Canonical integers *)

(** Optional minus, digits, no leading zero, no minus zero. *)
Definition canonical_int (s : bytes) : bool :=
  let canonical_nat (ds : bytes) :=
    match ds with
    | [] => false
    | c :: r => forallb is_digit ds && (negb (beq c x30) || is_nil r)
    end in
  match s with
  | x2d :: r => canonical_nat r && negb (bytes_eqb r [x30])
  | _ => canonical_nat s
  end.

Lemma dec_u_canonical n : 0 <= n ->
  match dec_u n with [] => false | c :: r => forallb is_digit (dec_u n) && (negb (beq c x30) || is_nil r) end = true.
Proof.
  intro H. destruct (dec_u_spec n H) as (H1 & H2 & H3 & H4 & H5).
  destruct (dec_u n) as [|c r] eqn:E; [congruence|]. rewrite H1. cbn [andb].
  destruct (beq c x30) eqn:Ec; [|reflexivity]. apply beq_spec in Ec. subst c. cbn [negb orb].
  destruct r as [|d r]; [reflexivity|exfalso].
  assert (Hv : digits_val (x30 :: d :: r) = digits_val (d :: r)).
  { change (x30 :: d :: r) with ([x30] ++ d :: r). rewrite digits_val_app, digits_val_single.
    change (bz x30 - 48) with 0. lia. }
  assert (Hd : forallb is_digit (d :: r) = true) by (cbn [forallb] in H1 |- *; exact H1).
  pose proof (digits_val_nonneg _ Hd) as Hb.
  destruct H4 as [H4|H4]; [|discriminate H4].
  cbn [List.length] in *. rewrite Hv in H2. rewrite H2 in Hb.
  replace (Z.of_nat (S (S (List.length r))) - 1) with (Z.of_nat (S (List.length r))) in H4 by lia. lia.
Qed.

Lemma dec_i_canonical z : canonical_int (dec_i z) = true.
Proof.
  unfold dec_i. destruct (z <? 0) eqn:E.
  - unfold canonical_int. pose proof (dec_u_canonical (- z) ltac:(lia)) as H.
    rewrite H. cbn [andb]. apply negb_true_iff. destruct (bytes_eqb (dec_u (- z)) [x30]) eqn:Eb; [|reflexivity].
    apply bytes_eqb_spec in Eb. pose proof (dec_u_val (- z) ltac:(lia)) as Hv. rewrite Eb in Hv.
    change (digits_val [x30]) with 0 in Hv. lia.
  - pose proof (dec_u_canonical z ltac:(lia)) as H. pose proof (dec_u_digits z ltac:(lia)) as Hd.
    unfold canonical_int. destruct (dec_u z) as [|c r]; [discriminate H|].
    destruct (beq c x2d) eqn:Ec; [apply beq_spec in Ec; subst c; discriminate Hd|].
    destruct c; try discriminate Ec; exact H.
Qed.
