(** C42: structure roles. *)

From Coq Require Import ZArith List Bool Lia ZifyBool.
From Verif Require Import Bytes ModelFloat ModelBuf ModelObject ModelTw ModelEnums ModelRoles SpecLex SpecObj SpecMeans SpecTyped SpecColor SpecTw
  SpecEnums SpecRoles ProofBasic ProofTyped ProofColor ProofTw ProofEnums.
Import ListNotations.
Local Open Scope Z_scope.

Lemma dec_u_first n d ds : 1 <= n -> dec_u n = d :: ds -> beq d x30 = false.
Proof.
  intros H E. destruct (beq d x30) eqn:B; [|reflexivity]. exfalso. apply beq_spec in B. subst d.
  destruct (dec_u_spec n) as (D & V & _ & L & _); [lia|]. rewrite E in *.
  change (digits_val (x30 :: ds)) with (digits_val ds) in V. cbn [forallb] in D. apply andb_true_iff in D as [_ D].
  pose proof (digits_val_nonneg ds D) as B.
  destruct L as [L|L].
  - cbn [List.length] in L. replace (Z.of_nat (S (List.length ds)) - 1) with (Z.of_nat (List.length ds)) in L by lia. lia.
  - destruct ds; [|discriminate L]. cbn in V. lia.
Qed.

Lemma heading_not_in_table n : 1 <= n -> by_name (lit "H" ++ dec_u n) StructRole2_table = None.
Proof.
  intro H. destruct (dec_u_spec n) as (D & V & NE & _); [lia|].
  destruct (dec_u n) as [|d ds] eqn:E; [congruence|]. cbn [forallb] in D. apply andb_true_iff in D as [D _].
  change (lit "H" ++ d :: ds) with (x48 :: d :: ds).
  destruct d; try discriminate D; reflexivity.
Qed.

(** Every role can be written: the six bytes of [StructRole2::to_name] always suffice; and reading
    the name in the PDF 2.0 namespace gives back the role (so different roles have different names). *)
Theorem C42_role2_names : forall r, role2_ok r = true ->
  exists n, StructRole2_name r = Some n /\ read_role2 n = Some r /\ name_ok n = true.
Proof.
  intros r H. destruct r; try (eexists; split; [reflexivity|]; split; reflexivity).
  cbn [role2_ok] in H. apply andb_true_iff in H as [H1 H2].
  exists (lit "H" ++ dec_u level). cbn [StructRole2_name]. unfold write_fixed.
  assert (L : (List.length (dec_u level) <= 5)%nat) by (apply dec_u_len; [change (10 ^ Z.of_nat 5) with 100000; lia|lia]).
  assert (Bl : blen (lit "H" ++ dec_u level) <=? 6 = true) by (change (lit "H" ++ dec_u level) with (x48 :: dec_u level); unfold blen; cbn [List.length]; apply Z.leb_le; lia).
  rewrite Bl. split; [reflexivity|]. split; [|reflexivity].
  unfold read_role2. rewrite heading_not_in_table by lia.
  destruct (dec_u_spec level) as (D & V & NE & _); [lia|]. pose proof (dec_u_first level) as F.
  destruct (dec_u level) as [|d ds]; [congruence|]. change (lit "H" ++ d :: ds) with (x48 :: d :: ds). cbn [read_heading].
  rewrite D, (F d ds) by (lia || reflexivity). cbn [andb negb]. rewrite V. reflexivity.
Qed.

Corollary C42_role2_names_distinct : forall r s, role2_ok r = true -> role2_ok s = true ->
  StructRole2_name r = StructRole2_name s -> r = s.
Proof.
  intros r s Hr Hs E. destruct (C42_role2_names r Hr) as (n & E1 & R1 & _). destruct (C42_role2_names s Hs) as (m & E2 & R2 & _). congruence.
Qed.

(** The buffer is exactly as large as needed. *)
Theorem C42_buffer_is_tight : exists r n, role2_ok r = true /\ StructRole2_name r = Some n /\ blen n = 6.
Proof. exists (StructRole2_Heading 65535). eexists. split; [reflexivity|]. split; vm_compute; reflexivity. Qed.

Lemma role_by_name r : read_role (StructRole_name r) = Some r.
Proof. destruct r; reflexivity. Qed.
Lemma read_role_heading n : 7 <= n -> read_role (lit "H" ++ dec_u n) = None.
Proof.
  intro H. unfold read_role. destruct (dec_u_spec n) as (D & V & NE & L & _); [lia|].
  pose proof (dec_u_first n) as F.
  destruct (dec_u n) as [|d ds] eqn:E; [congruence|]. specialize (F d ds ltac:(lia) eq_refl).
  cbn [forallb] in D. apply andb_true_iff in D as [D D2]. change (lit "H" ++ d :: ds) with (x48 :: d :: ds).
  destruct ds as [|e ds].
  - destruct d; try discriminate D; try discriminate F; cbn in V; try (exfalso; lia); reflexivity.
  - destruct d; try discriminate D; reflexivity.
Qed.

(** A PDF 2.0 role is represented in PDF 1.7 by itself exactly if the 1.7 namespace has a type with
    its name; otherwise it is mapped to some type of the 1.7 namespace. *)
Theorem C42_compatible_iff_same_name : forall r opts n role, role2_ok r = true -> StructRole2_name r = Some n ->
  (into_pdf_1_7 (compatibility_1_7 r opts) = Some role <-> read_role n = Some role) /\
  (role_mapped_1_7 (compatibility_1_7 r opts) = None <-> read_role n <> None).
Proof.
  intros r opts n role H E.
  assert (K : into_pdf_1_7 (compatibility_1_7 r opts) = read_role n).
  { destruct r; try (cbn [StructRole2_name] in E; apply some_inj in E; subst n; reflexivity).
    cbn [role2_ok] in H. destruct (C42_role2_names (StructRole2_Heading level) H) as (m & E1 & _).
    cbn [StructRole2_name] in E. unfold write_fixed in E. destruct (_ <=? _) in E; [|discriminate E].
    apply some_inj in E. subst n. cbn [compatibility_1_7].
    destruct (level =? 1) eqn:A1; [apply Z.eqb_eq in A1; subst; reflexivity|].
    destruct (level =? 2) eqn:A2; [apply Z.eqb_eq in A2; subst; reflexivity|].
    destruct (level =? 3) eqn:A3; [apply Z.eqb_eq in A3; subst; reflexivity|].
    destruct (level =? 4) eqn:A4; [apply Z.eqb_eq in A4; subst; reflexivity|].
    destruct (level =? 5) eqn:A5; [apply Z.eqb_eq in A5; subst; reflexivity|].
    destruct (level =? 6) eqn:A6; [apply Z.eqb_eq in A6; subst; reflexivity|].
    cbn [into_pdf_1_7]. symmetry. apply read_role_heading. lia. }
  split; [rewrite K; reflexivity|]. rewrite <- K. destruct (compatibility_1_7 r opts); cbn; split; congruence.
Qed.

(** Whether matched or mapped, the role that stands for it in PDF 1.7 is the one with its name or, without one, its stand-in. *)
Lemma stand_in_heading opts n : 1 <= n -> stand_in opts (lit "H" ++ dec_u n) = if map_hn_to_h6 opts then StructRole_H6 else StructRole_P.
Proof.
  intro H. unfold stand_in. destruct (dec_u_spec n ltac:(lia)) as (D & _ & N & _).
  assert (DD : forallb is_digit (dec_u n) = true) by (apply dec_u_digits; lia).
  destruct (dec_u n) as [|d ds]; [congruence|]. reflexivity.
Qed.

Theorem C42_role_1_7 : forall r opts n, role2_ok r = true -> StructRole2_name r = Some n ->
  compat_role (compatibility_1_7 r opts) = match read_role n with Some role => role | None => stand_in opts n end.
Proof.
  intros r opts n H E. destruct (read_role n) as [role|] eqn:R.
  - destruct (C42_compatible_iff_same_name r opts n role H E) as [[_ A] _]. specialize (A R).
    destruct (compatibility_1_7 r opts); cbn in *; congruence.
  - destruct r; try (cbn [StructRole2_name] in E; apply some_inj in E; subst n; first [discriminate R|reflexivity]).
    cbn [role2_ok] in H. cbn [StructRole2_name] in E. unfold write_fixed in E. destruct (_ <=? _) in E; [|discriminate E].
    apply some_inj in E. subst n. rewrite stand_in_heading by lia. cbn [compatibility_1_7].
    destruct (level =? 1) eqn:A1; [apply Z.eqb_eq in A1; subst; discriminate R|].
    destruct (level =? 2) eqn:A2; [apply Z.eqb_eq in A2; subst; discriminate R|].
    destruct (level =? 3) eqn:A3; [apply Z.eqb_eq in A3; subst; discriminate R|].
    destruct (level =? 4) eqn:A4; [apply Z.eqb_eq in A4; subst; discriminate R|].
    destruct (level =? 5) eqn:A5; [apply Z.eqb_eq in A5; subst; discriminate R|].
    destruct (level =? 6) eqn:A6; [apply Z.eqb_eq in A6; subst; discriminate R|].
    reflexivity.
Qed.

(** The options matter for three kinds of roles only, as documented. *)
Theorem C42_options : forall r opts, role2_ok r = true ->
  compatibility_1_7 r opts =
    match r with
    | StructRole2_Heading n => if 6 <? n then RoleMapping (if map_hn_to_h6 opts then StructRole_H6 else StructRole_P)
                               else compatibility_1_7 r RoleMapOpts_default
    | StructRole2_Title => RoleMapping (if map_title_to_h1 opts then StructRole_H1 else StructRole_P)
    | StructRole2_Sub => RoleMapping (if map_sub_to_span opts then StructRole_Span else StructRole_Div)
    | _ => compatibility_1_7 r RoleMapOpts_default
    end.
Proof.
  intros r opts H. destruct r; try reflexivity. cbn [role2_ok] in H. cbn [compatibility_1_7].
  destruct (level =? 1) eqn:A1; [replace (6 <? level) with false by lia; reflexivity|].
  destruct (level =? 2) eqn:A2; [replace (6 <? level) with false by lia; reflexivity|].
  destruct (level =? 3) eqn:A3; [replace (6 <? level) with false by lia; reflexivity|].
  destruct (level =? 4) eqn:A4; [replace (6 <? level) with false by lia; reflexivity|].
  destruct (level =? 5) eqn:A5; [replace (6 <? level) with false by lia; reflexivity|].
  destruct (level =? 6) eqn:A6; [replace (6 <? level) with false by lia; reflexivity|].
  replace (6 <? level) with true by lia. reflexivity.
Qed.

(** From 1.7 to 2.0: a role whose name exists in the 2.0 namespace becomes that role - except
    the punctuation of a ruby annotation. *)
Theorem C42_into_pdf_2_0 : forall r r2, r <> StructRole_RP -> read_role2 (StructRole_name r) = Some r2 -> into_pdf_2_0 r = Some r2.
Proof. intros r r2 N. destruct r; try congruence; vm_compute; congruence. Qed.

(** A role whose name PDF 2.0 does not have becomes its replacement there, if it has one. *)
Theorem C42_replaced_in_2_0 : forall r, read_role2 (StructRole_name r) = None -> into_pdf_2_0 r = replaced_by (StructRole_name r).
Proof. intros r H. destruct r; first [discriminate H|reflexivity]. Qed.

(** ... and [RP] becomes [WP], the punctuation of a warichu, although the 2.0 namespace has [RP]. *)
Theorem C42_into_pdf_2_0_refuted :
  read_role2 (StructRole_name StructRole_RP) = Some StructRole2_RP /\ into_pdf_2_0 StructRole_RP = Some StructRole2_WP.
Proof. split; reflexivity. Qed.

(** Going to 2.0 and back, and to 1.7 and back. *)
Theorem C42_round_trip_from_1_7 : forall r r2, r <> StructRole_RP -> read_role2 (StructRole_name r) = Some r2 ->
  exists x, into_pdf_2_0 r = Some x /\ try_from_role2 x = Some r.
Proof. intros r r2 N H. exists r2. split; [apply C42_into_pdf_2_0; assumption|]. destruct r; try congruence; vm_compute in H; try discriminate H; apply some_inj in H; subst r2; reflexivity. Qed.
Theorem C42_round_trip_from_2_0 : forall r2 r, role2_ok r2 = true -> r2 <> StructRole2_RP -> try_from_role2 r2 = Some r -> into_pdf_2_0 r = Some r2.
Proof.
  intros r2 r H N E. unfold try_from_role2 in E. destruct r2; try congruence; cbn [compatibility_1_7 into_pdf_1_7] in E;
    try (discriminate E); try (apply some_inj in E; subst r; reflexivity).
  destruct (level =? 1) eqn:A1; [apply Z.eqb_eq in A1; subst; apply some_inj in E; subst r; reflexivity|].
  destruct (level =? 2) eqn:A2; [apply Z.eqb_eq in A2; subst; apply some_inj in E; subst r; reflexivity|].
  destruct (level =? 3) eqn:A3; [apply Z.eqb_eq in A3; subst; apply some_inj in E; subst r; reflexivity|].
  destruct (level =? 4) eqn:A4; [apply Z.eqb_eq in A4; subst; apply some_inj in E; subst r; reflexivity|].
  destruct (level =? 5) eqn:A5; [apply Z.eqb_eq in A5; subst; apply some_inj in E; subst r; reflexivity|].
  destruct (level =? 6) eqn:A6; [apply Z.eqb_eq in A6; subst; apply some_inj in E; subst r; reflexivity|].
  discriminate E.
Qed.

(** The category of a role is that of its name in the standard. *)
Theorem C42_role_types : forall r, by_name (StructRole_name r) role_classes = Some (role_type r).
Proof. destruct r; reflexivity. Qed.
Theorem C42_role2_types : forall r n, role2_ok r = true -> StructRole2_name r = Some n ->
  match by_name n role2_classes with
  | Some t => role_type2 r = t
  | None => exists level, r = StructRole2_Heading level /\ role_type2 r = T2BlockLevel
  end.
Proof.
  intros r n H E. destruct r; try (cbn [StructRole2_name] in E; apply some_inj in E; subst n; reflexivity).
  cbn [StructRole2_name] in E. unfold write_fixed in E. destruct (_ <=? _) in E; [|discriminate E].
  apply some_inj in E. subst n. cbn [role2_ok] in H.
  assert (K : by_name (lit "H" ++ dec_u level) role2_classes = None).
  { destruct (dec_u_spec level) as (D & V & NE & _); [lia|].
    destruct (dec_u level) as [|d ds] eqn:E2; [congruence|]. cbn [forallb] in D. apply andb_true_iff in D as [D _].
    change (lit "H" ++ d :: ds) with (x48 :: d :: ds). destruct d; try discriminate D; reflexivity. }
  rewrite K. exists level. split; reflexivity.
Qed.

(** Concrete cases. *)
Example C42_case : role2_ok (StructRole2_Heading 12) = true /\ StructRole2_name (StructRole2_Heading 12) = Some (lit "H12") /\
  compatibility_1_7 (StructRole2_Heading 12) (mkRoleMapOpts true false false) = RoleMapping StructRole_H6.
Proof. repeat split. Qed.
Example C42_case_2 : read_role2 (StructRole_name StructRole_H3) = Some (StructRole2_Heading 3).
Proof. reflexivity. Qed.
Print Assumptions C42_role_1_7.
Print Assumptions C42_replaced_in_2_0.
