(** Property C40: colour spaces. *)

From Coq Require Import ZArith List Lia Bool.
From Verif Require Import Bytes ModelFloat ModelBuf ModelObject ModelRenumber ModelChunk ModelColor SpecLex SpecObj SpecText SpecMeans
  SpecChunk SpecTyped SpecColor ProofBasic ProofTyped ProofColor PropTree PropChunk.
Import ListNotations.
Local Open Scope Z_scope.

(** Every colour space that is written without a panic reads back as the array or name
    ISO 32000 prescribes, with the caller's arguments in their places. *)
Theorem C40_color_space_reads_back : forall c o,
  cs_ok c = true -> cs_obj c = Some o -> reads o (cs_reads c).
Proof.
  intros c o K H. apply reads_fine.
  - destruct cs_fine_all as [X _]. exact (X c o K H).
  - intros v M. destruct cs_reads_all as [X _]. exact (X c o v H M).
Qed.

(** [Separation]: exactly these call sequences do not panic (as long as no nested call
    does): nothing, or one alternate space followed by tint transforms. *)
Theorem C40_separation_order : forall n calls,
  cs_obj (CsSeparation n calls) <> None <->
  (calls = [] \/ exists a ts, calls = a :: ts /\ is_alternate a /\ Forall is_tint ts) /\ Forall part_allowed calls.
Proof. intros n calls. rewrite cs_none. cbn [cs_allowed]. rewrite all_of_forall. reflexivity. Qed.

(** [DeviceN]: alternate space, then one tint transform, then attributes. *)
Theorem C40_device_n_order : forall ns calls,
  cs_obj (CsDeviceN ns calls) <> None <->
  (calls = [] \/ (exists a, calls = [a] /\ is_alternate a) \/
   exists a t attrs, calls = a :: t :: attrs /\ is_alternate a /\ is_tint t /\ Forall is_attrs attrs) /\ Forall part_allowed calls.
Proof. intros n calls. rewrite cs_none. cbn [cs_allowed]. rewrite all_of_forall. reflexivity. Qed.

(** In general, with color spaces nested to any depth. *)
Theorem C40_color_space_panics : forall c, cs_obj c <> None <-> cs_allowed c.
Proof. exact cs_none. Qed.
Example C40_panics_case :
  cs_allowed (CsDeviceN [] [AlternateSpace (CsSeparation (lit "S") [AlternateRef 3; TintRef 4]); TintRef 5; Attrs [AtProcess [PrColorSpaceArray CsDeviceGray]]]) /\
  ~ cs_allowed (CsDeviceN [] [AlternateSpace (CsSeparation (lit "S") [TintRef 4])]) /\
  ~ cs_allowed (CsSeparation [] [AlternateRef 3; TintRef 4; AlternateRef 3]).
Proof.
  split; [|split]; rewrite <- cs_none; [discriminate|intro H; contradiction H; reflexivity|intro H; contradiction H; reflexivity].
Qed.

(** Complete [DeviceN] histories give arrays of four elements, or five with attributes. *)
Theorem C40_device_n_shape : forall ns a t o,
  is_alternate a -> is_tint t ->
  (cs_ok (CsDeviceN ns [a; t]) = true -> cs_obj (CsDeviceN ns [a; t]) = Some o ->
   reads o (fun v => exists vns va vt, v = VArr [VName (lit "DeviceN"); vns; va; vt] /\
                       is_names ns vns /\ part_reads a va /\ part_reads t vt)) /\
  (forall l, cs_ok (CsDeviceN ns [a; t; Attrs l]) = true -> cs_obj (CsDeviceN ns [a; t; Attrs l]) = Some o ->
   reads o (fun v => exists vns va vt d, v = VArr [VName (lit "DeviceN"); vns; va; vt; VDict d] /\
                       is_names ns vns /\ part_reads a va /\ part_reads t vt /\ Forall2 attr_reads l d)).
Proof.
  intros ns a t o Ha Ht. split.
  - intros K H i p q b. destruct (C40_color_space_reads_back _ _ K H i p q b) as (s & v & E1 & E2 & R).
    exists s, v. split; [exact E1|]. split; [exact E2|].
    inversion R as [| | | | | | | |? ? vns vs Hn F| |]; subst.
    inversion F as [|? va ? ? Ra F1]; subst. inversion F1 as [|? vt ? ? Rt F2]; subst. inversion F2; subst.
    exists vns, va, vt. auto.
  - intros l K H i p q b. destruct (C40_color_space_reads_back _ _ K H i p q b) as (s & v & E1 & E2 & R).
    exists s, v. split; [exact E1|]. split; [exact E2|].
    inversion R as [| | | | | | | |? ? vns vs Hn F| |]; subst.
    inversion F as [|? va ? ? Ra F1]; subst. inversion F1 as [|? vt ? ? Rt F2]; subst.
    inversion F2 as [|? vl ? ? Rl F3]; subst. inversion F3; subst. inversion Rl; subst.
    exists vns, va, vt, d. auto 6.
Qed.

(** The same for [Separation] with one tint transform ... *)
Theorem C40_separation_shape : forall n a t o,
  is_alternate a -> is_tint t ->
  cs_ok (CsSeparation n [a; t]) = true -> cs_obj (CsSeparation n [a; t]) = Some o ->
  reads o (fun v => exists va vt, v = VArr [VName (lit "Separation"); VName n; va; vt] /\
                      part_reads a va /\ part_reads t vt).
Proof.
  intros n a t o Ha Ht K H i p q b. destruct (C40_color_space_reads_back _ _ K H i p q b) as (s & v & E1 & E2 & R).
  exists s, v. split; [exact E1|]. split; [exact E2|].
  inversion R as [| | | | | | |? ? vs F| | |]; subst.
  inversion F as [|? va ? ? Ra F1]; subst. inversion F1 as [|? vt ? ? Rt F2]; subst. inversion F2; subst.
  exists va, vt. auto.
Qed.

(** ... but nothing stops a second tint transform ([DeviceN] does check), and the array then
    has five elements; likewise [attrs] can be called twice on [DeviceN]. *)
Theorem C40_second_tint_refuted : exists calls o,
  (List.length (List.filter (fun p => match p with TintRef _ => true | _ => false end) calls) = 2)%nat /\
  cs_ok (CsSeparation (lit "Spot") calls) = true /\ cs_obj (CsSeparation (lit "Spot") calls) = Some o /\
  reads o (fun v => exists vs, v = VArr vs /\ List.length vs = 5%nat).
Proof.
  exists [AlternateDevice DevCmyk; TintRef 3; TintRef 4]. eexists. repeat split.
  intros i p q b.
  destruct (C40_color_space_reads_back (CsSeparation (lit "Spot") [AlternateDevice DevCmyk; TintRef 3; TintRef 4]) _ eq_refl eq_refl i p q b)
    as (s & v & E1 & E2 & R).
  exists s, v. split; [exact E1|]. split; [exact E2|].
  inversion R as [| | | | | | |? ? vs F| | |]; subst. assert (L : List.length vs = 3%nat) by (clear - F; inversion F as [|? ? ? ? _ F1]; subst; inversion F1 as [|? ? ? ? _ F2]; subst; inversion F2 as [|? ? ? ? _ F3]; subst; inversion F3; reflexivity).
  eexists. split; [reflexivity|]. cbn [List.length]. rewrite L. reflexivity.
Qed.

(** ISO 32000 wants arrays (Separation spaces) as the values of [/Colorants]; the typed
    writer [TypedDict<Dict>] can only produce dictionaries. *)
Theorem C40_colorants_refuted : forall l e v,
  attr_entry (AtColorants l) = Some e -> means (snd e) v ->
  exists d, v = VDict d /\ Forall (fun x => exists y, snd x = VDict y) d.
Proof.
  intros l e v H M. cbn in H. apply some_inj in H. subst e. cbn [snd] in M.
  inversion M as [| | | | | | | | | | | |? vs F]; subst. exists vs. split; [reflexivity|].
  clear M. revert vs F. induction l as [|x l IH]; intros vs F; inversion F as [|? ? ? ? [K1 K2] F']; subst; constructor; auto.
  cbn [snd] in K2. inversion K2; subst. eauto.
Qed.

(** ICC profile streams: the number of components is 1, 3 or 4 or the call panics ... *)
Theorem C40_icc_components : forall calls,
  all_some icc_entry calls <> None <->
  Forall (fun c => match c with
                   | IccN n => n = 1 \/ n = 3 \/ n = 4
                   | IccAlternate c => cs_allowed c
                   | _ => True
                   end) calls.
Proof.
  intro calls. rewrite (all_some_iff icc_entry icc_allowed); [apply all_of_forall|].
  apply Forall_forall. intros c _. apply icc_none.
Qed.

(** ... and the stream reads back with the profile as data and one entry per call. *)
Theorem C40_icc_profile_reads_back : forall id calls es data c c',
  forallb icc_ok calls = true -> all_some icc_entry calls = Some es ->
  chunk_stream id es data c = Some c' ->
  exists s vs, chunk_bytes c' = chunk_bytes c ++ s /\ Forall2 icc_reads calls vs /\
    forall rest, exists ws, forallb is_ws ws = true /\
      parse_indirect (s ++ rest) =
        Some (IStream id 0 ((lit "Length", VInt (blen data)) :: vs) data, ws ++ rest).
Proof.
  intros id calls es data c c' K H S. apply all_some_forall2 in H.
  assert (F : fine (ODict es) = true).
  { rewrite fine_dict. fold fine_e. eapply fine_e_forall2; [|exact K|exact H].
    apply Forall_forall. intros x _ o. apply icc_fine. }
  unfold fine in F. apply andb_true_iff in F as [F1 F2].
  assert (R : entries_readable es = true).
  { unfold entries_readable. rewrite F1, (C11_nonempty_names_suffice _ F2). reflexivity. }
  destruct (C15_stream_reads_back id es data c c' S R) as (s & vs & E1 & M & E2).
  exists s, vs. split; [exact E1|]. split; [|exact E2].
  inversion M as [| | | | | | | | | | | |? ? G]; subst.
  eapply forall2_compose; [|exact H|exact G]. apply Forall_forall. intros x _ e y. apply icc_reads_entry.
Qed.

(** The predefined RGB spaces are valid arguments whose white is the white point. *)
Theorem C40_predefined_spaces :
  Forall (fun c => cs_ok c = true /\ white_is_white c = true)
    [cs_srgb; cs_adobe_rgb; cs_display_p3; cs_pro_photo; cs_eci_rgb; cs_ntsc; cs_pal] /\
  cs_ok cs_d65_gray = true /\ cs_ok cs_c_gray = true /\
  (forall g, real_ok g = true -> cs_ok (cs_d50_gray (Some g)) = true /\ cs_ok (cs_e_gray (Some g)) = true).
Proof.
  split; [repeat (apply Forall_cons; [vm_compute; split; reflexivity|]); apply Forall_nil|].
  split; [vm_compute; reflexivity|]. split; [vm_compute; reflexivity|].
  intros g Hg. cbn [cs_d50_gray cs_e_gray cs_ok opt_ok]. rewrite Hg. split; vm_compute; reflexivity.
Qed.

(** The text of a predefined space, in either style. *)
Definition cs_text (pretty : bool) (c : cs) : option bytes :=
  option_map (fun o => inner (write_obj o (obj_direct 0 pretty false) buf_new)) (cs_obj c).
Definition reads_as {A} (read : val -> option A) (c : cs) (a : A) : Prop :=
  forall pretty, exists s v, cs_text pretty c = Some s /\ parse_object s = Some v /\ read v = Some a.
(** The numbers arrive digit for digit. *)
Theorem C40_predefined_numbers :
  Forall (fun x => reads_as read_cal_rgb (fst x) (snd x))
    [(cs_srgb, srgb_numbers); (cs_adobe_rgb, adobe_rgb_numbers); (cs_display_p3, display_p3_numbers); (cs_pro_photo, pro_photo_numbers);
     (cs_eci_rgb, eci_rgb_numbers); (cs_ntsc, ntsc_numbers); (cs_pal, pal_numbers)] /\
  reads_as read_cal_gray cs_d65_gray (d65, [22000000]) /\ reads_as read_cal_gray cs_c_gray (illuminant_c, [22000000]) /\
  reads_as read_cal_gray (cs_d50_gray (Some (f32_of_bits 1072064102))) (d50, [18000000]) /\
  reads_as read_cal_gray (cs_e_gray (Some (f32_of_bits 1072064102))) (illuminant_e, [18000000]).
Proof.
  assert (T : forall A (read : val -> option A) c a,
    (forall pretty, match cs_text pretty c with Some s => match parse_object s with Some v => read v | None => None end | None => None end = Some a) ->
    reads_as read c a).
  { intros A read c a H pretty. specialize (H pretty). destruct (cs_text pretty c) as [s|]; [|discriminate].
    destruct (parse_object s) as [v|] eqn:P; [|discriminate]. exists s, v. split; [reflexivity|]. split; [exact P|exact H]. }
  split; [repeat (apply Forall_cons; [apply T; intros []; vm_compute; reflexivity|]); apply Forall_nil|].
  repeat (split; [apply T; intros []; vm_compute; reflexivity|]). apply T; intros []; vm_compute; reflexivity.
Qed.
(** White is off by less than 4/10000 per coordinate in all of them but one: the luminance of red in Display P3 is 0.2297, which
    should be 0.2290 (then white would be exact to 10^-4); and green in sRGB has 0.715 in place of 0.7152. *)
Theorem C40_white_errors :
  map white_error [srgb_numbers; adobe_rgb_numbers; display_p3_numbers; pro_photo_numbers; eci_rgb_numbers; ntsc_numbers; pal_numbers] =
  [Some (0, 2000, 2000); Some (400, 100, 2600); Some (400, 7300, 2500); Some (200, 0, 3200); Some (201, 1, 3200); Some (400, 1, 1200); Some (300, 1, 301)].
Proof. vm_compute. reflexivity. Qed.

Example C40_case :
  let c := CsDeviceN [lit "Gold"; lit "Varnish"]
    [AlternateSpace cs_srgb; TintExponential [ExDomain [f32_zero; FFin false 8388608 (-23)]; ExN (FFin false 8388608 (-23))];
     Attrs [AtSubtype true; AtProcess [PrColorSpaceArray (CsIccBased 9); PrComponents [lit "Cyan"]];
            AtMixingHints [MixSolidities [(lit "Gold", FFin false 8388608 (-23))]]]] in
  cs_ok c = true /\
  option_map (fun o => inner (write_obj o (obj_direct 0 false false) buf_new)) (cs_obj c) =
  Some (lit "[/DeviceN[/Gold/Varnish][/CalRGB<</WhitePoint[0.9505 1 1.0888]/Gamma[2.2 2.2 2.2]/Matrix[0.4124 0.2126 0.0193 0.3576 0.715 0.1192 0.1805 0.0722 0.9505]>>]<</FunctionType 2/Domain[0 1]/N 1>><</Subtype/NChannel/Process<</ColorSpace[/ICCBased 9 0 R]/Components[/Cyan]>>/MixingHints<</Solidities<</Gold 1>>>>>>]").
Proof. vm_compute. split; reflexivity. Qed.

Print Assumptions C40_color_space_reads_back.
Print Assumptions C40_separation_order.
Print Assumptions C40_device_n_order.
Print Assumptions C40_color_space_panics.
Print Assumptions C40_device_n_shape.
Print Assumptions C40_separation_shape.
Print Assumptions C40_second_tint_refuted.
Print Assumptions C40_colorants_refuted.
Print Assumptions C40_icc_components.
Print Assumptions C40_icc_profile_reads_back.
Print Assumptions C40_predefined_spaces.
Print Assumptions C40_predefined_numbers.
Print Assumptions C40_white_errors.
