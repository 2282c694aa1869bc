(** Property C38: ToUnicode character maps. *)

From Coq Require Import ZArith List Lia Bool ZifyBool ZifyNat.
From Verif Require Import Bytes ModelFloat ModelBuf ModelObject ModelCmap SpecLex SpecText SpecCmap ProofText ProofCmap ProofCmap2.
Import ListNotations.
Local Open Scope Z_scope.

(** Glyph identifiers are one or two bytes, codepoints are Unicode scalar values, and neither the name of
    the map nor the names of the character collection contain a line break (they are copied into comments). *)
Definition code_width (g : glyph_type) : nat := match g with GU8 => 1 | GU16 => 2 end.
Definition mapping_ok (g : glyph_type) (p : Z * list Z) : Prop :=
  0 <= fst p < 256 ^ Z.of_nat (code_width g) /\ forallb is_scalar (snd p) = true.
Definition names_ok (name : bytes) (info : system_info) : bool :=
  one_line name && one_line (si_registry info) && one_line (si_ordering info).

Lemma names_split name info : names_ok name info = true -> one_line name = true /\ info_line info = true.
Proof. unfold names_ok, info_line. rewrite !andb_true_iff. tauto. Qed.

(** Any number of mappings: a reader finds them all, in order, with codes of the width of the glyph type,
    in sections that announce their size, none of them empty or above one hundred entries. *)
Theorem C38_mappings : forall g name info mode pairs,
  names_ok name info = true -> Forall (mapping_ok g) pairs ->
  exists secs, cmap_sections (inner (cmap_build g name info mode pairs)) = Some secs /\
    Forall (fun s => fst s = Z.of_nat (List.length (snd s)) /\ 1 <= fst s <= 100) secs /\
    concat (map snd secs) = map (fun p => (code_width g, fst p, snd p)) pairs.
Proof.
  intros g name info mode pairs Hn Hp. apply names_split in Hn. destruct Hn as [Hn Hi].
  apply cmap_sections_read; [assumption|assumption|].
  eapply Forall_impl; [|exact Hp]. intros p [H1 H2]. split; [|exact H2]. destruct g; cbn in *; lia.
Qed.

(** The entries of the header are what was passed in. *)
Theorem C38_header : forall g name info mode pairs, names_ok name info = true ->
  let s := inner (cmap_build g name info mode pairs) in
  cmap_definition (lit "CMapName") s = Some (TName name) /\
  cmap_definition (lit "Registry") s = Some (TStr (si_registry info)) /\
  cmap_definition (lit "Ordering") s = Some (TStr (si_ordering info)) /\
  cmap_definition (lit "Supplement") s = Some (TInt (si_supplement info)) /\
  cmap_definition (lit "WMode") s = Some (TInt (match mode with WHorizontal => 0 | WVertical => 1 end)).
Proof. intros g name info mode pairs Hn. apply names_split in Hn. destruct Hn. apply cmap_defined; assumption. Qed.

(** There is one code space, and it holds exactly the codes of the width of the glyph type. *)
Theorem C38_code_space : forall g name info mode pairs, names_ok name info = true ->
  exists lo hi, cmap_code_spaces (inner (cmap_build g name info mode pairs)) = Some [(lo, hi)] /\
    List.length lo = code_width g /\ List.length hi = code_width g /\
    code_val lo = 0 /\ code_val hi = 256 ^ Z.of_nat (code_width g) - 1.
Proof.
  intros g name info mode pairs Hn. apply names_split in Hn. destruct Hn as [Hn Hi].
  do 2 eexists. split; [apply cmap_spaces; assumption|]. destruct g; repeat split.
Qed.

(** Without the hypothesis on the names the claim fails: the name of the map is copied into a comment, and a
    line break in it ends the comment.  This map is built without any mapping, and a reader finds two. *)
Definition evil_name : bytes := lit "x" ++ x0a :: lit "1 beginbfchar <0041> <0058> endbfchar %".
Definition plain_info : system_info := mkSystemInfo (lit "Adobe") (lit "UCS") 0.
Theorem C38_injection_refuted : exists name,
  cmap_sections (inner (cmap_build GU16 name plain_info WHorizontal [])) =
  Some [(1, [(2%nat, 65, [88])]); (1, [(2%nat, 65, [88])])].
Proof. exists evil_name. vm_compute. reflexivity. Qed.

(** ** Concrete cases *)
Definition demo_pairs : list (Z * list Z) := map (fun n => (Z.of_nat n, [Z.of_nat n + 65; 128512])) (seq 0 201).
Example C38_ex_hyp : names_ok (lit "Custom") plain_info = true /\ Forall (mapping_ok GU16) demo_pairs.
Proof.
  split; [reflexivity|]. apply Forall_forall. intros p Hp. apply in_map_iff in Hp. destruct Hp as (n & <- & Hn).
  apply in_seq in Hn. split; cbn [fst snd code_width]; [cbn; lia|]. cbn [forallb]. unfold is_scalar. lia.
Qed.
Example C38_ex_sections :
  option_map (map fst) (cmap_sections (inner (cmap_build GU16 (lit "Custom") plain_info WHorizontal demo_pairs))) = Some [100; 100; 1].
Proof. vm_compute. reflexivity. Qed.
Example C38_ex_byte :
  cmap_sections (inner (cmap_build GU8 (lit "Custom") plain_info WVertical [(255, [102; 105]); (7, [])])) =
  Some [(2, [(1%nat, 255, [102; 105]); (1%nat, 7, [])])].
Proof. vm_compute. reflexivity. Qed.
