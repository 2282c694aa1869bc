
(** ** Typed constructors *)

Lemma icc_ren_dict g cs : icc_dict (map (ren_stream g (Stream_ren_call g) (ren_icc g)) cs) = option_map (map_entries g) (icc_dict cs).
Proof.
  apply ren_stream_writer; [reflexivity|apply Stream_ren_entries|]. intro c. rewrite ren_icc_entry. destruct (icc_entry c); reflexivity.
Qed.
Lemma destinations_ren g calls : dict_of Destination_obj (ren_dict (Destination_ren g) calls) = map_refs g (dict_of Destination_obj calls).
Proof. apply ren_dict_of. apply Destination_ren_obj. Qed.
(** The renamed call writes the renamed object; it panics if and only if the call does. *)
Lemma chunk_call_ren_body g c : chunk_call_body (chunk_call_ren g c) = option_map (map_body g) (chunk_call_body c).
Proof.
  destruct c; cbn [chunk_call_body chunk_call_ren].
  all: try (rewrite ?ren_name_tree_obj, ?ren_number_tree_obj, ?destinations_ren, ?ren_fd_obj; autorewrite with ren; reflexivity).
  all: try (autorewrite with ren; match goal with |- option_map _ (option_map _ ?x) = _ => destruct x; reflexivity end).
  all: match goal with |- option_map _ ?x = option_map _ (option_map _ ?y) => replace x with (option_map (map_entries g) y);
    [destruct y; reflexivity|symmetry; first [apply icc_ren_dict|apply Stream_ren_dict|apply EmbeddedFile_ren_dict|apply Metadata_ren_dict|apply ImageXObject_ren_dict
     |apply FormXObject_ren_dict|apply Cmap_ren_dict|apply StreamShading_ren_dict|apply TilingPattern_ren_dict|apply SampledFunction_ren_dict|apply PostScriptFunction_ren_dict]] end.
Qed.
Lemma chunk_call_ren_ok g c : keeps g -> chunk_call_ok c = true -> chunk_call_ok (chunk_call_ren g c) = true.
Proof.
  intro G. destruct c; cbn [chunk_call_ok chunk_call_ren]; try solve [auto with renok].
  - apply map_ok. apply ren_fd_ok. exact G.
  - apply ren_streams_ok; [exact G|intro; apply Stream_ren_call_ok; exact G|apply ren_icc_ok; exact G].
Qed.
