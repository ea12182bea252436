(** Property theorems C08-C14: the package format. *)
From Coq Require Import Lia ZifyBool ZifyNat ZifyN.
From Verif Require Import Base Codec SpecCodec Package PackageProofs SpecPackage PackageRT
  PackageFacts.

(** A small package used in the examples: an index, a manifest, a cell, two
    revisions, an object group and a blob; the two cells share an identifier. *)
Definition ex_id (n : N) : exguid := ExGuid 0x84DEFAB9AAA34A0DA3A8520C77AC7073 n.
Definition ex_serial : serial := Serial 0x1A5A319CC26B41AAB9C59BD8C44E07D4 7.
Definition ex_els : list elem :=
  [ Elem (ex_id 1) ex_serial (ElIndex
      [IxManifest (ex_id 2) ex_serial; IxCell (ex_id 3, ex_id 4) (ex_id 5) ex_serial;
       IxRevision (ex_id 6) (ex_id 7) (Serial 0 0)]);
    Elem (ex_id 2) ex_serial (ElManifest 0x1F937CB4B26F445FB9F817E20160E461
      [(ex_id 8, (ex_id 3, ex_id 4)); (ex_id 9, (ExGuid 0 0, ex_id 4))]);
    Elem (ex_id 5) ex_serial (ElCell (ex_id 6));
    Elem (ex_id 5) ex_serial (ElCell (ex_id 60));
    Elem (ex_id 7) ex_serial (ElRevision (ex_id 6) (ExGuid 0 0) [RvRoot (ex_id 10) (ex_id 11); RvGroup (ex_id 12)]);
    Elem (ex_id 12) ex_serial (ElGroup
      [DeclObject (ex_id 11) 1 3 0 0; DeclBlob (ex_id 13) (ex_id 14) 2 0 0]
      [DataObject [ex_id 13] [(ex_id 3, ex_id 4)] [1; 2; 3]; DataExcluded [] [] 0;
       DataBlobRef [ex_id 13] [] (ex_id 14)]);
    Elem (ex_id 14) ex_serial (ElBlob [9; 8; 7; 6]) ].

(** C08: every parser of the package format is self-delimiting. *)
Theorem C08_self_delimiting :
  self_delimiting packaging_parse /\ self_delimiting package_parse /\
  self_delimiting storage_index_parse /\ self_delimiting storage_manifest_parse /\
  self_delimiting cell_manifest_parse /\ self_delimiting revision_manifest_parse /\
  self_delimiting object_group_parse /\ self_delimiting fragment_parse /\
  self_delimiting blob_parse /\ (forall p, self_delimiting (element_parse p)).
Proof.
  exact (conj (good_self_delimiting _ _ good_packaging) (conj (good_self_delimiting _ _ good_package)
    (conj (good_self_delimiting _ _ good_storage_index) (conj (good_self_delimiting _ _ good_storage_manifest)
    (conj (good_self_delimiting _ _ good_cell_manifest) (conj (good_self_delimiting _ _ good_revision_manifest)
    (conj (good_self_delimiting _ _ good_object_group) (conj (good_self_delimiting _ _ good_fragment)
    (conj (good_self_delimiting _ _ good_blob)
      (fun p => good_self_delimiting _ _ (good_element p))))))))))).
Qed.
Print Assumptions C08_self_delimiting.

(** C09: cutting a parsable file at any point before the end of what the parser
    consumes is reported as [UnexpectedEof]. *)
Theorem C09_truncation_reported :
  truncation_reported packaging_parse /\ truncation_reported package_parse /\
  truncation_reported storage_index_parse /\ truncation_reported storage_manifest_parse /\
  truncation_reported cell_manifest_parse /\ truncation_reported revision_manifest_parse /\
  truncation_reported object_group_parse /\ truncation_reported fragment_parse /\
  truncation_reported blob_parse /\ (forall p, truncation_reported (element_parse p)).
Proof.
  exact (conj (good_truncation _ _ good_packaging) (conj (good_truncation _ _ good_package)
    (conj (good_truncation _ _ good_storage_index) (conj (good_truncation _ _ good_storage_manifest)
    (conj (good_truncation _ _ good_cell_manifest) (conj (good_truncation _ _ good_revision_manifest)
    (conj (good_truncation _ _ good_object_group) (conj (good_truncation _ _ good_fragment)
    (conj (good_truncation _ _ good_blob)
      (fun p => good_truncation _ _ (good_element p))))))))))).
Qed.
Print Assumptions C09_truncation_reported.

(** C10: no panic and termination for every byte string. *)
Theorem C10_package_total : total_parser packaging_parse.
Proof. exact (good_total _ _ good_packaging). Qed.
Print Assumptions C10_package_total.

(** C11: everything in the parsed package is paid for by input bytes. *)
Theorem C11_output_bounded : forall bs pg rest,
  packaging_parse bs = Ok (pg, rest) ->
  (package_size (pg_package pg) + length rest <= length bs)%nat.
Proof. exact sized_packaging. Qed.
Print Assumptions C11_output_bounded.

(** C12: a serialised package is read back, whatever follows it. *)
Theorem C12_package_roundtrip : forall els e t,
  l_package els e ->
  exists pk, package_parse (e ++ t) = Ok (pk, t) /\ package_means els pk.
Proof. exact package_roundtrip. Qed.
Print Assumptions C12_package_roundtrip.

(** C12: in a file of the package-store layout (or of the revision-store format
    with a legacy version). *)
Theorem C12_plain_file_roundtrip : forall ft f lv ff index schema els e t,
  (ff = 0x638DE92FA6D44BC19A36B3FC2511A5B7 \/
   (ff = 0x109ADD3F911B49F5A5D01791EDC8AED8 /\ lv <> 0)) ->
  l_plain ft f lv ff index schema els e ->
  exists pk, packaging_parse (e ++ t) = Ok (Packaging ft f lv ff index schema pk, t) /\
    package_means els pk.
Proof. exact plain_roundtrip. Qed.
Print Assumptions C12_plain_file_roundtrip.

(** C12: in a file with a revision-store header. *)
Theorem C12_header_file_roundtrip : forall h1 h2 stp cb ft f lv ff index schema els e t,
  l_with_header h1 h2 stp cb ft f lv ff index schema els e ->
  exists pk, packaging_parse (e ++ t) = Ok (Packaging ft f lv ff index schema pk, t) /\
    package_means els pk.
Proof. exact with_header_roundtrip. Qed.
Print Assumptions C12_header_file_roundtrip.

(** The example package has an encoding, is read back from a file of either
    layout (so the hypotheses of C08, C09, C11, C12 are met), and the second of
    the two elements with identifier 5 wins. *)
Example C12_example_plain : exists e,
  l_plain 0x7B5C52E4D88C4DA7AEB15378D02996D3 1 2 0x638DE92FA6D44BC19A36B3FC2511A5B7
    (ex_id 1) 0x1F937CB4B26F445FB9F817E20160E461 ex_els e /\
  exists pk, packaging_parse (e ++ [1; 2; 3]) =
    Ok (Packaging 0x7B5C52E4D88C4DA7AEB15378D02996D3 1 2 0x638DE92FA6D44BC19A36B3FC2511A5B7
      (ex_id 1) 0x1F937CB4B26F445FB9F817E20160E461 pk, [1; 2; 3]) /\
    alookup exguid_eqb (ex_id 5) (pk_cells pk) = Some (ex_id 60) /\
    alookup exguid_eqb (ex_id 14) (pk_blobs pk) = Some [9; 8; 7; 6].
Proof.
  eexists. split; [unfold ex_els, ex_id, ex_serial; encode|].
  eexists. vm_compute. split; [reflexivity|split; reflexivity].
Qed.

Example C12_example_header : exists e,
  l_with_header 3 4 100 100 5 6 7 8 (ex_id 1) 0x1F937CB4B26F445FB9F817E20160E461 ex_els e.
Proof.
  eexists. split; [split; [discriminate|reflexivity]|].
  unfold ex_els, ex_id, ex_serial.
  eapply cat_intro; [encode|]. eapply cat_intro.
  { unfold l_file_header. do 4 (eapply cat_intro; [encode|]).
    eapply cat_intro; [apply (repeat_length 0 80)|encode]. }
  eapply cat_intro; [apply (repeat_length 0)|encode].
Qed.

(** C13: an object group whose declarations are followed by a metadata block is
    rejected whatever the rest of the input is; in particular every well-formed one. *)
Theorem C13_metadata_block_rejected : forall decls e1 e2 t,
  bytes_ok (e1 ++ e2 ++ t) -> l_decls decls e1 -> h_any ObjectGroupMetadataBlock e2 ->
  forall g rest, object_group_parse (e1 ++ e2 ++ t) <> Ok (g, rest).
Proof. exact metadata_block_rejected. Qed.
Print Assumptions C13_metadata_block_rejected.

Theorem C13_wellformed_metadata_rejected : forall decls meta data e t,
  bytes_ok (e ++ t) -> l_group_with_metadata decls meta data e ->
  forall g rest, object_group_parse (e ++ t) <> Ok (g, rest).
Proof. exact metadata_group_rejected. Qed.
Print Assumptions C13_wellformed_metadata_rejected.

(** C13: no accepted package holds a group with metadata. *)
Theorem C13_no_metadata_in_package : forall bs pk rest,
  bytes_ok bs -> package_parse bs = Ok (pk, rest) ->
  forall id g, In (id, g) (pk_groups pk) -> og_metadata g = [].
Proof. exact package_no_metadata. Qed.
Print Assumptions C13_no_metadata_in_package.

(** C13: refutation of "a group with a metadata block loads", with a concrete group. *)
Theorem C13_metadata_loads_refuted : exists decls meta data e,
  bytes_ok e /\ l_group_with_metadata decls meta data e /\
  forall t g rest, bytes_ok t -> object_group_parse (e ++ t) <> Ok (g, rest).
Proof. exact metadata_loads_refuted. Qed.
Print Assumptions C13_metadata_loads_refuted.

(** C14: every package holding, after any elements, a well-formed fragment element
    is rejected. *)
Theorem C14_fragment_rejected : forall els id s f e0 e1 e2 e3 t,
  h16 DataElementPackage e0 -> e1 = [0] -> many l_elem els e2 -> l_fragment_elem id s f e3 ->
  exists k, package_parse (e0 ++ e1 ++ e2 ++ e3 ++ t) = Err k.
Proof. exact fragment_rejected. Qed.
Print Assumptions C14_fragment_rejected.

(** C14: the fragment structure itself is read correctly; only its end marker is
    not consumed. *)
Theorem C14_fragment_body_roundtrip : forall f e t,
  l_fragment f e -> fragment_parse (e ++ t) = Ok (f, t).
Proof. exact reads_fragment. Qed.
Print Assumptions C14_fragment_body_roundtrip.

Example C14_example : exists e0 e1 e2 e3,
  h16 DataElementPackage e0 /\ e1 = [0] /\ many l_elem ex_els e2 /\
  l_fragment_elem (ex_id 20) ex_serial (Fragment (ex_id 21) 2 0 2 [1; 2]) e3 /\
  package_parse (e0 ++ e1 ++ e2 ++ e3 ++ [0x55]) = Err MalformedFssHttpBData.
Proof.
  unfold ex_els, ex_id, ex_serial.
  do 4 eexists. split; [encode|split; [reflexivity|split; [encode|split; [encode|]]]].
  vm_compute. reflexivity.
Qed.
