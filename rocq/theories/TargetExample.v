(** Files that are read differently on a 32-bit target. *)
From Coq Require Import Lia.
From Verif Require Import Base Codec SpecCodec Package SpecPackage PropSet SpecPropSet PropIds Store Shapes Props Nodes Doc Notebook
  SpecStore ExampleFile ExampleSection PropertiesStore Target TargetDoc SpecTarget TargetProofs3.

(** A page with an embedded file. *)
Definition small_page : list ex_object :=
  [page_meta_object; manifest_object; page_obj [] [223]; file_obj 223 224 [102]; file_container_obj 224].
Definition small_file : list N := section_file (Some [78]) small_page [(224, 70)] [(70, [77; 78; 79])].
(** The fifth byte of the length of the embedded file: [2 ^ 32 + 3] bytes. *)
Definition long_file : list N := firstn 3140 small_file ++ 1 :: skipn 3141 small_file.

(** The section announces [2 ^ 32] references before those to its pages. *)
Definition heavy_section : ex_object :=
  obj 101 0x60007 [(0x1C30, SVec (guid_enc 11)); (0x1C21, ids (2 ^ 32 - 1)); (0x1C22, ids 1); (0x1C20, ids 1); (0x1C65, SU64 5)] [103].
Definition heavy_file : list N :=
  ex_file 0x1F937CB4B26F445FB9F817E20160E461
    [IxCell root_cell (xid 30) (xser 30); IxCell page_cell (xid 40) (xser 40)]
    [ xel 30 (ElCell (xid 31));
      xel 31 (ElRevision (xid 31) (ExGuid 0 0)
        [RvRoot (role_id DefaultContent) (xid 101); RvRoot (role_id MetadataRole) (xid 102); RvGroup (xid 32)]);
      xel 32 (ex_group (heavy_section :: tl (section_objects (Some [78]))));
      xel 40 (ElCell (xid 41));
      xel 41 (ElRevision (xid 41) (ExGuid 0 0)
        [RvRoot (role_id DefaultContent) (xid 202); RvRoot (role_id MetadataRole) (xid 201); RvGroup (xid 42)]);
      xel 42 (group_with small_page [(224, 70)]);
      xel 70 (ElBlob [77; 78; 79]) ].

Definition small_section : section :=
  Section_ [78] [[Page None 2 (Some [65; 110; 110]) None [PcEmbeddedFile (EmbeddedFile [102] FtUnknown [77; 78; 79] None None None None [])]]]
    (Some (Color 255 1 2 3)).

Lemma long_64 : parse_section_buffer order_id 4 long_file [65] = Err UnexpectedEof.
Proof. vm_compute. reflexivity. Qed.
Lemma long_32 : parse_section_buffer_on release_32 order_id 4 long_file [65] = Ok small_section.
Proof. vm_compute. reflexivity. Qed.
Lemma heavy_release : parse_section_buffer_on release_32 order_id 4 heavy_file [65] = Ok small_section.
Proof. vm_compute. reflexivity. Qed.
Lemma heavy_debug : parse_section_buffer_on debug_32 order_id 4 heavy_file [65] = Panic.
Proof. vm_compute. reflexivity. Qed.

Lemma objects_far id o n off : get_prop to_object_ids id o = Ok (Some n) -> object_offset id o = Ok off ->
  (length (op_object_ids (ob_props o)) <=? N.to_nat off)%nat = true -> prop_objects id o = Ok (Some []).
Proof.
  intros H1 H2 H3. unfold prop_objects. rewrite H1. cbn [rbind]. rewrite H2. cbn [rbind]. unfold skip. rewrite skipn_all2 by now apply PeanoNat.Nat.leb_le.
  unfold take. now rewrite firstn_nil.
Qed.
Lemma heavy_64 : parse_section_buffer order_id 4 heavy_file [65] = Ok (Section_ [78] [] (Some (Color 255 1 2 3))).
Proof.
  assert (E : exists st o, open_store order_id 4 heavy_file = Ok st /\ (st_schema st =? section_schema) = true /\
    section_metadata (st_data_root st) = Ok (SectionMetaData 1 2 (Some [78]) (Some (Color 255 1 2 3))) /\
    content_root (st_data_root st) = Some (xid 101) /\
    get_object (st_data_root st) (xid 101) = Some o /\ assert_kind K_SectionNode o = Ok tt /\ prop_guid P_NotebookManagementEntityGuid o = Ok (Some 11) /\
    get_prop to_object_ids P_ElementChildNodes o = Ok (Some 1) /\ object_offset P_ElementChildNodes o = Ok (2 ^ 32) /\ length (op_object_ids (ob_props o)) = 1%nat /\
    timestamp_parse P_TopologyCreationTimeStamp o = Ok (Some 5)).
  { eexists. eexists. do 10 (split; [vm_compute; reflexivity|]). vm_compute. reflexivity. }
  destruct E as (st & o & O & E1 & E2 & E3 & E4 & E5 & E6 & E7 & E8 & E9 & E10). unfold parse_section_buffer. rewrite O. cbn [rbind].
  unfold parse_section, section_content. rewrite E1, E2. cbn [rbind]. rewrite E3. cbn [ok_or rbind]. unfold need_object. rewrite E4. cbn [ok_or rbind].
  unfold section_node_parse. rewrite E5. cbn [rbind]. rewrite E6. cbn [rbind req]. unfold refs_of. rewrite (objects_far _ _ _ _ E7 E8); [|rewrite E9; apply PeanoNat.Nat.leb_le; lia].
  cbn [rbind]. rewrite E10. reflexivity.
Qed.
Lemma bytes_checked d : forallb (fun b => b <? 256) d = true -> bytes_ok d.
Proof. intros H. unfold bytes_ok. rewrite Forall_forall. intros b I. apply N.ltb_lt. exact (proj1 (forallb_forall _ d) H b I). Qed.
Lemma rich_plain : plain_on release_32 order_id 3 rich_file /\ plain_on debug_32 order_id 3 rich_file /\
  (exists st o, open_store order_id 3 rich_file = Ok st /\ get_object (st_data_root st) (xid 101) = Some o /\ announced o = 1).
Proof.
  assert (E : exists st o, open_store order_id 3 rich_file = Ok st /\ get_object (st_data_root st) (xid 101) = Some o /\ announced o = 1 /\ announces_check (2 ^ 32) st = true)
    by (eexists; eexists; do 3 (split; [vm_compute; reflexivity|]); vm_compute; reflexivity).
  destruct E as (st & o & O & G & A & C). assert (P : forall b, plain_on (Target (2 ^ 32) b) order_id 3 rich_file).
  { intro b. split; [|split]. - vm_compute. reflexivity. - rewrite O. discriminate. - intros st'. rewrite O. intro Q. injection Q as <-. exact (announces_checked _ _ C). }
  split; [exact (P false)|]. split; [exact (P true)|]. exists st, o. auto.
Qed.
Lemma heavy_example : bytes_ok heavy_file /\ N.of_nat (length heavy_file) < 2 ^ 32 /\
  parse_section_buffer order_id 4 heavy_file [65] = Ok (Section_ [78] [] (Some (Color 255 1 2 3))).
Proof. split; [apply bytes_checked; vm_compute; reflexivity|]. split; [vm_compute; reflexivity|]. exact heavy_64. Qed.
Lemma truncated_read : exists h fuel d file s, bytes_ok d /\ (length d < 5000)%nat /\
  parse_section_buffer h fuel d file = Err UnexpectedEof /\ parse_section_buffer_on release_32 h fuel d file = Ok s /\
  parse_section_buffer_on debug_32 h fuel d file = Ok s.
Proof.
  exists order_id, 4%nat, long_file, [65], small_section. split; [apply bytes_checked; vm_compute; reflexivity|]. split; [apply PeanoNat.Nat.ltb_lt; vm_compute; reflexivity|].
  split; [exact long_64|]. split; [exact long_32|]. vm_compute. reflexivity.
Qed.
Lemma counts_overflow : exists h fuel d file s s', bytes_ok d /\ (length d < 5000)%nat /\
  parse_section_buffer h fuel d file = Ok s /\ parse_section_buffer_on release_32 h fuel d file = Ok s' /\ s <> s' /\
  parse_section_buffer_on debug_32 h fuel d file = Panic.
Proof.
  exists order_id, 4%nat, heavy_file, [65], (Section_ [78] [] (Some (Color 255 1 2 3))), small_section. split; [apply bytes_checked; vm_compute; reflexivity|].
  split; [apply PeanoNat.Nat.ltb_lt; vm_compute; reflexivity|]. split; [exact heavy_64|]. split; [exact heavy_release|]. split; [discriminate|exact heavy_debug].
Qed.
Lemma heavy_checked : overflow_checks debug_32 = true /\ 2 ^ 32 <= usize_count debug_32 /\
  bytes_ok heavy_file /\ N.of_nat (length heavy_file) < usize_count debug_32 /\ open_store order_id 4 heavy_file <> Err UnexpectedEof /\
  parse_section_buffer_on debug_32 order_id 4 heavy_file [65] = Panic.
Proof.
  split; [reflexivity|]. split; [apply N.le_refl|]. destruct heavy_example as (B & L & E). split; [exact B|]. split; [exact L|]. split; [|exact heavy_debug].
  intro O. revert E. unfold parse_section_buffer. rewrite O. discriminate.
Qed.
