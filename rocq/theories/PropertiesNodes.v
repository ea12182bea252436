(** Property theorems for the objects of a page: which stored property each reported
    attribute is (C48), that reading them always comes back (C49), note tags (C23),
    list formats (C32), ink (C35), types (C36) and tables (C42). *)
From Coq Require Import Lia.
From Verif Require Import Base Codec Package SpecPackage PropSet PropIds Store SpecStore Shapes Props Nodes SpecCodec
  CodecProofs SpecPropSet SpecRefs RefsProofs SpecValues SpecNodes NodesProofs NodesProofs2 NodesProofs3 TagsProofs
  TypesProofs ColumnsProofs ExampleFile PropertiesPropSet PropertiesRefs.

(** An object for the examples: kind, references and properties in file order. *)
Definition ex_node (jcid : N) (refs : list exguid) (props : list (N * pvalue)) : object :=
  let cids := map (fun i => CompactId 1 (N.of_nat i)) (seq 0 (length refs)) in
  Object (xid 7) jcid
    (OProps cids [CompactId 9 0] []
       (map (fun p => (pid_id (fst (snd p)), (N.of_nat (fst p), snd (snd p))))
            (combine (seq 0 (length props)) props)))
    (Some [1; 2; 3])
    (mapping_from_entries (combine cids refs) [(CompactId 9 0, (xid 8, xid 9))]).
Definition ex_text : pvalue := VVec [72; 0; 105; 0].
Definition ex_guid_bytes : pvalue := VVec [1; 2; 3; 4; 5; 6; 7; 8; 9; 10; 11; 12; 13; 14; 15; 16].
Definition ex_tag : propset :=
  [(pid_id 0x20003488, (0, VObjectId)); (pid_id 0x1400346E, (1, VU32 100)); (pid_id 0x10003470, (2, VU16 1))].

(** ** C48
    Each parser succeeds exactly on the objects of the kind described in SpecNodes.v,
    and reports the attributes described there. *)
Theorem C48_section : forall o d, section_node_parse o = Ok d <-> section_node o d.
Proof. exact section_node_ok. Qed.
Print Assumptions C48_section.
Example C48_section_example : exists d,
  section_node_parse (ex_node 0x00060007 [xid 11; xid 12] [(0x1C001C30, ex_guid_bytes);
    (0x24001C20, VObjectIds 2); (0x18001C65, VU64 77)]) = Ok d /\
  sn_page_series d = [xid 11; xid 12] /\ sn_created_at d = 77 /\ sn_context_id d = xid 7.
Proof. eexists. split; [vm_compute; reflexivity|]. vm_compute. repeat split. Qed.

Theorem C48_section_metadata : forall o d, section_metadata_parse o = Ok d <-> section_meta o d.
Proof. exact section_meta_ok. Qed.
Print Assumptions C48_section_metadata.
Example C48_section_metadata_example : exists d,
  section_metadata_parse (ex_node 0x00020031 [] [(0x14001D82, VU32 1); (0x1400348B, VU32 2);
    (0x1C00349B, ex_text)]) = Ok d /\
  sm_schema_read d = 1 /\ sm_schema_write d = 2 /\ sm_display_name d = Some [72; 105] /\ sm_color
    d = None.
Proof. eexists. split; [vm_compute; reflexivity|]. vm_compute. repeat split. Qed.

Theorem C48_page_series : forall o d, page_series_node_parse o = Ok d <-> series_node o d.
Proof. exact series_ok. Qed.
Print Assumptions C48_page_series.
Example C48_page_series_example : exists d,
  page_series_node_parse (ex_node 0x00060008 [xid 11] [(0x1C001C30, ex_guid_bytes); (0x2C001D63,
    VObjectSpaceIds 1); (0x24003442, VObjectIds 1)]) = Ok d /\
  pn_page_spaces d = [(xid 8, xid 9)] /\ pn_page_metadata d = [xid 11] /\ pn_created_at d = None.
Proof. eexists. split; [vm_compute; reflexivity|]. vm_compute. repeat split. Qed.

Theorem C48_page : forall o d, page_node_parse o = Ok d <-> page_object o d.
Proof. exact page_ok. Qed.
Print Assumptions C48_page.
Example C48_page_example : exists d,
  page_node_parse (ex_node 0x0006000B [xid 11; xid 12; xid 13] [(0x24001C20, VObjectIds 1);
    (0x24001D5F, VObjectIds 2); (0x14001C01, VU32 5); (0x14001C02, VU32 6); (0x1C001D75,
    ex_text)]) = Ok d /\
  pd_content d = [xid 11] /\ pd_title d = Some (xid 12) /\ pd_page_width d = Some 5 /\
    pd_page_height d = Some 6 /\ pd_author d = Some [72; 105] /\ pd_page_size d = PsAuto.
Proof. eexists. split; [vm_compute; reflexivity|]. vm_compute. repeat split. Qed.

Theorem C48_page_metadata : forall o d, page_metadata_parse o = Ok d <-> page_meta o d.
Proof. exact page_meta_ok. Qed.
Print Assumptions C48_page_metadata.
Example C48_page_metadata_example : exists d,
  page_metadata_parse (ex_node 0x00020030 [] [(0x1C001C30, ex_guid_bytes); (0x1C001CF3, ex_text);
    (0x14001DFF, VU32 0xFFFFFFFF); (0x18001C65, VU64 4)]) = Ok d /\
  pm_cached_title d = [72; 105] /\ pm_page_level d = (-1)%Z /\ pm_created_at d = 4 /\
    pm_is_deleted d = false.
Proof. eexists. split; [vm_compute; reflexivity|]. vm_compute. repeat split. Qed.

Theorem C48_page_manifest : forall o d, page_manifest_parse o = Ok d <-> manifest_node o d.
Proof. exact manifest_ok. Qed.
Print Assumptions C48_page_manifest.
Example C48_page_manifest_example : exists d,
  page_manifest_parse (ex_node 0x00060037 [xid 11; xid 12] [(0x24001C1F, VObjectIds 2)]) = Ok d /\
  d = xid 11.
Proof. eexists. split; [vm_compute; reflexivity|]. vm_compute. repeat split. Qed.

Theorem C48_title : forall o d, title_node_parse o = Ok d <-> title_object o d.
Proof. exact title_ok. Qed.
Print Assumptions C48_title.
Example C48_title_example : exists d,
  title_node_parse (ex_node 0x0006002C [xid 11] [(0x14001D7A, VU32 1); (0x24001C20, VObjectIds 1);
    (0x14001C14, VU32 2); (0x14001C15, VU32 3)]) = Ok d /\
  tn_children d = [xid 11] /\ tn_offset_horizontal d = 2 /\ tn_offset_vertical d = 3.
Proof. eexists. split; [vm_compute; reflexivity|]. vm_compute. repeat split. Qed.

Theorem C48_embedded_file_container : forall o d, embedded_file_container_parse o = Ok d <-> file_container o d.
Proof. exact file_container_ok. Qed.
Print Assumptions C48_embedded_file_container.
Example C48_embedded_file_container_example : exists d,
  embedded_file_container_parse (ex_node 0x00080036 [] []) = Ok d /\
  d = [1; 2; 3].
Proof. eexists. split; [vm_compute; reflexivity|]. vm_compute. repeat split. Qed.

Theorem C48_embedded_file : forall o d, embedded_file_node_parse o = Ok d <-> file_node o d.
Proof. exact file_node_ok. Qed.
Print Assumptions C48_embedded_file.
Example C48_embedded_file_example : exists d,
  embedded_file_node_parse (ex_node 0x00060035 [xid 11; xid 12; xid 13] [(0x14001D7A, VU32 1);
    (0x20001C3F, VObjectId); (0x20001D9B, VObjectId); (0x1C001D9C, ex_text); (0x14001D24, VU32 2);
    (0x40003489, VPropertyValues 5 [ex_tag]); (0x140034CD, VU32 8)]) = Ok d /\
  ef_picture_container d = Some (xid 11) /\ ef_container d = xid 12 /\ ef_name d = [72; 105] /\
    ef_file_type d = FtVideo /\ map tg_definition (ef_note_tags d) = [Some (xid 13)] /\
    ef_picture_width d = Some 8 /\ ef_picture_height d = None.
Proof. eexists. split; [vm_compute; reflexivity|]. vm_compute. repeat split. Qed.

Theorem C48_picture_container : forall o d, picture_container_parse o = Ok d <-> picture_object o d.
Proof. exact picture_ok. Qed.
Print Assumptions C48_picture_container.
Example C48_picture_container_example : exists d,
  picture_container_parse (ex_node 0x0008003A [] [(0x24003424, ex_text)]) = Ok d /\
  pc_data d = [1; 2; 3] /\ pc_extension d = Some [72; 105].
Proof. eexists. split; [vm_compute; reflexivity|]. vm_compute. repeat split. Qed.

Theorem C48_iframe : forall o d, iframe_node_parse o = Ok d <-> iframe_object o d.
Proof. exact iframe_ok. Qed.
Print Assumptions C48_iframe.
Example C48_iframe_example : exists d,
  iframe_node_parse (ex_node 0x00060058 [] [(0x140035F2, VU32 3); (0x1C0035F3, ex_text)]) = Ok d /\
  if_embed_type d = Some 3 /\ if_source_url d = [72; 105].
Proof. eexists. split; [vm_compute; reflexivity|]. vm_compute. repeat split. Qed.

Theorem C48_image : forall o d, image_node_parse o = Ok d <-> image_object o d.
Proof. exact image_ok. Qed.
Print Assumptions C48_image.
Example C48_image_example : exists d,
  image_node_parse (ex_node 0x00060011 [xid 11; xid 12] [(0x20001C3F, VObjectId); (0x24001C1F,
    VObjectIds 1); (0x1C001E58, ex_text); (0x14001C1B, VU32 8); (0x08001D13, VBool true)]) = Ok d /\
  im_picture_container d = Some (xid 11) /\ im_iframe d = [xid 12] /\ im_alt_text d = Some [72;
    105] /\ im_layout_max_width d = Some 8 /\ im_layout_max_height d = None /\ im_is_background d
    = true.
Proof. eexists. split; [vm_compute; reflexivity|]. vm_compute. repeat split. Qed.

Theorem C48_embedded_ink : forall o d, embedded_ink_parse o = Ok d <-> embedded_ink_run o d.
Proof. exact embedded_ink_ok. Qed.
Print Assumptions C48_embedded_ink.
Example C48_embedded_ink_example : exists d,
  embedded_ink_parse (ex_node 0 [] [(0x140034A0, VU32 1); (0x140034A1, VU32 2)]) = Ok d /\
  ei_width d = Some 1 /\ ei_height d = Some 2 /\ ei_start_x d = None.
Proof. eexists. split; [vm_compute; reflexivity|]. vm_compute. repeat split. Qed.

Theorem C48_ink_container : forall o d, ink_container_parse o = Ok d <-> ink_container o d.
Proof. exact ink_container_ok. Qed.
Print Assumptions C48_ink_container.
Example C48_ink_container_example : exists d,
  ink_container_parse (ex_node 0x00060014 [xid 11] [(0x20003415, VObjectId); (0x14001C14, VU32 1);
    (0x14001C46, VU32 2)]) = Ok d /\
  ic_ink_data d = Some (xid 11) /\ ic_offset_horiz d = Some 1 /\ ic_scaling_x d = Some 2.
Proof. eexists. split; [vm_compute; reflexivity|]. vm_compute. repeat split. Qed.

Theorem C48_ink_data : forall o d, ink_data_node_parse o = Ok d <-> ink_node o d.
Proof. exact ink_node_ok. Qed.
Print Assumptions C48_ink_data.
Example C48_ink_data_example : exists d,
  ink_data_node_parse (ex_node 0x0002003B [xid 11; xid 12] [(0x24003416, VObjectIds 2);
    (0x1C003418, VVec [1; 0; 0; 0; 2; 0; 0; 0; 3; 0; 0; 0; 4; 1; 0; 0])]) = Ok d /\
  ik_strokes d = [xid 11; xid 12] /\ ik_bounding_box d = Some (1, 2, 3, 260).
Proof. eexists. split; [vm_compute; reflexivity|]. vm_compute. repeat split. Qed.

Theorem C48_ink_stroke : forall o d, ink_stroke_node_parse o = Ok d <-> stroke_node o d.
Proof. exact stroke_ok. Qed.
Print Assumptions C48_ink_stroke.
Example C48_ink_stroke_example : exists d,
  ink_stroke_node_parse (ex_node 0x00020047 [xid 11] [(0x1C00340B, VVec [6; 3; 4; 216; 4]);
    (0x0C00341C, VU8 1); (0x20003409, VObjectId)]) = Ok d /\
  ss_path d = [(-1)%Z; 2%Z; 300%Z] /\ ss_bias d = IbDrawing /\ ss_properties d = xid 11.
Proof. eexists. split; [vm_compute; reflexivity|]. vm_compute. repeat split. Qed.

Theorem C48_stroke_properties : forall o d, stroke_properties_parse o = Ok d <-> stroke_properties o d.
Proof. exact stroke_properties_ok. Qed.
Print Assumptions C48_stroke_properties.
Example C48_stroke_properties_example : exists d,
  stroke_properties_parse (ex_node 0x00120048 [] [(0x1400340D, VU32 1); (0x1400340C, VU32 2);
    (0x0C003412, VU8 3); (0x1400340F, VU32 4)]) = Ok d /\
  sp_pen_tip d = Some 3 /\ sp_color d = Some 4 /\ sp_dimensions d = [].
Proof. eexists. split; [vm_compute; reflexivity|]. vm_compute. repeat split. Qed.

Theorem C48_math : forall o d, math_data_parse o = Ok d <-> math_object_data o d.
Proof. exact math_ok. Qed.
Print Assumptions C48_math.
Example C48_math_example : exists d,
  math_data_parse (ex_node 0 [] [(0x1400344F, VU32 16); (0x14003450, VU32 2); (0x10003453, VU16
    43)]) = Ok d /\
  md_object_type d = Some 16 /\ md_arg_count d = Some 2 /\ md_char d = Some 43 /\ md_char1 d =
    None.
Proof. eexists. split; [vm_compute; reflexivity|]. vm_compute. repeat split. Qed.

Theorem C48_tag_definition : forall o d, tag_definition_parse o = Ok d <-> tag_definition_object o d.
Proof. exact tag_definition_ok. Qed.
Print Assumptions C48_tag_definition.
Example C48_tag_definition_example : exists d,
  tag_definition_parse (ex_node 0x00120043 [] [(0x1C003468, ex_text); (0x14003467, VU32 1);
    (0x10003464, VU16 13); (0x10003463, VU16 100)]) = Ok d /\
  td_label d = [72; 105] /\ ns_has_label (td_status d) = true /\ td_shape d = NTS_YellowStar /\
    td_action_item_type d = AtDueToday.
Proof. eexists. split; [vm_compute; reflexivity|]. vm_compute. repeat split. Qed.

Theorem C48_number_list : forall o d, number_list_parse o = Ok d <-> list_object o d.
Proof. exact list_ok. Qed.
Print Assumptions C48_number_list.
Example C48_number_list_example : exists d,
  number_list_parse (ex_node 0x00060012 [] [(0x14001D7A, VU32 1); (0x1C001C1A, VVec [3; 0; 253;
    255; 46; 0; 0; 216])]) = Ok d /\
  nl_list_format d = [0xFFFD; 46; 0xFFFD] /\ nl_bold d = false.
Proof. eexists. split; [vm_compute; reflexivity|]. vm_compute. repeat split. Qed.

Theorem C48_paragraph_style : forall o d, style_parse o = Ok d <-> style_object o d.
Proof. exact style_ok. Qed.
Print Assumptions C48_paragraph_style.
Example C48_paragraph_style_example : exists d,
  style_parse (ex_node 0x0012004D [] [(0x08001C04, VBool true); (0x10001C0B, VU16 24);
    (0x1C001C0A, ex_text); (0x0C003477, VU8 2)]) = Ok d /\
  sy_bold d = true /\ sy_italic d = false /\ sy_font_size d = Some 24 /\ sy_font d = Some [72;
    105] /\ sy_paragraph_alignment d = Some PaRight.
Proof. eexists. split; [vm_compute; reflexivity|]. vm_compute. repeat split. Qed.

Theorem C48_rich_text : forall o d, rich_text_node_parse o = Ok d <-> text_object o d.
Proof. exact text_ok. Qed.
Print Assumptions C48_rich_text.
Example C48_rich_text_example : exists d,
  rich_text_node_parse (ex_node 0x0006000E [xid 11; xid 12; xid 13] [(0x14001D7A, VU32 1);
    (0x24001E13, VObjectIds 2); (0x2000342C, VObjectId); (0x1C001E12, VVec [1; 0; 0; 0]);
    (0x1C003498, VVec [65; 233])]) = Ok d /\
  rt_run_formatting d = [xid 11; xid 12] /\ rt_paragraph_style d = xid 13 /\ rt_run_indices d =
    [1] /\ rt_text d = Some [65; 233].
Proof. eexists. split; [vm_compute; reflexivity|]. vm_compute. repeat split. Qed.

Theorem C48_outline_element : forall o d, outline_element_node_parse o = Ok d <-> element_object o d.
Proof. exact element_ok. Qed.
Print Assumptions C48_outline_element.
Example C48_outline_element_example : exists d,
  outline_element_node_parse (ex_node 0x0006000D [xid 11; xid 12; xid 13; xid 14; xid 15]
    [(0x14001D09, VU32 1); (0x14001D7A, VU32 2); (0x24001C20, VObjectIds 1); (0x0C001C03, VU8 3);
    (0x24001C1F, VObjectIds 1); (0x24001C26, VObjectIds 1); (0x20001D78, VObjectId); (0x20001D79,
    VObjectId)]) = Ok d /\
  oe_children d = [xid 11] /\ oe_contents d = [xid 12] /\ oe_list_contents d = [xid 13] /\
    oe_author_original d = xid 14 /\ oe_author_most_recent d = xid 15 /\ oe_child_level d = 3 /\
    oe_is_selectable d = false.
Proof. eexists. split; [vm_compute; reflexivity|]. vm_compute. repeat split. Qed.

Theorem C48_outline_group : forall o d, outline_group_node_parse o = Ok d <-> group_object o d.
Proof. exact group_ok. Qed.
Print Assumptions C48_outline_group.
Example C48_outline_group_example : exists d,
  outline_group_node_parse (ex_node 0x00060019 [xid 11] [(0x14001D7A, VU32 2); (0x24001C20,
    VObjectIds 1); (0x0C001C03, VU8 3)]) = Ok d /\
  gr_children d = [xid 11] /\ gr_child_level d = 3.
Proof. eexists. split; [vm_compute; reflexivity|]. vm_compute. repeat split. Qed.

Theorem C48_outline : forall o d, outline_node_parse o = Ok d <-> outline_object o d.
Proof. exact outline_ok. Qed.
Print Assumptions C48_outline.
Example C48_outline_example : exists d,
  outline_node_parse (ex_node 0x0006000C [xid 11] [(0x14001D7A, VU32 2); (0x24001C20, VObjectIds
    1); (0x0C001C03, VU8 3); (0x1C001C12, VVec [2; 0; 0; 0; 1; 0; 0; 0; 2; 0; 0; 0; 9])]) = Ok d /\
  ou_children d = [xid 11] /\ ou_indent_distance d = [1; 2] /\ ou_is_selectable d = true.
Proof. eexists. split; [vm_compute; reflexivity|]. vm_compute. repeat split. Qed.

Theorem C48_table_cell : forall o d, table_cell_node_parse o = Ok d <-> cell_object o d.
Proof. exact cell_ok. Qed.
Print Assumptions C48_table_cell.
Example C48_table_cell_example : exists d,
  table_cell_node_parse (ex_node 0x00060024 [xid 11] [(0x24001C20, VObjectIds 1); (0x1C001C12,
    VVec [0; 0; 0; 0]); (0x14001E26, VU32 0x00030201)]) = Ok d /\
  ce_contents d = [xid 11] /\ ce_background_color d = Some (Color 255 1 2 3).
Proof. eexists. split; [vm_compute; reflexivity|]. vm_compute. repeat split. Qed.

Theorem C48_table : forall o d, table_node_parse o = Ok d <-> table_object o d.
Proof. exact table_ok. Qed.
Print Assumptions C48_table.
Example C48_table_example : exists d,
  table_node_parse (ex_node 0x00060022 [xid 11; xid 12] [(0x14001D7A, VU32 2); (0x24001C20,
    VObjectIds 2); (0x14001D57, VU32 2); (0x14001D58, VU32 1); (0x1C001D66, VVec [1; 0; 0; 128;
    63]); (0x1C001D7D, VVec [1; 1])]) = Ok d /\
  ta_rows d = [xid 11; xid 12] /\ ta_col_widths d = [0x3F800000] /\ ta_cols_locked d = [1] /\
    ta_borders_visible d = true.
Proof. eexists. split; [vm_compute; reflexivity|]. vm_compute. repeat split. Qed.

Theorem C48_table_row : forall o d, table_row_node_parse o = Ok d <-> row_object o d.
Proof. exact row_ok. Qed.
Print Assumptions C48_table_row.
Example C48_table_row_example : exists d,
  table_row_node_parse (ex_node 0x00060023 [xid 11] [(0x24001C20, VObjectIds 1)]) = Ok d /\
  ro_cells d = [xid 11].
Proof. eexists. split; [vm_compute; reflexivity|]. vm_compute. repeat split. Qed.

Theorem C48_table_of_contents : forall o d, toc_parse o = Ok d <-> toc_object o d.
Proof. exact toc_ok. Qed.
Print Assumptions C48_table_of_contents.
Example C48_table_of_contents_example : exists d,
  toc_parse (ex_node 0x00020001 [xid 11] [(0x24001CF6, VObjectIds 1); (0x1C001D6B, VVec [97; 0;
    94; 0; 77; 0; 98; 0; 94; 0; 74; 0]); (0x14001CB9, VU32 4)]) = Ok d /\
  tc_children d = [xid 11] /\ tc_filename d = Some [97; 43; 98; 44] /\ tc_ordering_id d = Some 4.
Proof. eexists. split; [vm_compute; reflexivity|]. vm_compute. repeat split. Qed.

(** ** C49
    Reading any object as any kind of node comes back with a result or an error; the
    one exception are list formats (C32). *)
Theorem C49_nodes_return : forall o,
  returns (section_node_parse o) /\
  returns (section_metadata_parse o) /\
  returns (page_series_node_parse o) /\
  returns (page_node_parse o) /\
  returns (page_metadata_parse o) /\
  returns (page_manifest_parse o) /\
  returns (title_node_parse o) /\
  returns (embedded_file_container_parse o) /\
  returns (embedded_file_node_parse o) /\
  returns (picture_container_parse o) /\
  returns (iframe_node_parse o) /\
  returns (image_node_parse o) /\
  returns (embedded_ink_parse o) /\
  returns (ink_container_parse o) /\
  returns (ink_data_node_parse o) /\
  returns (ink_stroke_node_parse o) /\
  returns (stroke_properties_parse o) /\
  returns (math_data_parse o) /\
  returns (tag_definition_parse o) /\
  returns (style_parse o) /\
  returns (rich_text_node_parse o) /\
  returns (outline_element_node_parse o) /\
  returns (outline_group_node_parse o) /\
  returns (outline_node_parse o) /\
  returns (table_cell_node_parse o) /\
  returns (table_node_parse o) /\
  returns (table_row_node_parse o) /\
  returns (toc_parse o) /\
  returns (text_run_data_parse o) /\
  returns (tags_parse o).
Proof.
  intros o. repeat split;
  [apply section_ret
  |apply section_meta_ret
  |apply series_ret
  |apply page_ret
  |apply page_meta_ret
  |apply manifest_ret
  |apply title_ret
  |apply file_container_ret
  |apply file_node_ret
  |apply picture_ret
  |apply iframe_ret
  |apply image_ret
  |apply embedded_ink_ret
  |apply ink_container_ret
  |apply ink_node_ret
  |apply stroke_ret
  |apply stroke_properties_ret
  |apply math_ret
  |apply tag_definition_ret
  |apply style_ret
  |apply text_ret
  |apply element_ret
  |apply group_ret
  |apply outline_ret
  |apply cell_ret
  |apply table_ret
  |apply row_ret
  |apply toc_ret
  |apply runs_ret
  |apply ret_tags].
Qed.
Print Assumptions C49_nodes_return.

(** All of it is reached: an object with a property of the wrong type is an error. *)
Example C49_example :
  page_node_parse (ex_node 0x0006000B [] [(0x14001C01, VU8 5)]) = Err MalformedOneNoteFileData /\
  page_node_parse (ex_node 0x0006000B [] [(0x24001C20, VObjectIds 4)]) <> Err MalformedOneNoteFileData.
Proof. split; [reflexivity|vm_compute; discriminate]. Qed.

(** ** C23
    An object with note tags, read from a record like in C20. [p] is the position of
    the property holding the tags, whose [i]-th set has a definition reference at
    position [k]. *)
Definition before (l : list (N * sval)) (n : nat) : N :=
  total (fun p => taken own_objects (snd p)) (firstn n l).

(** The rule: the definition is found as if the set were the first one. *)
Theorem C23_rule : forall oid ctx sid g pk o refs cells d w e t l p tid sets i s k,
  object_parse oid ctx sid g pk = Ok o ->
  find_object oid partition_object_data g = Some (DataObject refs cells d) ->
  d = e ++ t -> l_oset w e ->
  length refs = length (os_objects w) -> NoDup (os_objects w ++ context_ids w) ->
  regular_set own_objects (os_props w) ->
  total (fun p => taken own_objects (snd p)) (os_props w) <= N.of_nat (length refs) ->
  nth_error (os_props w) p = Some (pid_id 0x40003489, SValues tid sets) ->
  nth_error sets i = Some s -> nth_error s k = Some (pid_id 0x20003488, SObjectId) ->
  dflt [] (tags_parse o) = Ok l ->
  exists tg x, nth_error l i = Some tg /\ tg_definition tg = Some x /\
    nth_error refs (N.to_nat (before (os_props w) p + before s k)) = Some x.
Proof. exact tag_rule. Qed.
Print Assumptions C23_rule.

(** If no earlier tag has references, that is the tag's own reference, which comes
    after those of all earlier tags. *)
Theorem C23_first_reference : forall oid ctx sid g pk o refs cells d w e t l p tid sets i s k,
  object_parse oid ctx sid g pk = Ok o ->
  find_object oid partition_object_data g = Some (DataObject refs cells d) ->
  d = e ++ t -> l_oset w e ->
  length refs = length (os_objects w) -> NoDup (os_objects w ++ context_ids w) ->
  regular_set own_objects (os_props w) ->
  total (fun p => taken own_objects (snd p)) (os_props w) <= N.of_nat (length refs) ->
  nth_error (os_props w) p = Some (pid_id 0x40003489, SValues tid sets) ->
  nth_error sets i = Some s -> nth_error s k = Some (pid_id 0x20003488, SObjectId) ->
  let earlier := total (fun s => before s (length s)) (firstn i sets) in
  earlier = 0 ->
  dflt [] (tags_parse o) = Ok l ->
  exists tg x, nth_error l i = Some tg /\ tg_definition tg = Some x /\
    nth_error refs (N.to_nat (before (os_props w) p + earlier + before s k)) = Some x.
Proof.
  intros oid ctx sid g pk o refs cells d w e t l p tid sets i s k H1 H2 H3 H4 H5 H6 H7 H8 H9 H10 H11 earlier E H12.
  rewrite E, N.add_0_r. exact (tag_rule _ _ _ _ _ _ _ _ _ _ _ _ _ _ _ _ _ _ _ H1 H2 H3 H4 H5 H6 H7 H8 H9 H10 H11 H12).
Qed.
Print Assumptions C23_first_reference.

(** A paragraph's reference, then two tags with a definition each. *)
Definition ex_tag_set : list (N * sval) :=
  [(0x3488, SObjectId); (0x346E, SU32 100); (0x3470, SU16 1)].
Definition ex_tags_oset (n : nat) : oset :=
  OSet [CompactId 1 0; CompactId 1 1; CompactId 1 2] None
    [(0x342C, SObjectId); (0x3489, SValues 0x24000001 (repeat ex_tag_set n))].
Definition ex_tags_refs : list exguid := [xid 10; xid 11; xid 12].
Example C23_example : exists o l,
  object_parse (xid 1) (xid 2) (xid 3) (rec_group ex_tags_refs [] (ex_tags_oset 1)) no_package = Ok o /\
  l_oset (ex_tags_oset 1) (w_oset (ex_tags_oset 1)) /\
  NoDup (os_objects (ex_tags_oset 1) ++ context_ids (ex_tags_oset 1)) /\
  regular_set own_objects (os_props (ex_tags_oset 1)) /\
  dflt [] (tags_parse o) = Ok l /\ map tg_definition l = [Some (xid 11)].
Proof.
  eexists. eexists. split; [vm_compute; reflexivity|]. split.
  { unfold ex_tags_oset. exists false, false, false, false. cbn [os_spaces os_objects os_props].
    unfold w_oset. cbn [os_spaces os_objects os_props repeat]. unfold ex_tag_set.
    unfold l_ids, l_set, l_props. enc_ps. }
  split; [nodup|]. split; [split; [nodup|cbn; repeat split; nodup]|].
  split; [vm_compute; reflexivity|reflexivity].
Qed.

(** Two tags: both report the definition of the first. *)
Theorem C23_second_tag_refuted : exists g o refs w tid s l,
  object_parse (xid 1) (xid 2) (xid 3) g no_package = Ok o /\
  find_object (xid 1) partition_object_data g = Some (DataObject refs [] (w_oset w)) /\
  length refs = length (os_objects w) /\ NoDup (os_objects w) /\
  regular_set own_objects (os_props w) /\
  total (fun p => taken own_objects (snd p)) (os_props w) = N.of_nat (length refs) /\
  nth_error (os_props w) 1 = Some (pid_id 0x40003489, SValues tid [s; s]) /\
  nth_error s 0 = Some (pid_id 0x20003488, SObjectId) /\
  dflt [] (tags_parse o) = Ok l /\
  map tg_definition l = [nth_error refs 1; nth_error refs 1] /\ nth_error refs 1 <> nth_error refs 2.
Proof.
  exists (rec_group ex_tags_refs [] (ex_tags_oset 2)). eexists. exists ex_tags_refs, (ex_tags_oset 2), 0x24000001, ex_tag_set.
  eexists. split; [vm_compute; reflexivity|]. split; [reflexivity|]. split; [reflexivity|]. split; [nodup|].
  split; [split; [nodup|cbn; repeat split; nodup]|]. split; [reflexivity|]. split; [reflexivity|].
  split; [reflexivity|]. split; [vm_compute; reflexivity|]. split; [reflexivity|discriminate].
Qed.
Print Assumptions C23_second_tag_refuted.

(** ** C32 *)
Theorem C32_panics_exactly : forall o, number_list_parse o = Panic <->
  ob_jcid o = 0x00060012 /\
  (exists t, required o 0x14001D7A dword t) /\
  (exists f, optional o 0x1C001C52 text f) /\
  (exists z, optional o 0x14001CB7 signed z) /\
  exists d, stored o 0x1C001C1A = Some (VVec d) /\ (length d < 2)%nat.
Proof. exact list_panics. Qed.
Print Assumptions C32_panics_exactly.

Theorem C32_no_hang : forall o, number_list_parse o <> OutOfFuel.
Proof. exact list_no_hang. Qed.
Print Assumptions C32_no_hang.

(** Otherwise: the text after the first code unit. *)
Theorem C32_format : forall o d, number_list_parse o = Ok d ->
  exists bytes n units, stored o 0x1C001C1A = Some (VVec bytes) /\ numbers 2 bytes (n :: units) /\
    lossy units (nl_list_format d).
Proof. exact list_format. Qed.
Print Assumptions C32_format.

(** The expectation that a malformed list is an error is false. *)
Theorem C32_error_refuted : exists o, number_list_parse o = Panic.
Proof.
  exists (ex_node 0x00060012 [] [(0x14001D7A, VU32 1); (0x1C001C1A, VVec [])]). reflexivity.
Qed.
Print Assumptions C32_error_refuted.

Example C32_example : exists d,
  number_list_parse (ex_node 0x00060012 [] [(0x14001D7A, VU32 1); (0x1C001C1A, VVec [2; 0; 0x3D; 0xD8; 0; 0xDE; 0; 0xDC])])
  = Ok d /\ nl_list_format d = [0x1F600; 0xFFFD].
Proof. eexists. split; [vm_compute; reflexivity|reflexivity]. Qed.

(** ** C35 *)
Theorem C35_scale_rule : forall o d, ink_container_parse o = Ok d -> ic_scaling_y d = ic_scaling_x d.
Proof. exact scales. Qed.
Print Assumptions C35_scale_rule.

(** 0x14001C46 and 0x14001C47 are the horizontal and the vertical scale. *)
Theorem C35_vertical_scale_refuted : exists o d, ink_container_parse o = Ok d /\
  stored o 0x14001C46 = Some (VU32 0x40000000) /\ stored o 0x14001C47 = Some (VU32 0x3F800000) /\
  ic_scaling_y d = Some 0x40000000.
Proof.
  exists (ex_node 0x00060014 [] [(0x14001C46, VU32 0x40000000); (0x14001C47, VU32 0x3F800000)]).
  eexists. split; [vm_compute; reflexivity|]. repeat split.
Qed.
Print Assumptions C35_vertical_scale_refuted.

(** 0x1400340C and 0x1400340D are the height and the width of the pen. *)
Theorem C35_pen_rule : forall o d, stroke_properties_parse o = Ok d ->
  stored o 0x1400340C = Some (VU32 (sp_width d)) /\ stored o 0x1400340D = Some (VU32 (sp_height d)).
Proof. exact pen_sizes. Qed.
Print Assumptions C35_pen_rule.

Theorem C35_pen_size_refuted : exists o d, stroke_properties_parse o = Ok d /\
  stored o 0x1400340C = Some (VU32 1) /\ stored o 0x1400340D = Some (VU32 2) /\
  sp_height d = 2 /\ sp_width d = 1.
Proof.
  exists (ex_node 0x00120048 [] [(0x1400340C, VU32 1); (0x1400340D, VU32 2)]).
  eexists. split; [vm_compute; reflexivity|]. repeat split.
Qed.
Print Assumptions C35_pen_size_refuted.

Example C35_example : exists d,
  ink_container_parse (ex_node 0x00060014 [] [(0x14001C46, VU32 1); (0x14001C47, VU32 2)]) = Ok d /\
  ic_scaling_x d = Some 1.
Proof. eexists. split; [vm_compute; reflexivity|reflexivity]. Qed.

(** ** C36
    An object is accepted only if its properties have their declared types, for all
    properties but the five below. *)
Theorem C36_types :
  reads_typed section_node_parse
    [0x1C001C30; 0x24001C20; 0x18001C65] /\
  reads_typed section_metadata_parse
    [0x14001D82; 0x1400348B; 0x1C00349B; 0x14001CBE] /\
  reads_typed page_series_node_parse
    [0x1C001C30; 0x2C001D63; 0x24003442; 0x18001C65] /\
  reads_typed page_node_parse
    [0x14001D7A; 0x1C001D3C; 0x1C001D75; 0x24001C20; 0x24001D5F; 0x08001C8E; 0x14001C01;
     0x14001C02; 0x14001D0F; 0x14001D10; 0x14001C4E; 0x14001C4F; 0x14001C4C; 0x14001C4D;
     0x08001C92] /\
  reads_typed page_metadata_parse
    [0x1C001C30; 0x1C001CF3; 0x14001D82; 0x1400348B; 0x14001DFF; 0x18001C65] /\
  reads_typed page_manifest_parse
    [0x24001C1F] /\
  reads_typed title_node_parse
    [0x14001D7A; 0x24001C20; 0x14001C14; 0x14001C15; 0x14001C3E; 0x14001C84] /\
  reads_typed embedded_file_node_parse
    [0x14001D7A; 0x20001C3F; 0x14001C1B; 0x14001C1C; 0x08001CBD; 0x1C001C22; 0x10001CFE;
     0x14001C3E; 0x14001C84; 0x20001D9B; 0x1C001D9C; 0x1C001D9D; 0x14001D24; 0x140034CD;
     0x140034CE; 0x14001C14; 0x14001C15; 0x40003489] /\
  reads_typed iframe_node_parse
    [0x140035F2; 0x1C0035F3] /\
  reads_typed image_node_parse
    [0x14001D7A; 0x20001C3F; 0x14001C1B; 0x14001C1C; 0x08001CBD; 0x14001C3B; 0x1C001E58;
     0x14001C3E; 0x14001C84; 0x1C001DD7; 0x14003480; 0x1C001C22; 0x10001CFE; 0x140034CD;
     0x140034CE; 0x1C001E20; 0x14001C14; 0x14001C15; 0x08001D13; 0x24001C1F; 0x40003489] /\
  reads_typed embedded_ink_parse
    [0x14001C27; 0x14001C28; 0x1400349E; 0x1400349F; 0x140034A1; 0x140034A0; 0x140034A2;
     0x140034A3] /\
  reads_typed ink_container_parse
    [0x14001C14; 0x14001C15; 0x14001D7A; 0x20003415; 0x14001C46] /\
  reads_typed ink_data_node_parse
    [0x24003416; 0x1C003418] /\
  reads_typed ink_stroke_node_parse
    [0x1C00340B; 0x0C00341C; 0x14001C3B; 0x20003409] /\
  reads_typed stroke_properties_parse
    [0x08003411; 0x0C003412; 0x0C003413; 0x0C003414; 0x1400340D; 0x1400340C; 0x1400340F;
     0x1C00340A] /\
  reads_typed math_data_parse
    [0x1400344F; 0x14003450; 0x0C003451; 0x0C003452; 0x10003453; 0x10003454; 0x10003455] /\
  reads_typed tag_definition_parse
    [0x1C003468; 0x14003467; 0x10003464; 0x14003465; 0x14003466; 0x10003463] /\
  reads_typed number_list_parse
    [0x14001D7A; 0x1C001C52; 0x14001CB7; 0x1C001C1A; 0x08001C04; 0x08001C05; 0x14001C3B;
     0x1C001C0A; 0x10001C0B; 0x14001C0C] /\
  reads_typed style_parse
    [0x0C001D01; 0x08001C04; 0x08001C05; 0x08001C06; 0x08001C07; 0x08001C08; 0x08001C09;
     0x1C001C0A; 0x10001C0B; 0x14001C0C; 0x14001C0D; 0x1C00348A; 0x1C00345A; 0x0C003477;
     0x1400342E; 0x1400342F; 0x14003430; 0x14001C3B; 0x08003401; 0x08001E14; 0x08001E19;
     0x08001E16; 0x08001E22; 0x14003457] /\
  reads_typed rich_text_node_parse
    [0x14001D7A; 0x08001C00; 0x24001E13; 0x1C001E12; 0x24003458; 0x2000342C; 0x1400342E;
     0x1400342F; 0x14003430; 0x0C003477; 0x08001C87; 0x08001C88; 0x08001CB5; 0x08001CB4;
     0x14001C3E; 0x14001C84; 0x10001CFE; 0x08003476; 0x40003489; 0x1C001C22] /\
  reads_typed outline_element_node_parse
    [0x14001D09; 0x14001D7A; 0x24001C20; 0x0C001C03; 0x24001C1F; 0x24001C26; 0x14001CCB;
     0x20001D78; 0x20001D79; 0x08001C34; 0x08001D0C; 0x08001CB2; 0x08001CB4] /\
  reads_typed outline_group_node_parse
    [0x14001D7A; 0x24001C20; 0x0C001C03] /\
  reads_typed outline_node_parse
    [0x14001D7A; 0x24001C20; 0x0C001C03; 0x14001C1C; 0x14001C1B; 0x14001CDB; 0x14001CEC;
     0x08001CFF; 0x08001CBD; 0x14001C14; 0x14001C15; 0x14001CCB; 0x1C001C12; 0x14001C3E;
     0x14001C84; 0x08001D0C; 0x08001CB5; 0x08001CB2; 0x08001CB4; 0x08001CDE; 0x08001CF9;
     0x08001C00] /\
  reads_typed table_cell_node_parse
    [0x14001D7A; 0x24001C20; 0x14001C1B; 0x1C001C12; 0x14001E26] /\
  reads_typed table_node_parse
    [0x14001D7A; 0x24001C20; 0x14001D57; 0x14001D58; 0x1C001D7D; 0x1C001D66; 0x08001D5E;
     0x14001C3E; 0x14001C84; 0x40003489] /\
  reads_typed table_row_node_parse
    [0x14001D7A; 0x24001C20] /\
  reads_typed toc_parse
    [0x24001CF6; 0x1C001D6B; 0x14001CB9; 0x14001CBE].
Proof.
  repeat split;
  [exact section_node_parse_types
  |exact section_metadata_parse_types
  |exact page_series_node_parse_types
  |exact page_node_parse_types
  |exact page_metadata_parse_types
  |exact page_manifest_parse_types
  |exact title_node_parse_types
  |exact embedded_file_node_parse_types
  |exact iframe_node_parse_types
  |exact image_node_parse_types
  |exact embedded_ink_parse_types
  |exact ink_container_parse_types
  |exact ink_data_node_parse_types
  |exact ink_stroke_node_parse_types
  |exact stroke_properties_parse_types
  |exact math_data_parse_types
  |exact tag_definition_parse_types
  |exact number_list_parse_types
  |exact style_parse_types
  |exact rich_text_node_parse_types
  |exact outline_element_node_parse_types
  |exact outline_group_node_parse_types
  |exact outline_node_parse_types
  |exact table_cell_node_parse_types
  |exact table_node_parse_types
  |exact table_row_node_parse_types
  |exact toc_parse_types].
Qed.
Print Assumptions C36_types.

(** The readers of simple values and references accept every value of the type. *)
Theorem C36_simple_accepted : forall o id v, stored o id = Some v ->
  (wire_type v = 2 <-> exists b, prop_bool id o = Ok (Some b)) /\
  (wire_type v = 3 <-> exists n, prop_u8 id o = Ok (Some n)) /\
  (wire_type v = 4 <-> exists n, prop_u16 id o = Ok (Some n)) /\
  (wire_type v = 5 <-> exists n, prop_u32 id o = Ok (Some n)) /\
  (wire_type v = 5 <-> exists n, prop_f32 id o = Ok (Some n)) /\
  (wire_type v = 5 <-> exists n, time_parse id o = Ok (Some n)) /\
  (wire_type v = 6 <-> exists n, timestamp_parse id o = Ok (Some n)) /\
  (wire_type v = 7 <-> exists d, prop_vec id o = Ok (Some d)) /\
  (wire_type v = 9 <-> exists l, prop_objects id o = Ok (Some l)) /\
  (wire_type v = 11 <-> exists l, prop_spaces id o = Ok (Some l)).
Proof. exact simple_accepted. Qed.
Print Assumptions C36_simple_accepted.

(** A page that stores its size with the declared type is never accepted. *)
Theorem C36_page_size_refuted : forall o n d,
  stored o 0x14001C8B = Some (VU32 n) ->
  wire_type (VU32 n) = declared 0x14001C8B /\ page_node_parse o <> Ok d.
Proof. intros o n d H. exact (conj eq_refl (page_size_rejected o d n H)). Qed.
Print Assumptions C36_page_size_refuted.

(** Nor is a picture whose extension has the declared type. *)
Theorem C36_extension_refuted : forall o n d,
  stored o 0x24003424 = Some (VObjectIds n) ->
  wire_type (VObjectIds n) = declared 0x24003424 /\ picture_container_parse o <> Ok d.
Proof. intros o n d H. exact (conj eq_refl (extension_rejected o d n H)). Qed.
Print Assumptions C36_extension_refuted.

(** Three flags declare no type, and are accepted as booleans. *)
Theorem C36_untyped_flags : forall o,
  (declared 0x00001DE9 = 0 /\ declared 0x8000340E = 0 /\ declared 0x80003410 = 0 /\
   forall v, wire_type v <> 0) /\
  (forall d v, page_metadata_parse o = Ok d -> stored o 0x00001DE9 = Some v -> wire_type v = 2) /\
  (forall d v, stroke_properties_parse o = Ok d ->
     stored o 0x8000340E = Some v \/ stored o 0x80003410 = Some v -> wire_type v = 2).
Proof.
  intros o. split; [|exact (flags_boolean o)]. repeat split; try reflexivity. intros v; destruct v; discriminate.
Qed.
Print Assumptions C36_untyped_flags.

Example C36_example :
  let page v := ex_node 0x0006000B [] [(0x14001C01, VU32 7); (0x14001C8B, v)] in
  (exists d, page_node_parse (page (VU8 6)) = Ok d /\ pd_page_size d = PsIsoA4) /\
  stored (page (VU32 6)) 0x14001C8B = Some (VU32 6) /\
  page_node_parse (page (VU32 6)) = Err MalformedOneNoteFileData.
Proof. split; [eexists; split; [vm_compute; reflexivity|reflexivity]|split; reflexivity]. Qed.

(** ** C42
    0x1C001D66 are the column widths, 0x1C001D7D the lock flags and 0x08001D5E the
    visibility of the borders. *)
Theorem C42_columns : forall o d, table_node_parse o = Ok d ->
  (forall n bytes, stored o 0x1C001D66 = Some (VVec (n :: bytes)) ->
     length (ta_col_widths d) = (length bytes / 4)%nat /\
     forall i w, nth_error (ta_col_widths d) i = Some w -> w = le (firstn 4 (skipn (4 * i) bytes))) /\
  (forall n bytes, stored o 0x1C001D7D = Some (VVec (n :: bytes)) -> ta_cols_locked d = bytes) /\
  (stored o 0x08001D5E = None -> ta_borders_visible d = true) /\
  (forall b, stored o 0x08001D5E = Some (VBool b) -> ta_borders_visible d = b).
Proof. exact columns. Qed.
Print Assumptions C42_columns.

(** The stored column count is not checked against the widths. *)
Theorem C42_column_count_refuted : exists o d, table_node_parse o = Ok d /\
  ta_col_count d = 5 /\ stored o 0x1C001D66 = Some (VVec [5; 0; 0; 128; 63]) /\ length (ta_col_widths d) = 1%nat.
Proof.
  exists (ex_node 0x00060022 [] [(0x14001D7A, VU32 2); (0x24001C20, VObjectIds 0); (0x14001D57, VU32 2);
    (0x14001D58, VU32 5); (0x1C001D66, VVec [5; 0; 0; 128; 63])]).
  eexists. split; [vm_compute; reflexivity|]. repeat split.
Qed.
Print Assumptions C42_column_count_refuted.

Example C42_example : exists d,
  table_node_parse (ex_node 0x00060022 [] [(0x14001D7A, VU32 2); (0x24001C20, VObjectIds 0); (0x14001D57, VU32 2);
    (0x14001D58, VU32 2); (0x1C001D66, VVec [2; 0; 0; 128; 63; 0; 0; 0; 64; 9; 9]); (0x1C001D7D, VVec [2; 1; 0]);
    (0x08001D5E, VBool false)]) = Ok d /\
  ta_col_widths d = [0x3F800000; 0x40000000] /\ ta_cols_locked d = [1; 0] /\ ta_borders_visible d = false.
Proof. eexists. split; [vm_compute; reflexivity|]. repeat split. Qed.
