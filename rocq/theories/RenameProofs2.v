(** Renaming identifiers: nodes and documents. *)
From Coq Require Import Lia ZifyBool ZifyNat ZifyN Permutation.
From Verif Require Import Base BaseProofs Codec Package SpecPackage PackageRT SpecAccept AcceptProofs PropSet PropIds
  Store Shapes Props Nodes Doc Notebook SpecSame SpecRename SameProofs ForwardProofs RenameProofs.

Section Nodes.
  Context (f : exguid -> exguid).

  Definition r_tag_data (d : tag_data) : tag_data :=
    TagData (option_map f (tg_definition d)) (tg_created_at d) (tg_completed_at d) (tg_item_status d).
  Definition r_toc_data (d : toc_data) : toc_data :=
    TocData (map f (tc_children d)) (tc_filename d) (tc_ordering_id d) (tc_color d).
  Definition r_section_data (d : section_data) : section_data :=
    SectionData (f (sn_context_id d)) (sn_entity_guid d) (map f (sn_page_series d)) (sn_created_at d).
  Definition r_page_series_data (d : page_series_data) : page_series_data :=
    PageSeriesData (pn_entity_guid d) (map (rename_cell f) (pn_page_spaces d)) (map f (pn_page_metadata d)) (pn_created_at d).
  Definition r_page_data (d : page_data) : page_data :=
    PageData (pd_last_modified d) (pd_cached_title d) (pd_author d) (map f (pd_content d)) (option_map f (pd_title d)) (pd_orientation_portrait d) (pd_page_width d) (pd_page_height d) (pd_margin_origin_x d) (pd_margin_origin_y d) (pd_margin_left d) (pd_margin_right d) (pd_margin_top d) (pd_margin_bottom d) (pd_page_size d) (pd_rtl d).
  Definition r_title_data (d : title_data) : title_data :=
    TitleData (tn_last_modified d) (map f (tn_children d)) (tn_offset_horizontal d) (tn_offset_vertical d) (tn_alignment_in_parent d) (tn_alignment_self d).
  Definition r_embedded_file_data (d : embedded_file_data) : embedded_file_data :=
    EmbeddedFileData (ef_last_modified d) (option_map f (ef_picture_container d)) (ef_layout_max_width d) (ef_layout_max_height d) (ef_is_layout_size_set_by_user d) (ef_text d) (ef_text_language_code d) (ef_alignment_in_parent d) (ef_alignment_self d) (f (ef_container d)) (ef_name d) (ef_source_path d) (ef_file_type d) (ef_picture_width d) (ef_picture_height d) (map r_tag_data (ef_note_tags d)) (ef_offset_horiz d) (ef_offset_vert d).
  Definition r_image_data (d : image_data) : image_data :=
    ImageData (im_last_modified d) (option_map f (im_picture_container d)) (im_layout_max_width d) (im_layout_max_height d) (im_is_layout_size_set_by_user d) (im_language_code d) (im_alt_text d) (im_alignment_in_parent d) (im_alignment_self d) (im_filename d) (im_displayed_page_number d) (im_text d) (im_text_language_code d) (im_picture_width d) (im_picture_height d) (im_hyperlink_url d) (map r_tag_data (im_note_tags d)) (im_offset_horiz d) (im_offset_vert d) (im_is_background d) (map f (im_iframe d)).
  Definition r_ink_container_data (d : ink_container_data) : ink_container_data :=
    InkContainerData (ic_offset_horiz d) (ic_offset_vert d) (ic_last_modified d) (option_map f (ic_ink_data d)) (ic_scaling_x d) (ic_scaling_y d).
  Definition r_ink_data (d : ink_data) : ink_data :=
    InkData (map f (ik_strokes d)) (ik_bounding_box d).
  Definition r_ink_stroke_data (d : ink_stroke_data) : ink_stroke_data :=
    InkStrokeData (ss_path d) (ss_bias d) (ss_language_code d) (f (ss_properties d)).
  Definition r_rich_text_data (d : rich_text_data) : rich_text_data :=
    RichTextData (rt_last_modified d) (rt_tight_layout d) (map f (rt_run_formatting d)) (rt_run_indices d) (map f (rt_run_data_object d)) (f (rt_paragraph_style d)) (rt_space_before d) (rt_space_after d) (rt_line_spacing_exact d) (rt_paragraph_alignment d) (rt_text d) (rt_is_title_time d) (rt_is_boiler_text d) (rt_is_title_date d) (rt_is_title_text d) (rt_alignment_in_parent d) (rt_alignment_self d) (rt_language_code d) (rt_rtl d) (map r_tag_data (rt_note_tags d)).
  Definition r_outline_element_data (d : outline_element_data) : outline_element_data :=
    OutlineElementData (oe_created_at d) (oe_last_modified d) (map f (oe_children d)) (oe_child_level d) (map f (oe_contents d)) (map f (oe_list_contents d)) (oe_list_spacing d) (f (oe_author_original d)) (f (oe_author_most_recent d)) (oe_rtl d) (oe_is_deletable d) (oe_is_selectable d) (oe_is_title_text d).
  Definition r_outline_group_data (d : outline_group_data) : outline_group_data :=
    OutlineGroupData (gr_last_modified d) (map f (gr_children d)) (gr_child_level d).
  Definition r_outline_data (d : outline_data) : outline_data :=
    OutlineData (ou_last_modified d) (map f (ou_children d)) (ou_child_level d) (ou_layout_max_height d) (ou_layout_max_width d) (ou_layout_reserved_width d) (ou_layout_minimum_outline_width d) (ou_layout_tight_alignment d) (ou_is_layout_size_set_by_user d) (ou_offset_horiz d) (ou_offset_vert d) (ou_list_spacing d) (ou_indent_distance d) (ou_alignment_in_parent d) (ou_alignment_self d) (ou_is_deletable d) (ou_is_title_date d) (ou_is_selectable d) (ou_is_title_text d) (ou_is_read_only d) (ou_descendants_cannot_be_moved d) (ou_tight_layout d).
  Definition r_table_cell_data (d : table_cell_data) : table_cell_data :=
    TableCellData (ce_last_modified d) (map f (ce_contents d)) (ce_layout_max_width d) (ce_indent_distance d) (ce_background_color d).
  Definition r_table_data (d : table_data) : table_data :=
    TableData (ta_last_modified d) (map f (ta_rows d)) (ta_row_count d) (ta_col_count d) (ta_cols_locked d) (ta_col_widths d) (ta_borders_visible d) (ta_alignment_in_parent d) (ta_alignment_self d) (map r_tag_data (ta_note_tags d)).
  Definition r_table_row_data (d : table_row_data) : table_row_data :=
    TableRowData (ro_last_modified d) (map f (ro_cells d)).

  Lemma q_flat {T T'} (k : T -> T') (get : N -> compactid -> option T) (get' : N -> compactid -> option T') :
    (forall i c, get' i c = option_map k (get i c)) ->
    forall l i, flat_resolve get' i l = map k (flat_resolve get i l).
  Proof.
    intro H. induction l as [|c l IH]; intro i; cbn [flat_resolve]; [reflexivity|]. rewrite H, IH.
    destruct (get i c); reflexivity.
  Qed.
  Lemma q_object p o : prop_object p (r_object f o) = rfun (option_map f) (prop_object p o).
  Proof.
    unfold prop_object. rewrite rfun_bind. apply bind_same; [reflexivity|]. intros [x|]; [|reflexivity].
    rewrite rfun_bind. apply bind_same; [reflexivity|]. intro i. rewrite rfun_bind. apply bind_same; [reflexivity|]. intro c.
    unfold rfun. cbn [rbind]. f_equal. apply (get_ren f).
  Qed.
  Lemma q_objects p o : prop_objects p (r_object f o) = rfun (option_map (map f)) (prop_objects p o).
  Proof.
    unfold prop_objects. rewrite rfun_bind. apply bind_same; [reflexivity|]. intros [x|]; [|reflexivity].
    rewrite rfun_bind. apply bind_same; [reflexivity|]. intro i.
    unfold rfun. cbn [rbind option_map]. do 2 f_equal. apply q_flat. intros. apply (get_ren f).
  Qed.
  Lemma q_spaces p o : prop_spaces p (r_object f o) = rfun (option_map (map (rename_cell f))) (prop_spaces p o).
  Proof.
    unfold prop_spaces. rewrite rfun_bind. apply bind_same; [reflexivity|]. intros [x|]; [|reflexivity].
    rewrite rfun_bind. apply bind_same; [reflexivity|]. intro i.
    unfold rfun. cbn [rbind option_map]. do 2 f_equal. apply q_flat. intros. apply (get_ren (rename_cell f)).
  Qed.
  Lemma q_req {A B} (k : A -> B) r : req (rfun (option_map k) r) = rfun k (req r).
  Proof. destruct r as [[a|]| | |]; reflexivity. Qed.
  Lemma q_dflt {A B} (k : A -> B) d r : dflt (k d) (rfun (option_map k) r) = rfun k (dflt d r).
  Proof. destruct r as [[a|]| | |]; reflexivity. Qed.
  Lemma q_refs p o : refs_of p (r_object f o) = rfun (map f) (refs_of p o).
  Proof. unfold refs_of. rewrite q_objects. exact (q_dflt (map f) [] _). Qed.
  Lemma q_nested p i o s : nested_object p i (r_object f o) s = rfun (r_object f) (nested_object p i o s).
  Proof.
    unfold nested_object. cbv zeta. rewrite rfun_bind. apply bind_same; [reflexivity|]. intro a.
    rewrite rfun_bind. apply bind_same; [reflexivity|]. intro b. reflexivity.
  Qed.

  Ltac rn_step :=
    cbv beta;
    lazymatch goal with
    | |- Ok _ = rfun _ (Ok _) => unfold rfun; cbn [rbind]; rewrite ?hd_map; reflexivity
    | |- rbind (refs_of _ (r_object _ _)) _ = _ =>
      rewrite q_refs, bind_rfun, rfun_bind; apply rbind_ext; intro
    | |- rbind (prop_object _ (r_object _ _)) _ = _ =>
      rewrite q_object, bind_rfun, rfun_bind; apply rbind_ext; intro
    | |- rbind (req (prop_object _ (r_object _ _))) _ = _ =>
      rewrite q_object, q_req, bind_rfun, rfun_bind; apply rbind_ext; intro
    | |- rbind (req (prop_objects _ (r_object _ _))) _ = _ =>
      rewrite q_objects, q_req, bind_rfun, rfun_bind; apply rbind_ext; intro
    | |- rbind (dflt [] (prop_spaces _ (r_object _ _))) _ = _ =>
      rewrite q_spaces, (q_dflt (map (rename_cell f)) []), bind_rfun, rfun_bind; apply rbind_ext; intro
    | |- rbind _ _ = rfun _ (rbind _ _) => rewrite rfun_bind; apply bind_same; [reflexivity|intro]
    end.
  Ltac rn := repeat rn_step.

  Lemma q_tag_parse_data o : tag_parse_data (r_object f o) = rfun r_tag_data (tag_parse_data o).
  Proof. unfold tag_parse_data. rn. Qed.
  Lemma q_tags o : tags_parse (r_object f o) = rfun (option_map (map r_tag_data)) (tags_parse o).
  Proof.
    unfold tags_parse. rewrite rfun_bind. apply bind_same; [reflexivity|]. intros [[i l]|]; cbn [opt_map_res]; [|reflexivity].
    rewrite (map_res_ext _ (fun s => rfun r_tag_data (let! t := nested_object P_NoteTags i o s in tag_parse_data t))).
    - rewrite map_res_fun. destruct (map_res _ l); reflexivity.
    - intro s. rewrite q_nested, bind_rfun, rfun_bind. apply rbind_ext. intro. apply q_tag_parse_data.
  Qed.
  Lemma q_text_run_data o : text_run_data_parse (r_object f o) = rfun (option_map (map (r_object f))) (text_run_data_parse o).
  Proof.
    unfold text_run_data_parse. rewrite rfun_bind. apply bind_same; [reflexivity|].
    intros [[i l]|]; cbn [opt_map_res]; [|reflexivity].
    rewrite (map_res_ext _ (fun s => rfun (r_object f) (nested_object P_TextRunData i o s))).
    - rewrite map_res_fun. destruct (map_res _ l); reflexivity.
    - intro s. apply q_nested.
  Qed.
  Lemma q_page_manifest_parse o : page_manifest_parse (r_object f o) = rfun f (page_manifest_parse o).
  Proof.
    unfold page_manifest_parse. rewrite rfun_bind. apply bind_same; [reflexivity|]. intro.
    rewrite q_objects, bind_rfun, rfun_bind. apply rbind_ext. intros [[|x l]|]; reflexivity.
  Qed.
  Ltac rn ::= repeat (lazymatch goal with
    | |- rbind (dflt [] (tags_parse (r_object _ _))) _ = _ =>
      rewrite q_tags, (q_dflt (map r_tag_data) []), bind_rfun, rfun_bind; apply rbind_ext; intro
    | |- _ => rn_step end).

  Lemma q_toc_parse o : toc_parse (r_object f o) = rfun r_toc_data (toc_parse o).
  Proof. unfold toc_parse. rn. Qed.
  Lemma q_section_node_parse o : section_node_parse (r_object f o) = rfun r_section_data (section_node_parse o).
  Proof. unfold section_node_parse. rn. Qed.
  Lemma q_section_metadata_parse o : section_metadata_parse (r_object f o) = section_metadata_parse o.
  Proof. reflexivity. Qed.
  Lemma q_page_series_node_parse o : page_series_node_parse (r_object f o) = rfun r_page_series_data (page_series_node_parse o).
  Proof. unfold page_series_node_parse. rn. Qed.
  Lemma q_page_node_parse o : page_node_parse (r_object f o) = rfun r_page_data (page_node_parse o).
  Proof. unfold page_node_parse. rn. Qed.
  Lemma q_page_metadata_parse o : page_metadata_parse (r_object f o) = page_metadata_parse o.
  Proof. reflexivity. Qed.
  Lemma q_title_node_parse o : title_node_parse (r_object f o) = rfun r_title_data (title_node_parse o).
  Proof. unfold title_node_parse. rn. Qed.
  Lemma q_embedded_file_container_parse o : embedded_file_container_parse (r_object f o) = embedded_file_container_parse o.
  Proof. reflexivity. Qed.
  Lemma q_embedded_file_node_parse o : embedded_file_node_parse (r_object f o) = rfun r_embedded_file_data (embedded_file_node_parse o).
  Proof. unfold embedded_file_node_parse. rn. Qed.
  Lemma q_picture_container_parse o : picture_container_parse (r_object f o) = picture_container_parse o.
  Proof. reflexivity. Qed.
  Lemma q_iframe_node_parse o : iframe_node_parse (r_object f o) = iframe_node_parse o.
  Proof. reflexivity. Qed.
  Lemma q_image_node_parse o : image_node_parse (r_object f o) = rfun r_image_data (image_node_parse o).
  Proof. unfold image_node_parse. rn. Qed.
  Lemma q_embedded_ink_parse o : embedded_ink_parse (r_object f o) = embedded_ink_parse o.
  Proof. reflexivity. Qed.
  Lemma q_ink_container_parse o : ink_container_parse (r_object f o) = rfun r_ink_container_data (ink_container_parse o).
  Proof. unfold ink_container_parse. rn. Qed.
  Lemma q_ink_data_node_parse o : ink_data_node_parse (r_object f o) = rfun r_ink_data (ink_data_node_parse o).
  Proof. unfold ink_data_node_parse. rn. Qed.
  Lemma q_ink_stroke_node_parse o : ink_stroke_node_parse (r_object f o) = rfun r_ink_stroke_data (ink_stroke_node_parse o).
  Proof. unfold ink_stroke_node_parse. rn. Qed.
  Lemma q_stroke_properties_parse o : stroke_properties_parse (r_object f o) = stroke_properties_parse o.
  Proof. reflexivity. Qed.
  Lemma q_math_data_parse o : math_data_parse (r_object f o) = math_data_parse o.
  Proof. reflexivity. Qed.
  Lemma q_tag_definition_parse o : tag_definition_parse (r_object f o) = tag_definition_parse o.
  Proof. reflexivity. Qed.
  Lemma q_number_list_parse o : number_list_parse (r_object f o) = number_list_parse o.
  Proof. reflexivity. Qed.
  Lemma q_style_parse o : style_parse (r_object f o) = style_parse o.
  Proof. reflexivity. Qed.
  Lemma q_rich_text_node_parse o : rich_text_node_parse (r_object f o) = rfun r_rich_text_data (rich_text_node_parse o).
  Proof. unfold rich_text_node_parse. rn. Qed.
  Lemma q_outline_element_node_parse o : outline_element_node_parse (r_object f o) = rfun r_outline_element_data (outline_element_node_parse o).
  Proof. unfold outline_element_node_parse. rn. Qed.
  Lemma q_outline_group_node_parse o : outline_group_node_parse (r_object f o) = rfun r_outline_group_data (outline_group_node_parse o).
  Proof. unfold outline_group_node_parse. rn. Qed.
  Lemma q_outline_node_parse o : outline_node_parse (r_object f o) = rfun r_outline_data (outline_node_parse o).
  Proof. unfold outline_node_parse. rn. Qed.
  Lemma q_table_cell_node_parse o : table_cell_node_parse (r_object f o) = rfun r_table_cell_data (table_cell_node_parse o).
  Proof. unfold table_cell_node_parse. rn. Qed.
  Lemma q_table_node_parse o : table_node_parse (r_object f o) = rfun r_table_data (table_node_parse o).
  Proof. unfold table_node_parse. rn. Qed.
  Lemma q_table_row_node_parse o : table_row_node_parse (r_object f o) = rfun r_table_row_data (table_row_node_parse o).
  Proof. unfold table_row_node_parse. rn. Qed.
End Nodes.
