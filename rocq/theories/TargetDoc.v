(** Reading documents and notebooks on a target (see [Target.v]). *)
From Coq Require Import Floats.SpecFloat.
From Verif Require Import Base Codec Package PropSet PropIds Store Shapes Props Nodes Doc Notebook Target.

Section On.
Context (T : target).
Local Notation prop_object_on := (prop_object_on T).
Local Notation prop_objects_on := (prop_objects_on T).
Local Notation prop_spaces_on := (prop_spaces_on T).
Local Notation nested_object_on := (nested_object_on T).
Local Notation packaging_parse_on := (packaging_parse_on T).

(** [ObjectReference::parse_vec(..)?.unwrap_or_default()] *)
Definition refs_of_on (id : N) (o : object) : res (list exguid) := dflt [] (prop_objects_on id o).

(** /repo/src/one/property_set/note_tag_container.rs:53-72 *)
Definition tag_parse_data_on (o : object) : res tag_data :=
  let! definition := prop_object_on P_NoteTagDefinitionOid o in
  let! created_at := req (time_parse P_NoteTagCreated o) in
  let! completed_at := time_parse P_NoteTagCompleted o in
  let! item_status := req (action_item_status_parse o) in
  Ok (TagData definition created_at completed_at item_status).

(** /repo/src/one/property_set/note_tag_container.rs:30-51 *)
Definition tags_parse_on (o : object) : res (option (list tag_data)) :=
  let! v := get_prop to_property_values P_NoteTags o in
  opt_map_res (fun '(prop_id, prop_sets) =>
    map_res (fun props => let! t := nested_object_on P_NoteTags prop_id o props in tag_parse_data_on t)
            prop_sets) v.

(** /repo/src/one/property_set/text_run_data.rs:12-28 *)
Definition text_run_data_parse_on (o : object) : res (option (list object)) :=
  let! v := get_prop to_property_values P_TextRunData o in
  opt_map_res (fun '(prop_id, prop_sets) =>
    map_res (nested_object_on P_TextRunData prop_id o) prop_sets) v.

(** /repo/src/one/property_set/toc_container.rs:23-40 *)
Definition toc_parse_on (o : object) : res toc_data :=
  let! _ := assert_kind K_TocContainer o in
  let! children := refs_of_on P_TocChildren o in
  let! filename := rmap (fun s => replace_caret 74 44 (replace_caret 77 43 s))
                        (prop_string P_FolderChildFilename o) in
  let! ordering_id := prop_u32 P_NotebookElementOrderingId o in
  let! col := color_parse P_SectionColor o in
  Ok (TocData children filename ordering_id col).

(** /repo/src/one/property_set/section_node.rs:24-46 *)
Definition section_node_parse_on (o : object) : res section_data :=
  let! _ := assert_kind K_SectionNode o in
  let! entity_guid := req (prop_guid P_NotebookManagementEntityGuid o) in
  let! page_series := refs_of_on P_ElementChildNodes o in
  let! created_at := req (timestamp_parse P_TopologyCreationTimeStamp o) in
  Ok (SectionData (ob_context o) entity_guid page_series created_at).

(** /repo/src/one/property_set/page_series_node.rs:26-47 *)
Definition page_series_node_parse_on (o : object) : res page_series_data :=
  let! _ := assert_kind K_PageSeriesNode o in
  let! entity_guid := req (prop_guid P_NotebookManagementEntityGuid o) in
  let! page_spaces := dflt [] (prop_spaces_on P_ChildGraphSpaceElementNodes o) in
  let! page_metadata := refs_of_on P_MetaDataObjectsAboveGraphSpace o in
  let! created_at := timestamp_parse P_TopologyCreationTimeStamp o in
  Ok (PageSeriesData entity_guid page_spaces page_metadata created_at).

(** /repo/src/one/property_set/page_node.rs:37-82 *)
Definition page_node_parse_on (o : object) : res page_data :=
  let! _ := assert_kind K_PageNode o in
  let! last_modified := time_parse P_LastModifiedTime o in
  let! cached_title := prop_string P_CachedTitleStringFromPage o in
  let! author := author_parse o in
  let! content := refs_of_on P_ElementChildNodes o in
  let! titles := refs_of_on P_StructureElementChildNodes o in
  let! portrait := flag_of P_PortraitPage o in
  let! width := prop_f32 P_PageWidth o in
  let! height := prop_f32 P_PageHeight o in
  let! origin_x := prop_f32 P_PageMarginOriginX o in
  let! origin_y := prop_f32 P_PageMarginOriginY o in
  let! m_left := prop_f32 P_PageMarginLeft o in
  let! m_right := prop_f32 P_PageMarginRight o in
  let! top := prop_f32 P_PageMarginTop o in
  let! bottom := prop_f32 P_PageMarginBottom o in
  let! size := dflt PsAuto (page_size_parse P_PageSize o) in
  let! rtl := flag_of P_EditRootRtl o in
  Ok (PageData last_modified cached_title author content (hd_error titles) portrait width height
        origin_x origin_y m_left m_right top bottom size rtl).

(** /repo/src/one/property_set/page_manifest_node.rs:19-27, [Data] is the page id. *)
Definition page_manifest_parse_on (o : object) : res exguid :=
  let! _ := assert_kind K_PageManifestNode o in
  let! ids := prop_objects_on P_ContentChildNodes o in
  ok_or MalformedOneNoteFileData (match ids with Some l => hd_error l | None => None end).

(** /repo/src/one/property_set/title_node.rs:26-61 *)
Definition title_node_parse_on (o : object) : res title_data :=
  let! _ := assert_kind K_TitleNode o in
  let! last_modified := req (time_parse P_LastModifiedTime o) in
  let! children := req (prop_objects_on P_ElementChildNodes o) in
  let! horiz := req (prop_f32 P_OffsetFromParentHoriz o) in
  let! vert := req (prop_f32 P_OffsetFromParentVert o) in
  let! in_parent := layout_alignment_parse P_LayoutAlignmentInParent o in
  let! self := layout_alignment_parse P_LayoutAlignmentSelf o in
  Ok (TitleData last_modified children horiz vert in_parent self).

(** /repo/src/one/property_set/embedded_file_node.rs:41-99 *)
Definition embedded_file_node_parse_on (o : object) : res embedded_file_data :=
  let! _ := assert_kind K_EmbeddedFileNode o in
  let! last_modified := req (time_parse P_LastModifiedTime o) in
  let! picture := prop_object_on P_PictureContainer o in
  let! max_width := prop_f32 P_LayoutMaxWidth o in
  let! max_height := prop_f32 P_LayoutMaxHeight o in
  let! by_user := flag_of P_IsLayoutSizeSetByUser o in
  let! text := prop_string P_RichEditTextUnicode o in
  let! lang := prop_u16 P_RichEditTextLangId o in
  let! in_parent := layout_alignment_parse P_LayoutAlignmentInParent o in
  let! self := layout_alignment_parse P_LayoutAlignmentSelf o in
  let! container := req (prop_object_on P_EmbeddedFileContainer o) in
  let! name := req (prop_string P_EmbeddedFileName o) in
  let! path := prop_string P_SourceFilepath o in
  let! ftype := file_type_parse o in
  let! pic_width := prop_f32 P_PictureWidth o in
  let! pic_height := prop_f32 P_PictureHeight o in
  let! horiz := prop_f32 P_OffsetFromParentHoriz o in
  let! vert := prop_f32 P_OffsetFromParentVert o in
  let! tags := dflt [] (tags_parse_on o) in
  Ok (EmbeddedFileData last_modified picture max_width max_height by_user text lang in_parent self
        container name path ftype pic_width pic_height tags horiz vert).

(** /repo/src/one/property_set/image_node.rs:42-98 *)
Definition image_node_parse_on (o : object) : res image_data :=
  let! _ := assert_kind K_ImageNode o in
  let! last_modified := time_parse P_LastModifiedTime o in
  let! picture := prop_object_on P_PictureContainer o in
  let! max_width := prop_f32 P_LayoutMaxWidth o in
  let! max_height := prop_f32 P_LayoutMaxHeight o in
  let! by_user := flag_of P_IsLayoutSizeSetByUser o in
  let! lang := prop_u32 P_LanguageId o in
  let! alt := prop_string P_ImageAltText o in
  let! in_parent := layout_alignment_parse P_LayoutAlignmentInParent o in
  let! self := layout_alignment_parse P_LayoutAlignmentSelf o in
  let! filename := prop_string P_ImageFilename o in
  let! page_no := prop_u32 P_DisplayedPageNumber o in
  let! text := prop_string P_RichEditTextUnicode o in
  let! text_lang := prop_u16 P_RichEditTextLangId o in
  let! pic_width := prop_f32 P_PictureWidth o in
  let! pic_height := prop_f32 P_PictureHeight o in
  let! url := prop_string P_WzHyperlinkUrl o in
  let! horiz := prop_f32 P_OffsetFromParentHoriz o in
  let! vert := prop_f32 P_OffsetFromParentVert o in
  let! background := flag_of P_IsBackground o in
  let! tags := dflt [] (tags_parse_on o) in
  let! iframe := refs_of_on P_ContentChildNodes o in
  Ok (ImageData last_modified picture max_width max_height by_user lang alt in_parent self filename
        page_no text text_lang pic_width pic_height url tags horiz vert background iframe).

(** /repo/src/one/property_set/ink_container.rs:20-40. The source reads
    [InkScalingX] twice. *)
Definition ink_container_parse_on (o : object) : res ink_container_data :=
  let! _ := assert_kind K_InkContainer o in
  let! last_modified := time_parse P_LastModifiedTime o in
  let! horiz := prop_f32 P_OffsetFromParentHoriz o in
  let! vert := prop_f32 P_OffsetFromParentVert o in
  let! data := prop_object_on P_InkData o in
  let! sx := prop_f32 P_InkScalingX o in
  let! sy := prop_f32 P_InkScalingX o in
  Ok (InkContainerData horiz vert last_modified data sx sy).

(** /repo/src/one/property_set/ink_data_node.rs:15-30 *)
Definition ink_data_node_parse_on (o : object) : res ink_data :=
  let! _ := assert_kind K_InkDataNode o in
  let! strokes := req (prop_objects_on P_InkStrokes o) in
  let! box := prop_vec_u32 P_InkBoundingBox o in
  Ok (InkData strokes (match box with
                       | Some [a; b; c; d] => Some (a, b, c, d)
                       | _ => None
                       end)).

(** /repo/src/one/property_set/ink_stroke_node.rs:24-62 *)
Definition ink_stroke_node_parse_on (o : object) : res ink_stroke_data :=
  let! _ := assert_kind K_InkStrokeNode o in
  let! path := req (let! d := prop_vec P_InkPath o in opt_map_res decode_signed d) in
  let! bias := req (let! b := prop_u8 P_InkBias o in opt_map_res ink_bias_of b) in
  let! lang := prop_u32 P_LanguageId o in
  let! properties := req (prop_object_on P_InkStrokeProperties o) in
  Ok (InkStrokeData path bias lang properties).

(** /repo/src/one/property_set/rich_text_node.rs:42-113 *)
Definition rich_text_node_parse_on (o : object) : res rich_text_data :=
  let! _ := assert_kind K_RichTextNode o in
  let! last_modified := req (time_parse P_LastModifiedTime o) in
  let! tight := flag_of P_LayoutTightLayout o in
  let! formatting := refs_of_on P_TextRunFormatting o in
  let! indices := dflt [] (prop_vec_u32 P_TextRunIndex o) in
  let! data_object := refs_of_on P_TextRunDataObject o in
  let! style := req (prop_object_on P_ParagraphStyle o) in
  let! before := dflt 0 (prop_f32 P_ParagraphSpaceBefore o) in
  let! after := dflt 0 (prop_f32 P_ParagraphSpaceAfter o) in
  let! exact_ := prop_f32 P_ParagraphLineSpacingExact o in
  let! alignment := dflt PaLeft (paragraph_alignment_parse o) in
  let! unicode := prop_string P_RichEditTextUnicode o in
  let! text := match unicode with
               | None => prop_ascii P_TextExtendedAscii o
               | t => Ok t
               end in
  let! in_parent := layout_alignment_parse P_LayoutAlignmentInParent o in
  let! self := layout_alignment_parse P_LayoutAlignmentSelf o in
  let! title_time := flag_of P_IsTitleTime o in
  let! boiler := flag_of P_IsBoilerText o in
  let! title_date := flag_of P_IsTitleDate o in
  let! title_text := flag_of P_IsTitleText o in
  let! lang := prop_u16 P_RichEditTextLangId o in
  let! rtl := flag_of P_ReadingOrderRtl o in
  let! tags := dflt [] (tags_parse_on o) in
  Ok (RichTextData last_modified tight formatting indices data_object style before after exact_
        alignment text title_time boiler title_date title_text in_parent self lang rtl tags).

(** /repo/src/one/property_set/outline_element_node.rs:32-84 *)
Definition outline_element_node_parse_on (o : object) : res outline_element_data :=
  let! _ := assert_kind K_OutlineElementNode o in
  let! created_at := req (time_parse P_CreationTimeStamp o) in
  let! last_modified := req (time_parse P_LastModifiedTime o) in
  let! children := refs_of_on P_ElementChildNodes o in
  let! level := req (prop_u8 P_OutlineElementChildLevel o) in
  let! contents := refs_of_on P_ContentChildNodes o in
  let! lists := refs_of_on P_ListNodes o in
  let! spacing := prop_f32 P_ListSpacingMu o in
  let! author := req (prop_object_on P_AuthorOriginal o) in
  let! recent := req (prop_object_on P_AuthorMostRecent o) in
  let! rtl := flag_of P_OutlineElementRtl o in
  let! deletable := flag_of P_Deletable o in
  let! selectable := dflt false (rmap negb (prop_bool P_CannotBeSelected o)) in
  let! title := flag_of P_IsTitleText o in
  Ok (OutlineElementData created_at last_modified children level contents lists spacing author
        recent rtl deletable selectable title).

(** /repo/src/one/property_set/outline_group.rs:22-42 *)
Definition outline_group_node_parse_on (o : object) : res outline_group_data :=
  let! _ := assert_kind K_OutlineGroup o in
  let! last_modified := req (time_parse P_LastModifiedTime o) in
  let! children := refs_of_on P_ElementChildNodes o in
  let! level := req (prop_u8 P_OutlineElementChildLevel o) in
  Ok (OutlineGroupData last_modified children level).

(** /repo/src/one/property_set/outline_node.rs:43-116 *)
Definition outline_node_parse_on (o : object) : res outline_data :=
  let! _ := assert_kind K_OutlineNode o in
  let! last_modified := req (time_parse P_LastModifiedTime o) in
  let! children := refs_of_on P_ElementChildNodes o in
  let! level := req (prop_u8 P_OutlineElementChildLevel o) in
  let! max_height := prop_f32 P_LayoutMaxHeight o in
  let! reserved := prop_f32 P_LayoutOutlineReservedWidth o in
  let! minimum := prop_f32 P_LayoutMinimumOutlineWidth o in
  let! max_width := prop_f32 P_LayoutMaxWidth o in
  let! tight_alignment := flag_of P_LayoutTightAlignment o in
  let! by_user := flag_of P_IsLayoutSizeSetByUser o in
  let! spacing := prop_f32 P_ListSpacingMu o in
  let! indents := req (indent_distance_parse o) in
  let! horiz := prop_f32 P_OffsetFromParentHoriz o in
  let! vert := prop_f32 P_OffsetFromParentVert o in
  let! in_parent := layout_alignment_parse P_LayoutAlignmentInParent o in
  let! self := layout_alignment_parse P_LayoutAlignmentSelf o in
  let! deletable := flag_of P_Deletable o in
  let! title_date := flag_of P_IsTitleDate o in
  let! selectable := dflt true (rmap negb (prop_bool P_CannotBeSelected o)) in
  let! title_text := flag_of P_IsTitleText o in
  let! read_only := flag_of P_IsReadOnly o in
  let! fixed := flag_of P_DescendantsCannotBeMoved o in
  let! tight := flag_of P_LayoutTightLayout o in
  Ok (OutlineData last_modified children level max_height max_width reserved minimum
        tight_alignment by_user horiz vert spacing indents in_parent self deletable title_date
        selectable title_text read_only fixed tight).

(** /repo/src/one/property_set/table_cell_node.rs:26-47 *)
Definition table_cell_node_parse_on (o : object) : res table_cell_data :=
  let! _ := assert_kind K_TableCellNode o in
  let! last_modified := time_parse P_LastModifiedTime o in
  let! contents := req (prop_objects_on P_ElementChildNodes o) in
  let! max_width := prop_f32 P_LayoutMaxWidth o in
  let! indents := req (indent_distance_parse o) in
  let! col := color_parse P_CellBackgroundColor o in
  Ok (TableCellData last_modified contents max_width indents col).

(** /repo/src/one/property_set/table_node.rs:31-79 *)
Definition table_node_parse_on (o : object) : res table_data :=
  let! _ := assert_kind K_TableNode o in
  let! last_modified := req (time_parse P_LastModifiedTime o) in
  let! rows := req (prop_objects_on P_ElementChildNodes o) in
  let! row_count := req (prop_u32 P_RowCount o) in
  let! col_count := req (prop_u32 P_ColumnCount o) in
  let! locked := dflt [] (rmap (skip 1) (prop_vec P_TableColumnsLocked o)) in
  let! widths := dflt [] (rmap (fun d => u32_chunks (skip 1 d)) (prop_vec P_TableColumnWidths o)) in
  let! borders := dflt true (prop_bool P_TableBordersVisible o) in
  let! in_parent := layout_alignment_parse P_LayoutAlignmentInParent o in
  let! self := layout_alignment_parse P_LayoutAlignmentSelf o in
  let! tags := dflt [] (tags_parse_on o) in
  Ok (TableData last_modified rows row_count col_count locked widths borders in_parent self tags).

(** /repo/src/one/property_set/table_row_node.rs:21-32 *)
Definition table_row_node_parse_on (o : object) : res table_row_data :=
  let! _ := assert_kind K_TableRowNode o in
  let! last_modified := time_parse P_LastModifiedTime o in
  let! cells := req (prop_objects_on P_ElementChildNodes o) in
  Ok (TableRowData last_modified cells).

(** /repo/src/onenote/embedded_file.rs:94-118 *)
Definition parse_embedded_file_on (id : exguid) (sp : space) : res embedded_file :=
  let! o := need_object id sp in
  let! node := embedded_file_node_parse_on o in
  let! co := need_object (ef_container node) sp in
  let! data := embedded_file_container_parse co in
  let! tags := note_tags (ef_note_tags node) sp in
  Ok (EmbeddedFile (ef_name node) (ef_file_type node) data (ef_layout_max_width node)
        (ef_layout_max_height node) (ef_offset_horiz node) (ef_offset_vert node) tags).

(** /repo/src/onenote/image.rs:199-251 *)
Definition parse_image_on (id : exguid) (sp : space) : res image :=
  let! o := need_object id sp in
  let! node := image_node_parse_on o in
  let! co := opt_map_res (fun cid => need_object cid sp) (im_picture_container node) in
  let! cd := opt_map_res picture_container_parse co in
  let! embeds := map_res (fun i => parse_iframe i sp) (im_iframe node) in
  let! tags := note_tags (im_note_tags node) sp in
  Ok (Image (option_map pc_data cd) (match cd with Some d => pc_extension d | None => None end)
        (im_layout_max_width node) (im_layout_max_height node) (im_alt_text node)
        (im_alignment_in_parent node) (im_alignment_self node) (im_filename node)
        (im_displayed_page_number node) (im_text node) (im_text_language_code node)
        (im_picture_width node) (im_picture_height node) (im_hyperlink_url node)
        (im_offset_horiz node) (im_offset_vert node) (im_is_background node) tags embeds).

(** /repo/src/onenote/ink.rs:233-259 *)
Definition parse_ink_stroke_on (id : exguid) (sp : space) (sx sy : option N) : res ink_stroke :=
  let! o := need_object id sp in
  let! data := ink_stroke_node_parse_on o in
  let! po := need_object (ss_properties data) sp in
  let! props := stroke_properties_parse po in
  let! path := parse_ink_path (ss_path data) props sx sy in
  Ok (InkStroke path (sp_pen_tip props) (sp_transparency props) (sp_height props) (sp_width props)
                (sp_color props)).

(** /repo/src/onenote/ink.rs:200-231 *)
Definition parse_ink_data_on (id : exguid) (sp : space) (sx sy : option N)
  : res (list ink_stroke * option ink_box) :=
  let! o := need_object id sp in
  let! d := ink_data_node_parse_on o in
  let! strokes := map_res (fun i => parse_ink_stroke_on i sp sx sy) (ik_strokes d) in
  let box '(x_min, y_min, x_max, y_max) :=
    let f n := f32_of_Z (Z.of_N n) in
    InkBox (f32_mul (f x_min) (scale_of sx))
           (f32_mul (f y_min) (scale_of sy))
           (f32_mul (f32_sub (f y_max) (f y_min)) (scale_of sy))
           (f32_mul (f32_sub (f x_max) (f x_min)) (scale_of sx)) in
  Ok (strokes, option_map box (ik_bounding_box d)).

(** /repo/src/onenote/ink.rs:167-198 *)
Definition parse_ink_on (id : exguid) (sp : space) : res ink :=
  let! o := need_object id sp in
  let! c := ink_container_parse_on o in
  match ic_ink_data c with
  | None => Ok (Ink [] None (ic_offset_horiz c) (ic_offset_vert c))
  | Some did =>
    let! (strokes, box) := parse_ink_data_on did sp (ic_scaling_x c) (ic_scaling_y c) in
    Ok (Ink strokes box (ic_offset_horiz c) (ic_offset_vert c))
  end.

(** /repo/src/onenote/rich_text.rs:504-534 *)
Definition parse_embedded_ink_on (id : exguid) (sp : space) (d : embedded_ink_data)
  : res embedded_object :=
  let! (strokes, bb) := parse_ink_data_on id sp None None in
  let box := option_map (fun '(((x, y), height), width) => StoredBox x y height width)
               (ozip (ozip (ozip (ei_start_x d) (ei_start_y d)) (ei_height d)) (ei_width d)) in
  Ok (EoInk (Ink strokes bb (ei_offset_horiz d) (ei_offset_vert d)) box).

(** /repo/src/onenote/rich_text.rs:441-471: [i] enumerates the objects, [skipped]
    is [objects_without_ref]. [i - skipped] does not underflow. An index out of
    range panics. *)
Fixpoint embedded_objects_on (sp : space) (refs : list exguid) (i skipped : N)
         (objs : list (option N * embedded_ink_data)) : res (list (option embedded_object)) :=
  match objs with
  | [] => Ok []
  | (ty, d) :: rest =>
    match ty with
    | None =>
      let! x := match refs with
                | [] => Ok None
                | _ =>
                  match nth_error refs (N.to_nat (i - skipped)) with
                  | None => Panic
                  | Some id => let! e := parse_embedded_ink_on id sp d in Ok (Some e)
                  end
                end in
      let! xs := embedded_objects_on sp refs (i + 1) skipped rest in
      Ok (x :: xs)
    | Some t =>
      let! x := if t =? ink_end_of_line_blob then Ok (Some EoInkLineBreak)
                else if t =? ink_space_blob then let! e := parse_ink_space d in Ok (Some e)
                else Err MalformedOneNoteFileData in
      let! xs := embedded_objects_on sp refs (i + 1) (skipped + 1) rest in
      Ok (x :: xs)
    end
  end.

(** /repo/src/onenote/rich_text.rs:375-502 *)
Definition parse_rich_text_on (id : exguid) (sp : space) : res rich_text :=
  let! o := need_object id sp in
  let! data := rich_text_node_parse_on o in
  let! pso := need_object (rt_paragraph_style data) sp in
  let! psd := style_parse pso in
  let! styles := map_res (fun sid => let! so := need_object sid sp in style_parse so)
                         (rt_run_formatting data) in
  let! runs := dflt [] (text_run_data_parse_on o) in
  let! math := map_res (fun '(run, style) =>
                 if sy_math_formatting style then
                   let! d := math_data_parse run in
                   let! m := parse_math_object d in Ok (Some m)
                 else Ok None) (combine runs styles) in
  let! objs := map_res (fun '(run, style) =>
                 if sy_is_embedded_object style then
                   let! d := embedded_ink_parse run in Ok (Some (sy_object_type style, d))
                 else Ok None) (combine runs styles) in
  let! embedded := embedded_objects_on sp (rt_run_data_object data) 0 0 (flatten objs) in
  let embedded := flatten embedded in
  let text := match embedded with
              | [] => match rt_text data with Some t => t | None => [] end
              | _ => []
              end in
  let! tags := note_tags (rt_note_tags data) sp in
  Ok (RichText text (map parse_style styles) (rt_run_indices data) (parse_style psd)
        (rt_space_before data) (rt_space_after data) (rt_line_spacing_exact data)
        (rt_paragraph_alignment data) (rt_alignment_in_parent data) (rt_alignment_self data) tags
        embedded (flatten math)).

(** /repo/src/onenote/table.rs:211-231; [element] is [parse_outline_element]. *)
Definition parse_cell_on (element : exguid -> res outline_element) (id : exguid) (sp : space)
  : res table_cell :=
  let! o := need_object id sp in
  let! d := table_cell_node_parse_on o in
  let! contents := map_res element (ce_contents d) in
  Ok (TableCell contents (ce_background_color d) (ce_layout_max_width d) (ce_indent_distance d)).

(** /repo/src/onenote/table.rs:194-209 *)
Definition parse_row_on (element : exguid -> res outline_element) (id : exguid) (sp : space)
  : res table_row :=
  let! o := need_object id sp in
  let! d := table_row_node_parse_on o in
  let! contents := map_res (fun i => parse_cell_on element i sp) (ro_cells d) in
  Ok (TableRow contents).

(** /repo/src/onenote/table.rs:167-192 *)
Definition parse_table_on (element : exguid -> res outline_element) (id : exguid) (sp : space)
  : res table :=
  let! o := need_object id sp in
  let! d := table_node_parse_on o in
  let! contents := map_res (fun i => parse_row_on element i sp) (ta_rows d) in
  let! tags := note_tags (ta_note_tags d) sp in
  Ok (Table (ta_row_count d) (ta_col_count d) contents (ta_cols_locked d) (ta_col_widths d)
        (ta_borders_visible d) (ta_alignment_in_parent d) (ta_alignment_self d) tags).

(** /repo/src/onenote/outline.rs:290-335 ([parse_outline_item],
    [parse_outline_group]), 337-373 ([parse_outline_element]) and
    /repo/src/onenote/content.rs:80-103 ([parse_content]). *)
Fixpoint parse_outline_item_on (fuel : nat) (sp : space) (id : exguid) : res outline_item :=
  match fuel with
  | O => OutOfFuel
  | S f =>
    let! o := need_object id sp in
    let! k := need_kind o in
    match k with
    | K_OutlineGroup =>
      let! go := need_object id sp in
      let! d := outline_group_node_parse_on go in
      let! outlines := map_res (parse_outline_item_on f sp) (gr_children d) in
      Ok (ItemGroup (gr_child_level d) outlines)
    | K_OutlineElementNode =>
      let! e := parse_outline_element_on f sp id in Ok (ItemElement e)
    | _ => Err MalformedOneNoteData
    end
  end
with parse_outline_element_on (fuel : nat) (sp : space) (id : exguid) : res outline_element :=
  match fuel with
  | O => OutOfFuel
  | S f =>
    let! o := need_object id sp in
    let! d := outline_element_node_parse_on o in
    let! children := map_res (parse_outline_item_on f sp) (oe_children d) in
    let! contents := map_res (parse_content_on f sp) (oe_contents d) in
    let! lists := map_res (fun i => parse_list i sp) (oe_list_contents d) in
    Ok (OutlineElement contents lists (oe_list_spacing d) (oe_child_level d) children)
  end
with parse_content_on (fuel : nat) (sp : space) (id : exguid) : res content :=
  match fuel with
  | O => OutOfFuel
  | S f =>
    let! o := need_object id sp in
    let! k := need_kind o in
    match k with
    | K_ImageNode => let! x := parse_image_on id sp in Ok (CoImage x)
    | K_EmbeddedFileNode => let! x := parse_embedded_file_on id sp in Ok (CoEmbeddedFile x)
    | K_RichTextNode => let! x := parse_rich_text_on id sp in Ok (CoRichText x)
    | K_TableNode => let! x := parse_table_on (parse_outline_element_on f sp) id sp in Ok (CoTable x)
    | K_InkContainer => let! x := parse_ink_on id sp in Ok (CoInk x)
    | _ => Ok CoUnknown
    end
  end.

(** /repo/src/onenote/outline.rs:259-288 *)
Definition parse_outline_on (fuel : nat) (sp : space) (id : exguid) : res outline :=
  let! o := need_object id sp in
  let! d := outline_node_parse_on o in
  let! items := map_res (parse_outline_item_on fuel sp) (ou_children d) in
  Ok (Outline (ou_child_level d) (ou_list_spacing d) (ou_indent_distance d)
        (ou_alignment_in_parent d) (ou_alignment_self d) (ou_layout_max_height d)
        (ou_layout_max_width d) (ou_layout_reserved_width d) (ou_layout_minimum_outline_width d)
        (ou_is_layout_size_set_by_user d) (ou_offset_horiz d) (ou_offset_vert d) items).

(** /repo/src/onenote/page_content.rs:63-85 *)
Definition parse_page_content_on (fuel : nat) (sp : space) (id : exguid) : res page_content :=
  let! o := need_object id sp in
  let! k := need_kind o in
  match k with
  | K_ImageNode => let! x := parse_image_on id sp in Ok (PcImage x)
  | K_EmbeddedFileNode => let! x := parse_embedded_file_on id sp in Ok (PcEmbeddedFile x)
  | K_OutlineNode => let! x := parse_outline_on fuel sp id in Ok (PcOutline x)
  | K_InkContainer => let! x := parse_ink_on id sp in Ok (PcInk x)
  | _ => Ok PcUnknown
  end.

(** /repo/src/onenote/page.rs:175-193 *)
Definition parse_title_on (fuel : nat) (sp : space) (id : exguid) : res title :=
  let! o := need_object id sp in
  let! d := title_node_parse_on o in
  let! contents := map_res (parse_outline_on fuel sp) (tn_children d) in
  Ok (Title contents (tn_offset_horizontal d) (tn_offset_vertical d) (tn_alignment_in_parent d)
        (tn_alignment_self d)).

(** /repo/src/onenote/page.rs:204-213 *)
Definition page_manifest_on (sp : space) : res exguid :=
  let! id := ok_or MalformedOneNoteData (content_root sp) in
  let! o := need_object id sp in
  page_manifest_parse_on o.

(** /repo/src/onenote/page.rs:195-202 *)
Definition page_node_on (manifest : exguid) (sp : space) : res page_data :=
  let! o := need_object manifest sp in
  page_node_parse_on o.

(** /repo/src/onenote/page.rs:148-173 *)
Definition parse_page_on (fuel : nat) (sp : space) : res page :=
  let! metadata := page_metadata sp in
  let! manifest := page_manifest_on sp in
  let! data := page_node_on manifest sp in
  let! title := opt_map_res (parse_title_on fuel sp) (pd_title data) in
  let! contents := map_res (parse_page_content_on fuel sp) (pd_content data) in
  Ok (Page title (pm_page_level metadata) (pd_author data) (pd_page_height data) contents).

(** /repo/src/onenote/page_series.rs:14-44, [PageSeries] is its pages. Collecting
    stops at the first page that fails, before the next space is looked up. *)
Definition parse_page_series_on (fuel : nat) (st : store) (id : exguid) : res (list page) :=
  let! o := need_object id (st_data_root st) in
  let! d := page_series_node_parse_on o in
  map_res (fun cell =>
    let! sp := ok_or MalformedOneNoteData (object_space st cell) in
    parse_page_on fuel sp) (pn_page_spaces d).

(** /repo/src/onenote/section.rs:88-97 *)
Definition section_content_on (sp : space) : res section_data :=
  let! id := ok_or MalformedOneNoteData (content_root sp) in
  let! o := need_object id sp in
  section_node_parse_on o.

(** /repo/src/onenote/section.rs:65-86 *)
Definition parse_section_on (fuel : nat) (st : store) (filename : list N) : res section :=
  let! metadata := section_metadata (st_data_root st) in
  let! content := section_content_on (st_data_root st) in
  let name := trim_one (match sm_display_name metadata with Some n => n | None => filename end) in
  let! series := map_res (parse_page_series_on fuel st) (sn_page_series content) in
  Ok (Section_ name series (sm_color metadata)).

(** /repo/src/onenote/notebook.rs:50-81 *)
Fixpoint parse_toc_entry_on (fuel : nat) (sp : space) (id : exguid) : res toc_entry :=
  match fuel with
  | O => OutOfFuel
  | S f =>
    let! o := need_object id sp in
    let! toc := toc_parse_on o in
    match tc_filename toc with
    | Some name =>
      let! ordering := ok_or MalformedOneNoteData (tc_ordering_id toc) in
      Ok (TocEntry [(ordering, name)] (tc_color toc))
    | None =>
      let! children := map_res (parse_toc_entry_on f sp) (tc_children toc) in
      Ok (TocEntry (flat_map te_entries children) (tc_color toc))
    end
  end.

(** /repo/src/onenote/notebook.rs:33-48 *)
Definition parse_toc_on (fuel : nat) (sp : space) : res (list name * option color) :=
  let! id := ok_or MalformedOneNoteData (content_root sp) in
  let! e := parse_toc_entry_on fuel sp id in
  Ok (map snd (dedup (sorted_by_key (te_entries e))), te_color e).

(** /repo/src/onenote/mod.rs:62-63, 108-109, 130-131: from bytes to a store. *)
Definition open_store_on (h : order) (fuel : nat) (data : list N) : res store :=
  let! pg := run packaging_parse_on data in parse_store h fuel pg.

(** /repo/src/onenote/mod.rs:107-119 *)
Definition parse_section_buffer_on (h : order) (fuel : nat) (data : list N) (file_name : name)
  : res section :=
  let! st := open_store_on h fuel data in
  if st_schema st =? section_schema then parse_section_on fuel st file_name
  else Err NotASectionFile.

(** /repo/src/onenote/mod.rs:128-150, 185-193 *)
Definition parse_section_file_on (h : order) (fuel : nat) (fs : filesystem) (p : path)
  : res section :=
  let! data := ok_or IO (fs_read fs p) in
  let! st := open_store_on h fuel data in
  if st_schema st =? section_schema then
    let! n := ok_or InvalidPath (file_name p) in
    parse_section_on fuel st n
  else Err NotASectionFile.

(** /repo/src/onenote/mod.rs:59-98 ([parse_notebook]) with 152-183
    ([parse_section_group]). [depth] bounds the nesting of section groups. *)
Fixpoint parse_notebook_on (sanitise : name -> name) (h : order) (depth fuel : nat)
         (fs : filesystem) (p : path) : res notebook :=
  match depth with
  | O => OutOfFuel
  | S d =>
    let! data := ok_or IO (fs_read fs p) in
    let! st := open_store_on h fuel data in
    if st_schema st =? toc_schema then
      let! base_dir := ok_or InvalidPath (parent p) in
      let! (names, color) := parse_toc_on fuel (st_data_root st) in
      let! paths := map_res (resolve_entry_path sanitise fs base_dir) names in
      let paths := filter (fun p => negb (is_recycle_bin p)) (filter (fs_exists fs) paths) in
      let! entries := map_res (fun p =>
        if fs_is_file fs p then
          let! s := parse_section_file_on h fuel fs p in Ok (EnSection s)
        else
          let! display_name := ok_or InvalidPath (file_name p) in
          let! files := ok_or IO (fs_read_dir fs p) in
          let! toc := find_toc files in
          let! group := parse_notebook_on sanitise h d fuel fs (p ++ [Normal toc]) in
          Ok (EnGroup display_name (nb_entries group))) paths in
      Ok (Notebook_ entries color)
    else Err NotATocFile
  end.

End On.
