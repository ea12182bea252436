(** Node parsers: one record and one parser per kind of object. Models
    /repo/src/one/property_set/*.rs. The order in which properties are read is the
    order of the source. Strings are lists of Unicode scalar values, floats are
    kept as their 32 bits. *)
From Verif Require Import Base Codec Package PropSet PropIds Store Shapes Props.

(** /repo/src/one/property_set/mod.rs:46-79, [PropertySetId]. *)
Inductive node_kind :=
| K_AuthorContainer
| K_EmbeddedFileContainer
| K_EmbeddedFileNode
| K_ImageNode
| K_NoteTagSharedDefinitionContainer
| K_NumberListNode
| K_OutlineElementNode
| K_OutlineGroup
| K_OutlineNode
| K_PageManifestNode
| K_PageMetadata
| K_PageNode
| K_PageSeriesNode
| K_ParagraphStyleObject
| K_PictureContainer
| K_RevisionMetadata
| K_RichTextNode
| K_SectionMetadata
| K_SectionNode
| K_TableCellNode
| K_TableNode
| K_TableRowNode
| K_TitleNode
| K_TocContainer
| K_XpsContainer
| K_InkContainer
| K_InkDataNode
| K_InkStrokeNode
| K_StrokePropertiesNode
| K_IFrameNode.

(** /repo/src/one/property_set/mod.rs:82-84, [as_jcid] *)
Definition kind_jcid (k : node_kind) : N :=
  match k with
  | K_AuthorContainer => 0x00120001
  | K_EmbeddedFileContainer => 0x00080036
  | K_EmbeddedFileNode => 0x00060035
  | K_ImageNode => 0x00060011
  | K_NoteTagSharedDefinitionContainer => 0x00120043
  | K_NumberListNode => 0x00060012
  | K_OutlineElementNode => 0x0006000D
  | K_OutlineGroup => 0x00060019
  | K_OutlineNode => 0x0006000C
  | K_PageManifestNode => 0x00060037
  | K_PageMetadata => 0x00020030
  | K_PageNode => 0x0006000B
  | K_PageSeriesNode => 0x00060008
  | K_ParagraphStyleObject => 0x0012004D
  | K_PictureContainer => 0x00080039
  | K_RevisionMetadata => 0x00020044
  | K_RichTextNode => 0x0006000E
  | K_SectionMetadata => 0x00020031
  | K_SectionNode => 0x00060007
  | K_TableCellNode => 0x00060024
  | K_TableNode => 0x00060022
  | K_TableRowNode => 0x00060023
  | K_TitleNode => 0x0006002C
  | K_TocContainer => 0x00020001
  | K_XpsContainer => 0x0008003A
  | K_InkContainer => 0x00060014
  | K_InkDataNode => 0x0002003B
  | K_InkStrokeNode => 0x00020047
  | K_StrokePropertiesNode => 0x00120048
  | K_IFrameNode => 0x00060058
  end.

(** /repo/src/one/property_set/mod.rs:86-88, [from_jcid] (the derived [from_u32]) *)
Definition kind_of_jcid (n : N) : option node_kind :=
  match n with
  | 0x00120001 => Some K_AuthorContainer
  | 0x00080036 => Some K_EmbeddedFileContainer
  | 0x00060035 => Some K_EmbeddedFileNode
  | 0x00060011 => Some K_ImageNode
  | 0x00120043 => Some K_NoteTagSharedDefinitionContainer
  | 0x00060012 => Some K_NumberListNode
  | 0x0006000D => Some K_OutlineElementNode
  | 0x00060019 => Some K_OutlineGroup
  | 0x0006000C => Some K_OutlineNode
  | 0x00060037 => Some K_PageManifestNode
  | 0x00020030 => Some K_PageMetadata
  | 0x0006000B => Some K_PageNode
  | 0x00060008 => Some K_PageSeriesNode
  | 0x0012004D => Some K_ParagraphStyleObject
  | 0x00080039 => Some K_PictureContainer
  | 0x00020044 => Some K_RevisionMetadata
  | 0x0006000E => Some K_RichTextNode
  | 0x00020031 => Some K_SectionMetadata
  | 0x00060007 => Some K_SectionNode
  | 0x00060024 => Some K_TableCellNode
  | 0x00060022 => Some K_TableNode
  | 0x00060023 => Some K_TableRowNode
  | 0x0006002C => Some K_TitleNode
  | 0x00020001 => Some K_TocContainer
  | 0x0008003A => Some K_XpsContainer
  | 0x00060014 => Some K_InkContainer
  | 0x0002003B => Some K_InkDataNode
  | 0x00020047 => Some K_InkStrokeNode
  | 0x00120048 => Some K_StrokePropertiesNode
  | 0x00060058 => Some K_IFrameNode
  | _ => None
  end.

(** /repo/src/one/property_set/mod.rs:91-100 *)
Definition assert_kind (k : node_kind) (o : object) : res unit :=
  if ob_jcid o =? kind_jcid k then Ok tt else Err MalformedOneNoteFileData.

(** [parse(..)?.ok_or_else(|| MalformedOneNoteFileData)?] *)
Definition req {A} (r : res (option A)) : res A :=
  let! v := r in ok_or MalformedOneNoteFileData v.
(** [parse(..)?.unwrap_or(d)] *)
Definition dflt {A} (d : A) (r : res (option A)) : res A :=
  let! v := r in Ok (match v with Some x => x | None => d end).
(** [parse_bool(..)?.unwrap_or_default()] *)
Definition flag_of (id : N) (o : object) : res bool := dflt false (prop_bool id o).
(** [ObjectReference::parse_vec(..)?.unwrap_or_default()] *)
Definition refs_of (id : N) (o : object) : res (list exguid) := dflt [] (prop_objects id o).

(** ** Property sets inside a property: tags and text runs *)

(** /repo/src/one/property_set/note_tag_container.rs:74-116 and
    /repo/src/one/property_set/text_run_data.rs:30-75, [parse_object] of both: the
    properties of one nested set as an object of its own. [prop] is the property
    holding the sets. The object-space ids are taken from the parent's object ids,
    as in the source. *)
Definition nested_object (prop id : N) (o : object) (props : propset) : res object :=
  let values := map (fun e => snd (snd e)) props in
  let! off := object_offset prop o in
  let oids := take (sumN count_object_refs values) (skip off (op_object_ids (ob_props o))) in
  let! soff := space_offset prop o in
  let sids := take (sumN count_space_refs values) (skip soff (op_object_ids (ob_props o))) in
  Ok (Object (ob_context o) id (OProps oids sids [] props) None (ob_mapping o)).

(** /repo/src/one/property_set/note_tag_container.rs:22-27 *)
Record tag_data := TagData {
  tg_definition : option exguid;
  tg_created_at : N;
  tg_completed_at : option N;
  tg_item_status : action_item_status }.

(** /repo/src/one/property_set/note_tag_container.rs:53-72 *)
Definition tag_parse_data (o : object) : res tag_data :=
  let! definition := prop_object P_NoteTagDefinitionOid o in
  let! created_at := req (time_parse P_NoteTagCreated o) in
  let! completed_at := time_parse P_NoteTagCompleted o in
  let! item_status := req (action_item_status_parse o) in
  Ok (TagData definition created_at completed_at item_status).

(** /repo/src/one/property_set/note_tag_container.rs:30-51 *)
Definition tags_parse (o : object) : res (option (list tag_data)) :=
  let! v := get_prop to_property_values P_NoteTags o in
  opt_map_res (fun '(prop_id, prop_sets) =>
    map_res (fun props => let! t := nested_object P_NoteTags prop_id o props in tag_parse_data t)
            prop_sets) v.

(** /repo/src/one/property_set/text_run_data.rs:12-28 *)
Definition text_run_data_parse (o : object) : res (option (list object)) :=
  let! v := get_prop to_property_values P_TextRunData o in
  opt_map_res (fun '(prop_id, prop_sets) =>
    map_res (nested_object P_TextRunData prop_id o) prop_sets) v.

(** ** Sections and pages *)

(** [s.replace("^M", "+")]: toc_container.rs:29 *)
Fixpoint replace_caret (c by_ : N) (s : list N) : list N :=
  match s with
  | a :: ((b :: r) as s') =>
    if (a =? 94) && (b =? c) then by_ :: replace_caret c by_ r else a :: replace_caret c by_ s'
  | _ => s
  end.

(** /repo/src/one/property_set/toc_container.rs:16-21 *)
Record toc_data := TocData {
  tc_children : list exguid;
  tc_filename : option (list N);
  tc_ordering_id : option N;
  tc_color : option color }.

(** /repo/src/one/property_set/toc_container.rs:23-40 *)
Definition toc_parse (o : object) : res toc_data :=
  let! _ := assert_kind K_TocContainer o in
  let! children := refs_of P_TocChildren o in
  let! filename := rmap (fun s => replace_caret 74 44 (replace_caret 77 43 s))
                        (prop_string P_FolderChildFilename o) in
  let! ordering_id := prop_u32 P_NotebookElementOrderingId o in
  let! col := color_parse P_SectionColor o in
  Ok (TocData children filename ordering_id col).

(** /repo/src/one/property_set/section_node.rs:17-22 *)
Record section_data := SectionData {
  sn_context_id : exguid;
  sn_entity_guid : guid;
  sn_page_series : list exguid;
  sn_created_at : N }.

(** /repo/src/one/property_set/section_node.rs:24-46 *)
Definition section_node_parse (o : object) : res section_data :=
  let! _ := assert_kind K_SectionNode o in
  let! entity_guid := req (prop_guid P_NotebookManagementEntityGuid o) in
  let! page_series := refs_of P_ElementChildNodes o in
  let! created_at := req (timestamp_parse P_TopologyCreationTimeStamp o) in
  Ok (SectionData (ob_context o) entity_guid page_series created_at).

(** /repo/src/one/property_set/section_metadata_node.rs:14-19 *)
Record section_meta_data := SectionMetaData {
  sm_schema_read : N;
  sm_schema_write : N;
  sm_display_name : option (list N);
  sm_color : option color }.

(** /repo/src/one/property_set/section_metadata_node.rs:21-50 *)
Definition section_metadata_parse (o : object) : res section_meta_data :=
  let! _ := assert_kind K_SectionMetadata o in
  let! r := req (prop_u32 P_SchemaRevisionInOrderToRead o) in
  let! w := req (prop_u32 P_SchemaRevisionInOrderToWrite o) in
  let! display_name := prop_string P_SectionDisplayName o in
  let! col := color_parse P_SectionColor o in
  Ok (SectionMetaData r w display_name col).

(** /repo/src/one/property_set/page_series_node.rs:19-24 *)
Record page_series_data := PageSeriesData {
  pn_entity_guid : guid;
  pn_page_spaces : list cellid;
  pn_page_metadata : list exguid;
  pn_created_at : option N }.

(** /repo/src/one/property_set/page_series_node.rs:26-47 *)
Definition page_series_node_parse (o : object) : res page_series_data :=
  let! _ := assert_kind K_PageSeriesNode o in
  let! entity_guid := req (prop_guid P_NotebookManagementEntityGuid o) in
  let! page_spaces := dflt [] (prop_spaces P_ChildGraphSpaceElementNodes o) in
  let! page_metadata := refs_of P_MetaDataObjectsAboveGraphSpace o in
  let! created_at := timestamp_parse P_TopologyCreationTimeStamp o in
  Ok (PageSeriesData entity_guid page_spaces page_metadata created_at).

(** /repo/src/one/property_set/page_node.rs:18-35 *)
Record page_data := PageData {
  pd_last_modified : option N;
  pd_cached_title : option (list N);
  pd_author : option (list N);
  pd_content : list exguid;
  pd_title : option exguid;
  pd_orientation_portrait : bool;
  pd_page_width : option N;
  pd_page_height : option N;
  pd_margin_origin_x : option N;
  pd_margin_origin_y : option N;
  pd_margin_left : option N;
  pd_margin_right : option N;
  pd_margin_top : option N;
  pd_margin_bottom : option N;
  pd_page_size : page_size;
  pd_rtl : bool }.

(** /repo/src/one/property_set/page_node.rs:37-82 *)
Definition page_node_parse (o : object) : res page_data :=
  let! _ := assert_kind K_PageNode o in
  let! last_modified := time_parse P_LastModifiedTime o in
  let! cached_title := prop_string P_CachedTitleStringFromPage o in
  let! author := author_parse o in
  let! content := refs_of P_ElementChildNodes o in
  let! titles := refs_of P_StructureElementChildNodes o in
  let! portrait := flag_of P_PortraitPage o in
  let! width := prop_f32 P_PageWidth o in
  let! height := prop_f32 P_PageHeight o in
  let! origin_x := prop_f32 P_PageMarginOriginX o in
  let! origin_y := prop_f32 P_PageMarginOriginY o in
  let! m_left := prop_f32 P_PageMarginLeft o in
  let! m_right := prop_f32 P_PageMarginRight o in
  let! top := prop_f32 P_PageMarginTop o in
  let! bottom := prop_f32 P_PageMarginBottom o in
  let! size := dflt PsAuto (page_size_parse P_PageSize o) in
  let! rtl := flag_of P_EditRootRtl o in
  Ok (PageData last_modified cached_title author content (hd_error titles) portrait width height
        origin_x origin_y m_left m_right top bottom size rtl).

(** /repo/src/one/property_set/page_metadata.rs:15-23 *)
Record page_meta_data := PageMetaData {
  pm_entity_guid : guid;
  pm_cached_title : list N;
  pm_schema_read : option N;
  pm_schema_write : option N;
  pm_page_level : Z;
  pm_created_at : N;
  pm_is_deleted : bool }.

(** /repo/src/one/property_set/page_metadata.rs:25-57 *)
Definition page_metadata_parse (o : object) : res page_meta_data :=
  let! _ := assert_kind K_PageMetadata o in
  let! entity_guid := req (prop_guid P_NotebookManagementEntityGuid o) in
  let! cached_title := req (prop_string P_CachedTitleString o) in
  let! r := prop_u32 P_SchemaRevisionInOrderToRead o in
  let! w := prop_u32 P_SchemaRevisionInOrderToWrite o in
  let! level := dflt 0 (prop_u32 P_PageLevel o) in
  let! created_at := req (timestamp_parse P_TopologyCreationTimeStamp o) in
  let! is_deleted := flag_of P_IsDeletedGraphSpaceContent o in
  Ok (PageMetaData entity_guid cached_title r w (i32_of level) created_at is_deleted).

(** /repo/src/one/property_set/page_manifest_node.rs:19-27, [Data] is the page id. *)
Definition page_manifest_parse (o : object) : res exguid :=
  let! _ := assert_kind K_PageManifestNode o in
  let! ids := prop_objects P_ContentChildNodes o in
  ok_or MalformedOneNoteFileData (match ids with Some l => hd_error l | None => None end).

(** /repo/src/one/property_set/title_node.rs:17-24 *)
Record title_data := TitleData {
  tn_last_modified : N;
  tn_children : list exguid;
  tn_offset_horizontal : N;
  tn_offset_vertical : N;
  tn_alignment_in_parent : option layout_alignment;
  tn_alignment_self : option layout_alignment }.

(** /repo/src/one/property_set/title_node.rs:26-61 *)
Definition title_node_parse (o : object) : res title_data :=
  let! _ := assert_kind K_TitleNode o in
  let! last_modified := req (time_parse P_LastModifiedTime o) in
  let! children := req (prop_objects P_ElementChildNodes o) in
  let! horiz := req (prop_f32 P_OffsetFromParentHoriz o) in
  let! vert := req (prop_f32 P_OffsetFromParentVert o) in
  let! in_parent := layout_alignment_parse P_LayoutAlignmentInParent o in
  let! self := layout_alignment_parse P_LayoutAlignmentSelf o in
  Ok (TitleData last_modified children horiz vert in_parent self).

(** ** Files and images *)

(** /repo/src/one/property_set/embedded_file_container.rs:19-30 *)
Definition embedded_file_container_parse (o : object) : res (list N) :=
  let! _ := assert_kind K_EmbeddedFileContainer o in
  ok_or MalformedOneNoteFileData (ob_file o).

(** /repo/src/one/property_set/embedded_file_node.rs:19-39; [recording_duration]
    is always [None] and left out. *)
Record embedded_file_data := EmbeddedFileData {
  ef_last_modified : N;
  ef_picture_container : option exguid;
  ef_layout_max_width : option N;
  ef_layout_max_height : option N;
  ef_is_layout_size_set_by_user : bool;
  ef_text : option (list N);
  ef_text_language_code : option N;
  ef_alignment_in_parent : option layout_alignment;
  ef_alignment_self : option layout_alignment;
  ef_container : exguid;
  ef_name : list N;
  ef_source_path : option (list N);
  ef_file_type : file_type;
  ef_picture_width : option N;
  ef_picture_height : option N;
  ef_note_tags : list tag_data;
  ef_offset_horiz : option N;
  ef_offset_vert : option N }.

(** /repo/src/one/property_set/embedded_file_node.rs:41-99 *)
Definition embedded_file_node_parse (o : object) : res embedded_file_data :=
  let! _ := assert_kind K_EmbeddedFileNode o in
  let! last_modified := req (time_parse P_LastModifiedTime o) in
  let! picture := prop_object P_PictureContainer o in
  let! max_width := prop_f32 P_LayoutMaxWidth o in
  let! max_height := prop_f32 P_LayoutMaxHeight o in
  let! by_user := flag_of P_IsLayoutSizeSetByUser o in
  let! text := prop_string P_RichEditTextUnicode o in
  let! lang := prop_u16 P_RichEditTextLangId o in
  let! in_parent := layout_alignment_parse P_LayoutAlignmentInParent o in
  let! self := layout_alignment_parse P_LayoutAlignmentSelf o in
  let! container := req (prop_object P_EmbeddedFileContainer o) in
  let! name := req (prop_string P_EmbeddedFileName o) in
  let! path := prop_string P_SourceFilepath o in
  let! ftype := file_type_parse o in
  let! pic_width := prop_f32 P_PictureWidth o in
  let! pic_height := prop_f32 P_PictureHeight o in
  let! horiz := prop_f32 P_OffsetFromParentHoriz o in
  let! vert := prop_f32 P_OffsetFromParentVert o in
  let! tags := dflt [] (tags_parse o) in
  Ok (EmbeddedFileData last_modified picture max_width max_height by_user text lang in_parent self
        container name path ftype pic_width pic_height tags horiz vert).

(** /repo/src/one/property_set/picture_container.rs:13-16 *)
Record picture_data := PictureData {
  pc_data : list N;
  pc_extension : option (list N) }.

(** /repo/src/one/property_set/picture_container.rs:18-32 *)
Definition picture_container_parse (o : object) : res picture_data :=
  if negb (ob_jcid o =? kind_jcid K_PictureContainer)
     && negb (ob_jcid o =? kind_jcid K_XpsContainer)
  then Err MalformedOneNoteFileData
  else
    let! extension := prop_string P_PictureFileExtension o in
    Ok (PictureData (match ob_file o with Some d => d | None => [] end) extension).

(** /repo/src/one/property_set/iframe_node.rs:8-11 *)
Record iframe_data := IFrameData { if_embed_type : option N; if_source_url : list N }.

(** /repo/src/one/property_set/iframe_node.rs:13-24 *)
Definition iframe_node_parse (o : object) : res iframe_data :=
  let! _ := assert_kind K_IFrameNode o in
  let! embed_type := prop_u32 P_ImageEmbedType o in
  let! url := req (prop_string P_ImageEmbeddedUrl o) in
  Ok (IFrameData embed_type url).

(** /repo/src/one/property_set/image_node.rs:18-40 *)
Record image_data := ImageData {
  im_last_modified : option N;
  im_picture_container : option exguid;
  im_layout_max_width : option N;
  im_layout_max_height : option N;
  im_is_layout_size_set_by_user : bool;
  im_language_code : option N;
  im_alt_text : option (list N);
  im_alignment_in_parent : option layout_alignment;
  im_alignment_self : option layout_alignment;
  im_filename : option (list N);
  im_displayed_page_number : option N;
  im_text : option (list N);
  im_text_language_code : option N;
  im_picture_width : option N;
  im_picture_height : option N;
  im_hyperlink_url : option (list N);
  im_note_tags : list tag_data;
  im_offset_horiz : option N;
  im_offset_vert : option N;
  im_is_background : bool;
  im_iframe : list exguid }.

(** /repo/src/one/property_set/image_node.rs:42-98 *)
Definition image_node_parse (o : object) : res image_data :=
  let! _ := assert_kind K_ImageNode o in
  let! last_modified := time_parse P_LastModifiedTime o in
  let! picture := prop_object P_PictureContainer o in
  let! max_width := prop_f32 P_LayoutMaxWidth o in
  let! max_height := prop_f32 P_LayoutMaxHeight o in
  let! by_user := flag_of P_IsLayoutSizeSetByUser o in
  let! lang := prop_u32 P_LanguageId o in
  let! alt := prop_string P_ImageAltText o in
  let! in_parent := layout_alignment_parse P_LayoutAlignmentInParent o in
  let! self := layout_alignment_parse P_LayoutAlignmentSelf o in
  let! filename := prop_string P_ImageFilename o in
  let! page_no := prop_u32 P_DisplayedPageNumber o in
  let! text := prop_string P_RichEditTextUnicode o in
  let! text_lang := prop_u16 P_RichEditTextLangId o in
  let! pic_width := prop_f32 P_PictureWidth o in
  let! pic_height := prop_f32 P_PictureHeight o in
  let! url := prop_string P_WzHyperlinkUrl o in
  let! horiz := prop_f32 P_OffsetFromParentHoriz o in
  let! vert := prop_f32 P_OffsetFromParentVert o in
  let! background := flag_of P_IsBackground o in
  let! tags := dflt [] (tags_parse o) in
  let! iframe := refs_of P_ContentChildNodes o in
  Ok (ImageData last_modified picture max_width max_height by_user lang alt in_parent self filename
        page_no text text_lang pic_width pic_height url tags horiz vert background iframe).

(** ** Ink *)

(** /repo/src/one/property_set/embedded_ink_container.rs:8-18 *)
Record embedded_ink_data := EmbeddedInkData {
  ei_space_width : option N;
  ei_space_height : option N;
  ei_start_x : option N;
  ei_start_y : option N;
  ei_height : option N;
  ei_width : option N;
  ei_offset_horiz : option N;
  ei_offset_vert : option N }.

(** /repo/src/one/property_set/embedded_ink_container.rs:21-44 *)
Definition embedded_ink_parse (o : object) : res embedded_ink_data :=
  let! space_width := prop_f32 P_EmbeddedInkSpaceWidth o in
  let! space_height := prop_f32 P_EmbeddedInkSpaceHeight o in
  let! start_x := prop_f32 P_EmbeddedInkStartX o in
  let! start_y := prop_f32 P_EmbeddedInkStartY o in
  let! height := prop_f32 P_EmbeddedInkHeight o in
  let! width := prop_f32 P_EmbeddedInkWidth o in
  let! horiz := prop_f32 P_EmbeddedInkOffsetHoriz o in
  let! vert := prop_f32 P_EmbeddedInkOffsetVert o in
  Ok (EmbeddedInkData space_width space_height start_x start_y height width horiz vert).

(** /repo/src/one/property_set/ink_container.rs:11-18 *)
Record ink_container_data := InkContainerData {
  ic_offset_horiz : option N;
  ic_offset_vert : option N;
  ic_last_modified : option N;
  ic_ink_data : option exguid;
  ic_scaling_x : option N;
  ic_scaling_y : option N }.

(** /repo/src/one/property_set/ink_container.rs:20-40. The source reads
    [InkScalingX] twice. *)
Definition ink_container_parse (o : object) : res ink_container_data :=
  let! _ := assert_kind K_InkContainer o in
  let! last_modified := time_parse P_LastModifiedTime o in
  let! horiz := prop_f32 P_OffsetFromParentHoriz o in
  let! vert := prop_f32 P_OffsetFromParentVert o in
  let! data := prop_object P_InkData o in
  let! sx := prop_f32 P_InkScalingX o in
  let! sy := prop_f32 P_InkScalingX o in
  Ok (InkContainerData horiz vert last_modified data sx sy).

(** /repo/src/one/property_set/ink_data_node.rs:10-13 *)
Record ink_data := InkData {
  ik_strokes : list exguid;
  ik_bounding_box : option (N * N * N * N) }.

(** /repo/src/one/property_set/ink_data_node.rs:15-30 *)
Definition ink_data_node_parse (o : object) : res ink_data :=
  let! _ := assert_kind K_InkDataNode o in
  let! strokes := req (prop_objects P_InkStrokes o) in
  let! box := prop_vec_u32 P_InkBoundingBox o in
  Ok (InkData strokes (match box with
                       | Some [a; b; c; d] => Some (a, b, c, d)
                       | _ => None
                       end)).

(** /repo/src/one/property_set/ink_stroke_node.rs:18-22 *)
Inductive ink_bias := IbHandwriting | IbDrawing | IbBoth.

(** /repo/src/one/property_set/ink_stroke_node.rs:11-16 *)
Record ink_stroke_data := InkStrokeData {
  ss_path : list Z;
  ss_bias : ink_bias;
  ss_language_code : option N;
  ss_properties : exguid }.

(** /repo/src/one/property_set/ink_stroke_node.rs:34-41 *)
Definition ink_bias_of (value : N) : res ink_bias :=
  match value with
  | 0 => Ok IbHandwriting
  | 1 => Ok IbDrawing
  | 2 => Ok IbBoth
  | _ => Err MalformedOneNoteFileData
  end.

(** /repo/src/one/property_set/ink_stroke_node.rs:24-62 *)
Definition ink_stroke_node_parse (o : object) : res ink_stroke_data :=
  let! _ := assert_kind K_InkStrokeNode o in
  let! path := req (let! d := prop_vec P_InkPath o in opt_map_res decode_signed d) in
  let! bias := req (let! b := prop_u8 P_InkBias o in opt_map_res ink_bias_of b) in
  let! lang := prop_u32 P_LanguageId o in
  let! properties := req (prop_object P_InkStrokeProperties o) in
  Ok (InkStrokeData path bias lang properties).

(** /repo/src/one/property_set/stroke_properties_node.rs:9-20 *)
Record stroke_props := StrokeProps {
  sp_aliased : bool;
  sp_fit_to_curve : bool;
  sp_ignore_pressure : bool;
  sp_pen_tip : option N;
  sp_raster_operation : option N;
  sp_transparency : option N;
  sp_height : N;
  sp_width : N;
  sp_color : option N;
  sp_dimensions : list ink_dimension }.

(** /repo/src/one/property_set/stroke_properties_node.rs:22-53. The source stores
    [InkHeight] in [ink_width] and [InkWidth] in [ink_height]. *)
Definition stroke_properties_parse (o : object) : res stroke_props :=
  let! _ := assert_kind K_StrokePropertiesNode o in
  let! aliased := flag_of P_InkAntialised o in
  let! fit := flag_of P_InkFitToCurve o in
  let! ignore_pressure := flag_of P_InkIgnorePressure o in
  let! pen_tip := prop_u8 P_InkPenTip o in
  let! raster := prop_u8 P_InkRasterOperation o in
  let! transparency := prop_u8 P_InkTransparency o in
  let! ink_width := req (prop_f32 P_InkHeight o) in
  let! ink_height := req (prop_f32 P_InkWidth o) in
  let! col := prop_u32 P_InkColor o in
  let! dims := ink_dimensions_parse P_InkDimensions o in
  Ok (StrokeProps aliased fit ignore_pressure pen_tip raster transparency ink_height ink_width col
        dims).

(** ** Text *)

(** /repo/src/one/property_set/math_inline_object.rs:8-16 *)
Record math_data := MathData {
  md_object_type : option N;
  md_arg_count : option N;
  md_column : option N;
  md_align : option N;
  md_char : option N;
  md_char1 : option N;
  md_char2 : option N }.

(** /repo/src/one/property_set/math_inline_object.rs:49-51: one code unit decoded
    strictly; the error is that of the widestring crate. *)
Definition utf16_char (c : N) : res (option N) :=
  let! s := ok_or Utf16Error (from_utf16 [c]) in Ok (hd_error s).

(** [parse_u16(..)?.map(parse_utf16_char).transpose()?.flatten()]:
    /repo/src/one/property_set/math_inline_object.rs:24-27 *)
Definition prop_char (id : N) (o : object) : res (option N) :=
  let! c := prop_u16 id o in
  let! r := opt_map_res utf16_char c in
  Ok (match r with Some x => x | None => None end).

(** /repo/src/one/property_set/math_inline_object.rs:19-46 *)
Definition math_data_parse (o : object) : res math_data :=
  let! object_type := prop_u32 P_MathInlineObjectType o in
  let! arg_count := prop_u32 P_MathInlineObjectCount o in
  let! column := prop_u8 P_MathInlineObjectCol o in
  let! align := prop_u8 P_MathInlineObjectAlign o in
  let! c := prop_char P_MathInlineObjectChar o in
  let! c1 := prop_char P_MathInlineObjectChar1 o in
  let! c2 := prop_char P_MathInlineObjectChar2 o in
  Ok (MathData object_type arg_count column align c c1 c2).

(** /repo/src/one/property_set/note_tag_shared_definition_container.rs:17-24 *)
Record tag_definition := TagDefinition {
  td_label : list N;
  td_status : note_tag_status;
  td_shape : note_tag_shape;
  td_highlight_color : option color_ref;
  td_text_color : option color_ref;
  td_action_item_type : action_item_type }.

(** /repo/src/one/property_set/note_tag_shared_definition_container.rs:26-57 *)
Definition tag_definition_parse (o : object) : res tag_definition :=
  let! _ := assert_kind K_NoteTagSharedDefinitionContainer o in
  let! label := req (prop_string P_NoteTagLabel o) in
  let! status := req (note_tag_status_parse o) in
  let! shape := req (let! v := prop_u16 P_NoteTagShape o in opt_map_res shape_parse v) in
  let! highlight := color_ref_parse P_NoteTagHighlightColor o in
  let! text_color := color_ref_parse P_NoteTagTextColor o in
  let! item_type := req (action_item_type_parse o) in
  Ok (TagDefinition label status shape highlight text_color item_type).

(** [char::decode_utf16(..).map(|r| r.unwrap_or(REPLACEMENT_CHARACTER))]: a code
    unit after an unpaired high surrogate is decoded again on its own. *)
Fixpoint decode_utf16_lossy (us : list N) : list N :=
  match us with
  | [] => []
  | u :: r =>
    if is_high_surrogate u then
      match r with
      | v :: r' =>
        if is_low_surrogate v
        then 0x10000 + (u - 0xD800) * 0x400 + (v - 0xDC00) :: decode_utf16_lossy r'
        else 0xFFFD :: decode_utf16_lossy r
      | [] => [0xFFFD]
      end
    else if is_low_surrogate u then 0xFFFD :: decode_utf16_lossy r
    else u :: decode_utf16_lossy r
  end.

(** /repo/src/one/property_set/number_list_node.rs:66-70. [data\[1..\]] panics if
    there is no code unit. *)
Definition list_format_of (data : list N) : res (list N) :=
  match data with
  | [] => Panic
  | _ :: r => Ok (decode_utf16_lossy r)
  end.

(** /repo/src/one/property_set/number_list_node.rs:16-27 *)
Record number_list := NumberList {
  nl_last_modified : N;
  nl_list_font : option (list N);
  nl_list_restart : option Z;
  nl_list_format : list N;
  nl_bold : bool;
  nl_italic : bool;
  nl_language_code : option N;
  nl_font : option (list N);
  nl_font_size : option N;
  nl_font_color : option color_ref }.

(** /repo/src/one/property_set/number_list_node.rs:29-64 *)
Definition number_list_parse (o : object) : res number_list :=
  let! _ := assert_kind K_NumberListNode o in
  let! last_modified := req (time_parse P_LastModifiedTime o) in
  let! list_font := prop_string P_ListFont o in
  let! restart := rmap i32_of (prop_u32 P_ListRestart o) in
  let! format := req (let! v := prop_vec_u16 P_NumberListFormat o in
                      opt_map_res list_format_of v) in
  let! bold := flag_of P_Bold o in
  let! italic := flag_of P_Italic o in
  let! lang := prop_u32 P_LanguageId o in
  let! font := prop_string P_Font o in
  let! size := prop_u16 P_FontSize o in
  let! col := color_ref_parse P_FontColor o in
  Ok (NumberList last_modified list_font restart format bold italic lang font size col).

(** /repo/src/one/property_set/paragraph_style_object.rs:17-42 *)
Record style_data := StyleData {
  sy_charset : option charset;
  sy_bold : bool;
  sy_italic : bool;
  sy_underline : bool;
  sy_strikethrough : bool;
  sy_superscript : bool;
  sy_subscript : bool;
  sy_font : option (list N);
  sy_font_size : option N;
  sy_font_color : option color_ref;
  sy_highlight : option color_ref;
  sy_next_style : option (list N);
  sy_style_id : option (list N);
  sy_paragraph_alignment : option paragraph_alignment;
  sy_space_before : option N;
  sy_space_after : option N;
  sy_line_spacing_exact : option N;
  sy_language_code : option N;
  sy_math_formatting : bool;
  sy_hyperlink : bool;
  sy_hyperlink_protected : bool;
  sy_hidden : bool;
  sy_is_embedded_object : bool;
  sy_object_type : option N }.

(** /repo/src/one/property_set/paragraph_style_object.rs:44-105 *)
Definition style_parse (o : object) : res style_data :=
  let! _ := assert_kind K_ParagraphStyleObject o in
  let! cs := charset_parse P_Charset o in
  let! bold := flag_of P_Bold o in
  let! italic := flag_of P_Italic o in
  let! underline := flag_of P_Underline o in
  let! strike := flag_of P_Strikethrough o in
  let! superscript := flag_of P_Superscript o in
  let! subscript := flag_of P_Subscript o in
  let! font := prop_string P_Font o in
  let! size := prop_u16 P_FontSize o in
  let! col := color_ref_parse P_FontColor o in
  let! highlight := color_ref_parse P_Highlight o in
  let! next := prop_string P_NextStyle o in
  let! style_id := prop_string P_ParagraphStyleId o in
  let! alignment := paragraph_alignment_parse o in
  let! before := prop_f32 P_ParagraphSpaceBefore o in
  let! after := prop_f32 P_ParagraphSpaceAfter o in
  let! exact_ := prop_f32 P_ParagraphLineSpacingExact o in
  let! lang := prop_u32 P_LanguageId o in
  let! math := flag_of P_MathFormatting o in
  let! hyperlink := flag_of P_Hyperlink o in
  let! protected := flag_of P_HyperlinkProtected o in
  let! hidden := flag_of P_Hidden o in
  let! embedded := flag_of P_TextRunIsEmbeddedObject o in
  let! object_type := prop_u32 P_EmbeddedObjectType o in
  Ok (StyleData cs bold italic underline strike superscript subscript font size col highlight next
        style_id alignment before after exact_ lang math hyperlink protected hidden embedded
        object_type).

(** /repo/src/one/property_set/rich_text_node.rs:19-40 *)
Record rich_text_data := RichTextData {
  rt_last_modified : N;
  rt_tight_layout : bool;
  rt_run_formatting : list exguid;
  rt_run_indices : list N;
  rt_run_data_object : list exguid;
  rt_paragraph_style : exguid;
  rt_space_before : N;
  rt_space_after : N;
  rt_line_spacing_exact : option N;
  rt_paragraph_alignment : paragraph_alignment;
  rt_text : option (list N);
  rt_is_title_time : bool;
  rt_is_boiler_text : bool;
  rt_is_title_date : bool;
  rt_is_title_text : bool;
  rt_alignment_in_parent : option layout_alignment;
  rt_alignment_self : option layout_alignment;
  rt_language_code : option N;
  rt_rtl : bool;
  rt_note_tags : list tag_data }.

(** /repo/src/one/property_set/rich_text_node.rs:42-113 *)
Definition rich_text_node_parse (o : object) : res rich_text_data :=
  let! _ := assert_kind K_RichTextNode o in
  let! last_modified := req (time_parse P_LastModifiedTime o) in
  let! tight := flag_of P_LayoutTightLayout o in
  let! formatting := refs_of P_TextRunFormatting o in
  let! indices := dflt [] (prop_vec_u32 P_TextRunIndex o) in
  let! data_object := refs_of P_TextRunDataObject o in
  let! style := req (prop_object P_ParagraphStyle o) in
  let! before := dflt 0 (prop_f32 P_ParagraphSpaceBefore o) in
  let! after := dflt 0 (prop_f32 P_ParagraphSpaceAfter o) in
  let! exact_ := prop_f32 P_ParagraphLineSpacingExact o in
  let! alignment := dflt PaLeft (paragraph_alignment_parse o) in
  let! unicode := prop_string P_RichEditTextUnicode o in
  let! text := match unicode with
               | None => prop_ascii P_TextExtendedAscii o
               | t => Ok t
               end in
  let! in_parent := layout_alignment_parse P_LayoutAlignmentInParent o in
  let! self := layout_alignment_parse P_LayoutAlignmentSelf o in
  let! title_time := flag_of P_IsTitleTime o in
  let! boiler := flag_of P_IsBoilerText o in
  let! title_date := flag_of P_IsTitleDate o in
  let! title_text := flag_of P_IsTitleText o in
  let! lang := prop_u16 P_RichEditTextLangId o in
  let! rtl := flag_of P_ReadingOrderRtl o in
  let! tags := dflt [] (tags_parse o) in
  Ok (RichTextData last_modified tight formatting indices data_object style before after exact_
        alignment text title_time boiler title_date title_text in_parent self lang rtl tags).

(** ** Outlines *)

(** /repo/src/one/property_set/outline_element_node.rs:16-30 *)
Record outline_element_data := OutlineElementData {
  oe_created_at : N;
  oe_last_modified : N;
  oe_children : list exguid;
  oe_child_level : N;
  oe_contents : list exguid;
  oe_list_contents : list exguid;
  oe_list_spacing : option N;
  oe_author_original : exguid;
  oe_author_most_recent : exguid;
  oe_rtl : bool;
  oe_is_deletable : bool;
  oe_is_selectable : bool;
  oe_is_title_text : bool }.

(** /repo/src/one/property_set/outline_element_node.rs:32-84 *)
Definition outline_element_node_parse (o : object) : res outline_element_data :=
  let! _ := assert_kind K_OutlineElementNode o in
  let! created_at := req (time_parse P_CreationTimeStamp o) in
  let! last_modified := req (time_parse P_LastModifiedTime o) in
  let! children := refs_of P_ElementChildNodes o in
  let! level := req (prop_u8 P_OutlineElementChildLevel o) in
  let! contents := refs_of P_ContentChildNodes o in
  let! lists := refs_of P_ListNodes o in
  let! spacing := prop_f32 P_ListSpacingMu o in
  let! author := req (prop_object P_AuthorOriginal o) in
  let! recent := req (prop_object P_AuthorMostRecent o) in
  let! rtl := flag_of P_OutlineElementRtl o in
  let! deletable := flag_of P_Deletable o in
  let! selectable := dflt false (rmap negb (prop_bool P_CannotBeSelected o)) in
  let! title := flag_of P_IsTitleText o in
  Ok (OutlineElementData created_at last_modified children level contents lists spacing author
        recent rtl deletable selectable title).

(** /repo/src/one/property_set/outline_group.rs:16-20 *)
Record outline_group_data := OutlineGroupData {
  gr_last_modified : N;
  gr_children : list exguid;
  gr_child_level : N }.

(** /repo/src/one/property_set/outline_group.rs:22-42 *)
Definition outline_group_node_parse (o : object) : res outline_group_data :=
  let! _ := assert_kind K_OutlineGroup o in
  let! last_modified := req (time_parse P_LastModifiedTime o) in
  let! children := refs_of P_ElementChildNodes o in
  let! level := req (prop_u8 P_OutlineElementChildLevel o) in
  Ok (OutlineGroupData last_modified children level).

(** /repo/src/one/property_set/outline_node.rs:18-41 *)
Record outline_data := OutlineData {
  ou_last_modified : N;
  ou_children : list exguid;
  ou_child_level : N;
  ou_layout_max_height : option N;
  ou_layout_max_width : option N;
  ou_layout_reserved_width : option N;
  ou_layout_minimum_outline_width : option N;
  ou_layout_tight_alignment : bool;
  ou_is_layout_size_set_by_user : bool;
  ou_offset_horiz : option N;
  ou_offset_vert : option N;
  ou_list_spacing : option N;
  ou_indent_distance : list N;
  ou_alignment_in_parent : option layout_alignment;
  ou_alignment_self : option layout_alignment;
  ou_is_deletable : bool;
  ou_is_title_date : bool;
  ou_is_selectable : bool;
  ou_is_title_text : bool;
  ou_is_read_only : bool;
  ou_descendants_cannot_be_moved : bool;
  ou_tight_layout : bool }.

(** /repo/src/one/property_set/outline_node.rs:43-116 *)
Definition outline_node_parse (o : object) : res outline_data :=
  let! _ := assert_kind K_OutlineNode o in
  let! last_modified := req (time_parse P_LastModifiedTime o) in
  let! children := refs_of P_ElementChildNodes o in
  let! level := req (prop_u8 P_OutlineElementChildLevel o) in
  let! max_height := prop_f32 P_LayoutMaxHeight o in
  let! reserved := prop_f32 P_LayoutOutlineReservedWidth o in
  let! minimum := prop_f32 P_LayoutMinimumOutlineWidth o in
  let! max_width := prop_f32 P_LayoutMaxWidth o in
  let! tight_alignment := flag_of P_LayoutTightAlignment o in
  let! by_user := flag_of P_IsLayoutSizeSetByUser o in
  let! spacing := prop_f32 P_ListSpacingMu o in
  let! indents := req (indent_distance_parse o) in
  let! horiz := prop_f32 P_OffsetFromParentHoriz o in
  let! vert := prop_f32 P_OffsetFromParentVert o in
  let! in_parent := layout_alignment_parse P_LayoutAlignmentInParent o in
  let! self := layout_alignment_parse P_LayoutAlignmentSelf o in
  let! deletable := flag_of P_Deletable o in
  let! title_date := flag_of P_IsTitleDate o in
  let! selectable := dflt true (rmap negb (prop_bool P_CannotBeSelected o)) in
  let! title_text := flag_of P_IsTitleText o in
  let! read_only := flag_of P_IsReadOnly o in
  let! fixed := flag_of P_DescendantsCannotBeMoved o in
  let! tight := flag_of P_LayoutTightLayout o in
  Ok (OutlineData last_modified children level max_height max_width reserved minimum
        tight_alignment by_user horiz vert spacing indents in_parent self deletable title_date
        selectable title_text read_only fixed tight).

(** ** Tables *)

(** /repo/src/one/property_set/table_cell_node.rs:18-24 *)
Record table_cell_data := TableCellData {
  ce_last_modified : option N;
  ce_contents : list exguid;
  ce_layout_max_width : option N;
  ce_indent_distance : list N;
  ce_background_color : option color }.

(** /repo/src/one/property_set/table_cell_node.rs:26-47 *)
Definition table_cell_node_parse (o : object) : res table_cell_data :=
  let! _ := assert_kind K_TableCellNode o in
  let! last_modified := time_parse P_LastModifiedTime o in
  let! contents := req (prop_objects P_ElementChildNodes o) in
  let! max_width := prop_f32 P_LayoutMaxWidth o in
  let! indents := req (indent_distance_parse o) in
  let! col := color_parse P_CellBackgroundColor o in
  Ok (TableCellData last_modified contents max_width indents col).

(** /repo/src/one/property_set/table_node.rs:18-29 *)
Record table_data := TableData {
  ta_last_modified : N;
  ta_rows : list exguid;
  ta_row_count : N;
  ta_col_count : N;
  ta_cols_locked : list N;
  ta_col_widths : list N;
  ta_borders_visible : bool;
  ta_alignment_in_parent : option layout_alignment;
  ta_alignment_self : option layout_alignment;
  ta_note_tags : list tag_data }.

(** /repo/src/one/property_set/table_node.rs:31-79 *)
Definition table_node_parse (o : object) : res table_data :=
  let! _ := assert_kind K_TableNode o in
  let! last_modified := req (time_parse P_LastModifiedTime o) in
  let! rows := req (prop_objects P_ElementChildNodes o) in
  let! row_count := req (prop_u32 P_RowCount o) in
  let! col_count := req (prop_u32 P_ColumnCount o) in
  let! locked := dflt [] (rmap (skip 1) (prop_vec P_TableColumnsLocked o)) in
  let! widths := dflt [] (rmap (fun d => u32_chunks (skip 1 d)) (prop_vec P_TableColumnWidths o)) in
  let! borders := dflt true (prop_bool P_TableBordersVisible o) in
  let! in_parent := layout_alignment_parse P_LayoutAlignmentInParent o in
  let! self := layout_alignment_parse P_LayoutAlignmentSelf o in
  let! tags := dflt [] (tags_parse o) in
  Ok (TableData last_modified rows row_count col_count locked widths borders in_parent self tags).

(** /repo/src/one/property_set/table_row_node.rs:16-19 *)
Record table_row_data := TableRowData {
  ro_last_modified : option N;
  ro_cells : list exguid }.

(** /repo/src/one/property_set/table_row_node.rs:21-32 *)
Definition table_row_node_parse (o : object) : res table_row_data :=
  let! _ := assert_kind K_TableRowNode o in
  let! last_modified := time_parse P_LastModifiedTime o in
  let! cells := req (prop_objects P_ElementChildNodes o) in
  Ok (TableRowData last_modified cells).
