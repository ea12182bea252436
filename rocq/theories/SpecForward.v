(** Forward compatibility: objects, spaces and stores that differ in properties
    the reader does not ask for. *)
From Coq Require Import Permutation Relations.
From Verif Require Import Base Codec PropSet PropIds Store.

(** The property types the reader asks for: 158 of the 183 members of the enum
    /repo/src/one/property/mod.rs:29-216. Among the other 25 are [IsConflictPage],
    [HasVersionPages], [InkScalingY], [UnderlineType], [ImageUploadState],
    [LastModifiedTimeStamp] and [TaskTagDueDat]. *)
Definition known : list N := [
  P_ActionItemStatus; P_ActionItemType; P_Author; P_AuthorMostRecent; P_AuthorOriginal; P_Bold;
  P_CachedTitleString; P_CachedTitleStringFromPage; P_CannotBeSelected; P_Charset;
  P_ChildGraphSpaceElementNodes; P_ColumnCount; P_ContentChildNodes; P_CreationTimeStamp;
  P_Deletable; P_DescendantsCannotBeMoved; P_DisplayedPageNumber; P_EditRootRtl;
  P_ElementChildNodes; P_EmbeddedFileContainer; P_EmbeddedFileName; P_Font; P_FontColor;
  P_FontSize; P_Hidden; P_Highlight; P_Hyperlink; P_HyperlinkProtected; P_IRecordMedia;
  P_ImageAltText; P_ImageFilename; P_IsBackground; P_IsBoilerText;
  P_IsDeletedGraphSpaceContent; P_IsLayoutSizeSetByUser; P_IsReadOnly; P_IsTitleDate;
  P_IsTitleText; P_IsTitleTime; P_Italic; P_LanguageId; P_LastModifiedTime;
  P_LayoutAlignmentInParent; P_LayoutAlignmentSelf; P_LayoutMaxHeight; P_LayoutMaxWidth;
  P_LayoutMinimumOutlineWidth; P_LayoutOutlineReservedWidth; P_LayoutTightAlignment;
  P_LayoutTightLayout; P_ListFont; P_ListNodes; P_ListRestart; P_ListSpacingMu;
  P_MathFormatting; P_MetaDataObjectsAboveGraphSpace; P_NextStyle; P_NoteTagCompleted;
  P_NoteTagCreated; P_NoteTagDefinitionOid; P_NoteTagHighlightColor; P_NoteTagLabel;
  P_NoteTagPropertyStatus; P_NoteTagShape; P_NoteTagTextColor; P_NotebookManagementEntityGuid;
  P_NumberListFormat; P_OffsetFromParentHoriz; P_OffsetFromParentVert;
  P_OutlineElementChildLevel; P_OutlineElementRtl; P_PageHeight; P_PageLevel;
  P_PageMarginBottom; P_PageMarginLeft; P_PageMarginOriginX; P_PageMarginOriginY;
  P_PageMarginRight; P_PageMarginTop; P_PageSize; P_PageWidth; P_ParagraphAlignment;
  P_ParagraphLineSpacingExact; P_ParagraphSpaceAfter; P_ParagraphSpaceBefore; P_ParagraphStyle;
  P_ParagraphStyleId; P_PictureContainer; P_PictureHeight; P_PictureWidth; P_PortraitPage;
  P_ReadingOrderRtl; P_RgOutlineIndentDistance; P_RichEditTextLangId; P_RichEditTextUnicode;
  P_RowCount; P_SchemaRevisionInOrderToRead; P_SchemaRevisionInOrderToWrite;
  P_SectionDisplayName; P_SourceFilepath; P_Strikethrough; P_StructureElementChildNodes;
  P_Subscript; P_Superscript; P_TableBordersVisible; P_TableColumnWidths; P_TableColumnsLocked;
  P_TextExtendedAscii; P_TextRunData; P_TextRunDataObject; P_TextRunFormatting; P_TextRunIndex;
  P_TextRunIsEmbeddedObject; P_TopologyCreationTimeStamp; P_Underline; P_WzHyperlinkUrl;
  P_TocChildren; P_FolderChildFilename; P_NotebookElementOrderingId; P_PictureFileExtension;
  P_NoteTags; P_SectionColor; P_CellBackgroundColor; P_InkBias; P_InkData; P_InkDimensions;
  P_InkPath; P_InkStrokeProperties; P_InkStrokes; P_InkAntialised; P_InkFitToCurve;
  P_InkIgnorePressure; P_InkPenTip; P_InkRasterOperation; P_InkTransparency; P_InkHeight;
  P_InkWidth; P_InkColor; P_InkScalingX; P_InkBoundingBox; P_EmbeddedObjectType;
  P_EmbeddedInkStartX; P_EmbeddedInkStartY; P_EmbeddedInkWidth; P_EmbeddedInkHeight;
  P_EmbeddedInkOffsetHoriz; P_EmbeddedInkOffsetVert; P_EmbeddedInkSpaceWidth;
  P_EmbeddedInkSpaceHeight; P_ImageEmbedType; P_ImageEmbeddedUrl; P_MathInlineObjectType;
  P_MathInlineObjectCount; P_MathInlineObjectCol; P_MathInlineObjectAlign;
  P_MathInlineObjectChar; P_MathInlineObjectChar1; P_MathInlineObjectChar2].
(** Property sets are keyed by the low 26 bits of a property type. *)
Definition unknown (id : N) : Prop := ~ In id (map (fun p => p mod 2 ^ 26) known).

(** A value in which there is no reference to an object or an object space, at
    any depth. *)
Fixpoint plain (v : pvalue) : bool :=
  match v with
  | VObjectId | VObjectIds _ | VObjectSpaceId | VObjectSpaceIds _ => false
  | VPropertyValues _ sets =>
    forallb (fun s => forallb (fun e => match e with (_, (_, w)) => plain w end) s) sets
  | VPropertySet s => forallb (fun e => match e with (_, (_, w)) => plain w end) s
  | _ => true
  end.

(** [m'] is [m] with the property [id] of value [v] inserted at position [k];
    a set holds every property with its position. *)
Definition inserted (m m' : propset) : Prop :=
  exists k id v, unknown id /\ plain v = true /\
    NoDup (map fst m) /\ ~ In id (map fst m) /\
    Permutation m' ((id, (k, v)) :: map (fun e => match e with
      (p, (i, w)) => (p, (if i <? k then i else i + 1, w)) end) m).

(** Property sets that differ in any number of such properties, on either side. *)
Definition same_known : propset -> propset -> Prop := clos_refl_sym_trans _ inserted.

Definition object_alike (o o' : object) : Prop :=
  ob_context o = ob_context o' /\ ob_jcid o = ob_jcid o' /\ ob_file o = ob_file o' /\
  ob_mapping o = ob_mapping o' /\
  op_object_ids (ob_props o) = op_object_ids (ob_props o') /\
  op_space_ids (ob_props o) = op_space_ids (ob_props o') /\
  same_known (op_props (ob_props o)) (op_props (ob_props o')).

Definition space_alike (sp sp' : space) : Prop :=
  content_root sp = content_root sp' /\ metadata_root sp = metadata_root sp' /\
  forall id, match get_object sp id, get_object sp' id with
             | Some o, Some o' => object_alike o o'
             | None, None => True
             | _, _ => False
             end.

Definition store_alike (st st' : store) : Prop :=
  space_alike (st_data_root st) (st_data_root st') /\
  forall c, match object_space st c, object_space st' c with
            | Some sp, Some sp' => space_alike sp sp'
            | None, None => True
            | _, _ => False
            end.
