(** Property type numbers. Models the enum /repo/src/one/property/mod.rs:29-216.
    Generated from the source text: one definition per member, with its line. *)
From Verif Require Import Base.

(** /repo/src/one/property/mod.rs:31 *)
Definition P_ActionItemSchemaVersion : N := 0x0C003473.
(** /repo/src/one/property/mod.rs:32 *)
Definition P_ActionItemStatus : N := 0x10003470.
(** /repo/src/one/property/mod.rs:33 *)
Definition P_ActionItemType : N := 0x10003463.
(** /repo/src/one/property/mod.rs:34 *)
Definition P_Author : N := 0x1C001D75.
(** /repo/src/one/property/mod.rs:35 *)
Definition P_AuthorMostRecent : N := 0x20001D79.
(** /repo/src/one/property/mod.rs:36 *)
Definition P_AuthorOriginal : N := 0x20001D78.
(** /repo/src/one/property/mod.rs:37 *)
Definition P_BodyTextAlignment : N := 0x0C001C13.
(** /repo/src/one/property/mod.rs:38 *)
Definition P_Bold : N := 0x08001C04.
(** /repo/src/one/property/mod.rs:39 *)
Definition P_CachedTitleString : N := 0x1C001CF3.
(** /repo/src/one/property/mod.rs:40 *)
Definition P_CachedTitleStringFromPage : N := 0x1C001D3C.
(** /repo/src/one/property/mod.rs:41 *)
Definition P_CannotBeSelected : N := 0x08001CB2.
(** /repo/src/one/property/mod.rs:42 *)
Definition P_Charset : N := 0x0C001D01.
(** /repo/src/one/property/mod.rs:43 *)
Definition P_ChildGraphSpaceElementNodes : N := 0x2C001D63.
(** /repo/src/one/property/mod.rs:44 *)
Definition P_ColumnCount : N := 0x14001D58.
(** /repo/src/one/property/mod.rs:45 *)
Definition P_ConflictingUserName : N := 0x1C001D9E.
(** /repo/src/one/property/mod.rs:46 *)
Definition P_ContentChildNodes : N := 0x24001C1F.
(** /repo/src/one/property/mod.rs:47 *)
Definition P_CreationTimeStamp : N := 0x14001D09.
(** /repo/src/one/property/mod.rs:48 *)
Definition P_Deletable : N := 0x08001D0C.
(** /repo/src/one/property/mod.rs:49 *)
Definition P_DescendantsCannotBeMoved : N := 0x08001CF9.
(** /repo/src/one/property/mod.rs:50 *)
Definition P_DisplayedPageNumber : N := 0x14003480.
(** /repo/src/one/property/mod.rs:51 *)
Definition P_EditRootRtl : N := 0x08001C92.
(** /repo/src/one/property/mod.rs:52 *)
Definition P_ElementChildNodes : N := 0x24001C20.
(** /repo/src/one/property/mod.rs:53 *)
Definition P_EmbeddedFileContainer : N := 0x20001D9B.
(** /repo/src/one/property/mod.rs:54 *)
Definition P_EmbeddedFileName : N := 0x1C001D9C.
(** /repo/src/one/property/mod.rs:55 *)
Definition P_EnableHistory : N := 0x08001E1E.
(** /repo/src/one/property/mod.rs:56 *)
Definition P_EnforceOutlineStructure : N := 0x08001C91.
(** /repo/src/one/property/mod.rs:57 *)
Definition P_FileAncestorIdentityGuid : N := 0x1C001D95.
(** /repo/src/one/property/mod.rs:58 *)
Definition P_FileIdentityGuid : N := 0x1C001D94.
(** /repo/src/one/property/mod.rs:59 *)
Definition P_FileLastCodeVersionThatWroteToIt : N := 0x14001D99.
(** /repo/src/one/property/mod.rs:60 *)
Definition P_FileNameCrc : N := 0x14001D93.
(** /repo/src/one/property/mod.rs:61 *)
Definition P_Font : N := 0x1C001C0A.
(** /repo/src/one/property/mod.rs:62 *)
Definition P_FontColor : N := 0x14001C0C.
(** /repo/src/one/property/mod.rs:63 *)
Definition P_FontSize : N := 0x10001C0B.
(** /repo/src/one/property/mod.rs:64 *)
Definition P_HasVersionPages : N := 0x08003462.
(** /repo/src/one/property/mod.rs:65 *)
Definition P_Hidden : N := 0x08001E16.
(** /repo/src/one/property/mod.rs:66 *)
Definition P_Highlight : N := 0x14001C0D.
(** /repo/src/one/property/mod.rs:67 *)
Definition P_Hyperlink : N := 0x08001E14.
(** /repo/src/one/property/mod.rs:68 *)
Definition P_HyperlinkProtected : N := 0x08001E19.
(** /repo/src/one/property/mod.rs:69 *)
Definition P_IRecordMedia : N := 0x14001D24.
(** /repo/src/one/property/mod.rs:70 *)
Definition P_ImageAltText : N := 0x1C001E58.
(** /repo/src/one/property/mod.rs:71 *)
Definition P_ImageFilename : N := 0x1C001DD7.
(** /repo/src/one/property/mod.rs:72 *)
Definition P_ImageUploadState : N := 0x140034CB.
(** /repo/src/one/property/mod.rs:73 *)
Definition P_IsBackground : N := 0x08001D13.
(** /repo/src/one/property/mod.rs:74 *)
Definition P_IsBoilerText : N := 0x08001C88.
(** /repo/src/one/property/mod.rs:75 *)
Definition P_IsConflictObjectForRender : N := 0x08001D96.
(** /repo/src/one/property/mod.rs:76 *)
Definition P_IsConflictObjectForSelection : N := 0x08001DDB.
(** /repo/src/one/property/mod.rs:77 *)
Definition P_IsConflictPage : N := 0x08001D7C.
(** /repo/src/one/property/mod.rs:78 *)
Definition P_IsDeletedGraphSpaceContent : N := 0x00001DE9.
(** /repo/src/one/property/mod.rs:79 *)
Definition P_IsLayoutSizeSetByUser : N := 0x08001CBD.
(** /repo/src/one/property/mod.rs:80 *)
Definition P_IsReadOnly : N := 0x08001CDE.
(** /repo/src/one/property/mod.rs:81 *)
Definition P_IsTitleDate : N := 0x08001CB5.
(** /repo/src/one/property/mod.rs:82 *)
Definition P_IsTitleText : N := 0x08001CB4.
(** /repo/src/one/property/mod.rs:83 *)
Definition P_IsTitleTime : N := 0x08001C87.
(** /repo/src/one/property/mod.rs:84 *)
Definition P_Italic : N := 0x08001C05.
(** /repo/src/one/property/mod.rs:85 *)
Definition P_LanguageId : N := 0x14001C3B.
(** /repo/src/one/property/mod.rs:86 *)
Definition P_LastModifiedTime : N := 0x14001D7A.
(** /repo/src/one/property/mod.rs:87 *)
Definition P_LastModifiedTimeStamp : N := 0x18001D77.
(** /repo/src/one/property/mod.rs:88 *)
Definition P_LayoutAlignmentInParent : N := 0x14001C3E.
(** /repo/src/one/property/mod.rs:89 *)
Definition P_LayoutAlignmentSelf : N := 0x14001C84.
(** /repo/src/one/property/mod.rs:90 *)
Definition P_LayoutCollisionPriority : N := 0x14001CF1.
(** /repo/src/one/property/mod.rs:91 *)
Definition P_LayoutMaxHeight : N := 0x14001C1C.
(** /repo/src/one/property/mod.rs:92 *)
Definition P_LayoutMaxWidth : N := 0x14001C1B.
(** /repo/src/one/property/mod.rs:93 *)
Definition P_LayoutMinimumOutlineWidth : N := 0x14001CEC.
(** /repo/src/one/property/mod.rs:94 *)
Definition P_LayoutOutlineReservedWidth : N := 0x14001CDB.
(** /repo/src/one/property/mod.rs:95 *)
Definition P_LayoutResolveChildCollisions : N := 0x08001CDC.
(** /repo/src/one/property/mod.rs:96 *)
Definition P_LayoutTightAlignment : N := 0x08001CFF.
(** /repo/src/one/property/mod.rs:97 *)
Definition P_LayoutTightLayout : N := 0x08001C00.
(** /repo/src/one/property/mod.rs:98 *)
Definition P_ListFont : N := 0x1C001C52.
(** /repo/src/one/property/mod.rs:99 *)
Definition P_ListMsaaIndex : N := 0x10001D0E.
(** /repo/src/one/property/mod.rs:100 *)
Definition P_ListNodes : N := 0x24001C26.
(** /repo/src/one/property/mod.rs:101 *)
Definition P_ListRestart : N := 0x14001CB7.
(** /repo/src/one/property/mod.rs:102 *)
Definition P_ListSpacingMu : N := 0x14001CCB.
(** /repo/src/one/property/mod.rs:103 *)
Definition P_MathFormatting : N := 0x08003401.
(** /repo/src/one/property/mod.rs:104 *)
Definition P_MetaDataObjectsAboveGraphSpace : N := 0x24003442.
(** /repo/src/one/property/mod.rs:105 *)
Definition P_NextStyle : N := 0x1C00348A.
(** /repo/src/one/property/mod.rs:106 *)
Definition P_NoteTagCompleted : N := 0x1400346F.
(** /repo/src/one/property/mod.rs:107 *)
Definition P_NoteTagCreated : N := 0x1400346E.
(** /repo/src/one/property/mod.rs:108 *)
Definition P_NoteTagDefinitionOid : N := 0x20003488.
(** /repo/src/one/property/mod.rs:109 *)
Definition P_NoteTagHighlightColor : N := 0x14003465.
(** /repo/src/one/property/mod.rs:110 *)
Definition P_NoteTagLabel : N := 0x1C003468.
(** /repo/src/one/property/mod.rs:111 *)
Definition P_NoteTagPropertyStatus : N := 0x14003467.
(** /repo/src/one/property/mod.rs:112 *)
Definition P_NoteTagShape : N := 0x10003464.
(** /repo/src/one/property/mod.rs:113 *)
Definition P_NoteTagStates : N := 0x04003489.
(** /repo/src/one/property/mod.rs:114 *)
Definition P_NoteTagTextColor : N := 0x14003466.
(** /repo/src/one/property/mod.rs:115 *)
Definition P_NotebookManagementEntityGuid : N := 0x1C001C30.
(** /repo/src/one/property/mod.rs:116 *)
Definition P_NumberListFormat : N := 0x1C001C1A.
(** /repo/src/one/property/mod.rs:117 *)
Definition P_OffsetFromParentHoriz : N := 0x14001C14.
(** /repo/src/one/property/mod.rs:118 *)
Definition P_OffsetFromParentVert : N := 0x14001C15.
(** /repo/src/one/property/mod.rs:119 *)
Definition P_OutlineElementChildLevel : N := 0x0C001C03.
(** /repo/src/one/property/mod.rs:120 *)
Definition P_OutlineElementRtl : N := 0x08001C34.
(** /repo/src/one/property/mod.rs:121 *)
Definition P_PageHeight : N := 0x14001C02.
(** /repo/src/one/property/mod.rs:122 *)
Definition P_PageLevel : N := 0x14001DFF.
(** /repo/src/one/property/mod.rs:123 *)
Definition P_PageMarginBottom : N := 0x14001C4D.
(** /repo/src/one/property/mod.rs:124 *)
Definition P_PageMarginLeft : N := 0x14001C4E.
(** /repo/src/one/property/mod.rs:125 *)
Definition P_PageMarginOriginX : N := 0x14001D0F.
(** /repo/src/one/property/mod.rs:126 *)
Definition P_PageMarginOriginY : N := 0x14001D10.
(** /repo/src/one/property/mod.rs:127 *)
Definition P_PageMarginRight : N := 0x14001C4F.
(** /repo/src/one/property/mod.rs:128 *)
Definition P_PageMarginTop : N := 0x14001C4C.
(** /repo/src/one/property/mod.rs:129 *)
Definition P_PageSize : N := 0x14001C8B.
(** /repo/src/one/property/mod.rs:130 *)
Definition P_PageWidth : N := 0x14001C01.
(** /repo/src/one/property/mod.rs:131 *)
Definition P_ParagraphAlignment : N := 0x0C003477.
(** /repo/src/one/property/mod.rs:132 *)
Definition P_ParagraphLineSpacingExact : N := 0x14003430.
(** /repo/src/one/property/mod.rs:133 *)
Definition P_ParagraphSpaceAfter : N := 0x1400342F.
(** /repo/src/one/property/mod.rs:134 *)
Definition P_ParagraphSpaceBefore : N := 0x1400342E.
(** /repo/src/one/property/mod.rs:135 *)
Definition P_ParagraphStyle : N := 0x2000342C.
(** /repo/src/one/property/mod.rs:136 *)
Definition P_ParagraphStyleId : N := 0x1C00345A.
(** /repo/src/one/property/mod.rs:137 *)
Definition P_PictureContainer : N := 0x20001C3F.
(** /repo/src/one/property/mod.rs:138 *)
Definition P_PictureHeight : N := 0x140034CE.
(** /repo/src/one/property/mod.rs:139 *)
Definition P_PictureWidth : N := 0x140034CD.
(** /repo/src/one/property/mod.rs:140 *)
Definition P_PortraitPage : N := 0x08001C8E.
(** /repo/src/one/property/mod.rs:141 *)
Definition P_ReadingOrderRtl : N := 0x08003476.
(** /repo/src/one/property/mod.rs:142 *)
Definition P_RgOutlineIndentDistance : N := 0x1C001C12.
(** /repo/src/one/property/mod.rs:143 *)
Definition P_RichEditTextLangId : N := 0x10001CFE.
(** /repo/src/one/property/mod.rs:144 *)
Definition P_RichEditTextUnicode : N := 0x1C001C22.
(** /repo/src/one/property/mod.rs:145 *)
Definition P_RowCount : N := 0x14001D57.
(** /repo/src/one/property/mod.rs:146 *)
Definition P_SchemaRevisionInOrderToRead : N := 0x14001D82.
(** /repo/src/one/property/mod.rs:147 *)
Definition P_SchemaRevisionInOrderToWrite : N := 0x1400348B.
(** /repo/src/one/property/mod.rs:148 *)
Definition P_SectionDisplayName : N := 0x1C00349B.
(** /repo/src/one/property/mod.rs:149 *)
Definition P_SourceFilepath : N := 0x1C001D9D.
(** /repo/src/one/property/mod.rs:150 *)
Definition P_Strikethrough : N := 0x08001C07.
(** /repo/src/one/property/mod.rs:151 *)
Definition P_StructureElementChildNodes : N := 0x24001D5F.
(** /repo/src/one/property/mod.rs:152 *)
Definition P_Subscript : N := 0x08001C09.
(** /repo/src/one/property/mod.rs:153 *)
Definition P_Superscript : N := 0x08001C08.
(** /repo/src/one/property/mod.rs:154 *)
Definition P_TableBordersVisible : N := 0x08001D5E.
(** /repo/src/one/property/mod.rs:155 *)
Definition P_TableColumnWidths : N := 0x1C001D66.
(** /repo/src/one/property/mod.rs:156 *)
Definition P_TableColumnsLocked : N := 0x1C001D7D.
(** /repo/src/one/property/mod.rs:157 *)
Definition P_TaskTagDueDat : N := 0x1400346B.
(** /repo/src/one/property/mod.rs:158 *)
Definition P_TextExtendedAscii : N := 0x1C003498.
(** /repo/src/one/property/mod.rs:159 *)
Definition P_TextRunData : N := 0x40003499.
(** /repo/src/one/property/mod.rs:160 *)
Definition P_TextRunDataObject : N := 0x24003458.
(** /repo/src/one/property/mod.rs:161 *)
Definition P_TextRunFormatting : N := 0x24001E13.
(** /repo/src/one/property/mod.rs:162 *)
Definition P_TextRunIndex : N := 0x1C001E12.
(** /repo/src/one/property/mod.rs:163 *)
Definition P_TextRunIsEmbeddedObject : N := 0x08001E22.
(** /repo/src/one/property/mod.rs:164 *)
Definition P_TopologyCreationTimeStamp : N := 0x18001C65.
(** /repo/src/one/property/mod.rs:165 *)
Definition P_Underline : N := 0x08001C06.
(** /repo/src/one/property/mod.rs:166 *)
Definition P_UnderlineType : N := 0x0C001E15.
(** /repo/src/one/property/mod.rs:167 *)
Definition P_VersionHistoryGraphSpaceContextNodes : N := 0x3400347B.
(** /repo/src/one/property/mod.rs:168 *)
Definition P_WebPictureContainer14 : N := 0x200034C8.
(** /repo/src/one/property/mod.rs:169 *)
Definition P_WzHyperlinkUrl : N := 0x1C001E20.
(** /repo/src/one/property/mod.rs:172 *)
Definition P_TocChildren : N := 0x24001CF6.
(** /repo/src/one/property/mod.rs:173 *)
Definition P_FolderChildFilename : N := 0x1C001D6B.
(** /repo/src/one/property/mod.rs:174 *)
Definition P_NotebookElementOrderingId : N := 0x14001CB9.
(** /repo/src/one/property/mod.rs:175 *)
Definition P_PictureFileExtension : N := 0x24003424.
(** /repo/src/one/property/mod.rs:176 *)
Definition P_NoteTags : N := 0x40003489.
(** /repo/src/one/property/mod.rs:177 *)
Definition P_NoteTag : N := 0x44000811.
(** /repo/src/one/property/mod.rs:178 *)
Definition P_SectionColor : N := 0x14001CBE.
(** /repo/src/one/property/mod.rs:179 *)
Definition P_CellBackgroundColor : N := 0x14001E26.
(** /repo/src/one/property/mod.rs:180 *)
Definition P_InkBias : N := 0x0C00341C.
(** /repo/src/one/property/mod.rs:181 *)
Definition P_InkData : N := 0x20003415.
(** /repo/src/one/property/mod.rs:182 *)
Definition P_InkDimensions : N := 0x1C00340A.
(** /repo/src/one/property/mod.rs:183 *)
Definition P_InkPath : N := 0x1C00340B.
(** /repo/src/one/property/mod.rs:184 *)
Definition P_InkStrokeProperties : N := 0x20003409.
(** /repo/src/one/property/mod.rs:185 *)
Definition P_InkStrokes : N := 0x24003416.
(** /repo/src/one/property/mod.rs:186 *)
Definition P_InkAntialised : N := 0x8000340E.
(** /repo/src/one/property/mod.rs:187 *)
Definition P_InkFitToCurve : N := 0x80003410.
(** /repo/src/one/property/mod.rs:188 *)
Definition P_InkIgnorePressure : N := 0x08003411.
(** /repo/src/one/property/mod.rs:189 *)
Definition P_InkPenTip : N := 0x0C003412.
(** /repo/src/one/property/mod.rs:190 *)
Definition P_InkRasterOperation : N := 0x0C003413.
(** /repo/src/one/property/mod.rs:191 *)
Definition P_InkTransparency : N := 0x0C003414.
(** /repo/src/one/property/mod.rs:192 *)
Definition P_InkHeight : N := 0x1400340C.
(** /repo/src/one/property/mod.rs:193 *)
Definition P_InkWidth : N := 0x1400340D.
(** /repo/src/one/property/mod.rs:194 *)
Definition P_InkColor : N := 0x1400340F.
(** /repo/src/one/property/mod.rs:195 *)
Definition P_InkScalingX : N := 0x14001C46.
(** /repo/src/one/property/mod.rs:196 *)
Definition P_InkScalingY : N := 0x14001C47.
(** /repo/src/one/property/mod.rs:197 *)
Definition P_InkBoundingBox : N := 0x1C003418.
(** /repo/src/one/property/mod.rs:198 *)
Definition P_EmbeddedObjectType : N := 0x14003457.
(** /repo/src/one/property/mod.rs:199 *)
Definition P_EmbeddedInkStartX : N := 0x1400349E.
(** /repo/src/one/property/mod.rs:200 *)
Definition P_EmbeddedInkStartY : N := 0x1400349F.
(** /repo/src/one/property/mod.rs:201 *)
Definition P_EmbeddedInkWidth : N := 0x140034A0.
(** /repo/src/one/property/mod.rs:202 *)
Definition P_EmbeddedInkHeight : N := 0x140034A1.
(** /repo/src/one/property/mod.rs:203 *)
Definition P_EmbeddedInkOffsetHoriz : N := 0x140034A2.
(** /repo/src/one/property/mod.rs:204 *)
Definition P_EmbeddedInkOffsetVert : N := 0x140034A3.
(** /repo/src/one/property/mod.rs:205 *)
Definition P_EmbeddedInkSpaceWidth : N := 0x14001C27.
(** /repo/src/one/property/mod.rs:206 *)
Definition P_EmbeddedInkSpaceHeight : N := 0x14001C28.
(** /repo/src/one/property/mod.rs:207 *)
Definition P_ImageEmbedType : N := 0x140035F2.
(** /repo/src/one/property/mod.rs:208 *)
Definition P_ImageEmbeddedUrl : N := 0x1C0035F3.
(** /repo/src/one/property/mod.rs:209 *)
Definition P_MathInlineObjectType : N := 0x1400344F.
(** /repo/src/one/property/mod.rs:210 *)
Definition P_MathInlineObjectCount : N := 0x14003450.
(** /repo/src/one/property/mod.rs:211 *)
Definition P_MathInlineObjectCol : N := 0x0C003451.
(** /repo/src/one/property/mod.rs:212 *)
Definition P_MathInlineObjectAlign : N := 0x0C003452.
(** /repo/src/one/property/mod.rs:213 *)
Definition P_MathInlineObjectChar : N := 0x10003453.
(** /repo/src/one/property/mod.rs:214 *)
Definition P_MathInlineObjectChar1 : N := 0x10003454.
(** /repo/src/one/property/mod.rs:215 *)
Definition P_MathInlineObjectChar2 : N := 0x10003455.
