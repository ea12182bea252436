(** The public accessors through which a parsed section is read: one definition for
    every [pub fn] of the types in /repo/src/onenote and for those of the value types in
    /repo/src/one/property that it hands out. All of them are reads of one field
    (references and [as_deref] do not change the value) or pick the variant of an
    [enum]. Each carries the name of its type and of its method. *)
From Verif Require Import Base PropSet Store Shapes Props Nodes Doc Notebook.


(** ** [NoteTagDefinition] *)
(** /repo/src/onenote/note_tag.rs:64-66 *)
Definition NoteTagDefinition_label (self : tag_definition) := td_label self.
(** /repo/src/onenote/note_tag.rs:69-71 *)
Definition NoteTagDefinition_status (self : tag_definition) := td_status self.
(** /repo/src/onenote/note_tag.rs:74-76 *)
Definition NoteTagDefinition_shape (self : tag_definition) := td_shape self.
(** /repo/src/onenote/note_tag.rs:79-81 *)
Definition NoteTagDefinition_highlight_color (self : tag_definition) := td_highlight_color self.
(** /repo/src/onenote/note_tag.rs:84-86 *)
Definition NoteTagDefinition_text_color (self : tag_definition) := td_text_color self.
(** /repo/src/onenote/note_tag.rs:89-91 *)
Definition NoteTagDefinition_action_item_type (self : tag_definition) := td_action_item_type self.

(** ** [NoteTag] *)
(** /repo/src/onenote/note_tag.rs:32-34 *)
Definition NoteTag_completed_at (self : note_tag) := nt_completed_at self.
(** /repo/src/onenote/note_tag.rs:37-39 *)
Definition NoteTag_item_status (self : note_tag) := nt_item_status self.
(** /repo/src/onenote/note_tag.rs:42-44 *)
Definition NoteTag_definition (self : note_tag) := nt_definition self.

(** ** [List] *)
(** /repo/src/onenote/list.rs:31-33 *)
Definition List_list_font (self : list_info) := li_list_font self.
(** /repo/src/onenote/list.rs:40-42 *)
Definition List_list_restart (self : list_info) := li_list_restart self.
(** /repo/src/onenote/list.rs:49-51 *)
Definition List_list_format (self : list_info) := li_list_format self.
(** /repo/src/onenote/list.rs:54-56 *)
Definition List_bold (self : list_info) := li_bold self.
(** /repo/src/onenote/list.rs:59-61 *)
Definition List_italic (self : list_info) := li_italic self.
(** /repo/src/onenote/list.rs:64-66 *)
Definition List_font (self : list_info) := li_font self.
(** /repo/src/onenote/list.rs:73-75 *)
Definition List_font_size (self : list_info) := li_font_size self.
(** /repo/src/onenote/list.rs:82-84 *)
Definition List_font_color (self : list_info) := li_font_color self.

(** ** [EmbeddedFile] *)
(** /repo/src/onenote/embedded_file.rs:34-36 *)
Definition EmbeddedFile_filename (self : embedded_file) := fi_filename self.
(** /repo/src/onenote/embedded_file.rs:43-45 *)
Definition EmbeddedFile_file_type (self : embedded_file) := fi_file_type self.
(** /repo/src/onenote/embedded_file.rs:48-50 *)
Definition EmbeddedFile_data (self : embedded_file) := fi_data self.
(** /repo/src/onenote/embedded_file.rs:57-59 *)
Definition EmbeddedFile_layout_max_width (self : embedded_file) := fi_layout_max_width self.
(** /repo/src/onenote/embedded_file.rs:66-68 *)
Definition EmbeddedFile_layout_max_height (self : embedded_file) := fi_layout_max_height self.
(** /repo/src/onenote/embedded_file.rs:75-77 *)
Definition EmbeddedFile_offset_horizontal (self : embedded_file) := fi_offset_horizontal self.
(** /repo/src/onenote/embedded_file.rs:84-86 *)
Definition EmbeddedFile_offset_vertical (self : embedded_file) := fi_offset_vertical self.
(** /repo/src/onenote/embedded_file.rs:89-91 *)
Definition EmbeddedFile_note_tags (self : embedded_file) := fi_note_tags self.

(** ** [IFrame] *)
(** /repo/src/onenote/iframe.rs:15-17 *)
Definition IFrame_embed_type (self : iframe_data) := if_embed_type self.
(** /repo/src/onenote/iframe.rs:20-22 *)
Definition IFrame_source_url (self : iframe_data) := if_source_url self.

(** ** [Image] *)
(** /repo/src/onenote/image.rs:54-56 *)
Definition Image_data (self : image) := ig_data self.
(** /repo/src/onenote/image.rs:59-61 *)
Definition Image_extension (self : image) := ig_extension self.
(** /repo/src/onenote/image.rs:68-70 *)
Definition Image_layout_max_width (self : image) := ig_layout_max_width self.
(** /repo/src/onenote/image.rs:77-79 *)
Definition Image_layout_max_height (self : image) := ig_layout_max_height self.
(** /repo/src/onenote/image.rs:88-90 *)
Definition Image_alt_text (self : image) := ig_alt_text self.
(** /repo/src/onenote/image.rs:97-99 *)
Definition Image_layout_alignment_in_parent (self : image) := ig_alignment_in_parent self.
(** /repo/src/onenote/image.rs:106-108 *)
Definition Image_layout_alignment_self (self : image) := ig_alignment_self self.
(** /repo/src/onenote/image.rs:115-117 *)
Definition Image_image_filename (self : image) := ig_filename self.
(** /repo/src/onenote/image.rs:124-126 *)
Definition Image_displayed_page_number (self : image) := ig_displayed_page_number self.
(** /repo/src/onenote/image.rs:129-131 *)
Definition Image_text (self : image) := ig_text self.
(** /repo/src/onenote/image.rs:134-136 *)
Definition Image_text_language_code (self : image) := ig_text_language_code self.
(** /repo/src/onenote/image.rs:143-145 *)
Definition Image_picture_width (self : image) := ig_picture_width self.
(** /repo/src/onenote/image.rs:152-154 *)
Definition Image_picture_height (self : image) := ig_picture_height self.
(** /repo/src/onenote/image.rs:157-159 *)
Definition Image_hyperlink_url (self : image) := ig_hyperlink_url self.
(** /repo/src/onenote/image.rs:166-168 *)
Definition Image_offset_horizontal (self : image) := ig_offset_horizontal self.
(** /repo/src/onenote/image.rs:175-177 *)
Definition Image_offset_vertical (self : image) := ig_offset_vertical self.
(** /repo/src/onenote/image.rs:184-186 *)
Definition Image_is_background (self : image) := ig_is_background self.
(** /repo/src/onenote/image.rs:189-191 *)
Definition Image_note_tags (self : image) := ig_note_tags self.
(** /repo/src/onenote/image.rs:194-196 *)
Definition Image_embeds (self : image) := ig_embeds self.

(** ** [InkPoint] *)
(** /repo/src/onenote/ink.rs:108-110 *)
Definition InkPoint_x (self : ink_point) := ip_x self.
(** /repo/src/onenote/ink.rs:113-115 *)
Definition InkPoint_y (self : ink_point) := ip_y self.

(** ** [InkStroke] *)
(** /repo/src/onenote/ink.rs:61-63 *)
Definition InkStroke_path (self : ink_stroke) := st_path self.
(** /repo/src/onenote/ink.rs:68-70 *)
Definition InkStroke_pen_tip (self : ink_stroke) := st_pen_tip self.
(** /repo/src/onenote/ink.rs:75-77 *)
Definition InkStroke_transparency (self : ink_stroke) := st_transparency self.
(** /repo/src/onenote/ink.rs:80-82 *)
Definition InkStroke_height (self : ink_stroke) := st_height self.
(** /repo/src/onenote/ink.rs:87-89 *)
Definition InkStroke_width (self : ink_stroke) := st_width self.
(** /repo/src/onenote/ink.rs:94-96 *)
Definition InkStroke_color (self : ink_stroke) := st_color self.

(** ** [InkBoundingBox] *)
(** /repo/src/onenote/ink.rs:131-133 *)
Definition InkBoundingBox_x (self : ink_box) := bb_x self.
(** /repo/src/onenote/ink.rs:138-140 *)
Definition InkBoundingBox_y (self : ink_box) := bb_y self.
(** /repo/src/onenote/ink.rs:145-147 *)
Definition InkBoundingBox_height (self : ink_box) := bb_height self.
(** /repo/src/onenote/ink.rs:152-154 *)
Definition InkBoundingBox_width (self : ink_box) := bb_width self.

(** ** [Ink] *)
(** /repo/src/onenote/ink.rs:20-22 *)
Definition Ink_ink_strokes (self : ink) := in_strokes self.
(** /repo/src/onenote/ink.rs:25-27 *)
Definition Ink_bounding_box (self : ink) := in_bounding_box self.
(** /repo/src/onenote/ink.rs:34-36 *)
Definition Ink_offset_horizontal (self : ink) := in_offset_horizontal self.
(** /repo/src/onenote/ink.rs:43-45 *)
Definition Ink_offset_vertical (self : ink) := in_offset_vertical self.

(** ** [MathInlineObject] *)
(** /repo/src/onenote/math_inline_object.rs:88-90 *)
Definition MathInlineObject_object_type (self : math_object) := mo_type self.
(** /repo/src/onenote/math_inline_object.rs:93-95 *)
Definition MathInlineObject_arg_count (self : math_object) := mo_arg_count self.
(** /repo/src/onenote/math_inline_object.rs:98-100 *)
Definition MathInlineObject_column (self : math_object) := mo_column self.
(** /repo/src/onenote/math_inline_object.rs:103-105 *)
Definition MathInlineObject_align (self : math_object) := mo_align self.
(** /repo/src/onenote/math_inline_object.rs:108-110 *)
Definition MathInlineObject_char (self : math_object) := mo_char self.
(** /repo/src/onenote/math_inline_object.rs:113-115 *)
Definition MathInlineObject_char1 (self : math_object) := mo_char1 self.
(** /repo/src/onenote/math_inline_object.rs:118-120 *)
Definition MathInlineObject_char2 (self : math_object) := mo_char2 self.

(** ** [ParagraphStyling] *)
(** /repo/src/onenote/rich_text.rs:235-237 *)
Definition ParagraphStyling_charset (self : styling) := ps_charset self.
(** /repo/src/onenote/rich_text.rs:240-242 *)
Definition ParagraphStyling_bold (self : styling) := ps_bold self.
(** /repo/src/onenote/rich_text.rs:245-247 *)
Definition ParagraphStyling_italic (self : styling) := ps_italic self.
(** /repo/src/onenote/rich_text.rs:250-252 *)
Definition ParagraphStyling_underline (self : styling) := ps_underline self.
(** /repo/src/onenote/rich_text.rs:255-257 *)
Definition ParagraphStyling_strikethrough (self : styling) := ps_strikethrough self.
(** /repo/src/onenote/rich_text.rs:260-262 *)
Definition ParagraphStyling_superscript (self : styling) := ps_superscript self.
(** /repo/src/onenote/rich_text.rs:265-267 *)
Definition ParagraphStyling_subscript (self : styling) := ps_subscript self.
(** /repo/src/onenote/rich_text.rs:270-272 *)
Definition ParagraphStyling_font (self : styling) := ps_font self.
(** /repo/src/onenote/rich_text.rs:279-281 *)
Definition ParagraphStyling_font_size (self : styling) := ps_font_size self.
(** /repo/src/onenote/rich_text.rs:288-290 *)
Definition ParagraphStyling_font_color (self : styling) := ps_font_color self.
(** /repo/src/onenote/rich_text.rs:297-299 *)
Definition ParagraphStyling_highlight (self : styling) := ps_highlight self.
(** /repo/src/onenote/rich_text.rs:306-308 *)
Definition ParagraphStyling_next_style (self : styling) := ps_next_style self.
(** /repo/src/onenote/rich_text.rs:315-317 *)
Definition ParagraphStyling_style_id (self : styling) := ps_style_id self.
(** /repo/src/onenote/rich_text.rs:320-322 *)
Definition ParagraphStyling_paragraph_alignment (self : styling) := ps_alignment self.
(** /repo/src/onenote/rich_text.rs:329-331 *)
Definition ParagraphStyling_paragraph_space_before (self : styling) := ps_space_before self.
(** /repo/src/onenote/rich_text.rs:338-340 *)
Definition ParagraphStyling_paragraph_space_after (self : styling) := ps_space_after self.
(** /repo/src/onenote/rich_text.rs:347-349 *)
Definition ParagraphStyling_paragraph_line_spacing_exact (self : styling) := ps_line_spacing_exact self.
(** /repo/src/onenote/rich_text.rs:356-358 *)
Definition ParagraphStyling_language_code (self : styling) := ps_language_code self.
(** /repo/src/onenote/rich_text.rs:361-363 *)
Definition ParagraphStyling_math_formatting (self : styling) := ps_math_formatting self.
(** /repo/src/onenote/rich_text.rs:366-368 *)
Definition ParagraphStyling_hyperlink (self : styling) := ps_hyperlink self.

(** ** [RichText] *)
(** /repo/src/onenote/rich_text.rs:55-57 *)
Definition RichText_text (self : rich_text) := tx_text self.
(** /repo/src/onenote/rich_text.rs:64-66 *)
Definition RichText_text_run_formatting (self : rich_text) := tx_run_formatting self.
(** /repo/src/onenote/rich_text.rs:73-75 *)
Definition RichText_text_run_indices (self : rich_text) := tx_run_indices self.
(** /repo/src/onenote/rich_text.rs:78-80 *)
Definition RichText_paragraph_style (self : rich_text) := tx_paragraph_style self.
(** /repo/src/onenote/rich_text.rs:87-89 *)
Definition RichText_paragraph_space_before (self : rich_text) := tx_space_before self.
(** /repo/src/onenote/rich_text.rs:96-98 *)
Definition RichText_paragraph_space_after (self : rich_text) := tx_space_after self.
(** /repo/src/onenote/rich_text.rs:105-107 *)
Definition RichText_paragraph_line_spacing_exact (self : rich_text) := tx_line_spacing_exact self.
(** /repo/src/onenote/rich_text.rs:114-116 *)
Definition RichText_paragraph_alignment (self : rich_text) := tx_alignment self.
(** /repo/src/onenote/rich_text.rs:123-125 *)
Definition RichText_layout_alignment_in_parent (self : rich_text) := tx_alignment_in_parent self.
(** /repo/src/onenote/rich_text.rs:132-134 *)
Definition RichText_layout_alignment_self (self : rich_text) := tx_alignment_self self.
(** /repo/src/onenote/rich_text.rs:137-139 *)
Definition RichText_note_tags (self : rich_text) := tx_note_tags self.
(** /repo/src/onenote/rich_text.rs:142-144 *)
Definition RichText_embedded_objects (self : rich_text) := tx_embedded_objects self.
(** /repo/src/onenote/rich_text.rs:147-149 *)
Definition RichText_math_inline_objects (self : rich_text) := tx_math_objects self.

(** ** [Outline] *)
(** /repo/src/onenote/outline.rs:37-39 *)
Definition Outline_items (self : outline) := ol_items self.
(** /repo/src/onenote/outline.rs:46-48 *)
Definition Outline_child_level (self : outline) := ol_child_level self.
(** /repo/src/onenote/outline.rs:55-57 *)
Definition Outline_list_spacing (self : outline) := ol_list_spacing self.
(** /repo/src/onenote/outline.rs:65-67 *)
Definition Outline_indents (self : outline) := ol_indents self.
(** /repo/src/onenote/outline.rs:74-76 *)
Definition Outline_alignment_in_parent (self : outline) := ol_alignment_in_parent self.
(** /repo/src/onenote/outline.rs:83-85 *)
Definition Outline_alignment_self (self : outline) := ol_alignment_self self.
(** /repo/src/onenote/outline.rs:92-94 *)
Definition Outline_layout_max_height (self : outline) := ol_layout_max_height self.
(** /repo/src/onenote/outline.rs:101-103 *)
Definition Outline_layout_max_width (self : outline) := ol_layout_max_width self.
(** /repo/src/onenote/outline.rs:110-112 *)
Definition Outline_layout_reserved_width (self : outline) := ol_layout_reserved_width self.
(** /repo/src/onenote/outline.rs:119-121 *)
Definition Outline_layout_minimum_outline_width (self : outline) := ol_layout_minimum_outline_width self.
(** /repo/src/onenote/outline.rs:128-130 *)
Definition Outline_is_layout_size_set_by_user (self : outline) := ol_is_layout_size_set_by_user self.
(** /repo/src/onenote/outline.rs:137-139 *)
Definition Outline_offset_horizontal (self : outline) := ol_offset_horizontal self.
(** /repo/src/onenote/outline.rs:146-148 *)
Definition Outline_offset_vertical (self : outline) := ol_offset_vertical self.

(** ** [Title] *)
(** /repo/src/onenote/page.rs:107-109 *)
Definition Title_contents (self : title) := ti_contents self.
(** /repo/src/onenote/page.rs:116-118 *)
Definition Title_offset_horizontal (self : title) := ti_offset_horizontal self.
(** /repo/src/onenote/page.rs:125-127 *)
Definition Title_offset_vertical (self : title) := ti_offset_vertical self.
(** /repo/src/onenote/page.rs:134-136 *)
Definition Title_layout_alignment_in_parent (self : title) := ti_alignment_in_parent self.
(** /repo/src/onenote/page.rs:143-145 *)
Definition Title_layout_alignment_self (self : title) := ti_alignment_self self.

(** ** [Page] *)
(** /repo/src/onenote/page.rs:30-32 *)
Definition Page_title (self : page) := pg_title self.
(** /repo/src/onenote/page.rs:39-41 *)
Definition Page_level (self : page) := pg_level self.
(** /repo/src/onenote/page.rs:44-46 *)
Definition Page_author (self : page) := pg_author self.
(** /repo/src/onenote/page.rs:53-55 *)
Definition Page_height (self : page) := pg_height self.
(** /repo/src/onenote/page.rs:58-60 *)
Definition Page_contents (self : page) := pg_contents self.

(** ** [Section] *)
(** /repo/src/onenote/section.rs:31-33 *)
Definition Section_display_name (self : section) := se_display_name self.
(** /repo/src/onenote/section.rs:36-38 *)
Definition Section_page_series (self : section) := se_page_series self.
(** /repo/src/onenote/section.rs:41-43 *)
Definition Section_color (self : section) := se_color self.

(** ** [Notebook] *)
(** /repo/src/onenote/notebook.rs:18-20 *)
Definition Notebook_entries (self : notebook) := nb_entries self.
(** /repo/src/onenote/notebook.rs:23-25 *)
Definition Notebook_color (self : notebook) := nb_color self.

(** ** [Color] *)
(** /repo/src/one/property/color.rs:20-22 *)
Definition Color_alpha (self : color) := co_alpha self.
(** /repo/src/one/property/color.rs:25-27 *)
Definition Color_r (self : color) := co_r self.
(** /repo/src/one/property/color.rs:30-32 *)
Definition Color_g (self : color) := co_g self.
(** /repo/src/one/property/color.rs:35-37 *)
Definition Color_b (self : color) := co_b self.

(** ** [LayoutAlignment] *)
(** /repo/src/one/property/layout_alignment.rs:19-21 *)
Definition LayoutAlignment_alignment_horizontal (self : layout_alignment) := la_h self.
(** /repo/src/one/property/layout_alignment.rs:23-25 *)
Definition LayoutAlignment_alignment_margin_horizontal (self : layout_alignment) := la_hm self.
(** /repo/src/one/property/layout_alignment.rs:27-29 *)
Definition LayoutAlignment_alignment_vertical (self : layout_alignment) := la_v self.
(** /repo/src/one/property/layout_alignment.rs:31-33 *)
Definition LayoutAlignment_alignment_margin_vertical (self : layout_alignment) := la_vm self.

(** ** [ActionItemStatus] *)
(** /repo/src/one/property/note_tag.rs:19-21 *)
Definition ActionItemStatus_completed (self : action_item_status) := as_completed self.
(** /repo/src/one/property/note_tag.rs:24-26 *)
Definition ActionItemStatus_disabled (self : action_item_status) := as_disabled self.
(** /repo/src/one/property/note_tag.rs:29-31 *)
Definition ActionItemStatus_task_tag (self : action_item_status) := as_task_tag self.

(** ** [NoteTagPropertyStatus] *)
(** /repo/src/one/property/note_tag_property_status.rs:26-28 *)
Definition NoteTagPropertyStatus_has_label (self : note_tag_status) := ns_has_label self.
(** /repo/src/one/property/note_tag_property_status.rs:31-33 *)
Definition NoteTagPropertyStatus_has_font_color (self : note_tag_status) := ns_has_font_color self.
(** /repo/src/one/property/note_tag_property_status.rs:36-38 *)
Definition NoteTagPropertyStatus_has_highlight_color (self : note_tag_status) := ns_has_highlight_color self.
(** /repo/src/one/property/note_tag_property_status.rs:41-43 *)
Definition NoteTagPropertyStatus_has_icon (self : note_tag_status) := ns_has_icon self.
(** /repo/src/one/property/note_tag_property_status.rs:46-48 *)
Definition NoteTagPropertyStatus_due_today (self : note_tag_status) := ns_due_today self.
(** /repo/src/one/property/note_tag_property_status.rs:51-53 *)
Definition NoteTagPropertyStatus_due_tomorrow (self : note_tag_status) := ns_due_tomorrow self.
(** /repo/src/one/property/note_tag_property_status.rs:56-58 *)
Definition NoteTagPropertyStatus_due_this_week (self : note_tag_status) := ns_due_this_week self.
(** /repo/src/one/property/note_tag_property_status.rs:61-63 *)
Definition NoteTagPropertyStatus_due_next_week (self : note_tag_status) := ns_due_next_week self.
(** /repo/src/one/property/note_tag_property_status.rs:66-68 *)
Definition NoteTagPropertyStatus_due_later (self : note_tag_status) := ns_due_later self.
(** /repo/src/one/property/note_tag_property_status.rs:71-73 *)
Definition NoteTagPropertyStatus_due_custom (self : note_tag_status) := ns_due_custom self.

(** ** [OutlineItem] *)
(** /repo/src/onenote/outline.rs:161-167 *)
Definition OutlineItem_element (self : outline_item) :=
  match self with ItemElement x => Some x | _ => None end.

(** ** [OutlineElement] *)
(** /repo/src/onenote/outline.rs:219-221 *)
Definition OutlineElement_contents (self : outline_element) := match self with OutlineElement contents _ _ _ _ => contents end.
(** /repo/src/onenote/outline.rs:231-233 *)
Definition OutlineElement_list_contents (self : outline_element) := match self with OutlineElement _ list_contents _ _ _ => list_contents end.
(** /repo/src/onenote/outline.rs:240-242 *)
Definition OutlineElement_list_spacing (self : outline_element) := match self with OutlineElement _ _ list_spacing _ _ => list_spacing end.
(** /repo/src/onenote/outline.rs:249-251 *)
Definition OutlineElement_child_level (self : outline_element) := match self with OutlineElement _ _ _ child_level _ => child_level end.
(** /repo/src/onenote/outline.rs:254-256 *)
Definition OutlineElement_children (self : outline_element) := match self with OutlineElement _ _ _ _ children => children end.

(** ** [Content] *)
(** /repo/src/onenote/content.rs:35-41 *)
Definition Content_rich_text (self : content) :=
  match self with CoRichText x => Some x | _ => None end.
(** /repo/src/onenote/content.rs:44-50 *)
Definition Content_table (self : content) :=
  match self with CoTable x => Some x | _ => None end.
(** /repo/src/onenote/content.rs:53-59 *)
Definition Content_image (self : content) :=
  match self with CoImage x => Some x | _ => None end.
(** /repo/src/onenote/content.rs:62-68 *)
Definition Content_embedded_file (self : content) :=
  match self with CoEmbeddedFile x => Some x | _ => None end.
(** /repo/src/onenote/content.rs:71-77 *)
Definition Content_ink (self : content) :=
  match self with CoInk x => Some x | _ => None end.

(** ** [Table] *)
(** /repo/src/onenote/table.rs:35-37 *)
Definition Table_rows (self : table) := match self with Table rows _ _ _ _ _ _ _ _ => rows end.
(** /repo/src/onenote/table.rs:40-42 *)
Definition Table_cols (self : table) := match self with Table _ cols _ _ _ _ _ _ _ => cols end.
(** /repo/src/onenote/table.rs:45-47 *)
Definition Table_contents (self : table) := match self with Table _ _ contents _ _ _ _ _ _ => contents end.
(** /repo/src/onenote/table.rs:60-62 *)
Definition Table_cols_locked (self : table) := match self with Table _ _ _ cols_locked _ _ _ _ _ => cols_locked end.
(** /repo/src/onenote/table.rs:69-71 *)
Definition Table_col_widths (self : table) := match self with Table _ _ _ _ col_widths _ _ _ _ => col_widths end.
(** /repo/src/onenote/table.rs:78-80 *)
Definition Table_borders_visible (self : table) := match self with Table _ _ _ _ _ borders_visible _ _ _ => borders_visible end.
(** /repo/src/onenote/table.rs:87-89 *)
Definition Table_layout_alignment_in_parent (self : table) := match self with Table _ _ _ _ _ _ alignment_in_parent _ _ => alignment_in_parent end.
(** /repo/src/onenote/table.rs:96-98 *)
Definition Table_layout_alignment_self (self : table) := match self with Table _ _ _ _ _ _ _ alignment_self _ => alignment_self end.
(** /repo/src/onenote/table.rs:101-103 *)
Definition Table_note_tags (self : table) := match self with Table _ _ _ _ _ _ _ _ tags => tags end.

(** ** [TableRow] *)
(** /repo/src/onenote/table.rs:118-120 *)
Definition TableRow_contents (self : table_row) := match self with TableRow contents => contents end.

(** ** [TableCell] *)
(** /repo/src/onenote/table.rs:139-141 *)
Definition TableCell_contents (self : table_cell) := match self with TableCell contents _ _ _ => contents end.
(** /repo/src/onenote/table.rs:148-150 *)
Definition TableCell_layout_max_width (self : table_cell) := match self with TableCell _ _ layout_max_width _ => layout_max_width end.
(** /repo/src/onenote/table.rs:157-159 *)
Definition TableCell_outline_indent_distance (self : table_cell) := match self with TableCell _ _ _ indent_distance => indent_distance end.
(** /repo/src/onenote/table.rs:162-164 *)
Definition TableCell_background_color (self : table_cell) := match self with TableCell _ background_color _ _ => background_color end.

(** ** [PageContent] *)
(** /repo/src/onenote/page_content.rs:27-33 *)
Definition PageContent_outline (self : page_content) :=
  match self with PcOutline x => Some x | _ => None end.
(** /repo/src/onenote/page_content.rs:36-42 *)
Definition PageContent_image (self : page_content) :=
  match self with PcImage x => Some x | _ => None end.
(** /repo/src/onenote/page_content.rs:45-51 *)
Definition PageContent_embedded_file (self : page_content) :=
  match self with PcEmbeddedFile x => Some x | _ => None end.
(** /repo/src/onenote/page_content.rs:54-60 *)
Definition PageContent_ink (self : page_content) :=
  match self with PcInk x => Some x | _ => None end.

(** ** Types whose fields are held by a variant of the model
    A variant of a public [enum] is matched by the caller; what it holds is given as a
    pair here. *)
(** /repo/src/onenote/outline.rs:153-157: [OutlineItem::Group]. *)
Definition OutlineItem_Group (self : outline_item) :=
  match self with ItemGroup child_level outlines => Some (child_level, outlines) | _ => None end.
(** /repo/src/onenote/outline.rs:190-192 *)
Definition OutlineGroup_child_level (self : N * list outline_item) := fst self.
(** /repo/src/onenote/outline.rs:195-197 *)
Definition OutlineGroup_outlines (self : N * list outline_item) := snd self.
(** /repo/src/onenote/rich_text.rs:153-162: [EmbeddedObject::Ink]. *)
Definition EmbeddedObject_Ink (self : embedded_object) :=
  match self with EoInk ink bounding_box => Some (ink, bounding_box) | _ => None end.
(** /repo/src/onenote/rich_text.rs:153-162: [EmbeddedObject::InkSpace]. *)
Definition EmbeddedObject_InkSpace (self : embedded_object) :=
  match self with EoInkSpace height width => Some (height, width) | _ => None end.
(** /repo/src/onenote/rich_text.rs:174-176 *)
Definition EmbeddedInkContainer_ink (self : ink * option stored_box) := fst self.
(** /repo/src/onenote/rich_text.rs:179-181 *)
Definition EmbeddedInkContainer_bounding_box (self : ink * option stored_box) := snd self.
(** /repo/src/onenote/rich_text.rs:193-195 *)
Definition EmbeddedInkSpace_height (self : N * N) := fst self.
(** /repo/src/onenote/rich_text.rs:198-200 *)
Definition EmbeddedInkSpace_width (self : N * N) := snd self.
(** The bounding box of embedded ink is an [InkBoundingBox], too; its four floats are
    stored ones and kept as their bits. *)
(** /repo/src/onenote/ink.rs:131-133 *)
Definition InkBoundingBox_x' (self : stored_box) := sb_x self.
(** /repo/src/onenote/ink.rs:138-140 *)
Definition InkBoundingBox_y' (self : stored_box) := sb_y self.
(** /repo/src/onenote/ink.rs:145-147 *)
Definition InkBoundingBox_height' (self : stored_box) := sb_height self.
(** /repo/src/onenote/ink.rs:152-154 *)
Definition InkBoundingBox_width' (self : stored_box) := sb_width self.
(** A page series is its list of pages. /repo/src/onenote/page_series.rs:20-22 *)
Definition PageSeries_pages (self : list page) := self.
(** /repo/src/one/property/outline_indent_distance.rs:10-12 *)
Definition OutlineIndentDistance_value (self : list N) := self.
(** /repo/src/onenote/section.rs:11-14: [SectionEntry::Section]. *)
Definition SectionEntry_Section (self : section_entry) :=
  match self with EnSection s => Some s | _ => None end.
(** /repo/src/onenote/section.rs:11-14: [SectionEntry::SectionGroup]. *)
Definition SectionEntry_SectionGroup (self : section_entry) :=
  match self with EnGroup display_name entries => Some (display_name, entries) | _ => None end.
(** /repo/src/onenote/section.rs:55-57 *)
Definition SectionGroup_display_name (self : list N * list section_entry) := fst self.
(** /repo/src/onenote/section.rs:60-62 *)
Definition SectionGroup_entries (self : list N * list section_entry) := snd self.
