(** What a caller sees of a parsed section. A caller starts at the section, follows
    accessors from one value to the next, and reads attributes on the way. Everything
    a caller can get to in this way is an [item]; [gives] is one step, and [documented]
    says where in the file the attributes of an item are stored. Properties and kinds of
    objects are given by their numbers in [MS-ONE]. *)
From Coq Require Import Floats.SpecFloat.
From Verif Require Import Base Codec PropSet Store Package Shapes Props Nodes Doc Notebook Getters SpecStore SpecValues SpecNodes SpecDoc.

(** ** What can be reached *)
Inductive item :=
| ASection (s : section)
| ASeries (s : list page)
| APage (p : page)
| ATitle (t : title)
| APageContent (c : page_content)
| AOutline (o : outline)
| AOutlineItem (i : outline_item)
| AGroup (g : N * list outline_item)
| AElement (e : outline_element)
| AContent (c : content)
| ARichText (t : rich_text)
| ATable (t : table)
| ARow (r : table_row)
| ACell (c : table_cell)
| AImage (g : image)
| AFile (f : embedded_file)
| AFrame (f : iframe_data)
| AInk (i : ink)
| AStroke (s : ink_stroke)
| APoint (p : ink_point)
| ABox (b : ink_box)
| AList (l : list_info)
| ATag (t : note_tag)
| ADefinition (d : tag_definition)
| AStyle (s : styling)
| AMath (m : math_object)
| AEmbedded (e : embedded_object)
| AInkContainer (c : ink * option stored_box)
| AInkBox (b : stored_box)
| AInkSpace (s : N * N).

(** One step: an element of a list an accessor returns, or the value it returns. *)
Inductive gives : item -> item -> Prop :=
| g_series s x : In x (Section_page_series s) -> gives (ASection s) (ASeries x)
| g_pages s x : In x (PageSeries_pages s) -> gives (ASeries s) (APage x)
| g_title p x : Page_title p = Some x -> gives (APage p) (ATitle x)
| g_page p x : In x (Page_contents p) -> gives (APage p) (APageContent x)
| g_title_outline t x : In x (Title_contents t) -> gives (ATitle t) (AOutline x)
| g_outline c x : PageContent_outline c = Some x -> gives (APageContent c) (AOutline x)
| g_page_image c x : PageContent_image c = Some x -> gives (APageContent c) (AImage x)
| g_page_file c x : PageContent_embedded_file c = Some x -> gives (APageContent c) (AFile x)
| g_page_ink c x : PageContent_ink c = Some x -> gives (APageContent c) (AInk x)
| g_items o x : In x (Outline_items o) -> gives (AOutline o) (AOutlineItem x)
| g_element i x : OutlineItem_element i = Some x -> gives (AOutlineItem i) (AElement x)
| g_group i x : OutlineItem_Group i = Some x -> gives (AOutlineItem i) (AGroup x)
| g_group_items g x : In x (OutlineGroup_outlines g) -> gives (AGroup g) (AOutlineItem x)
| g_contents e x : In x (OutlineElement_contents e) -> gives (AElement e) (AContent x)
| g_lists e x : In x (OutlineElement_list_contents e) -> gives (AElement e) (AList x)
| g_children e x : In x (OutlineElement_children e) -> gives (AElement e) (AOutlineItem x)
| g_text c x : Content_rich_text c = Some x -> gives (AContent c) (ARichText x)
| g_table c x : Content_table c = Some x -> gives (AContent c) (ATable x)
| g_image c x : Content_image c = Some x -> gives (AContent c) (AImage x)
| g_file c x : Content_embedded_file c = Some x -> gives (AContent c) (AFile x)
| g_ink c x : Content_ink c = Some x -> gives (AContent c) (AInk x)
| g_rows t x : In x (Table_contents t) -> gives (ATable t) (ARow x)
| g_table_tags t x : In x (Table_note_tags t) -> gives (ATable t) (ATag x)
| g_cells r x : In x (TableRow_contents r) -> gives (ARow r) (ACell x)
| g_cell c x : In x (TableCell_contents c) -> gives (ACell c) (AElement x)
| g_image_tags g x : In x (Image_note_tags g) -> gives (AImage g) (ATag x)
| g_frames g x : In x (Image_embeds g) -> gives (AImage g) (AFrame x)
| g_file_tags f x : In x (EmbeddedFile_note_tags f) -> gives (AFile f) (ATag x)
| g_strokes i x : In x (Ink_ink_strokes i) -> gives (AInk i) (AStroke x)
| g_box i x : Ink_bounding_box i = Some x -> gives (AInk i) (ABox x)
| g_path s x : In x (InkStroke_path s) -> gives (AStroke s) (APoint x)
| g_definition t x : NoteTag_definition t = Some x -> gives (ATag t) (ADefinition x)
| g_formats t x : In x (RichText_text_run_formatting t) -> gives (ARichText t) (AStyle x)
| g_style t : gives (ARichText t) (AStyle (RichText_paragraph_style t))
| g_text_tags t x : In x (RichText_note_tags t) -> gives (ARichText t) (ATag x)
| g_embedded t x : In x (RichText_embedded_objects t) -> gives (ARichText t) (AEmbedded x)
| g_math t x : In x (RichText_math_inline_objects t) -> gives (ARichText t) (AMath x)
| g_container e x : EmbeddedObject_Ink e = Some x -> gives (AEmbedded e) (AInkContainer x)
| g_space e x : EmbeddedObject_InkSpace e = Some x -> gives (AEmbedded e) (AInkSpace x)
| g_embedded_ink c : gives (AInkContainer c) (AInk (EmbeddedInkContainer_ink c))
| g_embedded_box c x : EmbeddedInkContainer_bounding_box c = Some x -> gives (AInkContainer c) (AInkBox x).

(** Any number of steps. *)
Inductive seen (s : section) : item -> Prop :=
| seen_start : seen s (ASection s)
| seen_step x y : seen s x -> gives x y -> seen s y.

(** The sections of a notebook: those listed by it and by its groups, at any depth. *)
Inductive listed : list section_entry -> section -> Prop :=
| listed_here es e s : In e es -> SectionEntry_Section e = Some s -> listed es s
| listed_below es e g s : In e es -> SectionEntry_SectionGroup e = Some g ->
    listed (SectionGroup_entries g) s -> listed es s.

(** Its groups, at any depth. *)
Inductive grouped : list section_entry -> list N * list section_entry -> Prop :=
| grouped_here es e g : In e es -> SectionEntry_SectionGroup e = Some g -> grouped es g
| grouped_below es e g g' : In e es -> SectionEntry_SectionGroup e = Some g ->
    grouped (SectionGroup_entries g) g' -> grouped es g'.

(** ** Values with accessors of their own *)
(** Red, green and blue from the least byte upwards, then the inverted opacity. *)
Definition a_color (v : pvalue) (c : color) : Prop := exists n, v = VU32 n /\
  Color_r c = n mod 256 /\ Color_g c = n / 2 ^ 8 mod 256 /\ Color_b c = n / 2 ^ 16 mod 256 /\
  Color_alpha c = 255 - n / 2 ^ 24 mod 256.
Definition a_alignment (v : pvalue) (x : option layout_alignment) : Prop := exists n, v = VU32 n /\
  match x with
  | None => N.testbit n 31 = true
  | Some a => N.testbit n 31 = false /\
      In (n mod 8, LayoutAlignment_alignment_horizontal a) halign_table /\
      LayoutAlignment_alignment_margin_horizontal a = (if N.testbit n 3 then HmLeft else HmRight) /\
      LayoutAlignment_alignment_vertical a = (if N.testbit n 16 then VaTop else VaBottom) /\
      LayoutAlignment_alignment_margin_vertical a = (if N.testbit n 19 then VmTop else VmBottom)
  end.
Definition a_item_status (v : pvalue) (s : action_item_status) : Prop := exists n, v = VU16 n /\
  ActionItemStatus_completed s = N.testbit n 0 /\ ActionItemStatus_disabled s = N.testbit n 1 /\
  ActionItemStatus_task_tag s = N.testbit n 2.
Definition a_tag_status (v : pvalue) (s : note_tag_status) : Prop := exists n, v = VU32 n /\
  NoteTagPropertyStatus_has_label s = N.testbit n 0 /\
  NoteTagPropertyStatus_has_font_color s = N.testbit n 1 /\
  NoteTagPropertyStatus_has_highlight_color s = N.testbit n 2 /\
  NoteTagPropertyStatus_has_icon s = N.testbit n 3 /\
  NoteTagPropertyStatus_due_today s = N.testbit n 6 /\
  NoteTagPropertyStatus_due_tomorrow s = N.testbit n 7 /\
  NoteTagPropertyStatus_due_this_week s = N.testbit n 8 /\
  NoteTagPropertyStatus_due_next_week s = N.testbit n 9 /\
  NoteTagPropertyStatus_due_later s = N.testbit n 10 /\
  NoteTagPropertyStatus_due_custom s = N.testbit n 11.

(** ** Where the attributes are stored *)
(** Some object of kind [k], in a space of the file, satisfies [P]. *)
Definition some_object (st : store) (k : N) (P : space -> object -> Prop) : Prop :=
  exists sp id o, store_space st sp /\ get_object sp id = Some o /\ ob_jcid o = k /\ P sp o.
(** Some run of some paragraph does. *)
Definition some_run (st : store) (P : object -> Prop) : Prop :=
  some_object st 0x0006000E (fun _ o => exists runs run, run_data o runs /\ In run runs /\ P run).
(** As many references as there are elements. *)
Definition as_many {A B} (l : list A) (m : list B) : Prop := length l = length m.

Definition documented (st : store) (file : list N) (x : item) : Prop :=
  match x with
  | ASection s =>
      let root := st_data_root st in
      (exists id o, metadata_root root = Some id /\ get_object root id = Some o /\ ob_jcid o = 0x00020031 /\
        (exists name, optional o 0x1C00349B SpecNodes.text name /\ display_name name file (Section_display_name s)) /\
        optional o 0x14001CBE a_color (Section_color s)) /\
      exists id o l, content_root root = Some id /\ get_object root id = Some o /\ ob_jcid o = 0x00060007 /\
        children o 0x24001C20 l /\ as_many l (Section_page_series s)
  | ASeries s => some_object st 0x00060008 (fun sp o =>
      exists l, spaces o 0x2C001D63 l /\ as_many l (PageSeries_pages s))
  (* the page is the first one its manifest refers to *)
  | APage p => exists sp, store_space st sp /\
      (exists id o, metadata_root sp = Some id /\ get_object sp id = Some o /\ ob_jcid o = 0x00020030 /\
        defaulted o 0x14001DFF signed 0%Z (Page_level p)) /\
      exists id m pid rest o, content_root sp = Some id /\ get_object sp id = Some m /\ ob_jcid m = 0x00060037 /\
        references m 0x24001C1F (pid :: rest) /\ get_object sp pid = Some o /\ ob_jcid o = 0x0006000B /\
        optional o 0x1C001D75 SpecNodes.text (Page_author p) /\
        optional o 0x14001C02 float (Page_height p) /\
        (exists l, children o 0x24001C20 l /\ as_many l (Page_contents p)) /\
        exists l, children o 0x24001D5F l /\ (Page_title p = None <-> l = [])
  | ATitle t => some_object st 0x0006002C (fun sp o =>
      required o 0x14001C14 float (Title_offset_horizontal t) /\
      required o 0x14001C15 float (Title_offset_vertical t) /\
      defaulted o 0x14001C3E a_alignment None (Title_layout_alignment_in_parent t) /\
      defaulted o 0x14001C84 a_alignment None (Title_layout_alignment_self t) /\
      exists l, references o 0x24001C20 l /\ as_many l (Title_contents t))
  (* kinds: outline, image, embedded file, ink, or none of these *)
  | APageContent c =>
      match PageContent_outline c, PageContent_image c, PageContent_embedded_file c, PageContent_ink c with
      | Some _, None, None, None => some_object st 0x0006000C (fun _ _ => True)
      | None, Some _, None, None => some_object st 0x00060011 (fun _ _ => True)
      | None, None, Some _, None => some_object st 0x00060035 (fun _ _ => True)
      | None, None, None, Some _ => some_object st 0x00060014 (fun _ _ => True)
      | None, None, None, None => exists k, some_object st k (fun _ _ => True) /\
          ~ In k [0x0006000C; 0x00060011; 0x00060035; 0x00060014]
      | _, _, _, _ => False
      end
  | AOutline x => some_object st 0x0006000C (fun sp o =>
      required o 0x0C001C03 byte (Outline_child_level x) /\
      optional o 0x14001CCB float (Outline_list_spacing x) /\
      required o 0x1C001C12 indents (Outline_indents x) /\
      defaulted o 0x14001C3E a_alignment None (Outline_alignment_in_parent x) /\
      defaulted o 0x14001C84 a_alignment None (Outline_alignment_self x) /\
      optional o 0x14001C1C float (Outline_layout_max_height x) /\
      optional o 0x14001C1B float (Outline_layout_max_width x) /\
      optional o 0x14001CDB float (Outline_layout_reserved_width x) /\
      optional o 0x14001CEC float (Outline_layout_minimum_outline_width x) /\
      defaulted o 0x08001CBD boolean false (Outline_is_layout_size_set_by_user x) /\
      optional o 0x14001C14 float (Outline_offset_horizontal x) /\
      optional o 0x14001C15 float (Outline_offset_vertical x) /\
      exists l, children o 0x24001C20 l /\ as_many l (Outline_items x))
  | AOutlineItem i =>
      match OutlineItem_Group i, OutlineItem_element i with
      | Some _, None => some_object st 0x00060019 (fun _ _ => True)
      | None, Some _ => some_object st 0x0006000D (fun _ _ => True)
      | _, _ => False
      end
  | AGroup g => some_object st 0x00060019 (fun sp o =>
      required o 0x0C001C03 byte (OutlineGroup_child_level g) /\
      exists l, children o 0x24001C20 l /\ as_many l (OutlineGroup_outlines g))
  | AElement e => some_object st 0x0006000D (fun sp o =>
      required o 0x0C001C03 byte (OutlineElement_child_level e) /\
      optional o 0x14001CCB float (OutlineElement_list_spacing e) /\
      (exists l, children o 0x24001C20 l /\ as_many l (OutlineElement_children e)) /\
      (exists l, children o 0x24001C1F l /\ as_many l (OutlineElement_contents e)) /\
      exists l, children o 0x24001C26 l /\ as_many l (OutlineElement_list_contents e))
  | AContent c =>
      match Content_rich_text c, Content_table c, Content_image c, Content_embedded_file c, Content_ink c with
      | Some _, None, None, None, None => some_object st 0x0006000E (fun _ _ => True)
      | None, Some _, None, None, None => some_object st 0x00060022 (fun _ _ => True)
      | None, None, Some _, None, None => some_object st 0x00060011 (fun _ _ => True)
      | None, None, None, Some _, None => some_object st 0x00060035 (fun _ _ => True)
      | None, None, None, None, Some _ => some_object st 0x00060014 (fun _ _ => True)
      | None, None, None, None, None => exists k, some_object st k (fun _ _ => True) /\
          ~ In k [0x0006000E; 0x00060022; 0x00060011; 0x00060035; 0x00060014]
      | _, _, _, _, _ => False
      end
  | ARichText t => some_object st 0x0006000E (fun sp o =>
      (RichText_embedded_objects t <> [] /\ RichText_text t = [] \/
       RichText_embedded_objects t = [] /\
         exists s, paragraph_text o s /\ RichText_text t = match s with Some s => s | None => [] end) /\
      defaulted o 0x1C001E12 dwords [] (RichText_text_run_indices t) /\
      defaulted o 0x1400342E float 0 (RichText_paragraph_space_before t) /\
      defaulted o 0x1400342F float 0 (RichText_paragraph_space_after t) /\
      optional o 0x14003430 float (RichText_paragraph_line_spacing_exact t) /\
      defaulted o 0x0C003477 paragraph_align PaLeft (RichText_paragraph_alignment t) /\
      defaulted o 0x14001C3E a_alignment None (RichText_layout_alignment_in_parent t) /\
      defaulted o 0x14001C84 a_alignment None (RichText_layout_alignment_self t) /\
      exists l, children o 0x24001E13 l /\ as_many l (RichText_text_run_formatting t))
  | ATable t => some_object st 0x00060022 (fun sp o =>
      required o 0x14001D57 dword (Table_rows t) /\
      required o 0x14001D58 dword (Table_cols t) /\
      defaulted o 0x1C001D7D column_flags [] (Table_cols_locked t) /\
      defaulted o 0x1C001D66 column_widths [] (Table_col_widths t) /\
      defaulted o 0x08001D5E boolean true (Table_borders_visible t) /\
      defaulted o 0x14001C3E a_alignment None (Table_layout_alignment_in_parent t) /\
      defaulted o 0x14001C84 a_alignment None (Table_layout_alignment_self t) /\
      exists l, references o 0x24001C20 l /\ as_many l (Table_contents t))
  | ARow r => some_object st 0x00060023 (fun sp o =>
      exists l, references o 0x24001C20 l /\ as_many l (TableRow_contents r))
  | ACell c => some_object st 0x00060024 (fun sp o =>
      optional o 0x14001C1B float (TableCell_layout_max_width c) /\
      required o 0x1C001C12 indents (OutlineIndentDistance_value (TableCell_outline_indent_distance c)) /\
      optional o 0x14001E26 a_color (TableCell_background_color c) /\
      exists l, references o 0x24001C20 l /\ as_many l (TableCell_contents c))
  | AImage g => some_object st 0x00060011 (fun sp o =>
      optional o 0x14001C1B float (Image_layout_max_width g) /\
      optional o 0x14001C1C float (Image_layout_max_height g) /\
      optional o 0x1C001E58 SpecNodes.text (Image_alt_text g) /\
      defaulted o 0x14001C3E a_alignment None (Image_layout_alignment_in_parent g) /\
      defaulted o 0x14001C84 a_alignment None (Image_layout_alignment_self g) /\
      optional o 0x1C001DD7 SpecNodes.text (Image_image_filename g) /\
      optional o 0x14003480 dword (Image_displayed_page_number g) /\
      optional o 0x1C001C22 SpecNodes.text (Image_text g) /\
      optional o 0x10001CFE word (Image_text_language_code g) /\
      optional o 0x140034CD float (Image_picture_width g) /\
      optional o 0x140034CE float (Image_picture_height g) /\
      optional o 0x1C001E20 SpecNodes.text (Image_hyperlink_url g) /\
      optional o 0x14001C14 float (Image_offset_horizontal g) /\
      optional o 0x14001C15 float (Image_offset_vertical g) /\
      defaulted o 0x08001D13 boolean false (Image_is_background g) /\
      (exists l, children o 0x24001C1F l /\ as_many l (Image_embeds g)) /\
      exists r, reference o 0x20001C3F r /\
        match r with
        | None => Image_data g = None /\ Image_extension g = None
        | Some c => exists p, get_object sp c = Some p /\ In (ob_jcid p) [0x00080039; 0x0008003A] /\
            Image_data g = Some (match ob_file p with Some bytes => bytes | None => [] end) /\
            optional p 0x24003424 SpecNodes.text (Image_extension g)
        end)
  | AFile f => some_object st 0x00060035 (fun sp o =>
      required o 0x1C001D9C SpecNodes.text (EmbeddedFile_filename f) /\
      defaulted o 0x14001D24 media FtUnknown (EmbeddedFile_file_type f) /\
      optional o 0x14001C1B float (EmbeddedFile_layout_max_width f) /\
      optional o 0x14001C1C float (EmbeddedFile_layout_max_height f) /\
      optional o 0x14001C14 float (EmbeddedFile_offset_horizontal f) /\
      optional o 0x14001C15 float (EmbeddedFile_offset_vertical f) /\
      exists c co, reference o 0x20001D9B (Some c) /\ get_object sp c = Some co /\
        ob_jcid co = 0x00080036 /\ ob_file co = Some (EmbeddedFile_data f))
  | AFrame f => some_object st 0x00060058 (fun sp o =>
      optional o 0x140035F2 dword (IFrame_embed_type f) /\
      required o 0x1C0035F3 SpecNodes.text (IFrame_source_url f))
  (* ink on a page, or ink within a paragraph *)
  | AInk i =>
      some_object st 0x00060014 (fun sp o =>
        optional o 0x14001C14 float (Ink_offset_horizontal i) /\
        optional o 0x14001C15 float (Ink_offset_vertical i)) \/
      some_run st (fun run =>
        optional run 0x140034A2 float (Ink_offset_horizontal i) /\
        optional run 0x140034A3 float (Ink_offset_vertical i))
  (* width and height are exchanged: C35 *)
  | AStroke s => some_object st 0x00020047 (fun sp o => exists r p,
      reference o 0x20003409 (Some r) /\ get_object sp r = Some p /\ ob_jcid p = 0x00120048 /\
      optional p 0x0C003412 byte (InkStroke_pen_tip s) /\
      optional p 0x0C003414 byte (InkStroke_transparency s) /\
      required p 0x1400340D float (InkStroke_height s) /\
      required p 0x1400340C float (InkStroke_width s) /\
      optional p 0x1400340F dword (InkStroke_color s))
  (* two numbers of the path of a stroke, scaled or not: C34 says which *)
  | APoint p => some_object st 0x00020047 (fun sp o => exists zs x y scale,
      required o 0x1C00340B path zs /\ In x zs /\ In y zs /\
      (scale = None \/ some_object st 0x00060014 (fun _ c => optional c 0x14001C46 float scale)) /\
      InkPoint_x p = times (factor scale) (rounded x) /\ InkPoint_y p = times (factor scale) (rounded y))
  | ABox b => some_object st 0x0002003B (fun sp o => exists x y x' y' scale,
      optional o 0x1C003418 dwords (Some [x; y; x'; y']) /\
      (scale = None \/ some_object st 0x00060014 (fun _ c => optional c 0x14001C46 float scale)) /\
      let v n := rounded (Z.of_N n) in
      InkBoundingBox_x b = times (v x) (factor scale) /\ InkBoundingBox_y b = times (v y) (factor scale) /\
      InkBoundingBox_width b = times (minus (v x') (v x)) (factor scale) /\
      InkBoundingBox_height b = times (minus (v y') (v y)) (factor scale))
  | AList l => some_object st 0x00060012 (fun sp o =>
      optional o 0x1C001C52 SpecNodes.text (List_list_font l) /\
      optional o 0x14001CB7 signed (List_list_restart l) /\
      required o 0x1C001C1A numbering (List_list_format l) /\
      defaulted o 0x08001C04 boolean false (List_bold l) /\
      defaulted o 0x08001C05 boolean false (List_italic l) /\
      optional o 0x1C001C0A SpecNodes.text (List_font l) /\
      optional o 0x10001C0B word (List_font_size l) /\
      optional o 0x14001C0C colorref (List_font_color l))
  (* a property set nested in a paragraph, file, image or table *)
  | ATag t => exists k, In k [0x0006000E; 0x00060035; 0x00060011; 0x00060022] /\ some_object st k (fun sp o =>
      exists tid sets set inner, stored o 0x40003489 = Some (VPropertyValues tid sets) /\ In set sets /\
        nested_object 0x40003489 tid o set = Ok inner /\
        optional inner 0x1400346F dword (NoteTag_completed_at t) /\
        required inner 0x10003470 a_item_status (NoteTag_item_status t) /\
        exists r, reference inner 0x20003488 r /\ (NoteTag_definition t = None <-> r = None))
  | ADefinition d => some_object st 0x00120043 (fun sp o =>
      required o 0x1C003468 SpecNodes.text (NoteTagDefinition_label d) /\
      required o 0x14003467 a_tag_status (NoteTagDefinition_status d) /\
      required o 0x10003464 (entry VU16 (coded shape_list)) (NoteTagDefinition_shape d) /\
      optional o 0x14003465 colorref (NoteTagDefinition_highlight_color d) /\
      optional o 0x14003466 colorref (NoteTagDefinition_text_color d) /\
      required o 0x10003463 item_type (NoteTagDefinition_action_item_type d))
  | AStyle s => some_object st 0x0012004D (fun sp o =>
      optional o 0x0C001D01 (entry VU8 charset_table) (ParagraphStyling_charset s) /\
      defaulted o 0x08001C04 boolean false (ParagraphStyling_bold s) /\
      defaulted o 0x08001C05 boolean false (ParagraphStyling_italic s) /\
      defaulted o 0x08001C06 boolean false (ParagraphStyling_underline s) /\
      defaulted o 0x08001C07 boolean false (ParagraphStyling_strikethrough s) /\
      defaulted o 0x08001C08 boolean false (ParagraphStyling_superscript s) /\
      defaulted o 0x08001C09 boolean false (ParagraphStyling_subscript s) /\
      optional o 0x1C001C0A SpecNodes.text (ParagraphStyling_font s) /\
      optional o 0x10001C0B word (ParagraphStyling_font_size s) /\
      optional o 0x14001C0C colorref (ParagraphStyling_font_color s) /\
      optional o 0x14001C0D colorref (ParagraphStyling_highlight s) /\
      optional o 0x1C00348A SpecNodes.text (ParagraphStyling_next_style s) /\
      optional o 0x1C00345A SpecNodes.text (ParagraphStyling_style_id s) /\
      optional o 0x0C003477 paragraph_align (ParagraphStyling_paragraph_alignment s) /\
      optional o 0x1400342E float (ParagraphStyling_paragraph_space_before s) /\
      optional o 0x1400342F float (ParagraphStyling_paragraph_space_after s) /\
      optional o 0x14003430 float (ParagraphStyling_paragraph_line_spacing_exact s) /\
      optional o 0x14001C3B dword (ParagraphStyling_language_code s) /\
      defaulted o 0x08003401 boolean false (ParagraphStyling_math_formatting s) /\
      defaulted o 0x08001E14 boolean false (ParagraphStyling_hyperlink s))
  | AMath m => some_run st (fun run =>
      (exists n, optional run 0x1400344F dword n /\ In (or_zero n, MathInlineObject_object_type m) math_table) /\
      (exists n, optional run 0x14003450 dword n /\ MathInlineObject_arg_count m = or_zero n) /\
      optional run 0x0C003451 byte (MathInlineObject_column m) /\
      optional run 0x0C003452 byte (MathInlineObject_align m) /\
      defaulted run 0x10003453 character None (MathInlineObject_char m) /\
      defaulted run 0x10003454 character None (MathInlineObject_char1 m) /\
      defaulted run 0x10003455 character None (MathInlineObject_char2 m))
  (* the run has a format that stands for an embedded object; its type says which *)
  | AEmbedded e => some_object st 0x0012004D (fun sp o =>
      defaulted o 0x08001E22 boolean false true /\
      optional o 0x14003457 dword
        (match EmbeddedObject_Ink e, EmbeddedObject_InkSpace e with
         | Some _, _ => None
         | None, Some _ => Some 0x20026
         | None, None => Some 0x20027
         end))
  (* a box is reported if all four of its numbers are stored *)
  | AInkContainer c => some_run st (fun run => exists x y h w,
      optional run 0x1400349E float x /\ optional run 0x1400349F float y /\
      optional run 0x140034A1 float h /\ optional run 0x140034A0 float w /\
      (EmbeddedInkContainer_bounding_box c = None <-> x = None \/ y = None \/ h = None \/ w = None))
  | AInkBox b => some_run st (fun run =>
      optional run 0x1400349E float (Some (InkBoundingBox_x' b)) /\
      optional run 0x1400349F float (Some (InkBoundingBox_y' b)) /\
      optional run 0x140034A1 float (Some (InkBoundingBox_height' b)) /\
      optional run 0x140034A0 float (Some (InkBoundingBox_width' b)))
  | AInkSpace s => some_run st (fun run =>
      optional run 0x14001C28 float (Some (EmbeddedInkSpace_height s)) /\
      optional run 0x14001C27 float (Some (EmbeddedInkSpace_width s)))
  end.
