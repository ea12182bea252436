(** Independent description of the objects of a OneNote file: which property of an
    object each reported attribute is, in [MS-ONE] 2.2 and 2.3. Properties and kinds
    of objects are given by their numbers in the format. The relations on text,
    GUIDs, ink paths and references are those of C24, C04, C05 and C20/C22. *)
From Verif Require Import Base Codec PropSet Store Package Shapes Props Nodes Doc SpecCodec SpecValues.

(** ** Values *)
Definition boolean (v : pvalue) (b : bool) : Prop := v = VBool b.
Definition byte (v : pvalue) (n : N) : Prop := v = VU8 n.
Definition word (v : pvalue) (n : N) : Prop := v = VU16 n.
Definition dword (v : pvalue) (n : N) : Prop := v = VU32 n.
Definition qword (v : pvalue) (n : N) : Prop := v = VU64 n.
Definition raw (v : pvalue) (d : list N) : Prop := v = VVec d.
(** A float is its 32 bits. *)
Definition float (v : pvalue) (bits : N) : Prop := v = VU32 bits.
Definition text (v : pvalue) (s : list N) : Prop := exists d, v = VVec d /\ utf16_to_string d = Ok s.
Definition uuid (v : pvalue) (g : N) : Prop := exists d rest, v = VVec d /\ guid_parse d = Ok (g, rest).
(** A signed 32-bit number in two's complement. *)
Definition signed (v : pvalue) (z : Z) : Prop :=
  exists n, v = VU32 n /\ z = if n <? 0x80000000 then Z.of_N n else (Z.of_N n - 0x100000000)%Z.
Definition inverted (v : pvalue) (b : bool) : Prop := v = VBool (negb b).
(** Consecutive little-endian numbers of [w] bytes; what does not fill one is left out. *)
Inductive numbers (w : nat) : list N -> list N -> Prop :=
| nm_end d : (length d < w)%nat -> numbers w d []
| nm_more d n ns : length d = w -> n = le d -> forall r, numbers w r ns -> numbers w (d ++ r) (n :: ns).
Definition words (v : pvalue) (ns : list N) : Prop := exists d, v = VVec d /\ numbers 2 d ns.
Definition dwords (v : pvalue) (ns : list N) : Prop := exists d, v = VVec d /\ numbers 4 d ns.
(** A table of values of the width given by [wire]. *)
Definition entry {A} (wire : N -> pvalue) (table : list (N * A)) (v : pvalue) (a : A) : Prop :=
  exists n, v = wire n /\ In (n, a) table.
Definition argb (v : pvalue) (c : color) : Prop := exists n, v = VU32 n /\
  c = Color (255 - n / 2 ^ 24 mod 256) (n mod 256) (n / 2 ^ 8 mod 256) (n / 2 ^ 16 mod 256).
Definition colorref (v : pvalue) (c : color_ref) : Prop := exists n, v = VU32 n /\
  (n / 2 ^ 24 mod 256 = 255 /\ c = CrAuto \/
   n / 2 ^ 24 mod 256 = 0 /\ c = CrManual (n mod 256) (n / 2 ^ 8 mod 256) (n / 2 ^ 16 mod 256)).
Definition alignment (v : pvalue) (x : option layout_alignment) : Prop := exists n, v = VU32 n /\
  (N.testbit n 31 = true /\ x = None \/
   N.testbit n 31 = false /\ exists h, In (n mod 8, h) halign_table /\
     x = Some (LayoutAlignment h (if N.testbit n 3 then HmLeft else HmRight)
                 (if N.testbit n 16 then VaTop else VaBottom)
                 (if N.testbit n 19 then VmTop else VmBottom))).
(** 0, 1, 2: left, centre, right. *)
Definition paragraph_align (v : pvalue) (a : paragraph_alignment) : Prop := exists n, v = VU8 n /\
  (In (n, a) alignment_table \/ 2 < n /\ a = PaUnknown).
Definition media (v : pvalue) (t : file_type) : Prop := v = VU32 1 /\ t = FtAudio \/ v = VU32 2 /\ t = FtVideo.
(** A count, three bytes of padding and that many floats. *)
Definition indents (v : pvalue) (ns : list N) : Prop :=
  exists a b c d n, v = VVec (n :: a :: b :: c :: d) /\ n = N.of_nat (length ns) /\
    exists e t, d = e ++ t /\ length e = (4 * length ns)%nat /\ numbers 4 e ns.
Definition bias_table : list (N * ink_bias) := [(0, IbHandwriting); (1, IbDrawing); (2, IbBoth)].
Definition path (v : pvalue) (zs : list Z) : Prop := exists d, v = VVec d /\ decode_signed d = Ok zs.
(** A table of 32-byte entries; what does not fill one is left out. *)
Inductive dimensions : list N -> list ink_dimension -> Prop :=
| di_end d : (length d < 32)%nat -> dimensions d []
| di_more d g lo hi x y t r xs : length d = 32%nat -> guid_parse d = Ok (g, lo ++ hi ++ t) ->
    length lo = 4%nat -> length hi = 4%nat -> signed (VU32 (le lo)) x -> signed (VU32 (le hi)) y ->
    dimensions r xs -> dimensions (d ++ r) (InkDimension g x y :: xs).
Definition dimension_table (v : pvalue) (xs : list ink_dimension) : Prop :=
  exists d, v = VVec d /\ dimensions d xs.
Definition status_bits (v : pvalue) (s : action_item_status) : Prop := exists n, v = VU16 n /\
  s = ActionItemStatus (N.testbit n 0) (N.testbit n 1) (N.testbit n 2).
Definition tag_status_bits (v : pvalue) (s : note_tag_status) : Prop := exists n, v = VU32 n /\
  s = NoteTagStatus (N.testbit n 0) (N.testbit n 1) (N.testbit n 2) (N.testbit n 3) (N.testbit n 6)
        (N.testbit n 7) (N.testbit n 8) (N.testbit n 9) (N.testbit n 10) (N.testbit n 11).
(** [MS-ONE] 2.3.86: 0 to 99 are numbered, 100 to 105 named. *)
Definition item_type_table : list (N * action_item_type) :=
  [(100, AtDueToday); (101, AtDueTomorrow); (102, AtDueThisWeek); (103, AtDueNextWeek);
   (104, AtNoDueDate); (105, AtCustomDueDate)].
Definition item_type (v : pvalue) (t : action_item_type) : Prop := exists n, v = VU16 n /\
  (n < 100 /\ t = AtNumeric n \/ In (n, t) item_type_table \/ 105 < n /\ t = AtUnknown).
(** One UTF-16 code unit that is a character by itself. *)
Definition character (v : pvalue) (c : option N) : Prop := exists n, v = VU16 n /\ c = Some n /\
  ~ (0xD800 <= n <= 0xDFFF).
(** UTF-16, unpaired surrogates replaced by U+FFFD. *)
Definition high (u : N) : Prop := 0xD800 <= u <= 0xDBFF.
Definition low (u : N) : Prop := 0xDC00 <= u <= 0xDFFF.
Inductive lossy : list N -> list N -> Prop :=
| lo_end : lossy [] []
| lo_pair h l r s : high h -> low l -> lossy r s ->
    lossy (h :: l :: r) (0x10000 + (h - 0xD800) * 0x400 + (l - 0xDC00) :: s)
| lo_plain u r s : ~ high u -> ~ low u -> lossy r s -> lossy (u :: r) (u :: s)
| lo_single u r s : high u \/ low u -> (high u -> forall l, hd_error r = Some l -> ~ low l) ->
    lossy r s -> lossy (u :: r) (0xFFFD :: s).
(** The text after the leading length unit. *)
Definition numbering (v : pvalue) (s : list N) : Prop :=
  exists n r, words v (n :: r) /\ lossy r s.

(** ** Attributes of an object *)
(** Absent, or with a value. *)
Definition optional {A} (o : object) (id : N) (R : pvalue -> A -> Prop) (x : option A) : Prop :=
  match stored o id with None => x = None | Some v => exists a, R v a /\ x = Some a end.
Definition required {A} (o : object) (id : N) (R : pvalue -> A -> Prop) (x : A) : Prop :=
  exists v, stored o id = Some v /\ R v x.
(** [d] if absent. *)
Definition defaulted {A} (o : object) (id : N) (R : pvalue -> A -> Prop) (d x : A) : Prop :=
  match stored o id with None => x = d | Some v => R v x end.
(** References. [reference] is absent also if the identifier does not resolve. *)
Definition reference (o : object) (id : N) (x : option exguid) : Prop := prop_object id o = Ok x.
Definition references (o : object) (id : N) (l : list exguid) : Prop := prop_objects id o = Ok (Some l).
Definition children (o : object) (id : N) (l : list exguid) : Prop :=
  match stored o id with None => l = [] | Some _ => references o id l end.
Definition spaces (o : object) (id : N) (l : list cellid) : Prop :=
  match stored o id with None => l = [] | Some _ => prop_spaces id o = Ok (Some l) end.

(** Note tags: [t] is the tag stored as the property set [set] in property [prop]. *)
Definition tag (o : object) (tid : N) (set : propset) (t : tag_data) : Prop :=
  exists inner, nested_object 0x40003489 tid o set = Ok inner /\
    reference inner 0x20003488 (tg_definition t) /\
    required inner 0x1400346E dword (tg_created_at t) /\
    optional inner 0x1400346F dword (tg_completed_at t) /\
    required inner 0x10003470 status_bits (tg_item_status t).
Definition tags (o : object) (l : list tag_data) : Prop :=
  match stored o 0x40003489 with
  | None => l = []
  | Some v => exists tid sets, v = VPropertyValues tid sets /\ Forall2 (tag o tid) sets l
  end.

(** ** Objects, by [MS-ONE] 2.2 *)
Definition section_node (o : object) (d : section_data) : Prop :=
  ob_jcid o = 0x00060007 /\ sn_context_id d = ob_context o /\
  required o 0x1C001C30 uuid (sn_entity_guid d) /\
  children o 0x24001C20 (sn_page_series d) /\
  required o 0x18001C65 qword (sn_created_at d).

Definition section_meta (o : object) (d : section_meta_data) : Prop :=
  ob_jcid o = 0x00020031 /\
  required o 0x14001D82 dword (sm_schema_read d) /\
  required o 0x1400348B dword (sm_schema_write d) /\
  optional o 0x1C00349B text (sm_display_name d) /\
  optional o 0x14001CBE argb (sm_color d).

Definition series_node (o : object) (d : page_series_data) : Prop :=
  ob_jcid o = 0x00060008 /\
  required o 0x1C001C30 uuid (pn_entity_guid d) /\
  spaces o 0x2C001D63 (pn_page_spaces d) /\
  children o 0x24003442 (pn_page_metadata d) /\
  optional o 0x18001C65 qword (pn_created_at d).

(** The page size is read as one byte, although its number declares four. *)
Definition page_object (o : object) (d : page_data) : Prop :=
  ob_jcid o = 0x0006000B /\
  optional o 0x14001D7A dword (pd_last_modified d) /\
  optional o 0x1C001D3C text (pd_cached_title d) /\
  optional o 0x1C001D75 text (pd_author d) /\
  children o 0x24001C20 (pd_content d) /\
  (exists titles, children o 0x24001D5F titles /\ pd_title d = hd_error titles) /\
  defaulted o 0x08001C8E boolean false (pd_orientation_portrait d) /\
  optional o 0x14001C01 float (pd_page_width d) /\
  optional o 0x14001C02 float (pd_page_height d) /\
  optional o 0x14001D0F float (pd_margin_origin_x d) /\
  optional o 0x14001D10 float (pd_margin_origin_y d) /\
  optional o 0x14001C4E float (pd_margin_left d) /\
  optional o 0x14001C4F float (pd_margin_right d) /\
  optional o 0x14001C4C float (pd_margin_top d) /\
  optional o 0x14001C4D float (pd_margin_bottom d) /\
  defaulted o 0x14001C8B (entry VU8 page_size_table) PsAuto (pd_page_size d) /\
  defaulted o 0x08001C92 boolean false (pd_rtl d).

Definition page_meta (o : object) (d : page_meta_data) : Prop :=
  ob_jcid o = 0x00020030 /\
  required o 0x1C001C30 uuid (pm_entity_guid d) /\
  required o 0x1C001CF3 text (pm_cached_title d) /\
  optional o 0x14001D82 dword (pm_schema_read d) /\
  optional o 0x1400348B dword (pm_schema_write d) /\
  defaulted o 0x14001DFF signed 0%Z (pm_page_level d) /\
  required o 0x18001C65 qword (pm_created_at d) /\
  defaulted o 0x00001DE9 boolean false (pm_is_deleted d).

Definition manifest_node (o : object) (page : exguid) : Prop :=
  ob_jcid o = 0x00060037 /\ exists rest, references o 0x24001C1F (page :: rest).

Definition title_object (o : object) (d : title_data) : Prop :=
  ob_jcid o = 0x0006002C /\
  required o 0x14001D7A dword (tn_last_modified d) /\
  references o 0x24001C20 (tn_children d) /\
  required o 0x14001C14 float (tn_offset_horizontal d) /\
  required o 0x14001C15 float (tn_offset_vertical d) /\
  defaulted o 0x14001C3E alignment None (tn_alignment_in_parent d) /\
  defaulted o 0x14001C84 alignment None (tn_alignment_self d).

Definition file_container (o : object) (bytes : list N) : Prop :=
  ob_jcid o = 0x00080036 /\ ob_file o = Some bytes.

Definition file_node (o : object) (d : embedded_file_data) : Prop :=
  ob_jcid o = 0x00060035 /\
  required o 0x14001D7A dword (ef_last_modified d) /\
  reference o 0x20001C3F (ef_picture_container d) /\
  optional o 0x14001C1B float (ef_layout_max_width d) /\
  optional o 0x14001C1C float (ef_layout_max_height d) /\
  defaulted o 0x08001CBD boolean false (ef_is_layout_size_set_by_user d) /\
  optional o 0x1C001C22 text (ef_text d) /\
  optional o 0x10001CFE word (ef_text_language_code d) /\
  defaulted o 0x14001C3E alignment None (ef_alignment_in_parent d) /\
  defaulted o 0x14001C84 alignment None (ef_alignment_self d) /\
  reference o 0x20001D9B (Some (ef_container d)) /\
  required o 0x1C001D9C text (ef_name d) /\
  optional o 0x1C001D9D text (ef_source_path d) /\
  defaulted o 0x14001D24 media FtUnknown (ef_file_type d) /\
  optional o 0x140034CD float (ef_picture_width d) /\
  optional o 0x140034CE float (ef_picture_height d) /\
  tags o (ef_note_tags d) /\
  optional o 0x14001C14 float (ef_offset_horiz d) /\
  optional o 0x14001C15 float (ef_offset_vert d).

(** The extension is read as text, although its number declares references. *)
Definition picture_object (o : object) (d : picture_data) : Prop :=
  (ob_jcid o = 0x00080039 \/ ob_jcid o = 0x0008003A) /\
  match ob_file o with None => pc_data d = [] | Some bytes => pc_data d = bytes end /\
  optional o 0x24003424 text (pc_extension d).

Definition iframe_object (o : object) (d : iframe_data) : Prop :=
  ob_jcid o = 0x00060058 /\
  optional o 0x140035F2 dword (if_embed_type d) /\
  required o 0x1C0035F3 text (if_source_url d).

Definition image_object (o : object) (d : image_data) : Prop :=
  ob_jcid o = 0x00060011 /\
  optional o 0x14001D7A dword (im_last_modified d) /\
  reference o 0x20001C3F (im_picture_container d) /\
  optional o 0x14001C1B float (im_layout_max_width d) /\
  optional o 0x14001C1C float (im_layout_max_height d) /\
  defaulted o 0x08001CBD boolean false (im_is_layout_size_set_by_user d) /\
  optional o 0x14001C3B dword (im_language_code d) /\
  optional o 0x1C001E58 text (im_alt_text d) /\
  defaulted o 0x14001C3E alignment None (im_alignment_in_parent d) /\
  defaulted o 0x14001C84 alignment None (im_alignment_self d) /\
  optional o 0x1C001DD7 text (im_filename d) /\
  optional o 0x14003480 dword (im_displayed_page_number d) /\
  optional o 0x1C001C22 text (im_text d) /\
  optional o 0x10001CFE word (im_text_language_code d) /\
  optional o 0x140034CD float (im_picture_width d) /\
  optional o 0x140034CE float (im_picture_height d) /\
  optional o 0x1C001E20 text (im_hyperlink_url d) /\
  tags o (im_note_tags d) /\
  optional o 0x14001C14 float (im_offset_horiz d) /\
  optional o 0x14001C15 float (im_offset_vert d) /\
  defaulted o 0x08001D13 boolean false (im_is_background d) /\
  children o 0x24001C1F (im_iframe d).

Definition embedded_ink_run (o : object) (d : embedded_ink_data) : Prop :=
  optional o 0x14001C27 float (ei_space_width d) /\
  optional o 0x14001C28 float (ei_space_height d) /\
  optional o 0x1400349E float (ei_start_x d) /\
  optional o 0x1400349F float (ei_start_y d) /\
  optional o 0x140034A1 float (ei_height d) /\
  optional o 0x140034A0 float (ei_width d) /\
  optional o 0x140034A2 float (ei_offset_horiz d) /\
  optional o 0x140034A3 float (ei_offset_vert d).

(** Both scales are the horizontal one; the vertical one is 0x14001C47. *)
Definition ink_container (o : object) (d : ink_container_data) : Prop :=
  ob_jcid o = 0x00060014 /\
  optional o 0x14001C14 float (ic_offset_horiz d) /\
  optional o 0x14001C15 float (ic_offset_vert d) /\
  optional o 0x14001D7A dword (ic_last_modified d) /\
  reference o 0x20003415 (ic_ink_data d) /\
  optional o 0x14001C46 float (ic_scaling_x d) /\
  optional o 0x14001C46 float (ic_scaling_y d).

(** A bounding box with other than four numbers is left out. *)
Definition ink_node (o : object) (d : ink_data) : Prop :=
  ob_jcid o = 0x0002003B /\
  references o 0x24003416 (ik_strokes d) /\
  exists box, optional o 0x1C003418 dwords box /\
    ((exists a b c e, box = Some [a; b; c; e] /\ ik_bounding_box d = Some (a, b, c, e)) \/
     (~ exists a b c e, box = Some [a; b; c; e]) /\ ik_bounding_box d = None).

Definition stroke_node (o : object) (d : ink_stroke_data) : Prop :=
  ob_jcid o = 0x00020047 /\
  required o 0x1C00340B path (ss_path d) /\
  required o 0x0C00341C (entry VU8 bias_table) (ss_bias d) /\
  optional o 0x14001C3B dword (ss_language_code d) /\
  reference o 0x20003409 (Some (ss_properties d)).

(** The reported height is the stored width 0x1400340D and the reported width the
    stored height 0x1400340C. *)
Definition stroke_properties (o : object) (d : stroke_props) : Prop :=
  ob_jcid o = 0x00120048 /\
  defaulted o 0x8000340E boolean false (sp_aliased d) /\
  defaulted o 0x80003410 boolean false (sp_fit_to_curve d) /\
  defaulted o 0x08003411 boolean false (sp_ignore_pressure d) /\
  optional o 0x0C003412 byte (sp_pen_tip d) /\
  optional o 0x0C003413 byte (sp_raster_operation d) /\
  optional o 0x0C003414 byte (sp_transparency d) /\
  required o 0x1400340D float (sp_height d) /\
  required o 0x1400340C float (sp_width d) /\
  optional o 0x1400340F dword (sp_color d) /\
  defaulted o 0x1C00340A dimension_table [] (sp_dimensions d).

Definition math_object_data (o : object) (d : math_data) : Prop :=
  optional o 0x1400344F dword (md_object_type d) /\
  optional o 0x14003450 dword (md_arg_count d) /\
  optional o 0x0C003451 byte (md_column d) /\
  optional o 0x0C003452 byte (md_align d) /\
  defaulted o 0x10003453 character None (md_char d) /\
  defaulted o 0x10003454 character None (md_char1 d) /\
  defaulted o 0x10003455 character None (md_char2 d).

Definition tag_definition_object (o : object) (d : tag_definition) : Prop :=
  ob_jcid o = 0x00120043 /\
  required o 0x1C003468 text (td_label d) /\
  required o 0x14003467 tag_status_bits (td_status d) /\
  required o 0x10003464 (entry VU16 (coded shape_list)) (td_shape d) /\
  optional o 0x14003465 colorref (td_highlight_color d) /\
  optional o 0x14003466 colorref (td_text_color d) /\
  required o 0x10003463 item_type (td_action_item_type d).

Definition list_object (o : object) (d : number_list) : Prop :=
  ob_jcid o = 0x00060012 /\
  required o 0x14001D7A dword (nl_last_modified d) /\
  optional o 0x1C001C52 text (nl_list_font d) /\
  optional o 0x14001CB7 signed (nl_list_restart d) /\
  required o 0x1C001C1A numbering (nl_list_format d) /\
  defaulted o 0x08001C04 boolean false (nl_bold d) /\
  defaulted o 0x08001C05 boolean false (nl_italic d) /\
  optional o 0x14001C3B dword (nl_language_code d) /\
  optional o 0x1C001C0A text (nl_font d) /\
  optional o 0x10001C0B word (nl_font_size d) /\
  optional o 0x14001C0C colorref (nl_font_color d).

Definition style_object (o : object) (d : style_data) : Prop :=
  ob_jcid o = 0x0012004D /\
  optional o 0x0C001D01 (entry VU8 charset_table) (sy_charset d) /\
  defaulted o 0x08001C04 boolean false (sy_bold d) /\
  defaulted o 0x08001C05 boolean false (sy_italic d) /\
  defaulted o 0x08001C06 boolean false (sy_underline d) /\
  defaulted o 0x08001C07 boolean false (sy_strikethrough d) /\
  defaulted o 0x08001C08 boolean false (sy_superscript d) /\
  defaulted o 0x08001C09 boolean false (sy_subscript d) /\
  optional o 0x1C001C0A text (sy_font d) /\
  optional o 0x10001C0B word (sy_font_size d) /\
  optional o 0x14001C0C colorref (sy_font_color d) /\
  optional o 0x14001C0D colorref (sy_highlight d) /\
  optional o 0x1C00348A text (sy_next_style d) /\
  optional o 0x1C00345A text (sy_style_id d) /\
  optional o 0x0C003477 paragraph_align (sy_paragraph_alignment d) /\
  optional o 0x1400342E float (sy_space_before d) /\
  optional o 0x1400342F float (sy_space_after d) /\
  optional o 0x14003430 float (sy_line_spacing_exact d) /\
  optional o 0x14001C3B dword (sy_language_code d) /\
  defaulted o 0x08003401 boolean false (sy_math_formatting d) /\
  defaulted o 0x08001E14 boolean false (sy_hyperlink d) /\
  defaulted o 0x08001E19 boolean false (sy_hyperlink_protected d) /\
  defaulted o 0x08001E16 boolean false (sy_hidden d) /\
  defaulted o 0x08001E22 boolean false (sy_is_embedded_object d) /\
  optional o 0x14003457 dword (sy_object_type d).

(** The Unicode text if there is one, else the extended ASCII text. *)
Definition paragraph_text (o : object) (x : option (list N)) : Prop :=
  match stored o 0x1C001C22 with
  | Some v => exists s, text v s /\ x = Some s
  | None => optional o 0x1C003498 raw x
  end.
Definition text_object (o : object) (d : rich_text_data) : Prop :=
  ob_jcid o = 0x0006000E /\
  required o 0x14001D7A dword (rt_last_modified d) /\
  defaulted o 0x08001C00 boolean false (rt_tight_layout d) /\
  children o 0x24001E13 (rt_run_formatting d) /\
  defaulted o 0x1C001E12 dwords [] (rt_run_indices d) /\
  children o 0x24003458 (rt_run_data_object d) /\
  reference o 0x2000342C (Some (rt_paragraph_style d)) /\
  defaulted o 0x1400342E float 0 (rt_space_before d) /\
  defaulted o 0x1400342F float 0 (rt_space_after d) /\
  optional o 0x14003430 float (rt_line_spacing_exact d) /\
  defaulted o 0x0C003477 paragraph_align PaLeft (rt_paragraph_alignment d) /\
  paragraph_text o (rt_text d) /\
  defaulted o 0x08001C87 boolean false (rt_is_title_time d) /\
  defaulted o 0x08001C88 boolean false (rt_is_boiler_text d) /\
  defaulted o 0x08001CB5 boolean false (rt_is_title_date d) /\
  defaulted o 0x08001CB4 boolean false (rt_is_title_text d) /\
  defaulted o 0x14001C3E alignment None (rt_alignment_in_parent d) /\
  defaulted o 0x14001C84 alignment None (rt_alignment_self d) /\
  optional o 0x10001CFE word (rt_language_code d) /\
  defaulted o 0x08003476 boolean false (rt_rtl d) /\
  tags o (rt_note_tags d).

(** An element without the "cannot be selected" flag is reported as not selectable;
    for an outline it is the other way round. *)
Definition element_object (o : object) (d : outline_element_data) : Prop :=
  ob_jcid o = 0x0006000D /\
  required o 0x14001D09 dword (oe_created_at d) /\
  required o 0x14001D7A dword (oe_last_modified d) /\
  children o 0x24001C20 (oe_children d) /\
  required o 0x0C001C03 byte (oe_child_level d) /\
  children o 0x24001C1F (oe_contents d) /\
  children o 0x24001C26 (oe_list_contents d) /\
  optional o 0x14001CCB float (oe_list_spacing d) /\
  reference o 0x20001D78 (Some (oe_author_original d)) /\
  reference o 0x20001D79 (Some (oe_author_most_recent d)) /\
  defaulted o 0x08001C34 boolean false (oe_rtl d) /\
  defaulted o 0x08001D0C boolean false (oe_is_deletable d) /\
  defaulted o 0x08001CB2 inverted false (oe_is_selectable d) /\
  defaulted o 0x08001CB4 boolean false (oe_is_title_text d).

Definition group_object (o : object) (d : outline_group_data) : Prop :=
  ob_jcid o = 0x00060019 /\
  required o 0x14001D7A dword (gr_last_modified d) /\
  children o 0x24001C20 (gr_children d) /\
  required o 0x0C001C03 byte (gr_child_level d).

Definition outline_object (o : object) (d : outline_data) : Prop :=
  ob_jcid o = 0x0006000C /\
  required o 0x14001D7A dword (ou_last_modified d) /\
  children o 0x24001C20 (ou_children d) /\
  required o 0x0C001C03 byte (ou_child_level d) /\
  optional o 0x14001C1C float (ou_layout_max_height d) /\
  optional o 0x14001C1B float (ou_layout_max_width d) /\
  optional o 0x14001CDB float (ou_layout_reserved_width d) /\
  optional o 0x14001CEC float (ou_layout_minimum_outline_width d) /\
  defaulted o 0x08001CFF boolean false (ou_layout_tight_alignment d) /\
  defaulted o 0x08001CBD boolean false (ou_is_layout_size_set_by_user d) /\
  optional o 0x14001C14 float (ou_offset_horiz d) /\
  optional o 0x14001C15 float (ou_offset_vert d) /\
  optional o 0x14001CCB float (ou_list_spacing d) /\
  required o 0x1C001C12 indents (ou_indent_distance d) /\
  defaulted o 0x14001C3E alignment None (ou_alignment_in_parent d) /\
  defaulted o 0x14001C84 alignment None (ou_alignment_self d) /\
  defaulted o 0x08001D0C boolean false (ou_is_deletable d) /\
  defaulted o 0x08001CB5 boolean false (ou_is_title_date d) /\
  defaulted o 0x08001CB2 inverted true (ou_is_selectable d) /\
  defaulted o 0x08001CB4 boolean false (ou_is_title_text d) /\
  defaulted o 0x08001CDE boolean false (ou_is_read_only d) /\
  defaulted o 0x08001CF9 boolean false (ou_descendants_cannot_be_moved d) /\
  defaulted o 0x08001C00 boolean false (ou_tight_layout d).

Definition cell_object (o : object) (d : table_cell_data) : Prop :=
  ob_jcid o = 0x00060024 /\
  optional o 0x14001D7A dword (ce_last_modified d) /\
  references o 0x24001C20 (ce_contents d) /\
  optional o 0x14001C1B float (ce_layout_max_width d) /\
  required o 0x1C001C12 indents (ce_indent_distance d) /\
  optional o 0x14001E26 argb (ce_background_color d).

(** Column data start with the number of columns in one byte, which is skipped. *)
Definition column_flags (v : pvalue) (fs : list N) : Prop :=
  v = VVec [] /\ fs = [] \/ exists n, v = VVec (n :: fs).
Definition column_widths (v : pvalue) (ws : list N) : Prop :=
  v = VVec [] /\ ws = [] \/ exists n d, v = VVec (n :: d) /\ numbers 4 d ws.
Definition table_object (o : object) (d : table_data) : Prop :=
  ob_jcid o = 0x00060022 /\
  required o 0x14001D7A dword (ta_last_modified d) /\
  references o 0x24001C20 (ta_rows d) /\
  required o 0x14001D57 dword (ta_row_count d) /\
  required o 0x14001D58 dword (ta_col_count d) /\
  defaulted o 0x1C001D7D column_flags [] (ta_cols_locked d) /\
  defaulted o 0x1C001D66 column_widths [] (ta_col_widths d) /\
  defaulted o 0x08001D5E boolean true (ta_borders_visible d) /\
  defaulted o 0x14001C3E alignment None (ta_alignment_in_parent d) /\
  defaulted o 0x14001C84 alignment None (ta_alignment_self d) /\
  tags o (ta_note_tags d).

Definition row_object (o : object) (d : table_row_data) : Prop :=
  ob_jcid o = 0x00060023 /\
  optional o 0x14001D7A dword (ro_last_modified d) /\
  references o 0x24001C20 (ro_cells d).

(** File names: "^M" stands for "+" and "^J" for ",". *)
Inductive unescape (c by_ : N) : list N -> list N -> Prop :=
| ue_nil : unescape c by_ [] []
| ue_pair r r' : unescape c by_ r r' -> unescape c by_ (94 :: c :: r) (by_ :: r')
| ue_char x r r' : ~ (x = 94 /\ hd_error r = Some c) -> unescape c by_ r r' ->
    unescape c by_ (x :: r) (x :: r').
Definition escaped_name (v : pvalue) (s : list N) : Prop :=
  exists s0 s1, text v s0 /\ unescape 77 43 s0 s1 /\ unescape 74 44 s1 s.
Definition toc_object (o : object) (d : toc_data) : Prop :=
  ob_jcid o = 0x00020001 /\
  children o 0x24001CF6 (tc_children d) /\
  optional o 0x1C001D6B escaped_name (tc_filename d) /\
  optional o 0x14001CB9 dword (tc_ordering_id d) /\
  optional o 0x14001CBE argb (tc_color d).

(** The call comes back, with a result or an error. *)
Definition returns {A} (r : res A) : Prop :=
  match r with Ok _ | Err _ => True | Panic | OutOfFuel => False end.

(** ** Types, by [MS-ONESTORE] 2.6.6: of a value, and declared by a property's number *)
Definition wire_type (v : pvalue) : N :=
  match v with
  | VEmpty => 1 | VBool _ => 2 | VU8 _ => 3 | VU16 _ => 4 | VU32 _ => 5 | VU64 _ => 6 | VVec _ => 7
  | VObjectId => 8 | VObjectIds _ => 9 | VObjectSpaceId => 10 | VObjectSpaceIds _ => 11
  | VContextId => 12 | VContextIds _ => 13 | VPropertyValues _ _ => 16 | VPropertySet _ => 17
  end.
Definition declared (id : N) : N := id / 2 ^ 26 mod 32.
(** Wherever [parse] succeeds, the properties [ids] have their declared types. *)
Definition reads_typed {D} (parse : object -> res D) (ids : list N) : Prop :=
  forall o d id v, parse o = Ok d -> In id ids -> stored o id = Some v -> wire_type v = declared id.
