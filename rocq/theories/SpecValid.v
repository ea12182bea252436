(** Which documents there are: the values every part of a document may have. What
    is not mentioned may have any value of its type. Numbers that are floats are
    their 32 bits. Ink coordinates are described with the operations of SpecDoc.v. *)
From Coq Require Import Floats.SpecFloat.
From Verif Require Import Base Codec PropSet Store Package Shapes Props Nodes Doc SpecCodec SpecNodes SpecDoc.

(** ** Values *)
Definition if_any {A} (P : A -> Prop) (x : option A) : Prop := match x with None => True | Some a => P a end.
Definition every {A} (P : A -> Prop) : list A -> Prop :=
  fix go l := match l with [] => True | x :: r => P x /\ go r end.
Definition u8 (n : N) : Prop := n < 2 ^ 8.
Definition u16 (n : N) : Prop := n < 2 ^ 16.
Definition u32 (n : N) : Prop := n < 2 ^ 32.
Definition i32 (z : Z) : Prop := (- 2 ^ 31 <= z < 2 ^ 31)%Z.
Definition i64 (z : Z) : Prop := (- 2 ^ 63 < z < 2 ^ 63)%Z.
(** Text is made of Unicode scalar values; most texts have no NUL. *)
Definition plain (s : list N) : Prop := Forall scalar s /\ Forall (fun c => c <> 0) s.
Definition file_data (d : list N) : Prop := Forall u8 d /\ N.of_nat (length d) < 2 ^ 64.
Definition color_ok (c : color) : Prop := u8 (co_alpha c) /\ u8 (co_r c) /\ u8 (co_g c) /\ u8 (co_b c).
Definition color_ref_ok (c : color_ref) : Prop :=
  match c with CrAuto => True | CrManual r g b => u8 r /\ u8 g /\ u8 b end.
Definition indents_ok (l : list N) : Prop := Forall u32 l /\ (length l < 256)%nat.

(** ** Tags, lists, files, images *)
Definition item_type_ok (t : action_item_type) : Prop := match t with AtNumeric n => n < 100 | _ => True end.
Definition tag_definition_ok (d : tag_definition) : Prop :=
  plain (td_label d) /\ if_any color_ref_ok (td_highlight_color d) /\ if_any color_ref_ok (td_text_color d) /\
  item_type_ok (td_action_item_type d).
Definition tag_ok (t : note_tag) : Prop :=
  if_any u32 (nt_completed_at t) /\ if_any tag_definition_ok (nt_definition t).
Definition list_ok (l : list_info) : Prop :=
  if_any plain (li_list_font l) /\ if_any i32 (li_list_restart l) /\ Forall scalar (li_list_format l) /\
  if_any plain (li_font l) /\ if_any u16 (li_font_size l) /\ if_any color_ref_ok (li_font_color l).
Definition iframe_ok (f : iframe_data) : Prop := if_any u32 (if_embed_type f) /\ plain (if_source_url f).
Definition file_ok (f : embedded_file) : Prop :=
  plain (fi_filename f) /\ file_data (fi_data f) /\
  if_any u32 (fi_layout_max_width f) /\ if_any u32 (fi_layout_max_height f) /\
  if_any u32 (fi_offset_horizontal f) /\ if_any u32 (fi_offset_vertical f) /\ every tag_ok (fi_note_tags f).
(** An image without data has no file extension. *)
Definition image_ok (g : image) : Prop :=
  if_any file_data (ig_data g) /\ if_any plain (ig_extension g) /\ (ig_data g = None -> ig_extension g = None) /\
  if_any u32 (ig_layout_max_width g) /\ if_any u32 (ig_layout_max_height g) /\ if_any plain (ig_alt_text g) /\
  if_any plain (ig_filename g) /\ if_any u32 (ig_displayed_page_number g) /\ if_any plain (ig_text g) /\
  if_any u16 (ig_text_language_code g) /\ if_any u32 (ig_picture_width g) /\ if_any u32 (ig_picture_height g) /\
  if_any plain (ig_hyperlink_url g) /\ if_any u32 (ig_offset_horizontal g) /\ if_any u32 (ig_offset_vertical g) /\
  every tag_ok (ig_note_tags g) /\ every iframe_ok (ig_embeds g).

(** ** Ink *)
(** Coordinates are whole numbers, rounded and scaled; the scale is the same for
    both axes (C35) and all strokes. *)
Definition coordinate (scale : option N) (c : spec_float) : Prop := exists z, i64 z /\ c = times (factor scale) (rounded z).
Definition stroke_ok (scale : option N) (s : ink_stroke) : Prop :=
  Forall (fun p => coordinate scale (ip_x p) /\ coordinate scale (ip_y p)) (st_path s) /\
  if_any u8 (st_pen_tip s) /\ if_any u8 (st_transparency s) /\ u32 (st_height s) /\ u32 (st_width s) /\
  if_any u32 (st_color s).
(** The corners of the box are whole numbers. *)
Definition box_ok (scale : option N) (b : ink_box) : Prop :=
  exists x_min y_min x_max y_max, u32 x_min /\ u32 y_min /\ u32 x_max /\ u32 y_max /\
    box_is scale scale (x_min, y_min, x_max, y_max) b.
Definition ink_scaled (scale : option N) (i : ink) : Prop :=
  if_any u32 scale /\ every (stroke_ok scale) (in_strokes i) /\ if_any (box_ok scale) (in_bounding_box i) /\
  if_any u32 (in_offset_horizontal i) /\ if_any u32 (in_offset_vertical i).
Definition ink_ok (i : ink) : Prop := exists scale, ink_scaled scale i.

(** ** Paragraphs *)
(** One UTF-16 unit that is a character. *)
Definition unit_ok (c : N) : Prop := u16 c /\ scalar c.
Definition math_ok (m : math_object) : Prop :=
  u32 (mo_arg_count m) /\ if_any u8 (mo_column m) /\ if_any u8 (mo_align m) /\
  if_any unit_ok (mo_char m) /\ if_any unit_ok (mo_char1 m) /\ if_any unit_ok (mo_char2 m).
Definition styling_ok (s : styling) : Prop :=
  if_any plain (ps_font s) /\ if_any u16 (ps_font_size s) /\ if_any color_ref_ok (ps_font_color s) /\
  if_any color_ref_ok (ps_highlight s) /\ if_any plain (ps_next_style s) /\ if_any plain (ps_style_id s) /\
  if_any u32 (ps_space_before s) /\ if_any u32 (ps_space_after s) /\ if_any u32 (ps_line_spacing_exact s) /\
  if_any u32 (ps_language_code s).
Definition stored_box_ok (b : stored_box) : Prop := u32 (sb_x b) /\ u32 (sb_y b) /\ u32 (sb_height b) /\ u32 (sb_width b).
Definition embedded_ok (e : embedded_object) : Prop :=
  match e with
  | EoInk i b => ink_scaled None i /\ if_any stored_box_ok b
  | EoInkSpace h w => u32 h /\ u32 w
  | EoInkLineBreak => True
  end.
Definition count {A} (f : A -> bool) (l : list A) : nat := length (filter f l).
(** Texts without a Unicode version are Latin-1 and may have NULs. Of the formats,
    some number from the beginning belong to a run with data: as many formula
    objects as these have formats of formulas, and no more embedded objects than
    these. A paragraph with embedded objects has no text. *)
Definition text_ok (t : rich_text) : Prop :=
  (plain (tx_text t) \/ Forall u8 (tx_text t)) /\ every styling_ok (tx_run_formatting t) /\
  Forall u32 (tx_run_indices t) /\ styling_ok (tx_paragraph_style t) /\ u32 (tx_space_before t) /\
  u32 (tx_space_after t) /\ if_any u32 (tx_line_spacing_exact t) /\ every tag_ok (tx_note_tags t) /\
  every embedded_ok (tx_embedded_objects t) /\ every math_ok (tx_math_objects t) /\
  (exists k, (k <= length (tx_run_formatting t))%nat /\
     length (tx_math_objects t) = count ps_math_formatting (firstn k (tx_run_formatting t)) /\
     (length (tx_embedded_objects t) <= k)%nat) /\
  (tx_embedded_objects t <> [] -> tx_text t = []).

(** ** Outlines and tables *)
Fixpoint item_ok (i : outline_item) : Prop :=
  match i with
  | ItemGroup level l => u8 level /\ every item_ok l
  | ItemElement e => element_ok e
  end
with element_ok (e : outline_element) : Prop :=
  match e with
  | OutlineElement cs lists spacing level l =>
    every content_ok cs /\ every list_ok lists /\ if_any u32 spacing /\ u8 level /\ every item_ok l
  end
with content_ok (c : content) : Prop :=
  match c with
  | CoRichText t => text_ok t
  | CoTable t => table_ok t
  | CoImage g => image_ok g
  | CoEmbeddedFile f => file_ok f
  | CoInk i => ink_ok i
  | CoUnknown => True
  end
with table_ok (t : table) : Prop :=
  match t with
  | Table rows cols contents locked widths _ _ _ tags =>
    u32 rows /\ u32 cols /\ every row_ok contents /\ Forall u8 locked /\ Forall u32 widths /\ every tag_ok tags
  end
with row_ok (r : table_row) : Prop := match r with TableRow cells => every cell_ok cells end
with cell_ok (c : table_cell) : Prop :=
  match c with
  | TableCell es colour width indent =>
    every element_ok es /\ if_any color_ok colour /\ if_any u32 width /\ indents_ok indent
  end.
Definition outline_ok (o : outline) : Prop :=
  u8 (ol_child_level o) /\ if_any u32 (ol_list_spacing o) /\ indents_ok (ol_indents o) /\
  if_any u32 (ol_layout_max_height o) /\ if_any u32 (ol_layout_max_width o) /\
  if_any u32 (ol_layout_reserved_width o) /\ if_any u32 (ol_layout_minimum_outline_width o) /\
  if_any u32 (ol_offset_horizontal o) /\ if_any u32 (ol_offset_vertical o) /\ every item_ok (ol_items o).

(** ** Pages and sections *)
Definition page_content_ok (c : page_content) : Prop :=
  match c with
  | PcOutline o => outline_ok o
  | PcImage g => image_ok g
  | PcEmbeddedFile f => file_ok f
  | PcInk i => ink_ok i
  | PcUnknown => True
  end.
Definition title_ok (t : title) : Prop :=
  every outline_ok (ti_contents t) /\ u32 (ti_offset_horizontal t) /\ u32 (ti_offset_vertical t).
Definition page_ok (p : page) : Prop :=
  if_any title_ok (pg_title p) /\ i32 (pg_level p) /\ if_any plain (pg_author p) /\ if_any u32 (pg_height p) /\
  every page_content_ok (pg_contents p).
Definition section_ok (s : section) : Prop :=
  plain (se_display_name s) /\ (forall p, se_display_name s <> p ++ one_suffix) /\
  if_any color_ok (se_color s) /\ every (every page_ok) (se_page_series s).

(** ** Size: the number of parts, list entries and characters, file data not counted *)
Definition sum_of {A} (f : A -> nat) : list A -> nat :=
  fix go l := match l with [] => 0 | x :: r => f x + go r end%nat.
Definition opt_size {A} (f : A -> nat) (x : option A) : nat := match x with None => 0%nat | Some a => f a end.
Definition chars (s : option (list N)) : nat := opt_size (@length N) s.
Local Open Scope nat_scope.
Definition tag_size (t : note_tag) : nat := 1 + opt_size (fun d => length (td_label d)) (nt_definition t).
Definition list_size (l : list_info) : nat := 1 + chars (li_list_font l) + length (li_list_format l) + chars (li_font l).
Definition iframe_size (f : iframe_data) : nat := 1 + length (if_source_url f).
Definition file_size (f : embedded_file) : nat := 1 + length (fi_filename f) + sum_of tag_size (fi_note_tags f).
Definition image_size (g : image) : nat :=
  1 + chars (ig_extension g) + chars (ig_alt_text g) + chars (ig_filename g) + chars (ig_text g) +
  chars (ig_hyperlink_url g) + sum_of tag_size (ig_note_tags g) + sum_of iframe_size (ig_embeds g).
Definition stroke_size (s : ink_stroke) : nat := 1 + length (st_path s).
Definition ink_size (i : ink) : nat := 1 + sum_of stroke_size (in_strokes i).
Definition embedded_size (e : embedded_object) : nat := match e with EoInk i _ => ink_size i | _ => 1 end.
Definition styling_size (s : styling) : nat := 1 + chars (ps_font s) + chars (ps_next_style s) + chars (ps_style_id s).
Definition text_size (t : rich_text) : nat :=
  1 + length (tx_text t) + sum_of styling_size (tx_run_formatting t) + length (tx_run_indices t) +
  styling_size (tx_paragraph_style t) + sum_of tag_size (tx_note_tags t) +
  sum_of embedded_size (tx_embedded_objects t) + length (tx_math_objects t).
Fixpoint item_size (i : outline_item) : nat :=
  match i with
  | ItemGroup _ l => 1 + sum_of item_size l
  | ItemElement e => element_size e
  end
with element_size (e : outline_element) : nat :=
  match e with
  | OutlineElement cs lists _ _ l => 1 + sum_of content_size cs + sum_of list_size lists + sum_of item_size l
  end
with content_size (c : content) : nat :=
  match c with
  | CoRichText t => text_size t
  | CoTable t => table_size t
  | CoImage g => image_size g
  | CoEmbeddedFile f => file_size f
  | CoInk i => ink_size i
  | CoUnknown => 1
  end
with table_size (t : table) : nat :=
  match t with
  | Table _ _ contents locked widths _ _ _ tags =>
    1 + sum_of row_size contents + length locked + length widths + sum_of tag_size tags
  end
with row_size (r : table_row) : nat := match r with TableRow cells => 1 + sum_of cell_size cells end
with cell_size (c : table_cell) : nat :=
  match c with TableCell es _ _ indent => 1 + sum_of element_size es + length indent end.
Definition outline_size (o : outline) : nat := 1 + length (ol_indents o) + sum_of item_size (ol_items o).
Definition page_content_size (c : page_content) : nat :=
  match c with
  | PcOutline o => outline_size o
  | PcImage g => image_size g
  | PcEmbeddedFile f => file_size f
  | PcInk i => ink_size i
  | PcUnknown => 1
  end.
Definition title_size (t : title) : nat := 1 + sum_of outline_size (ti_contents t).
Definition page_size (p : page) : nat :=
  1 + opt_size title_size (pg_title p) + chars (pg_author p) + sum_of page_content_size (pg_contents p).
Definition section_size (s : section) : nat :=
  1 + length (se_display_name s) + sum_of (fun ps => 1 + sum_of page_size ps) (se_page_series s).
