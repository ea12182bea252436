(** The document tree. Models /repo/src/onenote/*.rs except the file system part
    of mod.rs and notebook.rs (see [Notebook.v]). Stored floats are kept as their
    32 bits; floats the code computes are [spec_float]s (IEEE 754 single
    precision, round to nearest even, one NaN).

    Recursion that follows object references takes fuel, decreased by one at each
    call of an outline item, outline element or content parser; the real code has
    no such bound and its recursion ends exactly when some fuel suffices. *)
From Coq Require Import Floats.SpecFloat.
From Verif Require Import Base Codec Package PropSet PropIds Store Shapes Props Nodes.

(** [space.get_object(id).ok_or_else(|| MalformedOneNoteData(..))?] *)
Definition need_object (id : exguid) (sp : space) : res object :=
  ok_or MalformedOneNoteData (get_object sp id).

(** [PropertySetId::from_jcid(object.id()).ok_or_else(|| MalformedOneNoteData(..))?] *)
Definition need_kind (o : object) : res node_kind :=
  ok_or MalformedOneNoteData (kind_of_jcid (ob_jcid o)).

(** ** Single precision arithmetic *)

(** [f32::from_bits] *)
Definition f32_of_bits (n : N) : spec_float :=
  let s := negb (N.shiftr n 31 =? 0) in
  let e := N.land (N.shiftr n 23) 0xFF in
  let m := N.land n 0x7FFFFF in
  if e =? 255 then (if m =? 0 then S754_infinity s else S754_nan)
  else if e =? 0 then
    match m with 0 => S754_zero s | Npos p => S754_finite s p (-149) end
  else
    match m + 0x800000 with
    | 0 => S754_nan
    | Npos p => S754_finite s p (Z.of_N e - 150)
    end.

(** [z as f32] *)
Definition f32_of_Z (z : Z) : spec_float := binary_normalize 24 128 z 0 false.
Definition f32_mul : spec_float -> spec_float -> spec_float := SFmul 24 128.
Definition f32_sub : spec_float -> spec_float -> spec_float := SFsub 24 128.
(** [1.0] *)
Definition f32_one : spec_float := S754_finite false 8388608 (-23).

(** ** Note tags: /repo/src/onenote/note_tag.rs *)

(** /repo/src/onenote/note_tag.rs:110-130. [NoteTagDefinition] (53-60) has the
    fields of the node. *)
Definition note_tag_definition (id : exguid) (sp : space) : res tag_definition :=
  let! o := need_object id sp in tag_definition_parse o.

(** /repo/src/onenote/note_tag.rs:18-22 *)
Record note_tag := NoteTag {
  nt_completed_at : option N;
  nt_item_status : action_item_status;
  nt_definition : option tag_definition }.

(** /repo/src/onenote/note_tag.rs:94-108 *)
Definition note_tags (tags : list tag_data) (sp : space) : res (list note_tag) :=
  map_res (fun data =>
    let! d := opt_map_res (fun id => note_tag_definition id sp) (tg_definition data) in
    Ok (NoteTag (tg_completed_at data) (tg_item_status data) d)) tags.

(** ** Lists: /repo/src/onenote/list.rs:13-23 *)
Record list_info := ListInfo {
  li_list_font : option (list N);
  li_list_restart : option Z;
  li_list_format : list N;
  li_bold : bool;
  li_italic : bool;
  li_font : option (list N);
  li_font_size : option N;
  li_font_color : option color_ref }.

(** /repo/src/onenote/list.rs:87-105 *)
Definition parse_list (id : exguid) (sp : space) : res list_info :=
  let! o := need_object id sp in
  let! d := number_list_parse o in
  Ok (ListInfo (nl_list_font d) (nl_list_restart d) (nl_list_format d) (nl_bold d) (nl_italic d)
               (nl_font d) (nl_font_size d) (nl_font_color d)).

(** ** Files and images *)

(** /repo/src/onenote/iframe.rs:25-35. [IFrame] (8-11) has the fields of the node. *)
Definition parse_iframe (id : exguid) (sp : space) : res iframe_data :=
  let! o := need_object id sp in iframe_node_parse o.

(** /repo/src/onenote/embedded_file.rs:14-26 *)
Record embedded_file := EmbeddedFile {
  fi_filename : list N;
  fi_file_type : file_type;
  fi_data : list N;
  fi_layout_max_width : option N;
  fi_layout_max_height : option N;
  fi_offset_horizontal : option N;
  fi_offset_vertical : option N;
  fi_note_tags : list note_tag }.

(** /repo/src/onenote/embedded_file.rs:94-118 *)
Definition parse_embedded_file (id : exguid) (sp : space) : res embedded_file :=
  let! o := need_object id sp in
  let! node := embedded_file_node_parse o in
  let! co := need_object (ef_container node) sp in
  let! data := embedded_file_container_parse co in
  let! tags := note_tags (ef_note_tags node) sp in
  Ok (EmbeddedFile (ef_name node) (ef_file_type node) data (ef_layout_max_width node)
        (ef_layout_max_height node) (ef_offset_horiz node) (ef_offset_vert node) tags).

(** /repo/src/onenote/image.rs:15-48 *)
Record image := Image {
  ig_data : option (list N);
  ig_extension : option (list N);
  ig_layout_max_width : option N;
  ig_layout_max_height : option N;
  ig_alt_text : option (list N);
  ig_alignment_in_parent : option layout_alignment;
  ig_alignment_self : option layout_alignment;
  ig_filename : option (list N);
  ig_displayed_page_number : option N;
  ig_text : option (list N);
  ig_text_language_code : option N;
  ig_picture_width : option N;
  ig_picture_height : option N;
  ig_hyperlink_url : option (list N);
  ig_offset_horizontal : option N;
  ig_offset_vertical : option N;
  ig_is_background : bool;
  ig_note_tags : list note_tag;
  ig_embeds : list iframe_data }.

(** /repo/src/onenote/image.rs:199-251 *)
Definition parse_image (id : exguid) (sp : space) : res image :=
  let! o := need_object id sp in
  let! node := image_node_parse o in
  let! co := opt_map_res (fun cid => need_object cid sp) (im_picture_container node) in
  let! cd := opt_map_res picture_container_parse co in
  let! embeds := map_res (fun i => parse_iframe i sp) (im_iframe node) in
  let! tags := note_tags (im_note_tags node) sp in
  Ok (Image (option_map pc_data cd) (match cd with Some d => pc_extension d | None => None end)
        (im_layout_max_width node) (im_layout_max_height node) (im_alt_text node)
        (im_alignment_in_parent node) (im_alignment_self node) (im_filename node)
        (im_displayed_page_number node) (im_text node) (im_text_language_code node)
        (im_picture_width node) (im_picture_height node) (im_hyperlink_url node)
        (im_offset_horiz node) (im_offset_vert node) (im_is_background node) tags embeds).

(** ** Ink: /repo/src/onenote/ink.rs *)

(** /repo/src/onenote/ink.rs:101-104 *)
Record ink_point := InkPoint { ip_x : spec_float; ip_y : spec_float }.

(** /repo/src/onenote/ink.rs:50-57 *)
Record ink_stroke := InkStroke {
  st_path : list ink_point;
  st_pen_tip : option N;
  st_transparency : option N;
  st_height : N;
  st_width : N;
  st_color : option N }.

(** /repo/src/onenote/ink.rs:120-125 *)
Record ink_box := InkBox {
  bb_x : spec_float; bb_y : spec_float; bb_height : spec_float; bb_width : spec_float }.

(** /repo/src/onenote/ink.rs:157-164, [InkBoundingBox::scale] *)
Definition ink_box_scale (b : ink_box) (factor : spec_float) : ink_box :=
  InkBox (f32_mul (bb_x b) factor) (f32_mul (bb_y b) factor) (f32_mul (bb_height b) factor)
         (f32_mul (bb_width b) factor).

(** /repo/src/onenote/ink.rs:10-16 *)
Record ink := Ink {
  in_strokes : list ink_stroke;
  in_bounding_box : option ink_box;
  in_offset_horizontal : option N;
  in_offset_vertical : option N }.

(** ink.rs:271 and ink.rs:278: the numbers of the two [guid!] literals. *)
Definition guid_x : guid := 0x598a6a8f52c04ba093afaf357411a561.
Definition guid_y : guid := 0xb53f9f7504e04498a7eec30dbb5a9011.

(** [iter().position(|d| d.id == g)] *)
Fixpoint position (g : guid) (ds : list ink_dimension) : option N :=
  match ds with
  | [] => None
  | d :: r => if id_id d =? g then Some 0 else option_map N.succ (position g r)
  end.

(** [&data\[a..a + n\]]: panics if out of range. *)
Definition slice {A} (a n : N) (l : list A) : res (list A) :=
  if len l <? a + n then Panic else Ok (take n (skip a l)).

(** [scale.unwrap_or(1.0)] *)
Definition scale_of (s : option N) : spec_float :=
  match s with Some b => f32_of_bits b | None => f32_one end.

(** /repo/src/onenote/ink.rs:261-306. The divisor is not 0: [idx_x] exists. *)
Definition parse_ink_path (data : list Z) (props : stroke_props) (sx sy : option N)
  : res (list ink_point) :=
  let! idx_x := ok_or MalformedOneNoteData (position guid_x (sp_dimensions props)) in
  let! idx_y := ok_or MalformedOneNoteData (position guid_y (sp_dimensions props)) in
  let n := len data / len (sp_dimensions props) in
  let! x := slice (n * idx_x) n data in
  let! y := slice (n * idx_y) n data in
  Ok (map (fun '(x, y) => InkPoint (f32_mul (scale_of sx) (f32_of_Z x))
                                   (f32_mul (scale_of sy) (f32_of_Z y)))
          (combine x y)).

(** /repo/src/onenote/ink.rs:233-259 *)
Definition parse_ink_stroke (id : exguid) (sp : space) (sx sy : option N) : res ink_stroke :=
  let! o := need_object id sp in
  let! data := ink_stroke_node_parse o in
  let! po := need_object (ss_properties data) sp in
  let! props := stroke_properties_parse po in
  let! path := parse_ink_path (ss_path data) props sx sy in
  Ok (InkStroke path (sp_pen_tip props) (sp_transparency props) (sp_height props) (sp_width props)
                (sp_color props)).

(** /repo/src/onenote/ink.rs:200-231 *)
Definition parse_ink_data (id : exguid) (sp : space) (sx sy : option N)
  : res (list ink_stroke * option ink_box) :=
  let! o := need_object id sp in
  let! d := ink_data_node_parse o in
  let! strokes := map_res (fun i => parse_ink_stroke i sp sx sy) (ik_strokes d) in
  let box '(x_min, y_min, x_max, y_max) :=
    let f n := f32_of_Z (Z.of_N n) in
    InkBox (f32_mul (f x_min) (scale_of sx))
           (f32_mul (f y_min) (scale_of sy))
           (f32_mul (f32_sub (f y_max) (f y_min)) (scale_of sy))
           (f32_mul (f32_sub (f x_max) (f x_min)) (scale_of sx)) in
  Ok (strokes, option_map box (ik_bounding_box d)).

(** /repo/src/onenote/ink.rs:167-198 *)
Definition parse_ink (id : exguid) (sp : space) : res ink :=
  let! o := need_object id sp in
  let! c := ink_container_parse o in
  match ic_ink_data c with
  | None => Ok (Ink [] None (ic_offset_horiz c) (ic_offset_vert c))
  | Some did =>
    let! (strokes, box) := parse_ink_data did sp (ic_scaling_x c) (ic_scaling_y c) in
    Ok (Ink strokes box (ic_offset_horiz c) (ic_offset_vert c))
  end.

(** ** Math: /repo/src/onenote/math_inline_object.rs *)

(** /repo/src/onenote/math_inline_object.rs:12-67 *)
Inductive math_object_type :=
| MtSimpleText
| MtAccent
| MtBox
| MtBoxedFormula
| MtBrackets
| MtBracketsWithSeps
| MtEquationArray
| MtFraction
| MtFunctionApply
| MtLeftSubSup
| MtLowerLimit
| MtMatrix
| MtNary
| MtOpChar
| MtOverbar
| MtPhantom
| MtRadical
| MtSlashedFraction
| MtStack
| MtStretchStack
| MtSubscript
| MtSubSup
| MtSuperscript
| MtUnderbar
| MtUpperLimit
| MtPlainText.

(** /repo/src/onenote/math_inline_object.rs:9-67, the derived [from_u32] *)
Definition math_object_type_of (value : N) : option math_object_type :=
  match value with
  | 0 => Some MtSimpleText
  | 10 => Some MtAccent
  | 11 => Some MtBox
  | 12 => Some MtBoxedFormula
  | 13 => Some MtBrackets
  | 14 => Some MtBracketsWithSeps
  | 15 => Some MtEquationArray
  | 16 => Some MtFraction
  | 17 => Some MtFunctionApply
  | 18 => Some MtLeftSubSup
  | 19 => Some MtLowerLimit
  | 20 => Some MtMatrix
  | 21 => Some MtNary
  | 22 => Some MtOpChar
  | 23 => Some MtOverbar
  | 24 => Some MtPhantom
  | 25 => Some MtRadical
  | 26 => Some MtSlashedFraction
  | 27 => Some MtStack
  | 28 => Some MtStretchStack
  | 29 => Some MtSubscript
  | 30 => Some MtSubSup
  | 31 => Some MtSuperscript
  | 32 => Some MtUnderbar
  | 33 => Some MtUpperLimit
  | 0x90000000 => Some MtPlainText
  | _ => None
  end.

(** /repo/src/onenote/math_inline_object.rs:76-84 *)
Record math_object := MathObject {
  mo_type : math_object_type;
  mo_arg_count : N;
  mo_column : option N;
  mo_align : option N;
  mo_char : option N;
  mo_char1 : option N;
  mo_char2 : option N }.

(** /repo/src/onenote/math_inline_object.rs:123-139 *)
Definition parse_math_object (d : math_data) : res math_object :=
  let! t := ok_or MalformedOneNoteFileData
              (math_object_type_of (match md_object_type d with Some n => n | None => 0 end)) in
  Ok (MathObject t (match md_arg_count d with Some n => n | None => 0 end) (md_column d)
        (md_align d) (md_char d) (md_char1 d) (md_char2 d)).

(** ** Paragraphs: /repo/src/onenote/rich_text.rs *)

(** /repo/src/onenote/rich_text.rs:210-231 *)
Record styling := Styling {
  ps_charset : option charset;
  ps_bold : bool;
  ps_italic : bool;
  ps_underline : bool;
  ps_strikethrough : bool;
  ps_superscript : bool;
  ps_subscript : bool;
  ps_font : option (list N);
  ps_font_size : option N;
  ps_font_color : option color_ref;
  ps_highlight : option color_ref;
  ps_next_style : option (list N);
  ps_style_id : option (list N);
  ps_alignment : option paragraph_alignment;
  ps_space_before : option N;
  ps_space_after : option N;
  ps_line_spacing_exact : option N;
  ps_language_code : option N;
  ps_math_formatting : bool;
  ps_hyperlink : bool }.

(** /repo/src/onenote/rich_text.rs:548-571 *)
Definition parse_style (d : style_data) : styling :=
  Styling (sy_charset d) (sy_bold d) (sy_italic d) (sy_underline d) (sy_strikethrough d)
    (sy_superscript d) (sy_subscript d) (sy_font d) (sy_font_size d) (sy_font_color d)
    (sy_highlight d) (sy_next_style d) (sy_style_id d) (sy_paragraph_alignment d)
    (sy_space_before d) (sy_space_after d) (sy_line_spacing_exact d) (sy_language_code d)
    (sy_math_formatting d) (sy_hyperlink d).

(** /repo/src/onenote/rich_text.rs:154-189. The display box of embedded ink holds
    stored floats. *)
Record stored_box := StoredBox { sb_x : N; sb_y : N; sb_height : N; sb_width : N }.
Inductive embedded_object :=
| EoInk (i : ink) (box : option stored_box)
| EoInkSpace (height width : N)
| EoInkLineBreak.

(** /repo/src/onenote/rich_text.rs:372-373 *)
Definition ink_space_blob : N := 0x00020026.
Definition ink_end_of_line_blob : N := 0x00020027.

(** [a.zip(b)] *)
Definition ozip {A B} (a : option A) (b : option B) : option (A * B) :=
  match a, b with Some x, Some y => Some (x, y) | _, _ => None end.

(** /repo/src/onenote/rich_text.rs:504-534 *)
Definition parse_embedded_ink (id : exguid) (sp : space) (d : embedded_ink_data)
  : res embedded_object :=
  let! (strokes, bb) := parse_ink_data id sp None None in
  let box := option_map (fun '(((x, y), height), width) => StoredBox x y height width)
               (ozip (ozip (ozip (ei_start_x d) (ei_start_y d)) (ei_height d)) (ei_width d)) in
  Ok (EoInk (Ink strokes bb (ei_offset_horiz d) (ei_offset_vert d)) box).

(** /repo/src/onenote/rich_text.rs:536-546 *)
Definition parse_ink_space (d : embedded_ink_data) : res embedded_object :=
  let! width := ok_or MalformedOneNoteFileData (ei_space_width d) in
  let! height := ok_or MalformedOneNoteFileData (ei_space_height d) in
  Ok (EoInkSpace height width).

(** /repo/src/onenote/rich_text.rs:441-471: [i] enumerates the objects, [skipped]
    is [objects_without_ref]. [i - skipped] does not underflow. An index out of
    range panics. *)
Fixpoint embedded_objects (sp : space) (refs : list exguid) (i skipped : N)
         (objs : list (option N * embedded_ink_data)) : res (list (option embedded_object)) :=
  match objs with
  | [] => Ok []
  | (ty, d) :: rest =>
    match ty with
    | None =>
      let! x := match refs with
                | [] => Ok None
                | _ =>
                  match nth_error refs (N.to_nat (i - skipped)) with
                  | None => Panic
                  | Some id => let! e := parse_embedded_ink id sp d in Ok (Some e)
                  end
                end in
      let! xs := embedded_objects sp refs (i + 1) skipped rest in
      Ok (x :: xs)
    | Some t =>
      let! x := if t =? ink_end_of_line_blob then Ok (Some EoInkLineBreak)
                else if t =? ink_space_blob then let! e := parse_ink_space d in Ok (Some e)
                else Err MalformedOneNoteFileData in
      let! xs := embedded_objects sp refs (i + 1) (skipped + 1) rest in
      Ok (x :: xs)
    end
  end.

(** [into_iter().flatten()] *)
Definition flatten {A} (l : list (option A)) : list A :=
  flat_map (fun o => match o with Some x => [x] | None => [] end) l.

(** /repo/src/onenote/rich_text.rs:33-51 *)
Record rich_text := RichText {
  tx_text : list N;
  tx_run_formatting : list styling;
  tx_run_indices : list N;
  tx_paragraph_style : styling;
  tx_space_before : N;
  tx_space_after : N;
  tx_line_spacing_exact : option N;
  tx_alignment : paragraph_alignment;
  tx_alignment_in_parent : option layout_alignment;
  tx_alignment_self : option layout_alignment;
  tx_note_tags : list note_tag;
  tx_embedded_objects : list embedded_object;
  tx_math_objects : list math_object }.

(** /repo/src/onenote/rich_text.rs:375-502 *)
Definition parse_rich_text (id : exguid) (sp : space) : res rich_text :=
  let! o := need_object id sp in
  let! data := rich_text_node_parse o in
  let! pso := need_object (rt_paragraph_style data) sp in
  let! psd := style_parse pso in
  let! styles := map_res (fun sid => let! so := need_object sid sp in style_parse so)
                         (rt_run_formatting data) in
  let! runs := dflt [] (text_run_data_parse o) in
  let! math := map_res (fun '(run, style) =>
                 if sy_math_formatting style then
                   let! d := math_data_parse run in
                   let! m := parse_math_object d in Ok (Some m)
                 else Ok None) (combine runs styles) in
  let! objs := map_res (fun '(run, style) =>
                 if sy_is_embedded_object style then
                   let! d := embedded_ink_parse run in Ok (Some (sy_object_type style, d))
                 else Ok None) (combine runs styles) in
  let! embedded := embedded_objects sp (rt_run_data_object data) 0 0 (flatten objs) in
  let embedded := flatten embedded in
  let text := match embedded with
              | [] => match rt_text data with Some t => t | None => [] end
              | _ => []
              end in
  let! tags := note_tags (rt_note_tags data) sp in
  Ok (RichText text (map parse_style styles) (rt_run_indices data) (parse_style psd)
        (rt_space_before data) (rt_space_after data) (rt_line_spacing_exact data)
        (rt_paragraph_alignment data) (rt_alignment_in_parent data) (rt_alignment_self data) tags
        embedded (flatten math)).

(** ** Outlines and tables *)

(** /repo/src/onenote/outline.rs:154-157, 179-182, 207-215;
    /repo/src/onenote/content.rs:13-31; /repo/src/onenote/table.rs:17-31, 112-114,
    129-135 *)
Inductive outline_item :=
| ItemGroup (child_level : N) (outlines : list outline_item)
| ItemElement (e : outline_element)
with outline_element :=
| OutlineElement (contents : list content) (list_contents : list list_info)
    (list_spacing : option N) (child_level : N) (children : list outline_item)
with content :=
| CoRichText (t : rich_text)
| CoTable (t : table)
| CoImage (i : image)
| CoEmbeddedFile (f : embedded_file)
| CoInk (i : ink)
| CoUnknown
with table :=
| Table (rows cols : N) (contents : list table_row) (cols_locked col_widths : list N)
    (borders_visible : bool) (alignment_in_parent alignment_self : option layout_alignment)
    (tags : list note_tag)
with table_row :=
| TableRow (contents : list table_cell)
with table_cell :=
| TableCell (contents : list outline_element) (background_color : option color)
    (layout_max_width : option N) (indent_distance : list N).

(** /repo/src/onenote/table.rs:211-231; [element] is [parse_outline_element]. *)
Definition parse_cell (element : exguid -> res outline_element) (id : exguid) (sp : space)
  : res table_cell :=
  let! o := need_object id sp in
  let! d := table_cell_node_parse o in
  let! contents := map_res element (ce_contents d) in
  Ok (TableCell contents (ce_background_color d) (ce_layout_max_width d) (ce_indent_distance d)).

(** /repo/src/onenote/table.rs:194-209 *)
Definition parse_row (element : exguid -> res outline_element) (id : exguid) (sp : space)
  : res table_row :=
  let! o := need_object id sp in
  let! d := table_row_node_parse o in
  let! contents := map_res (fun i => parse_cell element i sp) (ro_cells d) in
  Ok (TableRow contents).

(** /repo/src/onenote/table.rs:167-192 *)
Definition parse_table (element : exguid -> res outline_element) (id : exguid) (sp : space)
  : res table :=
  let! o := need_object id sp in
  let! d := table_node_parse o in
  let! contents := map_res (fun i => parse_row element i sp) (ta_rows d) in
  let! tags := note_tags (ta_note_tags d) sp in
  Ok (Table (ta_row_count d) (ta_col_count d) contents (ta_cols_locked d) (ta_col_widths d)
        (ta_borders_visible d) (ta_alignment_in_parent d) (ta_alignment_self d) tags).

(** /repo/src/onenote/outline.rs:290-335 ([parse_outline_item],
    [parse_outline_group]), 337-373 ([parse_outline_element]) and
    /repo/src/onenote/content.rs:80-103 ([parse_content]). *)
Fixpoint parse_outline_item (fuel : nat) (sp : space) (id : exguid) : res outline_item :=
  match fuel with
  | O => OutOfFuel
  | S f =>
    let! o := need_object id sp in
    let! k := need_kind o in
    match k with
    | K_OutlineGroup =>
      let! go := need_object id sp in
      let! d := outline_group_node_parse go in
      let! outlines := map_res (parse_outline_item f sp) (gr_children d) in
      Ok (ItemGroup (gr_child_level d) outlines)
    | K_OutlineElementNode =>
      let! e := parse_outline_element f sp id in Ok (ItemElement e)
    | _ => Err MalformedOneNoteData
    end
  end
with parse_outline_element (fuel : nat) (sp : space) (id : exguid) : res outline_element :=
  match fuel with
  | O => OutOfFuel
  | S f =>
    let! o := need_object id sp in
    let! d := outline_element_node_parse o in
    let! children := map_res (parse_outline_item f sp) (oe_children d) in
    let! contents := map_res (parse_content f sp) (oe_contents d) in
    let! lists := map_res (fun i => parse_list i sp) (oe_list_contents d) in
    Ok (OutlineElement contents lists (oe_list_spacing d) (oe_child_level d) children)
  end
with parse_content (fuel : nat) (sp : space) (id : exguid) : res content :=
  match fuel with
  | O => OutOfFuel
  | S f =>
    let! o := need_object id sp in
    let! k := need_kind o in
    match k with
    | K_ImageNode => let! x := parse_image id sp in Ok (CoImage x)
    | K_EmbeddedFileNode => let! x := parse_embedded_file id sp in Ok (CoEmbeddedFile x)
    | K_RichTextNode => let! x := parse_rich_text id sp in Ok (CoRichText x)
    | K_TableNode => let! x := parse_table (parse_outline_element f sp) id sp in Ok (CoTable x)
    | K_InkContainer => let! x := parse_ink id sp in Ok (CoInk x)
    | _ => Ok CoUnknown
    end
  end.

(** /repo/src/onenote/outline.rs:16-33 *)
Record outline := Outline {
  ol_child_level : N;
  ol_list_spacing : option N;
  ol_indents : list N;
  ol_alignment_in_parent : option layout_alignment;
  ol_alignment_self : option layout_alignment;
  ol_layout_max_height : option N;
  ol_layout_max_width : option N;
  ol_layout_reserved_width : option N;
  ol_layout_minimum_outline_width : option N;
  ol_is_layout_size_set_by_user : bool;
  ol_offset_horizontal : option N;
  ol_offset_vertical : option N;
  ol_items : list outline_item }.

(** /repo/src/onenote/outline.rs:259-288 *)
Definition parse_outline (fuel : nat) (sp : space) (id : exguid) : res outline :=
  let! o := need_object id sp in
  let! d := outline_node_parse o in
  let! items := map_res (parse_outline_item fuel sp) (ou_children d) in
  Ok (Outline (ou_child_level d) (ou_list_spacing d) (ou_indent_distance d)
        (ou_alignment_in_parent d) (ou_alignment_self d) (ou_layout_max_height d)
        (ou_layout_max_width d) (ou_layout_reserved_width d) (ou_layout_minimum_outline_width d)
        (ou_is_layout_size_set_by_user d) (ou_offset_horiz d) (ou_offset_vert d) items).

(** ** Pages *)

(** /repo/src/onenote/page_content.rs *)
Inductive page_content :=
| PcOutline (o : outline)
| PcImage (i : image)
| PcEmbeddedFile (f : embedded_file)
| PcInk (i : ink)
| PcUnknown.

(** /repo/src/onenote/page_content.rs:63-85 *)
Definition parse_page_content (fuel : nat) (sp : space) (id : exguid) : res page_content :=
  let! o := need_object id sp in
  let! k := need_kind o in
  match k with
  | K_ImageNode => let! x := parse_image id sp in Ok (PcImage x)
  | K_EmbeddedFileNode => let! x := parse_embedded_file id sp in Ok (PcEmbeddedFile x)
  | K_OutlineNode => let! x := parse_outline fuel sp id in Ok (PcOutline x)
  | K_InkContainer => let! x := parse_ink id sp in Ok (PcInk x)
  | _ => Ok PcUnknown
  end.

(** /repo/src/onenote/page.rs:97-103 *)
Record title := Title {
  ti_contents : list outline;
  ti_offset_horizontal : N;
  ti_offset_vertical : N;
  ti_alignment_in_parent : option layout_alignment;
  ti_alignment_self : option layout_alignment }.

(** /repo/src/onenote/page.rs:175-193 *)
Definition parse_title (fuel : nat) (sp : space) (id : exguid) : res title :=
  let! o := need_object id sp in
  let! d := title_node_parse o in
  let! contents := map_res (parse_outline fuel sp) (tn_children d) in
  Ok (Title contents (tn_offset_horizontal d) (tn_offset_vertical d) (tn_alignment_in_parent d)
        (tn_alignment_self d)).

(** /repo/src/onenote/page.rs:16-22 *)
Record page := Page {
  pg_title : option title;
  pg_level : Z;
  pg_author : option (list N);
  pg_height : option N;
  pg_contents : list page_content }.

(** /repo/src/onenote/page.rs:215-224 *)
Definition page_metadata (sp : space) : res page_meta_data :=
  let! id := ok_or MalformedOneNoteData (metadata_root sp) in
  let! o := need_object id sp in
  page_metadata_parse o.
(** /repo/src/onenote/page.rs:204-213 *)
Definition page_manifest (sp : space) : res exguid :=
  let! id := ok_or MalformedOneNoteData (content_root sp) in
  let! o := need_object id sp in
  page_manifest_parse o.
(** /repo/src/onenote/page.rs:195-202 *)
Definition page_node (manifest : exguid) (sp : space) : res page_data :=
  let! o := need_object manifest sp in
  page_node_parse o.

(** /repo/src/onenote/page.rs:148-173 *)
Definition parse_page (fuel : nat) (sp : space) : res page :=
  let! metadata := page_metadata sp in
  let! manifest := page_manifest sp in
  let! data := page_node manifest sp in
  let! title := opt_map_res (parse_title fuel sp) (pd_title data) in
  let! contents := map_res (parse_page_content fuel sp) (pd_content data) in
  Ok (Page title (pm_page_level metadata) (pd_author data) (pd_page_height data) contents).

(** /repo/src/onenote/outline.rs:161-167 *)
Definition item_element (i : outline_item) : option outline_element :=
  match i with ItemElement e => Some e | ItemGroup _ _ => None end.
(** [outline_element.contents] *)
Definition element_contents (e : outline_element) : list content :=
  match e with OutlineElement cs _ _ _ _ => cs end.
(** /repo/src/onenote/content.rs:35-41 *)
Definition content_rich_text (c : content) : option rich_text :=
  match c with CoRichText t => Some t | _ => None end.
(** /repo/src/onenote/page_content.rs, [outline] *)
Definition page_content_outline (c : page_content) : option outline :=
  match c with PcOutline o => Some o | _ => None end.

(** [Option::and_then] *)
Definition and_then {A B} (o : option A) (f : A -> option B) : option B :=
  match o with Some a => f a | None => None end.

(** /repo/src/onenote/page.rs:79-87 *)
Definition outline_text (o : outline) : option (list N) :=
  and_then (and_then (and_then (and_then (hd_error (ol_items o)) item_element)
                               (fun e => hd_error (element_contents e)))
                     content_rich_text)
           (fun t => match tx_text t with [] => None | s => Some s end).

(** [filter_map] *)
Definition filter_map {A B} (f : A -> option B) (l : list A) : list B :=
  flat_map (fun a => match f a with Some b => [b] | None => [] end) l.

(** /repo/src/onenote/page.rs:65-77 *)
Definition title_text (p : page) : option (list N) :=
  or_else (and_then (and_then (pg_title p) (fun t => hd_error (ti_contents t))) outline_text)
          (hd_error (filter_map outline_text (filter_map page_content_outline (pg_contents p)))).

(** ** Sections *)

(** /repo/src/onenote/page_series.rs:14-44, [PageSeries] is its pages. Collecting
    stops at the first page that fails, before the next space is looked up. *)
Definition parse_page_series (fuel : nat) (st : store) (id : exguid) : res (list page) :=
  let! o := need_object id (st_data_root st) in
  let! d := page_series_node_parse o in
  map_res (fun cell =>
    let! sp := ok_or MalformedOneNoteData (object_space st cell) in
    parse_page fuel sp) (pn_page_spaces d).

(** [str::trim_end_matches(".one")] on the reversed string. *)
Fixpoint strip_one (r : list N) : list N :=
  match r with
  | 101 :: 110 :: 111 :: 46 :: r' => strip_one r'
  | _ => r
  end.
(** /repo/src/onenote/section.rs:72 *)
Definition trim_one (s : list N) : list N := rev (strip_one (rev s)).

(** /repo/src/onenote/section.rs, [Section] *)
Record section := Section_ {
  se_display_name : list N;
  se_page_series : list (list page);
  se_color : option color }.

(** /repo/src/onenote/section.rs:99-108 *)
Definition section_metadata (sp : space) : res section_meta_data :=
  let! id := ok_or MalformedOneNoteData (metadata_root sp) in
  let! o := need_object id sp in
  section_metadata_parse o.
(** /repo/src/onenote/section.rs:88-97 *)
Definition section_content (sp : space) : res section_data :=
  let! id := ok_or MalformedOneNoteData (content_root sp) in
  let! o := need_object id sp in
  section_node_parse o.

(** /repo/src/onenote/section.rs:65-86 *)
Definition parse_section (fuel : nat) (st : store) (filename : list N) : res section :=
  let! metadata := section_metadata (st_data_root st) in
  let! content := section_content (st_data_root st) in
  let name := trim_one (match sm_display_name metadata with Some n => n | None => filename end) in
  let! series := map_res (parse_page_series fuel st) (sn_page_series content) in
  Ok (Section_ name series (sm_color metadata)).
