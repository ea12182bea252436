(** Which objects are looked up while a document is made. The functions of [Doc.v] once
    more, each with the list of its look-ups, in order, until it returns a result or an
    error: every call of [ObjectSpace::get_object] (/repo/src/onestore/object_space.rs:31-33)
    and of [OneStore::object_space] (/repo/src/onestore/mod.rs:38-40). What is done between
    two look-ups (decoding the properties of the object that was found) is not counted. *)
From Coq Require Import Floats.SpecFloat.
From Verif Require Import Base Codec Package PropSet PropIds Store Shapes Props Nodes Doc Notebook.

(** What was looked up until the outcome was known. *)
Definition traced (T A : Type) : Type := list T * res A.
Definition tret {T A} (a : A) : traced T A := ([], Ok a).
Definition tlift {T A} (r : res A) : traced T A := ([], r).
(** The look-ups of the first, then those of the second if it comes to that. *)
Definition tbind {T A B} (p : traced T A) (f : A -> traced T B) : traced T B :=
  match p with
  | (l, Ok a) => let (m, r) := f a in (l ++ m, r)
  | (l, Err e) => (l, Err e)
  | (l, Panic) => (l, Panic)
  | (l, OutOfFuel) => (l, OutOfFuel)
  end.
Notation "'let+' x ':=' r 'in' k" := (tbind r (fun x => k))
  (at level 200, x pattern, r at level 100, k at level 200).

(** [opt_map_res] and [map_res] (Base.v) *)
Definition opt_map_t {T A B} (f : A -> traced T B) (o : option A) : traced T (option B) :=
  match o with
  | None => tret None
  | Some a => let+ b := f a in tret (Some b)
  end.
Fixpoint map_t {T A B} (f : A -> traced T B) (l : list A) : traced T (list B) :=
  match l with
  | [] => tret []
  | a :: t => let+ b := f a in let+ bs := map_t f t in tret (b :: bs)
  end.

(** [space.get_object(id).ok_or_else(..)?] *)
Definition need_object_t (id : exguid) (sp : space) : traced exguid object :=
  ([id], need_object id sp).

(** ** Within one space *)

(** /repo/src/onenote/note_tag.rs:110-130 *)
Definition note_tag_definition_t (id : exguid) (sp : space) : traced exguid tag_definition :=
  let+ o := need_object_t id sp in tlift (tag_definition_parse o).

(** /repo/src/onenote/note_tag.rs:94-108 *)
Definition note_tags_t (tags : list tag_data) (sp : space) : traced exguid (list note_tag) :=
  map_t (fun data =>
    let+ d := opt_map_t (fun id => note_tag_definition_t id sp) (tg_definition data) in
    tret (NoteTag (tg_completed_at data) (tg_item_status data) d)) tags.

(** /repo/src/onenote/list.rs:87-105 *)
Definition parse_list_t (id : exguid) (sp : space) : traced exguid list_info :=
  let+ o := need_object_t id sp in
  let+ d := tlift (number_list_parse o) in
  tret (ListInfo (nl_list_font d) (nl_list_restart d) (nl_list_format d) (nl_bold d) (nl_italic d)
                 (nl_font d) (nl_font_size d) (nl_font_color d)).

(** /repo/src/onenote/iframe.rs:25-35 *)
Definition parse_iframe_t (id : exguid) (sp : space) : traced exguid iframe_data :=
  let+ o := need_object_t id sp in tlift (iframe_node_parse o).

(** /repo/src/onenote/embedded_file.rs:94-118 *)
Definition parse_embedded_file_t (id : exguid) (sp : space) : traced exguid embedded_file :=
  let+ o := need_object_t id sp in
  let+ node := tlift (embedded_file_node_parse o) in
  let+ co := need_object_t (ef_container node) sp in
  let+ data := tlift (embedded_file_container_parse co) in
  let+ tags := note_tags_t (ef_note_tags node) sp in
  tret (EmbeddedFile (ef_name node) (ef_file_type node) data (ef_layout_max_width node)
          (ef_layout_max_height node) (ef_offset_horiz node) (ef_offset_vert node) tags).

(** /repo/src/onenote/image.rs:199-251 *)
Definition parse_image_t (id : exguid) (sp : space) : traced exguid image :=
  let+ o := need_object_t id sp in
  let+ node := tlift (image_node_parse o) in
  let+ co := opt_map_t (fun cid => need_object_t cid sp) (im_picture_container node) in
  let+ cd := tlift (opt_map_res picture_container_parse co) in
  let+ embeds := map_t (fun i => parse_iframe_t i sp) (im_iframe node) in
  let+ tags := note_tags_t (im_note_tags node) sp in
  tret (Image (option_map pc_data cd) (match cd with Some d => pc_extension d | None => None end)
          (im_layout_max_width node) (im_layout_max_height node) (im_alt_text node)
          (im_alignment_in_parent node) (im_alignment_self node) (im_filename node)
          (im_displayed_page_number node) (im_text node) (im_text_language_code node)
          (im_picture_width node) (im_picture_height node) (im_hyperlink_url node)
          (im_offset_horiz node) (im_offset_vert node) (im_is_background node) tags embeds).

(** /repo/src/onenote/ink.rs:233-259 *)
Definition parse_ink_stroke_t (id : exguid) (sp : space) (sx sy : option N) : traced exguid ink_stroke :=
  let+ o := need_object_t id sp in
  let+ data := tlift (ink_stroke_node_parse o) in
  let+ po := need_object_t (ss_properties data) sp in
  let+ props := tlift (stroke_properties_parse po) in
  let+ path := tlift (parse_ink_path (ss_path data) props sx sy) in
  tret (InkStroke path (sp_pen_tip props) (sp_transparency props) (sp_height props) (sp_width props)
                  (sp_color props)).

(** /repo/src/onenote/ink.rs:200-231 *)
Definition parse_ink_data_t (id : exguid) (sp : space) (sx sy : option N)
  : traced exguid (list ink_stroke * option ink_box) :=
  let+ o := need_object_t id sp in
  let+ d := tlift (ink_data_node_parse o) in
  let+ strokes := map_t (fun i => parse_ink_stroke_t i sp sx sy) (ik_strokes d) in
  let box '(x_min, y_min, x_max, y_max) :=
    let f n := f32_of_Z (Z.of_N n) in
    InkBox (f32_mul (f x_min) (scale_of sx))
           (f32_mul (f y_min) (scale_of sy))
           (f32_mul (f32_sub (f y_max) (f y_min)) (scale_of sy))
           (f32_mul (f32_sub (f x_max) (f x_min)) (scale_of sx)) in
  tret (strokes, option_map box (ik_bounding_box d)).

(** /repo/src/onenote/ink.rs:167-198 *)
Definition parse_ink_t (id : exguid) (sp : space) : traced exguid ink :=
  let+ o := need_object_t id sp in
  let+ c := tlift (ink_container_parse o) in
  match ic_ink_data c with
  | None => tret (Ink [] None (ic_offset_horiz c) (ic_offset_vert c))
  | Some did =>
    let+ (strokes, box) := parse_ink_data_t did sp (ic_scaling_x c) (ic_scaling_y c) in
    tret (Ink strokes box (ic_offset_horiz c) (ic_offset_vert c))
  end.

(** /repo/src/onenote/rich_text.rs:504-534 *)
Definition parse_embedded_ink_t (id : exguid) (sp : space) (d : embedded_ink_data)
  : traced exguid embedded_object :=
  let+ (strokes, bb) := parse_ink_data_t id sp None None in
  let box := option_map (fun '(((x, y), height), width) => StoredBox x y height width)
               (ozip (ozip (ozip (ei_start_x d) (ei_start_y d)) (ei_height d)) (ei_width d)) in
  tret (EoInk (Ink strokes bb (ei_offset_horiz d) (ei_offset_vert d)) box).

(** /repo/src/onenote/rich_text.rs:441-471 *)
Fixpoint embedded_objects_t (sp : space) (refs : list exguid) (i skipped : N)
         (objs : list (option N * embedded_ink_data)) : traced exguid (list (option embedded_object)) :=
  match objs with
  | [] => tret []
  | (ty, d) :: rest =>
    match ty with
    | None =>
      let+ x := match refs with
                | [] => tret None
                | _ =>
                  match nth_error refs (N.to_nat (i - skipped)) with
                  | None => tlift Panic
                  | Some id => let+ e := parse_embedded_ink_t id sp d in tret (Some e)
                  end
                end in
      let+ xs := embedded_objects_t sp refs (i + 1) skipped rest in
      tret (x :: xs)
    | Some t =>
      let+ x := tlift (if t =? ink_end_of_line_blob then Ok (Some EoInkLineBreak)
                       else if t =? ink_space_blob then let! e := parse_ink_space d in Ok (Some e)
                       else Err MalformedOneNoteFileData) in
      let+ xs := embedded_objects_t sp refs (i + 1) (skipped + 1) rest in
      tret (x :: xs)
    end
  end.

(** /repo/src/onenote/rich_text.rs:375-502 *)
Definition parse_rich_text_t (id : exguid) (sp : space) : traced exguid rich_text :=
  let+ o := need_object_t id sp in
  let+ data := tlift (rich_text_node_parse o) in
  let+ pso := need_object_t (rt_paragraph_style data) sp in
  let+ psd := tlift (style_parse pso) in
  let+ styles := map_t (fun sid => let+ so := need_object_t sid sp in tlift (style_parse so))
                       (rt_run_formatting data) in
  let+ runs := tlift (dflt [] (text_run_data_parse o)) in
  let+ math := tlift (map_res (fun '(run, style) =>
                 if sy_math_formatting style then
                   let! d := math_data_parse run in
                   let! m := parse_math_object d in Ok (Some m)
                 else Ok None) (combine runs styles)) in
  let+ objs := tlift (map_res (fun '(run, style) =>
                 if sy_is_embedded_object style then
                   let! d := embedded_ink_parse run in Ok (Some (sy_object_type style, d))
                 else Ok None) (combine runs styles)) in
  let+ embedded := embedded_objects_t sp (rt_run_data_object data) 0 0 (flatten objs) in
  let embedded := flatten embedded in
  let text := match embedded with
              | [] => match rt_text data with Some t => t | None => [] end
              | _ => []
              end in
  let+ tags := note_tags_t (rt_note_tags data) sp in
  tret (RichText text (map parse_style styles) (rt_run_indices data) (parse_style psd)
          (rt_space_before data) (rt_space_after data) (rt_line_spacing_exact data)
          (rt_paragraph_alignment data) (rt_alignment_in_parent data) (rt_alignment_self data) tags
          embedded (flatten math)).

(** /repo/src/onenote/table.rs:211-231 *)
Definition parse_cell_t (element : exguid -> traced exguid outline_element) (id : exguid) (sp : space)
  : traced exguid table_cell :=
  let+ o := need_object_t id sp in
  let+ d := tlift (table_cell_node_parse o) in
  let+ contents := map_t element (ce_contents d) in
  tret (TableCell contents (ce_background_color d) (ce_layout_max_width d) (ce_indent_distance d)).

(** /repo/src/onenote/table.rs:194-209 *)
Definition parse_row_t (element : exguid -> traced exguid outline_element) (id : exguid) (sp : space)
  : traced exguid table_row :=
  let+ o := need_object_t id sp in
  let+ d := tlift (table_row_node_parse o) in
  let+ contents := map_t (fun i => parse_cell_t element i sp) (ro_cells d) in
  tret (TableRow contents).

(** /repo/src/onenote/table.rs:167-192 *)
Definition parse_table_t (element : exguid -> traced exguid outline_element) (id : exguid) (sp : space)
  : traced exguid table :=
  let+ o := need_object_t id sp in
  let+ d := tlift (table_node_parse o) in
  let+ contents := map_t (fun i => parse_row_t element i sp) (ta_rows d) in
  let+ tags := note_tags_t (ta_note_tags d) sp in
  tret (Table (ta_row_count d) (ta_col_count d) contents (ta_cols_locked d) (ta_col_widths d)
          (ta_borders_visible d) (ta_alignment_in_parent d) (ta_alignment_self d) tags).

(** /repo/src/onenote/outline.rs:290-335, 337-373 and /repo/src/onenote/content.rs:80-103.
    A group and an element are looked up twice, for their kind and for their contents, and
    so are the parts of an element and of a page. *)
Fixpoint parse_outline_item_t (fuel : nat) (sp : space) (id : exguid) : traced exguid outline_item :=
  match fuel with
  | O => tlift OutOfFuel
  | S f =>
    let+ o := need_object_t id sp in
    let+ k := tlift (need_kind o) in
    match k with
    | K_OutlineGroup =>
      let+ go := need_object_t id sp in
      let+ d := tlift (outline_group_node_parse go) in
      let+ outlines := map_t (parse_outline_item_t f sp) (gr_children d) in
      tret (ItemGroup (gr_child_level d) outlines)
    | K_OutlineElementNode =>
      let+ e := parse_outline_element_t f sp id in tret (ItemElement e)
    | _ => tlift (Err MalformedOneNoteData)
    end
  end
with parse_outline_element_t (fuel : nat) (sp : space) (id : exguid) : traced exguid outline_element :=
  match fuel with
  | O => tlift OutOfFuel
  | S f =>
    let+ o := need_object_t id sp in
    let+ d := tlift (outline_element_node_parse o) in
    let+ children := map_t (parse_outline_item_t f sp) (oe_children d) in
    let+ contents := map_t (parse_content_t f sp) (oe_contents d) in
    let+ lists := map_t (fun i => parse_list_t i sp) (oe_list_contents d) in
    tret (OutlineElement contents lists (oe_list_spacing d) (oe_child_level d) children)
  end
with parse_content_t (fuel : nat) (sp : space) (id : exguid) : traced exguid content :=
  match fuel with
  | O => tlift OutOfFuel
  | S f =>
    let+ o := need_object_t id sp in
    let+ k := tlift (need_kind o) in
    match k with
    | K_ImageNode => let+ x := parse_image_t id sp in tret (CoImage x)
    | K_EmbeddedFileNode => let+ x := parse_embedded_file_t id sp in tret (CoEmbeddedFile x)
    | K_RichTextNode => let+ x := parse_rich_text_t id sp in tret (CoRichText x)
    | K_TableNode => let+ x := parse_table_t (parse_outline_element_t f sp) id sp in tret (CoTable x)
    | K_InkContainer => let+ x := parse_ink_t id sp in tret (CoInk x)
    | _ => tret CoUnknown
    end
  end.

(** /repo/src/onenote/outline.rs:259-288 *)
Definition parse_outline_t (fuel : nat) (sp : space) (id : exguid) : traced exguid outline :=
  let+ o := need_object_t id sp in
  let+ d := tlift (outline_node_parse o) in
  let+ items := map_t (parse_outline_item_t fuel sp) (ou_children d) in
  tret (Outline (ou_child_level d) (ou_list_spacing d) (ou_indent_distance d)
          (ou_alignment_in_parent d) (ou_alignment_self d) (ou_layout_max_height d)
          (ou_layout_max_width d) (ou_layout_reserved_width d) (ou_layout_minimum_outline_width d)
          (ou_is_layout_size_set_by_user d) (ou_offset_horiz d) (ou_offset_vert d) items).

(** /repo/src/onenote/page_content.rs:63-85 *)
Definition parse_page_content_t (fuel : nat) (sp : space) (id : exguid) : traced exguid page_content :=
  let+ o := need_object_t id sp in
  let+ k := tlift (need_kind o) in
  match k with
  | K_ImageNode => let+ x := parse_image_t id sp in tret (PcImage x)
  | K_EmbeddedFileNode => let+ x := parse_embedded_file_t id sp in tret (PcEmbeddedFile x)
  | K_OutlineNode => let+ x := parse_outline_t fuel sp id in tret (PcOutline x)
  | K_InkContainer => let+ x := parse_ink_t id sp in tret (PcInk x)
  | _ => tret PcUnknown
  end.

(** /repo/src/onenote/page.rs:175-193 *)
Definition parse_title_t (fuel : nat) (sp : space) (id : exguid) : traced exguid title :=
  let+ o := need_object_t id sp in
  let+ d := tlift (title_node_parse o) in
  let+ contents := map_t (parse_outline_t fuel sp) (tn_children d) in
  tret (Title contents (tn_offset_horizontal d) (tn_offset_vertical d) (tn_alignment_in_parent d)
          (tn_alignment_self d)).

(** /repo/src/onenote/page.rs:215-224 *)
Definition page_metadata_t (sp : space) : traced exguid page_meta_data :=
  let+ id := tlift (ok_or MalformedOneNoteData (metadata_root sp)) in
  let+ o := need_object_t id sp in
  tlift (page_metadata_parse o).
(** /repo/src/onenote/page.rs:204-213 *)
Definition page_manifest_t (sp : space) : traced exguid exguid :=
  let+ id := tlift (ok_or MalformedOneNoteData (content_root sp)) in
  let+ o := need_object_t id sp in
  tlift (page_manifest_parse o).
(** /repo/src/onenote/page.rs:195-202 *)
Definition page_node_t (manifest : exguid) (sp : space) : traced exguid page_data :=
  let+ o := need_object_t manifest sp in
  tlift (page_node_parse o).

(** /repo/src/onenote/page.rs:148-173 *)
Definition parse_page_t (fuel : nat) (sp : space) : traced exguid page :=
  let+ metadata := page_metadata_t sp in
  let+ manifest := page_manifest_t sp in
  let+ data := page_node_t manifest sp in
  let+ title := opt_map_t (parse_title_t fuel sp) (pd_title data) in
  let+ contents := map_t (parse_page_content_t fuel sp) (pd_content data) in
  tret (Page title (pm_page_level metadata) (pd_author data) (pd_page_height data) contents).

(** ** In the store *)

(** A look-up: of an object of the root space, of the space of a page, of an object of
    that space. *)
Inductive look :=
| InRoot (id : exguid)
| TheSpace (cell : cellid)
| InSpace (cell : cellid) (id : exguid).
(** The look-ups in one space, as look-ups in the store. *)
Definition at_ {A} (w : exguid -> look) (p : traced exguid A) : traced look A := (map w (fst p), snd p).

(** /repo/src/onenote/page_series.rs:14-44 *)
Definition parse_page_series_t (fuel : nat) (st : store) (id : exguid) : traced look (list page) :=
  let+ o := at_ InRoot (need_object_t id (st_data_root st)) in
  let+ d := tlift (page_series_node_parse o) in
  map_t (fun cell =>
    let+ sp := ([TheSpace cell], ok_or MalformedOneNoteData (object_space st cell)) in
    at_ (InSpace cell) (parse_page_t fuel sp)) (pn_page_spaces d).

(** /repo/src/onenote/section.rs:99-108 *)
Definition section_metadata_t (sp : space) : traced exguid section_meta_data :=
  let+ id := tlift (ok_or MalformedOneNoteData (metadata_root sp)) in
  let+ o := need_object_t id sp in
  tlift (section_metadata_parse o).
(** /repo/src/onenote/section.rs:88-97 *)
Definition section_content_t (sp : space) : traced exguid section_data :=
  let+ id := tlift (ok_or MalformedOneNoteData (content_root sp)) in
  let+ o := need_object_t id sp in
  tlift (section_node_parse o).

(** /repo/src/onenote/section.rs:65-86 *)
Definition parse_section_t (fuel : nat) (st : store) (filename : list N) : traced look section :=
  let+ metadata := at_ InRoot (section_metadata_t (st_data_root st)) in
  let+ content := at_ InRoot (section_content_t (st_data_root st)) in
  let name := trim_one (match sm_display_name metadata with Some n => n | None => filename end) in
  let+ series := map_t (parse_page_series_t fuel st) (sn_page_series content) in
  tret (Section_ name series (sm_color metadata)).

(** /repo/src/onenote/mod.rs:107-119. Opening the store looks nothing up in it. *)
Definition parse_section_buffer_t (h : order) (fuel : nat) (d file : list N) : traced look section :=
  let+ st := tlift (open_store h fuel d) in
  if st_schema st =? section_schema then parse_section_t fuel st file
  else tlift (Err NotASectionFile).
