(** Independent description of the document a section file stands for: which
    objects the parts of a page are, in which order, and where each reported value
    comes from. Objects are described in SpecNodes.v; spaces and roots by C16 and
    C17. There is no fuel here: a document is described by finite derivations. *)
From Coq Require Import Floats.SpecFloat Relations.
From Verif Require Import Base Codec PropSet Store Package Shapes Props Nodes Doc SpecCodec SpecStore SpecValues SpecNodes.

(** The object [id] of a space satisfies [P]. *)
Definition found (sp : space) (id : exguid) (P : object -> Prop) : Prop :=
  exists o, get_object sp id = Some o /\ P o.
(** Both absent, or both present and related. *)
Definition both {A B} (R : A -> B -> Prop) (x : option A) (y : option B) : Prop :=
  match x, y with None, None => True | Some a, Some b => R a b | _, _ => False end.

(** ** Note tags, lists, files and images *)
Definition tag_is (sp : space) (d : tag_data) (t : note_tag) : Prop :=
  nt_completed_at t = tg_completed_at d /\ nt_item_status t = tg_item_status d /\
  both (fun id x => found sp id (fun o => tag_definition_object o x)) (tg_definition d) (nt_definition t).

Definition list_is (sp : space) (id : exguid) (l : list_info) : Prop :=
  found sp id (fun o => exists d, list_object o d /\
    li_list_font l = nl_list_font d /\ li_list_restart l = nl_list_restart d /\
    li_list_format l = nl_list_format d /\ li_bold l = nl_bold d /\ li_italic l = nl_italic d /\
    li_font l = nl_font d /\ li_font_size l = nl_font_size d /\ li_font_color l = nl_font_color d).

Definition iframe_is (sp : space) (id : exguid) (f : iframe_data) : Prop :=
  found sp id (fun o => iframe_object o f).

(** The bytes are those of the file container the file refers to. *)
Definition file_is (sp : space) (id : exguid) (f : embedded_file) : Prop :=
  found sp id (fun o => exists d, file_node o d /\
    fi_filename f = ef_name d /\ fi_file_type f = ef_file_type d /\
    fi_layout_max_width f = ef_layout_max_width d /\ fi_layout_max_height f = ef_layout_max_height d /\
    fi_offset_horizontal f = ef_offset_horiz d /\ fi_offset_vertical f = ef_offset_vert d /\
    found sp (ef_container d) (fun c => file_container c (fi_data f)) /\
    Forall2 (tag_is sp) (ef_note_tags d) (fi_note_tags f)).

(** Likewise for an image, which may have no picture. *)
Definition image_is (sp : space) (id : exguid) (g : image) : Prop :=
  found sp id (fun o => exists d, image_object o d /\
    match im_picture_container d with
    | None => ig_data g = None /\ ig_extension g = None
    | Some c => found sp c (fun co => exists p, picture_object co p /\
                  ig_data g = Some (pc_data p) /\ ig_extension g = pc_extension p)
    end /\
    ig_layout_max_width g = im_layout_max_width d /\ ig_layout_max_height g = im_layout_max_height d /\
    ig_alt_text g = im_alt_text d /\ ig_alignment_in_parent g = im_alignment_in_parent d /\
    ig_alignment_self g = im_alignment_self d /\ ig_filename g = im_filename d /\
    ig_displayed_page_number g = im_displayed_page_number d /\ ig_text g = im_text d /\
    ig_text_language_code g = im_text_language_code d /\ ig_picture_width g = im_picture_width d /\
    ig_picture_height g = im_picture_height d /\ ig_hyperlink_url g = im_hyperlink_url d /\
    ig_offset_horizontal g = im_offset_horiz d /\ ig_offset_vertical g = im_offset_vert d /\
    ig_is_background g = im_is_background d /\
    Forall2 (tag_is sp) (im_note_tags d) (ig_note_tags g) /\
    Forall2 (iframe_is sp) (im_iframe d) (ig_embeds g)).

(** ** Ink *)
(** The IEEE 754 single with the given 32 bits: sign, 8 bits of exponent, 23 bits of
    fraction. *)
Definition single (bits : N) : spec_float :=
  let sign := 1 <=? bits / 2 ^ 31 in
  let exponent := bits / 2 ^ 23 mod 256 in
  let fraction := bits mod 2 ^ 23 in
  if exponent =? 255 then if fraction =? 0 then S754_infinity sign else S754_nan
  else if exponent =? 0 then
    match fraction with 0 => S754_zero sign | Npos m => S754_finite sign m (-149) end
  else match fraction + 2 ^ 23 with
       | 0 => S754_nan
       | Npos m => S754_finite sign m (Z.of_N exponent - 150)
       end.
Definition factor (scale : option N) : spec_float :=
  match scale with None => S754_finite false 8388608 (-23) | Some bits => single bits end.
(** A whole number, rounded to a single, and the rounded product and difference. *)
Definition rounded (z : Z) : spec_float := binary_normalize 24 128 z 0 false.
Definition times (a b : spec_float) : spec_float := SFmul 24 128 a b.
Definition minus (a b : spec_float) : spec_float := SFsub 24 128 a b.

(** [i] is the first dimension with identifier [g]. *)
Definition dimension (dims : list ink_dimension) (g : N) (i : nat) : Prop :=
  (exists d, nth_error dims i = Some d /\ id_id d = g) /\
  forall j d, (j < i)%nat -> nth_error dims j = Some d -> id_id d <> g.
(** The numbers of a stroke are its first dimension, its second, and so on, each
    with [n] values. A point is made of the values of the X and the Y dimension at
    the same position. *)
Definition points (zs : list Z) (dims : list ink_dimension) (sx sy : option N) (pts : list ink_point)
  : Prop :=
  exists ix iy,
    let n := (length zs / length dims)%nat in
    dimension dims 0x598a6a8f52c04ba093afaf357411a561 ix /\
    dimension dims 0xb53f9f7504e04498a7eec30dbb5a9011 iy /\
    length pts = n /\
    forall i p, nth_error pts i = Some p -> exists x y,
      nth_error zs (n * ix + i) = Some x /\ nth_error zs (n * iy + i) = Some y /\
      ip_x p = times (factor sx) (rounded x) /\ ip_y p = times (factor sy) (rounded y).

Definition stroke_is (sp : space) (sx sy : option N) (id : exguid) (s : ink_stroke) : Prop :=
  found sp id (fun o => exists d, stroke_node o d /\ found sp (ss_properties d) (fun po =>
    exists p, stroke_properties po p /\
      points (ss_path d) (sp_dimensions p) sx sy (st_path s) /\
      st_pen_tip s = sp_pen_tip p /\ st_transparency s = sp_transparency p /\
      st_height s = sp_height p /\ st_width s = sp_width p /\ st_color s = sp_color p)).

Definition box_is (sx sy : option N) (b : N * N * N * N) (r : ink_box) : Prop :=
  let '(x_min, y_min, x_max, y_max) := b in
  let v n := rounded (Z.of_N n) in
  bb_x r = times (v x_min) (factor sx) /\ bb_y r = times (v y_min) (factor sy) /\
  bb_width r = times (minus (v x_max) (v x_min)) (factor sx) /\
  bb_height r = times (minus (v y_max) (v y_min)) (factor sy).
Definition drawing_is (sp : space) (sx sy : option N) (id : exguid) (ss : list ink_stroke)
  (b : option ink_box) : Prop :=
  found sp id (fun o => exists d, ink_node o d /\
    Forall2 (stroke_is sp sx sy) (ik_strokes d) ss /\ both (box_is sx sy) (ik_bounding_box d) b).
Definition ink_is (sp : space) (id : exguid) (i : ink) : Prop :=
  found sp id (fun o => exists d, ink_container o d /\
    in_offset_horizontal i = ic_offset_horiz d /\ in_offset_vertical i = ic_offset_vert d /\
    match ic_ink_data d with
    | None => in_strokes i = [] /\ in_bounding_box i = None
    | Some x => drawing_is sp (ic_scaling_x d) (ic_scaling_y d) x (in_strokes i) (in_bounding_box i)
    end).

(** ** Paragraphs *)
Definition math_table : list (N * math_object_type) :=
  [(0, MtSimpleText); (10, MtAccent); (11, MtBox); (12, MtBoxedFormula); (13, MtBrackets);
   (14, MtBracketsWithSeps); (15, MtEquationArray); (16, MtFraction); (17, MtFunctionApply);
   (18, MtLeftSubSup); (19, MtLowerLimit); (20, MtMatrix); (21, MtNary); (22, MtOpChar);
   (23, MtOverbar); (24, MtPhantom); (25, MtRadical); (26, MtSlashedFraction); (27, MtStack);
   (28, MtStretchStack); (29, MtSubscript); (30, MtSubSup); (31, MtSuperscript); (32, MtUnderbar);
   (33, MtUpperLimit); (0x90000000, MtPlainText)].
Definition or_zero (x : option N) : N := match x with Some n => n | None => 0 end.
Definition math_is (run : object) (m : math_object) : Prop :=
  exists d, math_object_data run d /\ In (or_zero (md_object_type d), mo_type m) math_table /\
    mo_arg_count m = or_zero (md_arg_count d) /\ mo_column m = md_column d /\ mo_align m = md_align d /\
    mo_char m = md_char d /\ mo_char1 m = md_char1 d /\ mo_char2 m = md_char2 d.

Definition styled (d : style_data) (s : styling) : Prop :=
  ps_charset s = sy_charset d /\ ps_bold s = sy_bold d /\ ps_italic s = sy_italic d /\
  ps_underline s = sy_underline d /\ ps_strikethrough s = sy_strikethrough d /\
  ps_superscript s = sy_superscript d /\ ps_subscript s = sy_subscript d /\ ps_font s = sy_font d /\
  ps_font_size s = sy_font_size d /\ ps_font_color s = sy_font_color d /\
  ps_highlight s = sy_highlight d /\ ps_next_style s = sy_next_style d /\ ps_style_id s = sy_style_id d /\
  ps_alignment s = sy_paragraph_alignment d /\ ps_space_before s = sy_space_before d /\
  ps_space_after s = sy_space_after d /\ ps_line_spacing_exact s = sy_line_spacing_exact d /\
  ps_language_code s = sy_language_code d /\ ps_math_formatting s = sy_math_formatting d /\
  ps_hyperlink s = sy_hyperlink d.

(** The run data of a paragraph: one object per nested property set. *)
Definition run_data (o : object) (runs : list object) : Prop :=
  match stored o 0x40003499 with
  | None => runs = []
  | Some v => exists rid sets, v = VPropertyValues rid sets /\
      Forall2 (fun set run => nested_object 0x40003499 rid o set = Ok run) sets runs
  end.

(** [out] is made of the elements of [l] that are kept, in order. *)
Inductive selects {A B} (keep : A -> bool) (R : A -> B -> Prop) : list A -> list B -> Prop :=
| se_end : selects keep R [] []
| se_skip a l out : keep a = false -> selects keep R l out -> selects keep R (a :: l) out
| se_keep a l b out : keep a = true -> R a b -> selects keep R l out -> selects keep R (a :: l) (b :: out).

Definition shown_box (d : embedded_ink_data) : option stored_box :=
  match ei_start_x d, ei_start_y d, ei_height d, ei_width d with
  | Some x, Some y, Some h, Some w => Some (StoredBox x y h w)
  | _, _, _, _ => None
  end.
(** The embedded objects of a paragraph, each given by the object type of its
    format and its run data. The [k]-th that is ink belongs to the [k]-th reference;
    if there are no references at all, ink is left out. *)
Inductive embeds (sp : space) (refs : list exguid)
  : nat -> list (option N * embedded_ink_data) -> list embedded_object -> Prop :=
| em_end k : embeds sp refs k [] []
| em_break k d r out : embeds sp refs k r out ->
    embeds sp refs k ((Some 0x20027, d) :: r) (EoInkLineBreak :: out)
| em_space k d h w r out : ei_space_height d = Some h -> ei_space_width d = Some w ->
    embeds sp refs k r out -> embeds sp refs k ((Some 0x20026, d) :: r) (EoInkSpace h w :: out)
| em_ink k d id ss bb r out : nth_error refs k = Some id -> drawing_is sp None None id ss bb ->
    embeds sp refs (S k) r out ->
    embeds sp refs k ((None, d) :: r)
      (EoInk (Ink ss bb (ei_offset_horiz d) (ei_offset_vert d)) (shown_box d) :: out)
| em_none k d r out : refs = [] -> embeds sp refs (S k) r out -> embeds sp refs k ((None, d) :: r) out.

Definition text_is (sp : space) (id : exguid) (t : rich_text) : Prop :=
  found sp id (fun o => exists d pd styles runs inks,
    text_object o d /\
    found sp (rt_paragraph_style d) (fun po => style_object po pd) /\ styled pd (tx_paragraph_style t) /\
    Forall2 (fun sid sd => found sp sid (fun so => style_object so sd)) (rt_run_formatting d) styles /\
    Forall2 styled styles (tx_run_formatting t) /\
    run_data o runs /\
    selects (fun p => sy_math_formatting (snd p)) (fun p m => math_is (fst p) m) (combine runs styles)
      (tx_math_objects t) /\
    selects (fun p => sy_is_embedded_object (snd p))
      (fun p i => fst i = sy_object_type (snd p) /\ embedded_ink_run (fst p) (snd i)) (combine runs styles) inks /\
    embeds sp (rt_run_data_object d) 0 inks (tx_embedded_objects t) /\
    (tx_embedded_objects t <> [] /\ tx_text t = [] \/
     tx_embedded_objects t = [] /\ tx_text t = match rt_text d with Some s => s | None => [] end) /\
    tx_run_indices t = rt_run_indices d /\ tx_space_before t = rt_space_before d /\
    tx_space_after t = rt_space_after d /\ tx_line_spacing_exact t = rt_line_spacing_exact d /\
    tx_alignment t = rt_paragraph_alignment d /\ tx_alignment_in_parent t = rt_alignment_in_parent d /\
    tx_alignment_self t = rt_alignment_self d /\ Forall2 (tag_is sp) (rt_note_tags d) (tx_note_tags t)).

(** The number of ink objects, not counting spaces and line breaks. *)
Definition ink_count (l : list (option N * embedded_ink_data)) : nat :=
  length (filter (fun x => match fst x with None => true | Some _ => false end) l).
(** A paragraph whose references, of which there is at least one, do not suffice for
    its ink: when all references are used up by the embedded objects [pre], which are
    in order, one more ink object follows. *)
Definition ink_shortage (sp : space) (id : exguid) : Prop :=
  found sp id (fun o => exists d pd styles runs maths inks pre x rest out,
    text_object o d /\
    found sp (rt_paragraph_style d) (fun po => style_object po pd) /\
    Forall2 (fun sid sd => found sp sid (fun so => style_object so sd)) (rt_run_formatting d) styles /\
    run_data o runs /\
    selects (fun p => sy_math_formatting (snd p)) (fun p m => math_is (fst p) m) (combine runs styles) maths /\
    selects (fun p => sy_is_embedded_object (snd p))
      (fun p i => fst i = sy_object_type (snd p) /\ embedded_ink_run (fst p) (snd i)) (combine runs styles) inks /\
    inks = pre ++ (None, x) :: rest /\ embeds sp (rt_run_data_object d) 0 pre out /\
    rt_run_data_object d <> [] /\ (length (rt_run_data_object d) <= ink_count pre)%nat).
(** A list whose number format has no room for its length unit. *)
Definition short_format (o : object) : Prop :=
  ob_jcid o = 0x00060012 /\ (exists t, required o 0x14001D7A dword t) /\
  (exists f, optional o 0x1C001C52 text f) /\ (exists z, optional o 0x14001CB7 signed z) /\
  exists d, stored o 0x1C001C1A = Some (VVec d) /\ (length d < 2)%nat.
Definition short_list_format (sp : space) (id : exguid) : Prop := found sp id short_format.

(** ** Outlines and tables *)
(** The kinds of objects of [MS-ONE] 2.2 that are known. *)
Definition known_kinds : list N :=
  [0x00120001; 0x00080036; 0x00060035; 0x00060011; 0x00120043; 0x00060012; 0x0006000D; 0x00060019;
   0x0006000C; 0x00060037; 0x00020030; 0x0006000B; 0x00060008; 0x0012004D; 0x00080039; 0x00020044;
   0x0006000E; 0x00020031; 0x00060007; 0x00060024; 0x00060022; 0x00060023; 0x0006002C; 0x00020001;
   0x0008003A; 0x00060014; 0x0002003B; 0x00020047; 0x00120048; 0x00060058].
Definition other_kind (sp : space) (id : exguid) (shown : list N) : Prop :=
  found sp id (fun o => In (ob_jcid o) known_kinds /\ ~ In (ob_jcid o) shown).

Inductive item_is (sp : space) : exguid -> outline_item -> Prop :=
| is_group id o d level items : get_object sp id = Some o -> group_object o d ->
    level = gr_child_level d -> Forall2 (item_is sp) (gr_children d) items ->
    item_is sp id (ItemGroup level items)
| is_element id e : element_is sp id e -> item_is sp id (ItemElement e)
with element_is (sp : space) : exguid -> outline_element -> Prop :=
| is_outline_element id o d contents lists spacing level items : get_object sp id = Some o ->
    element_object o d -> spacing = oe_list_spacing d -> level = oe_child_level d ->
    Forall2 (content_is sp) (oe_contents d) contents -> Forall2 (list_is sp) (oe_list_contents d) lists ->
    Forall2 (item_is sp) (oe_children d) items ->
    element_is sp id (OutlineElement contents lists spacing level items)
with content_is (sp : space) : exguid -> content -> Prop :=
| is_text id t : text_is sp id t -> content_is sp id (CoRichText t)
| is_image id g : image_is sp id g -> content_is sp id (CoImage g)
| is_file id f : file_is sp id f -> content_is sp id (CoEmbeddedFile f)
| is_ink id i : ink_is sp id i -> content_is sp id (CoInk i)
| is_unknown id :
    other_kind sp id [0x0006000E; 0x00060011; 0x00060035; 0x00060014; 0x00060022] ->
    content_is sp id CoUnknown
| is_table_content id t : table_is sp id t -> content_is sp id (CoTable t)
with table_is (sp : space) : exguid -> table -> Prop :=
| is_table id o d rows cols contents locked widths borders ap aself tgs : get_object sp id = Some o ->
    table_object o d -> rows = ta_row_count d -> cols = ta_col_count d -> locked = ta_cols_locked d ->
    widths = ta_col_widths d -> borders = ta_borders_visible d -> ap = ta_alignment_in_parent d ->
    aself = ta_alignment_self d -> Forall2 (row_is sp) (ta_rows d) contents ->
    Forall2 (tag_is sp) (ta_note_tags d) tgs ->
    table_is sp id (Table rows cols contents locked widths borders ap aself tgs)
with row_is (sp : space) : exguid -> table_row -> Prop :=
| is_row id o d cells : get_object sp id = Some o -> row_object o d ->
    Forall2 (cell_is sp) (ro_cells d) cells -> row_is sp id (TableRow cells)
with cell_is (sp : space) : exguid -> table_cell -> Prop :=
| is_cell id o d contents colour width indent : get_object sp id = Some o -> cell_object o d ->
    colour = ce_background_color d -> width = ce_layout_max_width d -> indent = ce_indent_distance d ->
    Forall2 (element_is sp) (ce_contents d) contents ->
    cell_is sp id (TableCell contents colour width indent).

Definition outline_is (sp : space) (id : exguid) (x : outline) : Prop :=
  found sp id (fun o => exists d, outline_object o d /\
    ol_child_level x = ou_child_level d /\ ol_list_spacing x = ou_list_spacing d /\
    ol_indents x = ou_indent_distance d /\ ol_alignment_in_parent x = ou_alignment_in_parent d /\
    ol_alignment_self x = ou_alignment_self d /\ ol_layout_max_height x = ou_layout_max_height d /\
    ol_layout_max_width x = ou_layout_max_width d /\
    ol_layout_reserved_width x = ou_layout_reserved_width d /\
    ol_layout_minimum_outline_width x = ou_layout_minimum_outline_width d /\
    ol_is_layout_size_set_by_user x = ou_is_layout_size_set_by_user d /\
    ol_offset_horizontal x = ou_offset_horiz d /\ ol_offset_vertical x = ou_offset_vert d /\
    Forall2 (item_is sp) (ou_children d) (ol_items x)).

(** ** Pages and sections *)
Inductive page_content_is (sp : space) : exguid -> page_content -> Prop :=
| pc_outline id x : outline_is sp id x -> page_content_is sp id (PcOutline x)
| pc_image id g : image_is sp id g -> page_content_is sp id (PcImage g)
| pc_file id f : file_is sp id f -> page_content_is sp id (PcEmbeddedFile f)
| pc_ink id i : ink_is sp id i -> page_content_is sp id (PcInk i)
| pc_unknown id : other_kind sp id [0x0006000C; 0x00060011; 0x00060035; 0x00060014] ->
    page_content_is sp id PcUnknown.

Definition title_is (sp : space) (id : exguid) (t : title) : Prop :=
  found sp id (fun o => exists d, title_object o d /\
    ti_offset_horizontal t = tn_offset_horizontal d /\ ti_offset_vertical t = tn_offset_vertical d /\
    ti_alignment_in_parent t = tn_alignment_in_parent d /\ ti_alignment_self t = tn_alignment_self d /\
    Forall2 (outline_is sp) (tn_children d) (ti_contents t)).

(** A page: level from the metadata root, all else from the page that the manifest,
    the content root, refers to first. *)
Definition page_is (sp : space) (p : page) : Prop :=
  exists mid m cid pid d,
    metadata_root sp = Some mid /\ found sp mid (fun o => page_meta o m) /\
    content_root sp = Some cid /\ found sp cid (fun o => manifest_node o pid) /\
    found sp pid (fun o => page_object o d) /\
    pg_level p = pm_page_level m /\ pg_author p = pd_author d /\ pg_height p = pd_page_height d /\
    both (title_is sp) (pd_title d) (pg_title p) /\
    Forall2 (page_content_is sp) (pd_content d) (pg_contents p).

(** Every page of a series has its own space in the store. *)
Definition series_is (st : store) (id : exguid) (ps : list page) : Prop :=
  found (st_data_root st) id (fun o => exists d, series_node o d /\
    Forall2 (fun c p => exists sp, object_space st c = Some sp /\ page_is sp p) (pn_page_spaces d) ps).

(** ".one" *)
Definition one_suffix : list N := [46; 111; 110; 101].
Fixpoint copies (k : nat) (s : list N) : list N := match k with O => [] | S j => s ++ copies j s end.
(** The stored name, or the file name, without any ".one" at its end. *)
Definition display_name (stored_name : option (list N)) (file : list N) (shown : list N) : Prop :=
  (exists k, match stored_name with Some s => s | None => file end = shown ++ copies k one_suffix) /\
  forall s, shown <> s ++ one_suffix.

Definition section_is (st : store) (file : list N) (s : section) : Prop :=
  exists mid m cid d,
    metadata_root (st_data_root st) = Some mid /\ found (st_data_root st) mid (fun o => section_meta o m) /\
    content_root (st_data_root st) = Some cid /\ found (st_data_root st) cid (fun o => section_node o d) /\
    display_name (sm_display_name m) file (se_display_name s) /\ se_color s = sm_color m /\
    Forall2 (series_is st) (sn_page_series d) (se_page_series s).

(** ** Who refers to whom *)
(** The objects an object of an outline is made of. *)
Definition part (sp : space) (a b : exguid) : Prop :=
  found sp a (fun o =>
    (exists d, group_object o d /\ In b (gr_children d)) \/
    (exists d, element_object o d /\ (In b (oe_children d) \/
       In b (oe_contents d) /\ found sp b (fun o' => ob_jcid o' = 0x60022))) \/
    (exists d, table_object o d /\ In b (ta_rows d)) \/
    (exists d, row_object o d /\ In b (ro_cells d)) \/
    (exists d, cell_object o d /\ In b (ce_contents d))).
(** No object is a part of itself, through any number of steps. *)
Definition no_loop (sp : space) : Prop := forall a, ~ clos_trans _ (part sp) a a.

(** ** Titles *)
(** The first item of the outline is an element that begins with the text [s], not
    empty. *)
Definition opens_with (o : outline) (s : list N) : Prop :=
  exists t cs ls sp level children items,
    ol_items o = ItemElement (OutlineElement (CoRichText t :: cs) ls sp level children) :: items /\
    tx_text t = s /\ s <> [].
Definition title_opens_with (p : page) (s : list N) : Prop :=
  exists t o rest, pg_title p = Some t /\ ti_contents t = o :: rest /\ opens_with o s.
(** The outlines of a page after its title, in order. *)
Definition content_opens_with (p : page) (s : list N) : Prop :=
  exists pre o suf, pg_contents p = pre ++ PcOutline o :: suf /\ opens_with o s /\
    forall o' s', In (PcOutline o') pre -> ~ opens_with o' s'.

(** ** File data *)
(** The group an object is taken from: the first to declare it along the revisions of
    the cell [m], newest first. *)
Definition source_group (pk : package) (si : storage_index) (m : cell_mapping) (oid : exguid) (g : object_group) : Prop :=
  exists id revs gs, newest pk si m id /\ chain pk si id revs /\ chain_groups pk revs gs /\ first_declaring gs oid g.
(** A space of the store. *)
Definition store_space (st : store) (sp : space) : Prop :=
  sp = st_data_root st \/ exists c, object_space st c = Some sp.
(** The file data an object of the package has: that of the blob which the last entry
    for file data in its group refers to. *)
Definition file_bytes (pk : package) (oid : exguid) (r : option (list N)) : Prop :=
  exists k si c m g, In (k, si) (pk_indexes pk) /\ alookup cellid_eqb c (si_cells si) = Some m /\
    source_group pk si m oid g /\
    match r with
    | Some d => exists os cs b, group_entry g oid 2 (DataBlobRef os cs b) /\ blob_at pk b d
    | None => forall od, ~ group_entry g oid 2 od
    end.
(** The object exists. *)
Definition there (sp : space) (id : exguid) : Prop := exists o, get_object sp id = Some o.
