(** Independent description of why a section or a table of contents cannot be read
    out of an opened file: the objects that are looked at, what each is looked at as,
    and what can be wrong with it. Nothing here has fuel. *)
From Verif Require Import Base Codec PropSet Store Package Shapes Props Nodes Doc Notebook
  SpecCodec SpecStore SpecValues SpecNodes SpecDoc.

(** What an object is looked at as. *)
Inductive role :=
| R_section_meta | R_section | R_series | R_page_meta | R_manifest | R_page | R_title
| R_page_content | R_outline | R_item | R_group | R_element | R_content | R_list
| R_text | R_style | R_tag | R_image | R_picture | R_iframe | R_file | R_file_data
| R_ink | R_drawing | R_stroke | R_pen | R_table | R_row | R_cell.

(** The object is of the kind described in SpecNodes.v for this role. The items of an
    outline and the contents of pages and elements may be of several kinds; for those
    only the kind number matters. *)
Definition fits (r : role) (o : object) : Prop :=
  match r with
  | R_section_meta => exists d, section_meta o d
  | R_section => exists d, section_node o d
  | R_series => exists d, series_node o d
  | R_page_meta => exists d, page_meta o d
  | R_manifest => exists d, manifest_node o d
  | R_page => exists d, page_object o d
  | R_title => exists d, title_object o d
  | R_outline => exists d, outline_object o d
  | R_group => exists d, group_object o d
  | R_element => exists d, element_object o d
  | R_list => exists d, list_object o d
  | R_text => exists d, text_object o d
  | R_style => exists d, style_object o d
  | R_tag => exists d, tag_definition_object o d
  | R_image => exists d, image_object o d
  | R_picture => exists d, picture_object o d
  | R_iframe => exists d, iframe_object o d
  | R_file => exists d, file_node o d
  | R_file_data => exists d, file_container o d
  | R_ink => exists d, ink_container o d
  | R_drawing => exists d, ink_node o d
  | R_stroke => exists d, stroke_node o d
  | R_pen => exists d, stroke_properties o d
  | R_table => exists d, table_object o d
  | R_row => exists d, row_object o d
  | R_cell => exists d, cell_object o d
  | R_page_content | R_content => In (ob_jcid o) known_kinds
  | R_item => In (ob_jcid o) [0x00060019; 0x0006000D]
  end.

(** The note tag definitions some tags refer to. *)
Definition defined_by (i : exguid) (l : list tag_data) : Prop :=
  exists t, In t l /\ tg_definition t = Some i.

(** The drawing [i] is the one of the [k]-th ink object embedded in the paragraph [o].
    References beyond the number of these objects are not looked at. *)
Definition drawn_in (sp : space) (o : object) (i : exguid) : Prop :=
  exists d styles runs inks k, text_object o d /\
    Forall2 (fun sid sd => found sp sid (fun so => style_object so sd)) (rt_run_formatting d) styles /\
    run_data o runs /\
    selects (fun p => sy_is_embedded_object (snd p))
      (fun p x => fst x = sy_object_type (snd p) /\ embedded_ink_run (fst p) (snd x)) (combine runs styles) inks /\
    nth_error (rt_run_data_object d) k = Some i /\ (k < ink_count inks)%nat.

(** The object [o] of [sp], looked at as [r], leads to the object [i], to be looked at
    as the second role. *)
Inductive leads (sp : space) (o : object) : role -> exguid -> role -> Prop :=
| le_series d i : section_node o d -> In i (sn_page_series d) -> leads sp o R_section i R_series
| le_page i : manifest_node o i -> leads sp o R_manifest i R_page
| le_title d i : page_object o d -> pd_title d = Some i -> leads sp o R_page i R_title
| le_page_content d i : page_object o d -> In i (pd_content d) -> leads sp o R_page i R_page_content
| le_title_outline d i : title_object o d -> In i (tn_children d) -> leads sp o R_title i R_outline
| le_outline_item d i : outline_object o d -> In i (ou_children d) -> leads sp o R_outline i R_item
| le_group_item d i : group_object o d -> In i (gr_children d) -> leads sp o R_group i R_item
| le_element_item d i : element_object o d -> In i (oe_children d) -> leads sp o R_element i R_item
| le_element_content d i : element_object o d -> In i (oe_contents d) -> leads sp o R_element i R_content
| le_element_list d i : element_object o d -> In i (oe_list_contents d) -> leads sp o R_element i R_list
| le_text_style d i : text_object o d -> i = rt_paragraph_style d \/ In i (rt_run_formatting d) ->
    leads sp o R_text i R_style
| le_text_drawing i : drawn_in sp o i -> leads sp o R_text i R_drawing
| le_text_tag d i : text_object o d -> defined_by i (rt_note_tags d) -> leads sp o R_text i R_tag
| le_picture d i : image_object o d -> im_picture_container d = Some i -> leads sp o R_image i R_picture
| le_iframe d i : image_object o d -> In i (im_iframe d) -> leads sp o R_image i R_iframe
| le_image_tag d i : image_object o d -> defined_by i (im_note_tags d) -> leads sp o R_image i R_tag
| le_file_data d i : file_node o d -> i = ef_container d -> leads sp o R_file i R_file_data
| le_file_tag d i : file_node o d -> defined_by i (ef_note_tags d) -> leads sp o R_file i R_tag
| le_drawing d i : ink_container o d -> ic_ink_data d = Some i -> leads sp o R_ink i R_drawing
| le_stroke d i : ink_node o d -> In i (ik_strokes d) -> leads sp o R_drawing i R_stroke
| le_pen d i : stroke_node o d -> i = ss_properties d -> leads sp o R_stroke i R_pen
| le_row d i : table_object o d -> In i (ta_rows d) -> leads sp o R_table i R_row
| le_table_tag d i : table_object o d -> defined_by i (ta_note_tags d) -> leads sp o R_table i R_tag
| le_cell d i : row_object o d -> In i (ro_cells d) -> leads sp o R_row i R_cell
| le_cell_element d i : cell_object o d -> In i (ce_contents d) -> leads sp o R_cell i R_element.

(** The number of an object's kind decides what an item or a content is looked at as. *)
Definition kind_role (r : role) (jcid : N) (r' : role) : Prop :=
  match r with
  | R_item => In (jcid, r') [(0x00060019, R_group); (0x0006000D, R_element)]
  | R_content => In (jcid, r') [(0x00060011, R_image); (0x00060035, R_file); (0x0006000E, R_text);
                                (0x00060022, R_table); (0x00060014, R_ink)]
  | R_page_content => In (jcid, r') [(0x00060011, R_image); (0x00060035, R_file); (0x0006000C, R_outline);
                                     (0x00060014, R_ink)]
  | _ => False
  end.

(** The GUID of the object is stored with fewer than 16 bytes. *)
Definition short_guid (o : object) : Prop :=
  exists d, stored o 0x1C001C30 = Some (VVec d) /\ (length d < 16)%nat.
(** The indents of the object are cut off: a count, three unused bytes, and then that
    many numbers of four bytes are expected. *)
Definition short_indents (o : object) : Prop :=
  exists d, stored o 0x1C001C12 = Some (VVec d) /\
    (length d < 4 \/ exists n d', d = n :: d' /\ length d < 4 + 4 * N.to_nat n)%nat.
(** A character of a formula is half of a surrogate pair. *)
Definition half_character (run : object) : Prop :=
  exists p u, In p [0x10003453; 0x10003454; 0x10003455] /\ stored run p = Some (VU16 u) /\ 0xD800 <= u <= 0xDFFF.

(** [run] belongs to the paragraph [o], and its format is [style]. *)
Definition run_of (sp : space) (o run : object) (style : style_data) : Prop :=
  exists d runs styles k, text_object o d /\ run_data o runs /\
    Forall2 (fun sid sd => found sp sid (fun so => style_object so sd)) (rt_run_formatting d) styles /\
    nth_error runs k = Some run /\ nth_error styles k = Some style.

(** What can be wrong with the object [o], looked at as [r]. *)
Inductive wrong (sp : space) (r : role) (o : object) : ekind -> Prop :=
| wr_kind : In r [R_item; R_content; R_page_content] -> ~ fits r o -> wrong sp r o MalformedOneNoteData
(** A list without room for its length unit makes the reading crash (C31, C85) instead. *)
| wr_object : ~ In r [R_item; R_content; R_page_content] -> ~ fits r o -> (r = R_list -> ~ short_format o) ->
    wrong sp r o MalformedOneNoteFileData
| wr_guid : In r [R_section; R_series; R_page_meta] -> short_guid o -> wrong sp r o UnexpectedEof
| wr_indents : In r [R_outline; R_cell] -> short_indents o -> wrong sp r o UnexpectedEof
(** A stroke without an X or without a Y dimension. *)
| wr_dimension d p g : r = R_stroke -> stroke_node o d ->
    found sp (ss_properties d) (fun po => stroke_properties po p) ->
    In g [0x598a6a8f52c04ba093afaf357411a561; 0xb53f9f7504e04498a7eec30dbb5a9011] ->
    (forall x, In x (sp_dimensions p) -> id_id x <> g) -> wrong sp r o MalformedOneNoteData
(** The run data of a paragraph. *)
| wr_runs : r = R_text -> (forall runs, ~ run_data o runs) -> wrong sp r o MalformedOneNoteFileData
| wr_math run style : r = R_text -> run_of sp o run style -> sy_math_formatting style = true ->
    (forall m, ~ math_is run m) -> wrong sp r o MalformedOneNoteFileData
| wr_character run style : r = R_text -> run_of sp o run style -> sy_math_formatting style = true ->
    half_character run -> wrong sp r o Utf16Error
| wr_embedded run style : r = R_text -> run_of sp o run style -> sy_is_embedded_object style = true ->
    (forall i, ~ embedded_ink_run run i) -> wrong sp r o MalformedOneNoteFileData
| wr_space run style i : r = R_text -> run_of sp o run style -> sy_is_embedded_object style = true ->
    embedded_ink_run run i -> sy_object_type style = Some 0x20026 ->
    ei_space_width i = None \/ ei_space_height i = None -> wrong sp r o MalformedOneNoteFileData
| wr_blob run style t : r = R_text -> run_of sp o run style -> sy_is_embedded_object style = true ->
    sy_object_type style = Some t -> t <> 0x20026 -> t <> 0x20027 -> wrong sp r o MalformedOneNoteFileData.

Section Cause.
  Variable st : store.

  (** The object [i] of the space [sp] is looked at as the given role. *)
  Inductive visits : space -> exguid -> role -> Prop :=
  | vi_meta i : metadata_root (st_data_root st) = Some i -> visits (st_data_root st) i R_section_meta
  | vi_section i : content_root (st_data_root st) = Some i -> visits (st_data_root st) i R_section
  | vi_page_meta i o d c sp j : visits (st_data_root st) i R_series -> get_object (st_data_root st) i = Some o ->
      series_node o d -> In c (pn_page_spaces d) -> object_space st c = Some sp ->
      metadata_root sp = Some j -> visits sp j R_page_meta
  | vi_manifest i o d c sp j : visits (st_data_root st) i R_series -> get_object (st_data_root st) i = Some o ->
      series_node o d -> In c (pn_page_spaces d) -> object_space st c = Some sp ->
      content_root sp = Some j -> visits sp j R_manifest
  | vi_next sp i o r j r' : visits sp i r -> get_object sp i = Some o -> leads sp o r j r' -> visits sp j r'
  | vi_kind sp i o r r' : visits sp i r -> get_object sp i = Some o -> kind_role r (ob_jcid o) r' ->
      visits sp i r'.
  (** A page is to be read from the space [c], which may not be there. *)
  Definition page_at (c : cellid) : Prop :=
    exists i o d, visits (st_data_root st) i R_series /\ get_object (st_data_root st) i = Some o /\
      series_node o d /\ In c (pn_page_spaces d).

  (** What stands in the way of reading the section. *)
  Inductive fault : ekind -> Prop :=
  | fa_section_root : metadata_root (st_data_root st) = None \/ content_root (st_data_root st) = None ->
      fault MalformedOneNoteData
  | fa_space c : page_at c -> object_space st c = None -> fault MalformedOneNoteData
  | fa_page_root c sp : page_at c -> object_space st c = Some sp ->
      metadata_root sp = None \/ content_root sp = None -> fault MalformedOneNoteData
  | fa_missing sp i r : visits sp i r -> get_object sp i = None -> fault MalformedOneNoteData
  | fa_object sp i r o e : visits sp i r -> get_object sp i = Some o -> wrong sp r o e -> fault e.
End Cause.

(** The entries of a table of contents: its root, and what entries without a name
    refer to. *)
Inductive toc_visits (sp : space) : exguid -> Prop :=
| tv_root i : content_root sp = Some i -> toc_visits sp i
| tv_child i o d j : toc_visits sp i -> get_object sp i = Some o -> toc_object o d -> tc_filename d = None ->
    In j (tc_children d) -> toc_visits sp j.
Inductive toc_fault (sp : space) : ekind -> Prop :=
| tf_root : content_root sp = None -> toc_fault sp MalformedOneNoteData
| tf_missing i : toc_visits sp i -> get_object sp i = None -> toc_fault sp MalformedOneNoteData
| tf_order i o d n : toc_visits sp i -> get_object sp i = Some o -> toc_object o d -> tc_filename d = Some n ->
    tc_ordering_id d = None -> toc_fault sp MalformedOneNoteData
| tf_object i o : toc_visits sp i -> get_object sp i = Some o -> (forall d, ~ toc_object o d) ->
    toc_fault sp MalformedOneNoteFileData.
