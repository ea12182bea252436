(** How much a document holds: its parts, the characters of its texts, the bytes of its
    images and files, the points of its drawings. *)
From Verif Require Import Base Codec PropSet Store Props Nodes Doc SpecSize SpecWeight Looks SpecLooks.
Local Open Scope nat_scope.

Definition length_of {A} (x : option (list A)) : nat := match x with Some l => length l | None => 0 end.

Definition tag_bulk (t : note_tag) : nat :=
  1 + match nt_definition t with Some d => length (td_label d) | None => 0 end.
Definition list_bulk (l : list_info) : nat :=
  1 + length_of (li_list_font l) + length (li_list_format l) + length_of (li_font l).
Definition iframe_bulk (f : iframe_data) : nat := 1 + length (if_source_url f).
Definition file_bulk (f : embedded_file) : nat :=
  1 + length (fi_filename f) + length (fi_data f) + total tag_bulk (fi_note_tags f).
Definition image_bulk (i : image) : nat :=
  1 + length_of (ig_data i) + length_of (ig_extension i) + length_of (ig_alt_text i) +
  length_of (ig_filename i) + length_of (ig_text i) + length_of (ig_hyperlink_url i) +
  total tag_bulk (ig_note_tags i) + total iframe_bulk (ig_embeds i).
Definition stroke_bulk (s : ink_stroke) : nat := 1 + length (st_path s).
Definition ink_bulk (i : ink) : nat := 1 + total stroke_bulk (in_strokes i).
Definition styling_bulk (s : styling) : nat :=
  1 + length_of (ps_font s) + length_of (ps_next_style s) + length_of (ps_style_id s).
Definition embedded_bulk (e : embedded_object) : nat :=
  match e with EoInk i _ => ink_bulk i | _ => 1 end.
Definition text_bulk (t : rich_text) : nat :=
  1 + length (tx_text t) + total styling_bulk (tx_run_formatting t) + length (tx_run_indices t) +
  styling_bulk (tx_paragraph_style t) + total tag_bulk (tx_note_tags t) +
  total embedded_bulk (tx_embedded_objects t) + length (tx_math_objects t).
Fixpoint item_bulk (i : outline_item) : nat :=
  match i with
  | ItemGroup _ l => 1 + total item_bulk l
  | ItemElement e => element_bulk e
  end
with element_bulk (e : outline_element) : nat :=
  match e with OutlineElement cs ls _ _ l =>
    1 + total item_bulk l + total content_bulk cs + total list_bulk ls end
with content_bulk (c : content) : nat :=
  match c with
  | CoRichText t => text_bulk t
  | CoTable t => table_bulk t
  | CoImage i => image_bulk i
  | CoEmbeddedFile f => file_bulk f
  | CoInk i => ink_bulk i
  | CoUnknown => 1
  end
with table_bulk (t : table) : nat :=
  match t with Table _ _ rows locked widths _ _ _ tags =>
    1 + total row_bulk rows + length locked + length widths + total tag_bulk tags end
with row_bulk (r : table_row) : nat :=
  match r with TableRow cells => 1 + total cell_bulk cells end
with cell_bulk (c : table_cell) : nat :=
  match c with TableCell es _ _ indents => 1 + total element_bulk es + length indents end.
Definition outline_bulk (o : outline) : nat := 1 + length (ol_indents o) + total item_bulk (ol_items o).
Definition page_content_bulk (c : page_content) : nat :=
  match c with
  | PcOutline o => outline_bulk o
  | PcImage i => image_bulk i
  | PcEmbeddedFile f => file_bulk f
  | PcInk i => ink_bulk i
  | PcUnknown => 1
  end.
Definition title_bulk (t : title) : nat := 1 + total outline_bulk (ti_contents t).
Definition page_bulk (p : page) : nat :=
  1 + match pg_title p with Some t => title_bulk t | None => 0 end + length_of (pg_author p) +
  total page_content_bulk (pg_contents p).
Definition section_bulk (s : section) : nat :=
  1 + length (se_display_name s) + total (fun ps => 1 + total page_bulk ps) (se_page_series s).

(** What an object holds: its properties, its references, its file data. *)
Definition object_bulk (o : object) : nat := object_weight o + object_ids o + length_of (ob_file o).
(** What a look-up brings. *)
Definition brings (st : store) (l : look) : nat :=
  match
    match l with
    | InRoot id => get_object (st_data_root st) id
    | TheSpace _ => None
    | InSpace cell id => object_at st cell id
    end
  with Some o => object_bulk o | None => 0 end.

(** The points of the drawings that lie on the pages of a section. *)
Definition content_points (c : page_content) : nat :=
  match c with PcInk i => total (fun s => length (st_path s)) (in_strokes i) | _ => 0 end.
Definition page_points (p : page) : nat := total content_points (pg_contents p).
Definition section_points (s : section) : nat := total (total page_points) (se_page_series s).
