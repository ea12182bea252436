(** C63: every valid section is the section of some file. *)
From Coq Require Import Lia Floats.SpecFloat.
From Verif Require Import Base Codec SpecCodec Package PropSet Store Shapes Props Nodes Doc Notebook SpecDoc SpecValid WriteProofs4.

Theorem C63_round_trip : forall s, section_ok s -> N.of_nat (section_size s) < 2 ^ 21 ->
  exists d, bytes_ok d /\ forall h file, exists k, forall fuel, (k <= fuel)%nat -> parse_section_buffer h fuel d file = Ok s.
Proof. exact section_written. Qed.
Print Assumptions C63_round_trip.

(** A section with two series, a page with a title, an outline (a paragraph with two
    formats, a tag and a link, a list, a group, a table), an image, a file and ink. *)
Definition no_style : styling :=
  Styling None false false false false false false None None None None None None None None None None None false false.
Definition bold_style : styling :=
  Styling (Some CsGreek) true false false false false false (Some [65; 114]) (Some 22) (Some (CrManual 1 2 3)) (Some CrAuto) None (Some [112])
    (Some PaCenter) (Some 0x3F800000) None None (Some 1033) false true.
Definition a_tag : note_tag := NoteTag (Some 5) (ActionItemStatus true false true)
  (Some (TagDefinition [84; 111; 100; 111] (NoteTagStatus true false true false false false false true false false) NTS_YellowCheckBox (Some CrAuto) (Some (CrManual 255 0 0)) (AtNumeric 7))).
Definition a_text (t : list N) (fs : list styling) (ix : list N) : rich_text :=
  RichText t fs ix no_style 0 0 (Some 0x41000000) PaRight None (Some (LayoutAlignment HaLeft HmLeft VaTop VmTop)) [a_tag] [] [].
Definition a_list : list_info := ListInfo None (Some (-3)%Z) [65533; 0; 46] true false (Some [67]) (Some 20) None.
Definition an_element (cs : list content) (l : list outline_item) : outline_element := OutlineElement cs [a_list] None 1 l.
Definition an_image : image := Image (Some [1; 2; 255]) (Some [112; 110; 103]) None (Some 0x3F800000) (Some [97]) None None None (Some 3) None
  (Some 1033) None None (Some [104; 116; 116; 112]) None None true [] [IFrameData (Some 1) [117; 114; 108]].
Definition a_file : embedded_file := EmbeddedFile [102; 46; 122] FtAudio [0; 1; 0] None None (Some 0) None [a_tag].
Definition some_ink : ink := Ink
  [InkStroke [InkPoint (times (factor (Some 0x40000000)) (rounded 3)) (times (factor (Some 0x40000000)) (rounded (-70000)))] (Some 1) None 1 2 (Some 9)]
  (Some (InkBox (times (rounded 1) (factor (Some 0x40000000))) (times (rounded 2) (factor (Some 0x40000000)))
                (times (minus (rounded 8) (rounded 2)) (factor (Some 0x40000000))) (times (minus (rounded 5) (rounded 1)) (factor (Some 0x40000000)))))
  None (Some 7).
Definition an_outline : outline := Outline 1 None [0; 0x3F800000] None None None None None None true (Some 1) (Some 2)
  [ItemElement (an_element [CoRichText (a_text [72; 0x1F600] [bold_style; no_style] [1])]
     [ItemGroup 2 [ItemElement (an_element [CoTable (Table 1 1 [TableRow [TableCell [an_element [CoImage an_image] []] (Some (Color 255 1 2 3)) None []]]
                                                      [1] [0x3F800000] true None None [])] [])]])].
Definition a_page : page := Page (Some (Title [an_outline] 0 1 None None)) (-2)%Z (Some [65]) None
  [PcOutline an_outline; PcImage an_image; PcEmbeddedFile a_file; PcInk some_ink; PcUnknown].
Definition a_section : section := Section_ [78; 111] [[a_page; Page None 1 None None []]; []; [a_page]] (Some (Color 0 1 2 3)).

Ltac valid := repeat match goal with
  | |- _ /\ _ => split
  | |- True => exact I
  | |- Forall _ _ => constructor
  | |- _ = None -> _ => intro; discriminate
  | |- _ <> _ => discriminate
  | |- scalar _ => unfold scalar; lia
  | |- u8 _ => reflexivity | |- u16 _ => reflexivity | |- u32 _ => reflexivity | |- i32 _ => unfold i32; lia
  | |- N.lt _ _ => reflexivity
  | |- Peano.lt _ _ => cbn; lia
  | |- color_ok _ => unfold color_ok; cbn [co_alpha co_r co_g co_b]
  | |- every _ _ => cbn [every]
  | |- if_any _ _ => cbn [if_any]
  end.
Example C63_example : section_ok a_section /\ N.of_nat (section_size a_section) < 2 ^ 21.
Proof.
  assert (T : tag_ok a_tag) by (unfold tag_ok, tag_definition_ok, plain; cbn; valid).
  assert (B : styling_ok bold_style) by (unfold styling_ok, plain; cbn; valid).
  assert (Z : styling_ok no_style) by (unfold styling_ok, plain; cbn; valid).
  assert (L : list_ok a_list) by (unfold list_ok, plain; cbn; valid).
  assert (X : text_ok (a_text [72; 0x1F600] [bold_style; no_style] [1])).
  { unfold text_ok, plain. cbn [tx_text tx_run_formatting tx_run_indices tx_paragraph_style tx_space_before tx_space_after tx_line_spacing_exact tx_note_tags
      tx_embedded_objects tx_math_objects a_text]. valid; try assumption; [left; valid|exists 0%nat; cbn; lia|contradiction]. }
  assert (G : image_ok an_image) by (unfold image_ok, file_data, plain, iframe_ok, plain; cbn; valid).
  assert (F : file_ok a_file) by (unfold file_ok, file_data, plain; cbn; valid; assumption).
  assert (K : ink_ok some_ink).
  { exists (Some 0x40000000). unfold ink_scaled, stroke_ok. cbn [some_ink in_strokes in_bounding_box in_offset_horizontal in_offset_vertical every if_any st_path st_pen_tip
      st_transparency st_height st_width st_color ip_x ip_y].
    valid; [exists 3%Z|exists (-70000)%Z|exists 1, 2, 5, 8; unfold box_is; cbn [bb_x bb_y bb_width bb_height]; repeat split]; (split; [unfold i64; lia|reflexivity]). }
  assert (O : outline_ok an_outline).
  { unfold outline_ok, indents_ok. cbn [an_outline ol_child_level ol_list_spacing ol_indents ol_layout_max_height ol_layout_max_width ol_layout_reserved_width
      ol_layout_minimum_outline_width ol_offset_horizontal ol_offset_vertical ol_items]. cbn [every item_ok element_ok an_element content_ok table_ok row_ok cell_ok].
    unfold indents_ok. valid; assumption. }
  assert (P : page_ok a_page).
  { unfold page_ok, title_ok, plain. cbn [a_page pg_title pg_level pg_author pg_height pg_contents ti_contents ti_offset_horizontal ti_offset_vertical every if_any page_content_ok].
    valid; assumption. }
  split; [|vm_compute; reflexivity].
  unfold section_ok, plain. cbn [a_section se_display_name se_color se_page_series every]. valid; try assumption.
  - intros [|? [|? [|? p]]]; discriminate.
  - unfold page_ok. cbn. unfold i32. intuition lia.
Qed.
