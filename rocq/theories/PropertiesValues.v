(** Property theorems for typed values (C40, C41, C47). *)
From Verif Require Import Base Codec Package PropSet PropIds Store Shapes Props Nodes Doc SpecValues
  ValuesProofs.

(** An object with one property, for the examples. *)
Definition one_prop (id : N) (v : pvalue) : object :=
  Object (ExGuid 0 0) 0 (OProps [] [] [] [(pid_id id, (0, v))]) None (MappingTable [] []).

(** ** C40 *)
Theorem C40_color : forall o id v, v < 2 ^ 32 -> stored o id = Some (VU32 v) ->
  exists c, color_parse id o = Ok (Some c) /\
    co_alpha c + v / 2 ^ 24 = 255 /\
    v = co_r c + 256 * (co_g c + 256 * (co_b c + 256 * (v / 2 ^ 24))) /\
    co_r c < 256 /\ co_g c < 256 /\ co_b c < 256 /\ co_alpha c < 256.
Proof. exact color_read. Qed.
Print Assumptions C40_color.

Theorem C40_color_ref : forall o id v, v < 2 ^ 32 -> stored o id = Some (VU32 v) ->
  color_ref_parse id o =
  if v / 2 ^ 24 =? 0 then Ok (Some (CrManual (v mod 256) (v / 256 mod 256) (v / 65536 mod 256)))
  else if v / 2 ^ 24 =? 255 then Ok (Some CrAuto) else Err MalformedOneNoteFileData.
Proof. exact color_ref_read. Qed.
Print Assumptions C40_color_ref.

Example C40_example :
  let o := one_prop P_FontColor (VU32 0x40302010) in
  stored o P_FontColor = Some (VU32 0x40302010) /\
  color_parse P_FontColor o = Ok (Some (Color 0xBF 0x10 0x20 0x30)) /\
  color_ref_parse P_FontColor o = Err MalformedOneNoteFileData /\
  color_ref_parse P_FontColor (one_prop P_FontColor (VU32 0x00302010))
  = Ok (Some (CrManual 0x10 0x20 0x30)) /\
  color_ref_parse P_FontColor (one_prop P_FontColor (VU32 0xFF000000)) = Ok (Some CrAuto).
Proof. vm_compute. repeat split. Qed.

(** ** C41: tables of codes *)
Theorem C41_charset :
  decodes charset_of Ok charset_table (Err MalformedOneNoteFileData) /\ complete charset_table /\
  forall id, reads_coded (charset_parse id) id VU8 charset_of.
Proof.
  exact (conj (proj1 charset_decodes) (conj (proj2 charset_decodes)
    (fun id => coded_u8 charset_of id (charset_parse id) (fun o => eq_refl)))).
Qed.
Print Assumptions C41_charset.

Theorem C41_paragraph_alignment :
  decodes paragraph_alignment_of (fun a => a) alignment_table PaUnknown /\
  reads_coded paragraph_alignment_parse 0x0C003477 VU8 (fun n => Ok (paragraph_alignment_of n)).
Proof.
  exact (conj alignment_decodes
    (coded_u8 (fun n => Ok (paragraph_alignment_of n)) 0x0C003477 paragraph_alignment_parse (fun o => rmap_coded _ _))).
Qed.
Print Assumptions C41_paragraph_alignment.

Theorem C41_page_size :
  decodes page_size_of Ok page_size_table (Err MalformedOneNoteFileData) /\ complete page_size_table /\
  forall id, reads_coded (page_size_parse id) id VU8 page_size_of.
Proof.
  exact (conj (proj1 page_size_decodes) (conj (proj2 page_size_decodes)
    (fun id => coded_u8 page_size_of id (page_size_parse id) (fun o => eq_refl)))).
Qed.
Print Assumptions C41_page_size.

Theorem C41_note_tag_shape :
  decodes shape_parse Ok (coded shape_list) (Err MalformedOneNoteFileData) /\
  complete (coded shape_list) /\ length shape_list = 144%nat.
Proof. exact (conj (proj1 shape_decodes) (conj (proj2 shape_decodes) eq_refl)). Qed.
Print Assumptions C41_note_tag_shape.

Theorem C41_math_object_type :
  decodes math_object_type_of Some math_table None /\ complete math_table.
Proof. exact math_decodes. Qed.
Print Assumptions C41_math_object_type.

Theorem C41_revision_role : forall x r,
  (role_parse x = Ok r <->
   eg_guid x = 0x4A3717F81C1449E7952681D942DE1741 /\ In (eg_value x, r) role_table) /\
  ((forall r', role_parse x <> Ok r') -> role_parse x = Err MalformedOneStoreData).
Proof. exact (fun x r => conj (role_spec x r) (role_error x)). Qed.
Print Assumptions C41_revision_role.

Theorem C41_change_frequency : forall n,
  change_frequency n = if n <? 5 then Ok n else Err MalformedFssHttpBData.
Proof. exact change_frequency_spec. Qed.
Print Assumptions C41_change_frequency.

Theorem C41_action_item_type :
  (forall n,
    (n <= 99 -> action_item_type_of n = AtNumeric n) /\
    (106 <= n -> action_item_type_of n = AtUnknown) /\
    map action_item_type_of [100; 101; 102; 103; 104; 105]
    = [AtDueToday; AtDueTomorrow; AtDueThisWeek; AtDueNextWeek; AtNoDueDate; AtCustomDueDate]) /\
  reads_coded action_item_type_parse 0x10003463 VU16 (fun n => Ok (action_item_type_of n)).
Proof.
  exact (conj item_type_spec
    (coded_u16 (fun n => Ok (action_item_type_of n)) 0x10003463 action_item_type_parse (fun o => rmap_coded _ _))).
Qed.
Print Assumptions C41_action_item_type.

(** Packed values: each flag is one bit, the horizontal alignment three. *)
Theorem C41_action_item_status :
  reads_coded action_item_status_parse 0x10003470 VU16 (fun n =>
    Ok (ActionItemStatus (N.testbit n 0) (N.testbit n 1) (N.testbit n 2))).
Proof. exact item_status_read. Qed.
Print Assumptions C41_action_item_status.

Theorem C41_note_tag_status :
  reads_coded note_tag_status_parse 0x14003467 VU32 (fun n =>
    Ok (NoteTagStatus (N.testbit n 0) (N.testbit n 1) (N.testbit n 2) (N.testbit n 3) (N.testbit n 6)
          (N.testbit n 7) (N.testbit n 8) (N.testbit n 9) (N.testbit n 10) (N.testbit n 11))).
Proof. exact tag_status_read. Qed.
Print Assumptions C41_note_tag_status.

Theorem C41_layout_alignment :
  decodes halign_of Ok halign_table (Err MalformedOneNoteFileData) /\ complete halign_table /\
  forall o id v, stored o id = Some (VU32 v) ->
  layout_alignment_parse id o =
  if N.testbit v 31 then Ok None
  else match halign_of (v mod 8) with
       | Ok h => Ok (Some (LayoutAlignment h (if N.testbit v 3 then HmLeft else HmRight)
                             (if N.testbit v 16 then VaTop else VaBottom)
                             (if N.testbit v 19 then VmTop else VmBottom)))
       | _ => Err MalformedOneNoteFileData
       end.
Proof. exact (conj (proj1 halign_decodes) (conj (proj2 halign_decodes) layout_read)). Qed.
Print Assumptions C41_layout_alignment.

Example C41_example :
  charset_parse P_Charset (one_prop P_Charset (VU8 204)) = Ok (Some CsRussian) /\
  charset_parse P_Charset (one_prop P_Charset (VU8 3)) = Err MalformedOneNoteFileData /\
  charset_parse P_Charset (one_prop P_Charset (VU16 204)) = Err MalformedOneNoteFileData /\
  charset_parse P_Charset (one_prop P_Bold (VU8 204)) = Ok None /\
  paragraph_alignment_parse (one_prop P_ParagraphAlignment (VU8 7)) = Ok (Some PaUnknown) /\
  shape_parse 143 = Ok (nth 143 shape_list NTS_NoIcon) /\ shape_parse 144 = Err MalformedOneNoteFileData /\
  math_object_type_of 0x90000000 = Some MtPlainText /\ math_object_type_of 9 = None /\
  layout_alignment_parse P_LayoutAlignmentSelf (one_prop P_LayoutAlignmentSelf (VU32 0x9000A))
  = Ok (Some (LayoutAlignment HaCenter HmLeft VaTop VmTop)) /\
  action_item_status_parse (one_prop P_ActionItemStatus (VU16 5))
  = Ok (Some (ActionItemStatus true false true)).
Proof. vm_compute. repeat split. Qed.

(** ** C47 *)
Theorem C47_checkable : forall s, shape_is_checkable s = true <-> In s checkable_list.
Proof. exact checkable_spec. Qed.
Print Assumptions C47_checkable.

Example C47_example : shape_is_checkable NTS_FollowUpTodayFlag = true /\ shape_is_checkable NTS_YellowStar = false.
Proof. split; reflexivity. Qed.
