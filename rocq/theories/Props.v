(** Reading typed values out of an object's properties. Models
    /repo/src/one/property/*.rs and the accessors of
    /repo/src/onestore/types/property.rs:28-106. *)
From Verif Require Import Base Codec Package PropSet PropIds Store Shapes.

(** ** Accessors: property.rs:28-106. Each is [Some] on its own variant only. *)

(** /repo/src/onestore/types/property.rs:28-34 *)
Definition to_bool (v : pvalue) : option bool := match v with VBool b => Some b | _ => None end.
(** /repo/src/onestore/types/property.rs:36-42 *)
Definition to_u8 (v : pvalue) : option N := match v with VU8 n => Some n | _ => None end.
(** /repo/src/onestore/types/property.rs:44-50 *)
Definition to_u16 (v : pvalue) : option N := match v with VU16 n => Some n | _ => None end.
(** /repo/src/onestore/types/property.rs:52-58 *)
Definition to_u32 (v : pvalue) : option N := match v with VU32 n => Some n | _ => None end.
(** /repo/src/onestore/types/property.rs:60-66 *)
Definition to_u64 (v : pvalue) : option N := match v with VU64 n => Some n | _ => None end.
(** /repo/src/onestore/types/property.rs:68-74 *)
Definition to_vec (v : pvalue) : option (list N) := match v with VVec d => Some d | _ => None end.
(** /repo/src/onestore/types/property.rs:76-82 *)
Definition to_object_id (v : pvalue) : option unit :=
  match v with VObjectId => Some tt | _ => None end.
(** /repo/src/onestore/types/property.rs:84-90 *)
Definition to_object_ids (v : pvalue) : option N :=
  match v with VObjectIds n => Some n | _ => None end.
(** /repo/src/onestore/types/property.rs:92-98 *)
Definition to_object_space_ids (v : pvalue) : option N :=
  match v with VObjectSpaceIds n => Some n | _ => None end.
(** /repo/src/onestore/types/property.rs:100-106 *)
Definition to_property_values (v : pvalue) : option (N * list propset) :=
  match v with VPropertyValues id sets => Some (id, sets) | _ => None end.

(** The shape shared by all property readers: [None] if the object does not have
    the property, an error if it is stored with another type, e.g.
    /repo/src/one/property/simple.rs:10-17. *)
Definition get_prop {A} (conv : pvalue -> option A) (id : N) (o : object) : res (option A) :=
  opt_map_res (fun v => ok_or MalformedOneNoteFileData (conv v)) (oprops_get id (ob_props o)).

(** ** Simple values: /repo/src/one/property/simple.rs *)

(** /repo/src/one/property/simple.rs:9-18 *)
Definition prop_bool : N -> object -> res (option bool) := get_prop to_bool.
(** /repo/src/one/property/simple.rs:20-29 *)
Definition prop_u8 : N -> object -> res (option N) := get_prop to_u8.
(** /repo/src/one/property/simple.rs:31-40 *)
Definition prop_u16 : N -> object -> res (option N) := get_prop to_u16.
(** /repo/src/one/property/simple.rs:42-51 *)
Definition prop_u32 : N -> object -> res (option N) := get_prop to_u32.
(** /repo/src/one/property/simple.rs:68-77. A float is kept as its 32 bits, so
    [f32::from_le_bytes(value.to_le_bytes())] is the identity. *)
Definition prop_f32 : N -> object -> res (option N) := get_prop to_u32.
(** /repo/src/one/property/simple.rs:79-88 *)
Definition prop_vec : N -> object -> res (option (list N)) := get_prop to_vec.

(** [Option::map] under [Result]. *)
Definition rmap {A B} (f : A -> B) (r : res (option A)) : res (option B) :=
  let! v := r in Ok (option_map f v).

(** [chunks_exact(4).map(u32::from_le_bytes)]: simple.rs:114-117. *)
Fixpoint u32_chunks (bs : list N) : list N :=
  match bs with
  | a :: b :: c :: d :: r => (a + 256 * (b + 256 * (c + 256 * d))) :: u32_chunks r
  | _ => []
  end.

(** /repo/src/one/property/simple.rs:90-104 *)
Definition prop_vec_u16 (id : N) (o : object) : res (option (list N)) :=
  rmap u16_chunks (get_prop to_vec id o).
(** /repo/src/one/property/simple.rs:106-120 *)
Definition prop_vec_u32 (id : N) (o : object) : res (option (list N)) :=
  rmap u32_chunks (get_prop to_vec id o).
(** /repo/src/one/property/simple.rs:122-133. [encoding_rs::mem::decode_latin1]
    maps every byte to the scalar value of the same number. *)
Definition prop_ascii (id : N) (o : object) : res (option (list N)) := get_prop to_vec id o.
(** /repo/src/one/property/simple.rs:135-148 *)
Definition prop_string (id : N) (o : object) : res (option (list N)) :=
  let! d := get_prop to_vec id o in
  opt_map_res (fun d => match utf16_to_string d with
                        | Err _ => Err MalformedOneNoteFileData
                        | r => r
                        end) d.
(** /repo/src/one/property/simple.rs:150-159 *)
Definition prop_guid (id : N) (o : object) : res (option guid) :=
  let! d := get_prop to_vec id o in
  opt_map_res (fun d => run guid_parse d) d.

(** ** References *)

(** [iter.map(f).sum::<usize>()]. Simplified: no overflow; reaching [2^64] takes
    more than [2^32] properties (C91; other targets are in Target.v). *)
Definition sumN {A} (f : A -> N) : list A -> N :=
  fix go l := match l with [] => 0 | x :: r => f x + go r end.

(** /repo/src/one/property/object_reference.rs:74-86, [count_references], for one
    value; the sum over an iterator is [sumN]. The nested sets are iterated in
    [HashMap] order ([values], prop_set.rs:41-43), which does not change the sum
    (lemma [sumN_perm]). *)
Fixpoint count_object_refs (v : pvalue) : N :=
  match v with
  | VObjectId => 1
  | VObjectIds c => c
  | VPropertyValues _ sets =>
    sumN (fun s => sumN (fun e => match e with (_, (_, w)) => count_object_refs w end) s) sets
  | _ => 0
  end.

(** /repo/src/one/property/object_space_reference.rs:55-67 *)
Fixpoint count_space_refs (v : pvalue) : N :=
  match v with
  | VObjectSpaceId => 1
  | VObjectSpaceIds c => c
  | VPropertyValues _ sets =>
    sumN (fun s => sumN (fun e => match e with (_, (_, w)) => count_space_refs w end) s) sets
  | _ => 0
  end.

(** /repo/src/one/property/references.rs:9-31, [get_predecessors]: the values
    (in [HashMap] order) whose index is below that of the property. *)
Definition predecessors (id : N) (o : object) : res (list pvalue) :=
  let! index := ok_or MalformedOneNoteFileData (propset_index id (op_props (ob_props o))) in
  Ok (map snd (filter (fun e => fst e <? index) (map snd (op_props (ob_props o))))).

(** /repo/src/one/property/object_reference.rs:67-72 *)
Definition object_offset (id : N) (o : object) : res N :=
  let! ps := predecessors id o in Ok (sumN count_object_refs ps).
(** /repo/src/one/property/object_space_reference.rs:48-53 *)
Definition space_offset (id : N) (o : object) : res N :=
  let! ps := predecessors id o in Ok (sumN count_space_refs ps).

(** [Iterator::skip(n)] and [Iterator::take(n)] *)
Definition skip {A} (n : N) (l : list A) : list A := skipn (N.to_nat n) l.
Definition take {A} (n : N) (l : list A) : list A := firstn (N.to_nat n) l.

(** [enumerate().flat_map(|(index, id)| resolve(index, id))], counting from [i]. *)
Fixpoint flat_resolve {T} (resolve : N -> compactid -> option T) (i : N) (l : list compactid)
  : list T :=
  match l with
  | [] => []
  | c :: r =>
    match resolve i c with
    | Some x => x :: flat_resolve resolve (i + 1) r
    | None => flat_resolve resolve (i + 1) r
    end
  end.

(** /repo/src/one/property/object_reference.rs:16-34, [ObjectReference::parse] *)
Definition prop_object (id : N) (o : object) : res (option exguid) :=
  let! v := get_prop to_object_id id o in
  match v with
  | None => Ok None
  | Some _ =>
    let! index := object_offset id o in
    let! cid := ok_or MalformedOneNoteFileData
                      (nth_error (op_object_ids (ob_props o)) (N.to_nat index)) in
    Ok (mapping_get_object (ob_mapping o) index cid)
  end.

(** /repo/src/one/property/object_reference.rs:36-65, [ObjectReference::parse_vec] *)
Definition prop_objects (id : N) (o : object) : res (option (list exguid)) :=
  let! v := get_prop to_object_ids id o in
  match v with
  | None => Ok None
  | Some count =>
    let! offset := object_offset id o in
    Ok (Some (flat_resolve (mapping_get_object (ob_mapping o)) offset
                (take count (skip offset (op_object_ids (ob_props o))))))
  end.

(** /repo/src/one/property/object_space_reference.rs:16-46. The index passed to
    the mapping table counts from 0, not from the offset. *)
Definition prop_spaces (id : N) (o : object) : res (option (list cellid)) :=
  let! v := get_prop to_object_space_ids id o in
  match v with
  | None => Ok None
  | Some count =>
    let! offset := space_offset id o in
    Ok (Some (flat_resolve (mapping_get_space (ob_mapping o)) 0
                (take count (skip offset (op_space_ids (ob_props o))))))
  end.

(** ** Values with structure *)

(** /repo/src/one/property/author.rs:18-20 *)
Definition author_parse (o : object) : res (option (list N)) := prop_string P_Author o.

(** /repo/src/one/property/charset.rs:12-32 *)
Inductive charset :=
| CsAnsi | CsDefault | CsSymbol | CsMac | CsShiftJis | CsHangul | CsJohab | CsGb2312
| CsChineseBig5 | CsGreek | CsTurkish | CsVietnamese | CsHebrew | CsArabic | CsBaltic
| CsRussian | CsThai | CsEastEurope | CsOem.

(** /repo/src/one/property/charset.rs:43-69 *)
Definition charset_of (value : N) : res charset :=
  match value with
  | 0 => Ok CsAnsi
  | 1 => Ok CsDefault
  | 2 => Ok CsSymbol
  | 77 => Ok CsMac
  | 128 => Ok CsShiftJis
  | 129 => Ok CsHangul
  | 130 => Ok CsJohab
  | 134 => Ok CsGb2312
  | 136 => Ok CsChineseBig5
  | 161 => Ok CsGreek
  | 162 => Ok CsTurkish
  | 163 => Ok CsVietnamese
  | 177 => Ok CsHebrew
  | 178 => Ok CsArabic
  | 186 => Ok CsBaltic
  | 204 => Ok CsRussian
  | 222 => Ok CsThai
  | 238 => Ok CsEastEurope
  | 255 => Ok CsOem
  | _ => Err MalformedOneNoteFileData
  end.

(** /repo/src/one/property/charset.rs:35-72 *)
Definition charset_parse (id : N) (o : object) : res (option charset) :=
  let! v := get_prop to_u8 id o in opt_map_res charset_of v.

(** [u32::to_le_bytes()\[k\]] *)
Definition le_byte (k : N) (v : N) : N := N.land (N.shiftr v (8 * k)) 0xFF.

(** /repo/src/one/property/color.rs:11-16 *)
Record color := Color { co_alpha : N; co_r : N; co_g : N; co_b : N }.

(** /repo/src/one/property/color.rs:41-57. [255 - bytes\[3\]] cannot underflow. *)
Definition color_parse (id : N) (o : object) : res (option color) :=
  rmap (fun value => Color (255 - le_byte 3 value) (le_byte 0 value) (le_byte 1 value)
                           (le_byte 2 value))
       (get_prop to_u32 id o).

(** /repo/src/one/property/color_ref.rs:11-24 *)
Inductive color_ref := CrAuto | CrManual (r g b : N).

(** /repo/src/one/property/color_ref.rs:27-53 *)
Definition color_ref_parse (id : N) (o : object) : res (option color_ref) :=
  let! v := get_prop to_u32 id o in
  opt_map_res (fun value =>
    match le_byte 3 value with
    | 0xFF => Ok CrAuto
    | 0x00 => Ok (CrManual (le_byte 0 value) (le_byte 1 value) (le_byte 2 value))
    | _ => Err MalformedOneNoteFileData
    end) v.

(** /repo/src/one/property/file_type.rs:11-20 *)
Inductive file_type := FtUnknown | FtAudio | FtVideo.

(** /repo/src/one/property/file_type.rs:23-43 *)
Definition file_type_parse (o : object) : res file_type :=
  let! v := get_prop to_u32 P_IRecordMedia o in
  match v with
  | None => Ok FtUnknown
  | Some 1 => Ok FtAudio
  | Some 2 => Ok FtVideo
  | Some _ => Err MalformedOneNoteFileData
  end.

(** [value as i32] for a 32-bit value *)
Definition i32_of (n : N) : Z :=
  if n <? 2 ^ 31 then Z.of_N n else (Z.of_N n - 2 ^ 32)%Z.

(** /repo/src/one/property/ink_dimensions.rs:9-13 *)
Record ink_dimension := InkDimension { id_id : guid; id_lower : Z; id_upper : Z }.

(** /repo/src/one/property/ink_dimensions.rs:29-40 *)
Definition ink_dimension_entry (d : list N) : res ink_dimension :=
  run (g <- guid_parse ;;
       lower <- get_u32 ;;
       upper <- get_u32 ;;
       pret (InkDimension g (i32_of lower) (i32_of upper))) d.

(** [chunks_exact(n)], [n > 0]: the trailing incomplete chunk is dropped. Fuel:
    the number of bytes. *)
Fixpoint chunks_fuel {A} (fuel n : nat) (l : list A) : list (list A) :=
  match fuel with
  | O => []
  | S f =>
    if (length l <? n)%nat then [] else firstn n l :: chunks_fuel f n (skipn n l)
  end.
Definition chunks_exact {A} (n : nat) (l : list A) : list (list A) := chunks_fuel (length l) n l.

(** /repo/src/one/property/ink_dimensions.rs:16-27 *)
Definition ink_dimensions_parse (id : N) (o : object) : res (list ink_dimension) :=
  let! v := get_prop to_vec id o in
  match v with
  | None => Ok []
  | Some d => map_res ink_dimension_entry (chunks_exact 32 d)
  end.

(** /repo/src/one/property/layout_alignment.rs:67-74, 94-97, 113-116, 132-135 *)
Inductive halign := HaUnknown | HaLeft | HaCenter | HaRight | HaBiDiNormal | HaBiDiReverse.
Inductive halign_margin := HmRight | HmLeft.
Inductive valign := VaBottom | VaTop.
Inductive valign_margin := VmBottom | VmTop.

(** /repo/src/one/property/layout_alignment.rs:77-90 *)
Definition halign_of (value : N) : res halign :=
  match value with
  | 0 => Ok HaUnknown
  | 1 => Ok HaLeft
  | 2 => Ok HaCenter
  | 3 => Ok HaRight
  | 4 => Ok HaBiDiNormal
  | 5 => Ok HaBiDiReverse
  | _ => Err MalformedOneNoteFileData
  end.
(** /repo/src/one/property/layout_alignment.rs:100-109 *)
Definition halign_margin_of (value : N) : res halign_margin :=
  match value with
  | 0 => Ok HmRight | 1 => Ok HmLeft | _ => Err MalformedOneNoteFileData
  end.
(** /repo/src/one/property/layout_alignment.rs:119-128 *)
Definition valign_of (value : N) : res valign :=
  match value with
  | 0 => Ok VaBottom | 1 => Ok VaTop | _ => Err MalformedOneNoteFileData
  end.
(** /repo/src/one/property/layout_alignment.rs:138-147 *)
Definition valign_margin_of (value : N) : res valign_margin :=
  match value with
  | 0 => Ok VmBottom | 1 => Ok VmTop | _ => Err MalformedOneNoteFileData
  end.

(** /repo/src/one/property/layout_alignment.rs:11-16 *)
Record layout_alignment := LayoutAlignment {
  la_h : halign; la_hm : halign_margin; la_v : valign; la_vm : valign_margin }.

(** /repo/src/one/property/layout_alignment.rs:37-63 *)
Definition layout_alignment_parse (id : N) (o : object) : res (option layout_alignment) :=
  let! v := get_prop to_u32 id o in
  match v with
  | None => Ok None
  | Some value =>
    if negb (N.land (N.shiftr value 31) 1 =? 0) then Ok None
    else
      let! h := halign_of (N.land value 7) in
      let! hm := halign_margin_of (N.land (N.shiftr value 3) 1) in
      let! va := valign_of (N.land (N.shiftr value 16) 1) in
      let! vm := valign_margin_of (N.land (N.shiftr value 19) 1) in
      Ok (Some (LayoutAlignment h hm va vm))
  end.

(** [(value >> k) & 0x1 != 0] *)
Definition bit (value k : N) : bool := negb (N.land (N.shiftr value k) 1 =? 0).

(** /repo/src/one/property/note_tag.rs:11-15 *)
Record action_item_status := ActionItemStatus {
  as_completed : bool; as_disabled : bool; as_task_tag : bool }.

(** /repo/src/one/property/note_tag.rs:35-52 *)
Definition action_item_status_parse (o : object) : res (option action_item_status) :=
  rmap (fun v => ActionItemStatus (bit v 0) (bit v 1) (bit v 2))
       (get_prop to_u16 P_ActionItemStatus o).

(** /repo/src/one/property/note_tag.rs:62-71 *)
Inductive action_item_type :=
| AtNumeric (n : N) | AtDueToday | AtDueTomorrow | AtDueThisWeek | AtDueNextWeek
| AtNoDueDate | AtCustomDueDate | AtUnknown.

(** /repo/src/one/property/note_tag.rs:82-91 *)
Definition action_item_type_of (value : N) : action_item_type :=
  if value <=? 99 then AtNumeric value
  else match value with
       | 100 => AtDueToday
       | 101 => AtDueTomorrow
       | 102 => AtDueThisWeek
       | 103 => AtDueNextWeek
       | 104 => AtNoDueDate
       | 105 => AtCustomDueDate
       | _ => AtUnknown
       end.

(** /repo/src/one/property/note_tag.rs:74-94 *)
Definition action_item_type_parse (o : object) : res (option action_item_type) :=
  rmap action_item_type_of (get_prop to_u16 P_ActionItemType o).

(** /repo/src/one/property/note_tag_property_status.rs:11-22 *)
Record note_tag_status := NoteTagStatus {
  ns_has_label : bool; ns_has_font_color : bool; ns_has_highlight_color : bool;
  ns_has_icon : bool; ns_due_today : bool; ns_due_tomorrow : bool; ns_due_this_week : bool;
  ns_due_next_week : bool; ns_due_later : bool; ns_due_custom : bool }.

(** /repo/src/one/property/note_tag_property_status.rs:77-99 *)
Definition note_tag_status_parse (o : object) : res (option note_tag_status) :=
  rmap (fun v => NoteTagStatus (bit v 0) (bit v 1) (bit v 2) (bit v 3) (bit v 6) (bit v 7)
                               (bit v 8) (bit v 9) (bit v 10) (bit v 11))
       (get_prop to_u32 P_NoteTagPropertyStatus o).

(** /repo/src/one/property/outline_indent_distance.rs:18-35. Floats are kept as
    their 32 bits. *)
Definition indent_distance_parse (o : object) : res (option (list N)) :=
  let! v := get_prop to_vec P_RgOutlineIndentDistance o in
  opt_map_res (fun d =>
    run (count <- get_u8 ;;
         _ <- advance 3 ;;
         rep count get_f32) d) v.

(** /repo/src/one/property/page_size.rs:11-29 *)
Inductive page_size :=
| PsAuto | PsUs | PsAnsiLetter | PsAnsiTabloid | PsUsLegal | PsIsoA3 | PsIsoA4 | PsIsoA5
| PsIsoA6 | PsJisB4 | PsJisB5 | PsJisB6 | PsJapanesePostcard | PsIndexCard | PsBillfold
| PsCustom.

(** /repo/src/one/property/page_size.rs:40-63 *)
Definition page_size_of (value : N) : res page_size :=
  match value with
  | 0 => Ok PsAuto
  | 1 => Ok PsUs
  | 2 => Ok PsAnsiLetter
  | 3 => Ok PsAnsiTabloid
  | 4 => Ok PsUsLegal
  | 5 => Ok PsIsoA3
  | 6 => Ok PsIsoA4
  | 7 => Ok PsIsoA5
  | 8 => Ok PsIsoA6
  | 9 => Ok PsJisB4
  | 10 => Ok PsJisB5
  | 11 => Ok PsJisB6
  | 12 => Ok PsJapanesePostcard
  | 13 => Ok PsIndexCard
  | 14 => Ok PsBillfold
  | 15 => Ok PsCustom
  | _ => Err MalformedOneNoteFileData
  end.

(** /repo/src/one/property/page_size.rs:32-66 *)
Definition page_size_parse (id : N) (o : object) : res (option page_size) :=
  let! v := get_prop to_u8 id o in opt_map_res page_size_of v.

(** /repo/src/one/property/paragraph_alignment.rs:12-18 *)
Inductive paragraph_alignment := PaUnknown | PaLeft | PaCenter | PaRight.

(** /repo/src/one/property/paragraph_alignment.rs:29-34 *)
Definition paragraph_alignment_of (value : N) : paragraph_alignment :=
  match value with
  | 0 => PaLeft
  | 1 => PaCenter
  | 2 => PaRight
  | _ => PaUnknown
  end.

(** /repo/src/one/property/paragraph_alignment.rs:21-35 *)
Definition paragraph_alignment_parse (o : object) : res (option paragraph_alignment) :=
  rmap paragraph_alignment_of (get_prop to_u8 P_ParagraphAlignment o).

(** /repo/src/one/property/time.rs:14-27, [Time] kept as its number. *)
Definition time_parse (id : N) (o : object) : res (option N) := get_prop to_u32 id o.
(** /repo/src/one/property/time.rs:40-53, [Timestamp] kept as its number. *)
Definition timestamp_parse (id : N) (o : object) : res (option N) := get_prop to_u64 id o.
