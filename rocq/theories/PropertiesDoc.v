(** Property theorems for the document tree: names (C29), order and completeness
    (C30), termination (C31), crashes (C33, C50), ink (C34), embedded files (C37),
    paragraphs (C38) and titles (C39). *)
From Coq Require Import Lia Relations Floats.SpecFloat.
From Verif Require Import Base Codec Package SpecPackage PropSet PropIds Store Shapes Props Nodes Doc Notebook SpecCodec
  SpecStore SpecPropSet SpecValues SpecNodes SpecDoc NodesProofs2 DocProofs DocProofs2 DocProofs3 DocProofs4 DocProofs5 DocProofs6
  ExampleFile PropertiesStore ExampleSection.

(** The store and the page space of an example file. *)
Definition store_of (bs : list N) : store :=
  match open_store order_id 3 bs with
  | Ok st => st
  | _ => Store 0 (StoreHeader 0 0 None 0) (Space (xid 0) (xid 0) [] []) []
  end.
Definition page_of (st : store) : space :=
  match object_space st page_cell with Some sp => sp | None => st_data_root st end.
Definition st_rich : store := Eval vm_compute in store_of rich_file.
Definition sp_rich : space := Eval vm_compute in page_of st_rich.
Example rich_opens : open_store order_id 3 rich_file = Ok st_rich /\ object_space st_rich page_cell = Some sp_rich.
Proof. split; vm_compute; reflexivity. Qed.

(** ** C29 *)
Theorem C29_display_name : forall fuel st file s, parse_section fuel st file = Ok s ->
  exists id o m, metadata_root (st_data_root st) = Some id /\ get_object (st_data_root st) id = Some o /\
    section_meta o m /\ display_name (sm_display_name m) file (se_display_name s).
Proof.
  exact (fun fuel st file s H => match proj1 (section_settles st file s) fuel H with
    | ex_intro _ id (ex_intro _ m (ex_intro _ _ (ex_intro _ _ (conj A (conj (ex_intro _ o (conj B C)) (conj _ (conj _ (conj D _))))))))
      => ex_intro _ id (ex_intro _ o (ex_intro _ m (conj A (conj B (conj C D)))))
    end).
Qed.
Print Assumptions C29_display_name.
(** There is one such name. *)
Theorem C29_unique : forall stored_name file a b,
  display_name stored_name file a -> display_name stored_name file b -> a = b.
Proof. exact display_name_unique. Qed.
Print Assumptions C29_unique.
Example C29_example : exists s s', parse_section 50 st_rich [102] = Ok s /\ se_display_name s = [78] /\
  parse_section 5 (store_of (section_file None [page_meta_object; manifest_object; page_obj [] []] [] []))
    [97; 46; 111; 110; 101] = Ok s' /\ se_display_name s' = [97].
Proof.
  eexists _, _. split; [vm_compute; reflexivity|]. split; [reflexivity|]. split; [vm_compute; reflexivity|reflexivity].
Qed.
(** The expectation that one suffix is removed is false: the section "x.one.one" is
    shown as "x", not as "x.one". *)
Theorem C29_one_suffix_refuted : exists bs st s, open_store order_id 3 bs = Ok st /\
  parse_section 5 st ([120] ++ one_suffix ++ one_suffix) = Ok s /\ se_display_name s <> [120] ++ one_suffix.
Proof.
  exists (section_file None [page_meta_object; manifest_object; page_obj [] []] [] []). eexists _, _.
  split; [vm_compute; reflexivity|]. split; [vm_compute; reflexivity|]. vm_compute. discriminate.
Qed.
Print Assumptions C29_one_suffix_refuted.

(** ** C30 *)
(** The documents that are returned are those described in SpecDoc.v. *)
Theorem C30_section : forall st file s,
  (exists fuel, parse_section fuel st file = Ok s) <-> section_is st file s.
Proof. exact section_iff. Qed.
Print Assumptions C30_section.
(** Enough fuel always gives the same document. *)
Theorem C30_one_result : forall f1 f2 st file s1 s2,
  parse_section f1 st file = Ok s1 -> parse_section f2 st file = Ok s2 -> s1 = s2.
Proof. exact section_deterministic. Qed.
Print Assumptions C30_one_result.
Theorem C30_enough_fuel : forall st file s fuel, parse_section fuel st file = Ok s ->
  exists k, forall n, (k <= n)%nat -> parse_section n st file = Ok s.
Proof. exact (fun st file s fuel H => proj2 (section_settles st file s) (proj1 (section_settles st file s) fuel H)). Qed.
Print Assumptions C30_enough_fuel.
(** In a document that is returned nothing referred to is missing. *)
Theorem C30_nothing_missing :
  (forall f st file s, parse_section f st file = Ok s -> exists cid o d,
    content_root (st_data_root st) = Some cid /\ get_object (st_data_root st) cid = Some o /\ section_node o d /\
    forall c, In c (sn_page_series d) -> exists so sd, get_object (st_data_root st) c = Some so /\ series_node so sd /\
    forall x, In x (pn_page_spaces sd) -> exists sp, object_space st x = Some sp) /\
  (forall f sp p, parse_page f sp = Ok p -> exists pid o d,
    get_object sp pid = Some o /\ page_object o d /\
    forall c, pd_title d = Some c \/ In c (pd_content d) -> there sp c) /\
  (forall f sp id o d x, get_object sp id = Some o -> outline_object o d ->
    parse_outline f sp id = Ok x -> forall c, In c (ou_children d) -> there sp c) /\
  (forall f sp id o d x, get_object sp id = Some o -> group_object o d ->
    parse_outline_item f sp id = Ok x -> forall c, In c (gr_children d) -> there sp c) /\
  (forall f sp id o d x, get_object sp id = Some o -> element_object o d ->
    parse_outline_element f sp id = Ok x ->
    forall c, In c (oe_children d) \/ In c (oe_contents d) \/ In c (oe_list_contents d) -> there sp c) /\
  (forall f sp id o d x, get_object sp id = Some o -> table_object o d ->
    parse_content f sp id = Ok x ->
    forall r, In r (ta_rows d) -> exists ro rd, get_object sp r = Some ro /\ row_object ro rd /\
    forall c, In c (ro_cells rd) -> exists co cd, get_object sp c = Some co /\ cell_object co cd /\
    forall e, In e (ce_contents cd) -> there sp e).
Proof.
  exact (conj section_complete (conj page_complete (conj outline_complete_refs (conj group_complete
    (conj element_complete table_complete))))).
Qed.
Print Assumptions C30_nothing_missing.

(** The example page: what is on it, in order. *)
Definition content_kind (c : content) : N :=
  match c with CoRichText _ => 1 | CoTable _ => 2 | CoImage _ => 3 | CoEmbeddedFile _ => 4 | CoInk _ => 5 | CoUnknown => 6 end.
Definition page_kind (c : page_content) : N :=
  match c with PcOutline _ => 0 | PcImage _ => 3 | PcEmbeddedFile _ => 4 | PcInk _ => 5 | PcUnknown => 6 end.
Example C30_example : exists s p o g e cs ls sg lv ch,
  parse_section 50 st_rich [102] = Ok s /\ se_page_series s = [[p]] /\
  map page_kind (pg_contents p) = [0; 3; 4; 5; 6] /\ hd_error (pg_contents p) = Some (PcOutline o) /\
  ol_items o = [e; g] /\ e = ItemElement (OutlineElement cs ls sg lv ch) /\ map content_kind cs = [1; 2] /\
  length ls = 1%nat /\ length ch = 1%nat /\ (exists x, g = ItemGroup 2 [x]) /\
  section_is st_rich [102] s.
Proof.
  eexists _, _, _, _, _, _, _, _, _, _. split; [vm_compute; reflexivity|]. split; [reflexivity|]. split; [reflexivity|].
  split; [reflexivity|]. split; [reflexivity|]. split; [reflexivity|]. split; [reflexivity|]. split; [reflexivity|].
  split; [reflexivity|]. split; [eexists; reflexivity|]. apply section_iff. exists 50%nat. vm_compute. reflexivity.
Qed.
(** If object 214, a child of an element and in a cell, is missing there is no result. *)
Example C30_missing_example :
  let bs := section_file None (filter (fun o => negb (exguid_eqb (xo_id o) (xid 214))) rich_objects) [(221, 70); (224, 71)]
              [(70, [1; 2; 3]); (71, [9; 8])] in
  parse_section_buffer order_id 50 bs [102] = Err MalformedOneNoteData.
Proof. vm_compute. reflexivity. Qed.

(** ** C31 *)
(** On spaces without loops the recursion is at most twice as deep as there are
    objects. *)
Theorem C31_terminates : forall sp f id, no_loop sp -> (2 * length (sp_objects sp) + 3 <= f)%nat ->
  parse_outline_item f sp id <> OutOfFuel /\ parse_outline f sp id <> OutOfFuel /\ parse_page f sp <> OutOfFuel.
Proof.
  exact (fun sp f id L F => conj (item_terminates sp f id L F) (conj (outline_terminates sp f id L F) (page_terminates sp f L F))).
Qed.
Print Assumptions C31_terminates.
Theorem C31_section_terminates : forall f st file,
  (forall c sp, object_space st c = Some sp -> no_loop sp /\ (2 * length (sp_objects sp) + 3 <= f)%nat) ->
  parse_section f st file <> OutOfFuel.
Proof. exact section_terminates. Qed.
Print Assumptions C31_section_terminates.
(** An object that contains itself is never read, whatever the depth. *)
Theorem C31_loop_gives_no_result : forall f sp a b,
  clos_refl_trans _ (part sp) a b -> clos_trans _ (part sp) b b ->
  (forall x, parse_outline_item f sp a <> Ok x) /\ (forall x, parse_outline_element f sp a <> Ok x).
Proof. exact loop_no_result. Qed.
Print Assumptions C31_loop_gives_no_result.

(** The parts of an object, computed, for the example. *)
Example C31_example : no_loop sp_rich /\ length (sp_objects sp_rich) = 27%nat /\ part sp_rich (xid 215) (xid 217).
Proof.
  split; [|split; [reflexivity|]].
  - (* every step lowers this rank *)
    apply (no_loop_rank sp_rich (fun id => match eg_value id with
      211 => 9%nat | 213 => 5%nat | 215 => 8%nat | 216 => 4%nat | 217 => 7%nat | 219 => 6%nat | _ => 1%nat end)).
    vm_compute. reflexivity.
  - eexists. split; [vm_compute; reflexivity|]. right; right; left. eexists. split; [apply table_ok; vm_compute; reflexivity|].
    left. reflexivity.
Qed.

(** An element that is its own child. *)
Definition loop_objects : list ex_object :=
  [ page_meta_object; manifest_object; page_obj [] [210]; outline_obj 210 [211]; element_obj 211 [211] [] [] ].
Definition loop_file : list N := section_file None loop_objects [] [].
Definition st_loop : store := Eval vm_compute in store_of loop_file.
Definition sp_loop : space := Eval vm_compute in page_of st_loop.
Ltac step t := let v := eval vm_compute in t in replace t with v by (vm_compute; reflexivity); cbn [rbind].
Theorem C31_termination_refuted : exists bs st, open_store order_id 3 bs = Ok st /\ (length bs < 6000)%nat /\
  forall fuel file, parse_section fuel st file = OutOfFuel.
Proof.
  exists loop_file, st_loop. split; [vm_compute; reflexivity|]. split; [apply Nat.ltb_lt; vm_compute; reflexivity|].
  intros fuel file.
  assert (L : parse_outline_item fuel sp_loop (xid 211) = OutOfFuel /\ parse_outline_element fuel sp_loop (xid 211) = OutOfFuel).
  { induction fuel as [|f (IHi & IHe)]; [split; reflexivity|]. split.
    - cbn [parse_outline_item]. step (need_object (xid 211) sp_loop).
      match goal with |- rbind ?k _ = _ => step k end. rewrite IHe. reflexivity.
    - cbn [parse_outline_element]. step (need_object (xid 211) sp_loop).
      match goal with |- rbind ?k _ = _ => step k end. cbn [oe_children map_res].
      change (ExGuid 225 211) with (xid 211). rewrite IHi. reflexivity. }
  destruct L as (L & _). unfold parse_section.
  step (section_metadata (st_data_root st_loop)). step (section_content (st_data_root st_loop)). cbv zeta.
  cbn [sn_page_series map_res]. unfold parse_page_series.
  step (need_object (ExGuid 225 103) (st_data_root st_loop)).
  match goal with |- context [page_series_node_parse ?o] => step (page_series_node_parse o) end.
  cbn [pn_page_spaces map_res]. step (object_space st_loop (ExGuid 225 5, ExGuid 225 6)). cbn [ok_or rbind].
  match goal with |- context [parse_page fuel ?s] => change s with sp_loop end.
  unfold parse_page. step (page_metadata sp_loop). step (page_manifest sp_loop).
  step (page_node (ExGuid 225 203) sp_loop). cbn [pd_title pd_content opt_map_res rbind map_res]. unfold parse_page_content.
  step (need_object (ExGuid 225 210) sp_loop). match goal with |- context [need_kind ?o] => step (need_kind o) end.
  unfold parse_outline. step (need_object (ExGuid 225 210) sp_loop).
  match goal with |- context [outline_node_parse ?o] => step (outline_node_parse o) end.
  cbn [ou_children map_res]. change (ExGuid 225 211) with (xid 211). rewrite L. reflexivity.
Qed.
Print Assumptions C31_termination_refuted.

(** ** C33 *)
Theorem C33_panics_exactly : forall id sp, parse_rich_text id sp = Panic <-> ink_shortage sp id.
Proof. exact text_crash. Qed.
Print Assumptions C33_panics_exactly.
Theorem C33_no_hang : forall id sp, parse_rich_text id sp <> OutOfFuel.
Proof. exact text_no_fuel. Qed.
Print Assumptions C33_no_hang.
(** The embedded objects are reported in order, and the ink object preceded by [k]
    others is read from reference [k]. *)
Theorem C33_kth_reference : forall id sp t o d, parse_rich_text id sp = Ok t -> get_object sp id = Some o ->
  text_object o d -> rt_run_data_object d <> [] -> exists styles runs inks,
    Forall2 (fun sid sd => found sp sid (fun so => style_object so sd)) (rt_run_formatting d) styles /\
    run_data o runs /\
    selects (fun p => sy_is_embedded_object (snd p))
      (fun p i => fst i = sy_object_type (snd p) /\ embedded_ink_run (fst p) (snd i)) (combine runs styles) inks /\
    length (tx_embedded_objects t) = length inks /\
    forall pre x rest, inks = pre ++ (None, x) :: rest -> exists r ss bb,
      nth_error (rt_run_data_object d) (ink_count pre) = Some r /\ drawing_is sp None None r ss bb /\
      nth_error (tx_embedded_objects t) (length pre) =
        Some (EoInk (Ink ss bb (ei_offset_horiz x) (ei_offset_vert x)) (shown_box x)).
Proof. exact kth_reference. Qed.
Print Assumptions C33_kth_reference.

(** Paragraphs with two ink objects around a line break, and one or two references. *)
Definition ink_objects (refs : list N) : list ex_object :=
  [ page_meta_object; manifest_object; page_obj [] [210]; outline_obj 210 [211]; element_obj 211 [] [212] [];
    text_obj 212 [120] [241; 242; 241] [[(0x34A0, SU32 1)]; []; [(0x34A0, SU32 2)]] refs;
    style_obj 240 []; style_obj 241 [(0x1E22, SBool true)]; style_obj 242 [(0x1E22, SBool true); (0x3457, SU32 0x20027)];
    ink_data_obj 231 [232]; ink_data_obj 234 []; stroke_obj 232 233 [12; 2; 4; 6; 8; 10; 13]; stroke_props_obj 233 [guid_y; 77; guid_x] ].
Example C33_example : exists sp t i j,
  object_space (store_of (section_file None (ink_objects [231; 234]) [] [])) page_cell = Some sp /\
  parse_rich_text (xid 212) sp = Ok t /\ tx_text t = [] /\
  tx_embedded_objects t = [EoInk i None; EoInkLineBreak; EoInk j None] /\
  length (in_strokes i) = 1%nat /\ in_strokes j = [].
Proof.
  eexists _, _, _, _. split; [vm_compute; reflexivity|]. split; [vm_compute; reflexivity|]. repeat split.
Qed.
Theorem C33_error_refuted : exists bs st, open_store order_id 3 bs = Ok st /\
  parse_section_buffer order_id 20 bs [102] = Panic /\
  exists sp, object_space st page_cell = Some sp /\ ink_shortage sp (xid 212).
Proof.
  exists (section_file None (ink_objects [231]) [] []). eexists. split; [vm_compute; reflexivity|].
  split; [vm_compute; reflexivity|]. eexists. split; [vm_compute; reflexivity|]. apply text_crash. vm_compute. reflexivity.
Qed.
Print Assumptions C33_error_refuted.

(** ** C50 *)
(** Reading a section file crashes only at a list with a cut number format or at a
    paragraph short of ink references. *)
Theorem C50_only_crashes : forall h fuel bs file, parse_section_buffer h fuel bs file = Panic ->
  exists st c sp id, open_store h fuel bs = Ok st /\ object_space st c = Some sp /\
    (short_list_format sp id \/ ink_shortage sp id).
Proof. exact buffer_crash. Qed.
Print Assumptions C50_only_crashes.
(** Both do occur. *)
Definition short_list_file : list N :=
  section_file None
    [ page_meta_object; manifest_object; page_obj [] [210]; outline_obj 210 [211]; element_obj 211 [] [] [212];
      obj 212 0x60012 [(0x1D7A, SU32 1); (0x1C1A, SVec [7])] [] ] [] [].
Example C50_example : parse_section_buffer order_id 20 short_list_file [102] = Panic /\
  parse_section_buffer order_id 20 (section_file None (ink_objects [231]) [] []) [102] = Panic.
Proof. split; vm_compute; reflexivity. Qed.

(** ** C34 *)
Theorem C34_points : forall zs props sx sy pts,
  parse_ink_path zs props sx sy = Ok pts <-> points zs (sp_dimensions props) sx sy pts.
Proof. exact points_ok. Qed.
Print Assumptions C34_points.
(** No slice is out of range. *)
Theorem C34_returns : forall zs props sx sy, returns (parse_ink_path zs props sx sy).
Proof. exact path_returns. Qed.
Print Assumptions C34_returns.
(** With both dimensions there is a path, without there is an error. *)
Theorem C34_both_dimensions : forall zs props sx sy,
  (exists pts, parse_ink_path zs props sx sy = Ok pts) <->
  (exists ix iy, dimension (sp_dimensions props) 0x598a6a8f52c04ba093afaf357411a561 ix /\
                 dimension (sp_dimensions props) 0xb53f9f7504e04498a7eec30dbb5a9011 iy).
Proof. exact path_exists. Qed.
Print Assumptions C34_both_dimensions.
(** The ink of a page: containers, drawings and strokes. *)
Theorem C34_ink : forall id sp i, parse_ink id sp = Ok i <-> ink_is sp id i.
Proof. exact (fun id sp i => ink_is_ok sp id i). Qed.
Print Assumptions C34_ink.
(** Y, another, X; two values each: 1 2 3 4 5 -6. *)
Example C34_example : exists i s, parse_ink (xid 230) sp_rich = Ok i /\ in_strokes i = [s] /\
  map ip_x (st_path s) = [rounded 5; rounded (-6)] /\ map ip_y (st_path s) = [rounded 1; rounded 2].
Proof. eexists _, _. split; [vm_compute; reflexivity|]. repeat split. Qed.
Example C34_error_example :
  parse_ink_path [1%Z; 2%Z] (StrokeProps false false false None None None 0 0 None [InkDimension guid_x 0 0]) None None
  = Err MalformedOneNoteData.
Proof. vm_compute. reflexivity. Qed.

(** ** C37 *)
Theorem C37_file_bytes : forall bs pg rest h fuel st sp id f,
  packaging_parse bs = Ok (pg, rest) -> parse_store h fuel pg = Ok st -> store_space st sp ->
  parse_embedded_file id sp = Ok f ->
  exists o d, get_object sp id = Some o /\ file_node o d /\
    file_bytes (pg_package pg) (ef_container d) (Some (fi_data f)).
Proof. exact file_delivered. Qed.
Print Assumptions C37_file_bytes.
(** The bytes of an image are those of its picture; a picture without file data is
    reported as empty, an image without picture has none. *)
Theorem C37_image_bytes : forall bs pg rest h fuel st sp id g,
  packaging_parse bs = Ok (pg, rest) -> parse_store h fuel pg = Ok st -> store_space st sp ->
  parse_image id sp = Ok g ->
  exists o d, get_object sp id = Some o /\ image_object o d /\
    match im_picture_container d with
    | None => ig_data g = None
    | Some c => exists bytes, ig_data g = Some bytes /\
        (file_bytes (pg_package pg) c (Some bytes) \/ file_bytes (pg_package pg) c None /\ bytes = [])
    end.
Proof. exact image_delivered. Qed.
Print Assumptions C37_image_bytes.
(** All other attributes of files and images. *)
Theorem C37_file : forall id sp f, parse_embedded_file id sp = Ok f <-> file_is sp id f.
Proof. exact (fun id sp f => file_is_ok sp id f). Qed.
Print Assumptions C37_file.
Theorem C37_image : forall id sp g, parse_image id sp = Ok g <-> image_is sp id g.
Proof. exact (fun id sp g => image_is_ok sp id g). Qed.
Print Assumptions C37_image.
Example C37_example : exists pg f g,
  packaging_parse rich_file = Ok (pg, []) /\ parse_store order_id 3 pg = Ok st_rich /\ store_space st_rich sp_rich /\
  parse_embedded_file (xid 223) sp_rich = Ok f /\ fi_data f = [9; 8] /\ fi_filename f = [102] /\
  parse_image (xid 220) sp_rich = Ok g /\ ig_data g = Some [1; 2; 3].
Proof.
  eexists _, _, _. split; [vm_compute; reflexivity|]. split; [vm_compute; reflexivity|].
  split; [right; exists page_cell; vm_compute; reflexivity|]. split; [vm_compute; reflexivity|].
  split; [reflexivity|]. split; [reflexivity|]. split; [vm_compute; reflexivity|reflexivity].
Qed.

(** ** C38 *)
Theorem C38_paragraph : forall id sp t, parse_rich_text id sp = Ok t <-> text_is sp id t.
Proof. exact (fun id sp t => text_is_ok sp id t). Qed.
Print Assumptions C38_paragraph.
(** One format per reference, in order. *)
Theorem C38_formats : forall id sp t o d, parse_rich_text id sp = Ok t -> get_object sp id = Some o -> text_object o d ->
  Forall2 (fun sid s => found sp sid (fun so => exists sd, style_object so sd /\ styled sd s))
    (rt_run_formatting d) (tx_run_formatting t).
Proof. exact formats_of. Qed.
Print Assumptions C38_formats.
(** The text is empty if there are embedded objects. Otherwise it is the Unicode text
    0x1C001C22; failing that, the extended ASCII text 0x1C003498. *)
Theorem C38_text : forall id sp t o, parse_rich_text id sp = Ok t -> get_object sp id = Some o ->
  (tx_embedded_objects t <> [] -> tx_text t = []) /\
  (tx_embedded_objects t = [] ->
     match stored o 0x1C001C22, stored o 0x1C003498 with
     | Some v, _ => text v (tx_text t)
     | None, Some v => v = VVec (tx_text t)
     | None, None => tx_text t = []
     end).
Proof. exact text_of. Qed.
Print Assumptions C38_text.
Example C38_example : exists t, parse_rich_text (xid 212) sp_rich = Ok t /\ tx_text t = [72; 105] /\
  map ps_bold (tx_run_formatting t) = [true; false].
Proof. eexists. split; [vm_compute; reflexivity|]. split; reflexivity. Qed.

(** ** C39 *)
Theorem C39_title_text : forall p s, title_text p = Some s <->
  title_opens_with p s \/ (forall s', ~ title_opens_with p s') /\ content_opens_with p s.
Proof. exact title_text_ok. Qed.
Print Assumptions C39_title_text.
Theorem C39_none : forall p, title_text p = None <->
  (forall s, ~ title_opens_with p s) /\ forall o s, In (PcOutline o) (pg_contents p) -> ~ opens_with o s.
Proof. exact title_text_none. Qed.
Print Assumptions C39_none.
Theorem C39_never_empty : forall p, title_text p <> Some [].
Proof. exact title_text_nonempty. Qed.
Print Assumptions C39_never_empty.
Example C39_example : exists p, parse_page 50 sp_rich = Ok p /\ title_text p = Some [84; 105] /\
  title_text (Page None (pg_level p) None None (PcUnknown :: pg_contents p)) = Some [72; 105] /\
  title_text (Page None (pg_level p) None None []) = None.
Proof. eexists. split; [vm_compute; reflexivity|]. repeat split. Qed.
